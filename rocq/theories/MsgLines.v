(** A packet as lines: the header block of an accepted packet can be cut into lines in one way only. *)
From Verif Require Import Bytes BytesLemmas GoLib GoLibLemmas SdpModel SipText SipTypes P_Text UriSpec UriModel P_Uri MsgModel MsgSafe MsgSpec MsgMeaning.
Local Open Scope Z_scope.

(** ** The texts of the grammar contain folded line breaks only *)
Lemma class_folded (cls : byte -> bool) w : (forall c, implb (cls c) (plain_byte c) = true) -> forallb cls w = true -> folded w = true.
Proof.
  intros H F. apply folded_plain. revert F. apply forallb_impl. intros c Hc. specialize (H c). rewrite Hc in H. exact H.
Qed.
Lemma legal_folded cls w : cls CR = false -> cls LF = false -> legal_text cls w = true -> folded w = true.
Proof.
  intros H1 H2 L. apply folded_plain. pose proof (legal_free cls CR w H1 eq_refl eq_refl L) as A. pose proof (legal_free cls LF w H2 eq_refl eq_refl L) as C.
  unfold free_of in A, C. clear L. induction w as [|c w IH]; [reflexivity|]. cbn [forallb] in *. apply andb_prop in A, C. destruct A as [A1 A2], C as [C1 C2].
  rewrite (IH A2 C2), andb_true_r. apply negb_true_iff in A1, C1. unfold plain_byte. rewrite negb_true_iff, orb_false_iff. rewrite !beq_neq in *. auto.
Qed.
Ltac plainc := clear; by_bytes.
Lemma f_blanks w : blanks w -> folded w = true.
Proof. apply class_folded. plainc. Qed.
Lemma f_sws w : sws w -> folded w = true.
Proof.
  intros [H|(a & b & -> & A & C & N)]; [apply f_blanks; exact H|]. apply folded_app; [apply f_blanks; exact A|].
  destruct b as [|c b]; [congruence|]. unfold blanks in C. cbn [forallb] in C. apply andb_prop in C. destruct C as [C1 C2].
  change (CRLF ++ c :: b) with ([CR; LF; c] ++ b). apply folded_app; [|apply f_blanks; exact C2].
  apply (folded_cont [] c eq_refl). exact C1.
Qed.
Lemma f_lws w : lws w -> folded w = true. Proof. intros [H _]. apply f_sws. exact H. Qed.
Lemma f_token w : token w -> folded w = true.
Proof. intros [_ H]. revert H. apply class_folded. plainc. Qed.
Lemma f_sep c t : sep c t -> plain_byte c = true -> folded t = true.
Proof.
  intros (a & b & -> & A & C) P. apply folded_app; [apply f_sws; exact A|]. apply folded_app; [|apply f_sws; exact C]. apply folded_plain. cbn [forallb]. rewrite P. reflexivity.
Qed.
Lemma f_multi w : multibyte w -> folded w = true.
Proof.
  intros (c & cs & -> & N & L & F). change (c :: cs) with ([c] ++ cs). apply folded_app.
  - apply folded_plain. cbn [forallb]. assert (K : Nat.eqb (more_bytes c) 0 || plain_byte c = true) by (clear; revert c; by_bytes).
    rewrite <- L in K. destruct cs; [congruence|]. cbn in K. rewrite K. reflexivity.
  - revert F. apply class_folded. plainc.
Qed.
Lemma f_one (cls : byte -> bool) c t : (forall c, implb (cls c) (plain_byte c) = true) -> cls c = true -> folded t = true -> folded (c :: t) = true.
Proof. intros P H F. change (c :: t) with ([c] ++ t). apply folded_app; [|exact F]. apply folded_plain. cbn [forallb]. specialize (P c). rewrite H in P. cbn in P. rewrite P. reflexivity. Qed.
Lemma f_cont c t : blank c = true -> folded t = true -> folded (CR :: LF :: c :: t) = true.
Proof. intros H F. change (CR :: LF :: c :: t) with ([CR; LF; c] ++ t). apply folded_app; [|exact F]. exact (folded_cont [] c eq_refl H). Qed.
Lemma f_quoted q v : quoted_text q v -> folded q = true.
Proof.
  induction 1; [reflexivity| | | |].
  - apply (f_one quoted_class); [plainc|assumption|assumption].
  - apply f_cont; assumption.
  - change (BSL :: c :: t) with ([BSL] ++ c :: t). apply folded_app; [reflexivity|]. apply (f_one escapable); [plainc|assumption|assumption].
  - apply folded_app; [apply f_multi; assumption|assumption].
Qed.
Lemma f_value v : value_text v -> folded v = true.
Proof.
  induction 1; [reflexivity| | |].
  - apply (f_one value_class); [plainc|assumption|assumption].
  - apply f_cont; assumption.
  - apply folded_app; [apply f_multi; assumption|assumption].
Qed.
Lemma f_reason t v : reason_text t v -> folded t = true.
Proof.
  induction 1; [reflexivity| | |].
  - apply (f_one reason_class); [plainc|assumption|assumption].
  - apply (f_one (beq "%")); [plainc|reflexivity|]. apply (f_one hex_class); [plainc|assumption|]. apply (f_one hex_class); [plainc|assumption|assumption].
  - apply folded_app; [apply f_multi; assumption|assumption].
Qed.
Lemma f_chain {X} (P : bytes -> X -> Prop) t l : (forall t x, P t x -> folded t = true) -> chain P t l -> folded t = true.
Proof. intros H. induction 1; [reflexivity|]. apply folded_app; eauto. Qed.
Lemma f_number t n : number t n -> folded t = true.
Proof. intros H. apply digits_value_digits in H. revert H. apply class_folded. plainc. Qed.
Ltac fold_parts := repeat match goal with |- folded (_ ++ _) = true => apply folded_app end; try reflexivity.
Lemma f_dq q v : quoted_text q v -> folded ([DQ] ++ q ++ [DQ]) = true.
Proof. intros H. fold_parts. eapply f_quoted; eassumption. Qed.
Lemma f_pvalue t v : pvalue_text t v -> folded t = true.
Proof. intros [(-> & _ & H)|(q & -> & H)]; [|eapply f_dq; eassumption]. revert H. apply class_folded. plainc. Qed.
Lemma f_param t p : param_text t p -> folded t = true.
Proof.
  intros (tv & -> & T & [[-> _]|(e & x & -> & S & V)]); fold_parts; [apply f_token; exact T|apply f_token; exact T|exact (f_sep _ _ S eq_refl)|exact (f_pvalue _ _ V)].
Qed.
Lemma f_semi t p : semi_param t p -> folded t = true.
Proof. intros (e & x & -> & S & P). fold_parts; [exact (f_sep _ _ S eq_refl)|exact (f_param _ _ P)]. Qed.
Lemma f_via t v : via_text t v -> folded t = true.
Proof.
  intros (e1 & e2 & l & h & p & ps & -> & T1 & S1 & T2 & S2 & T3 & L & (_ & H) & P & C). fold_parts.
  - apply f_token; exact T1.
  - exact (f_sep _ _ S1 eq_refl).
  - apply f_token; exact T2.
  - exact (f_sep _ _ S2 eq_refl).
  - apply f_token; exact T3.
  - apply f_lws; exact L.
  - destruct H as [[-> F]|[-> F]]; fold_parts; revert F; apply class_folded; plainc.
  - destruct P as [[-> _]|(e & d & n & -> & S & N & _)]; fold_parts; [exact (f_sep _ _ S eq_refl)|exact (f_number _ _ N)].
  - exact (f_chain _ _ _ f_semi C).
Qed.
Lemma f_via_list t l : via_list t l -> folded t = true.
Proof.
  intros (t1 & v & t2 & l' & -> & _ & V & C). fold_parts; [exact (f_via _ _ V)|]. refine (f_chain _ _ _ _ C).
  intros t x (e & y & -> & S & W). fold_parts; [exact (f_sep _ _ S eq_refl)|exact (f_via _ _ W)].
Qed.
Lemma f_item cls p t : cls CR = false -> cls LF = false -> item_text cls p t -> folded t = true.
Proof.
  intros H1 H2 (tn & tv & -> & _ & [L _] & [[-> _]|(x & -> & _ & [L2 _])]); fold_parts; eapply legal_folded; eassumption.
Qed.
Lemma f_concat {X} (g : X -> bytes) l : (forall x, In x l -> folded (g x) = true) -> folded (concat (map g l)) = true.
Proof. induction l as [|x l IH]; intros H; [reflexivity|]. cbn [map concat]. apply folded_app; [apply H; left; reflexivity|]. apply IH. intros y Hy. apply H. right. exact Hy. Qed.
Lemma f_uri t u : uri_text t u -> folded t = true.
Proof.
  intros (sch & inf & hst & prt & par & hdr & -> & (c & r & -> & A & S & _) & I & (x & _ & _ & H) & P & (ts & F & ->) & D). fold_parts.
  - apply (f_one alpha_class); [plainc|exact A|]. revert S. apply class_folded. plainc.
  - destruct I as [(-> & _)|(tu & tp & -> & _ & [L _] & [[-> _]|(y & -> & _ & [L2 _])])]; fold_parts; eapply legal_folded; try eassumption; reflexivity.
  - destruct H as [[-> F1]|[-> F1]]; fold_parts; revert F1; apply class_folded; plainc.
  - destruct P as [[-> _]|(d & n & -> & N & _)]; fold_parts. exact (f_number _ _ N).
  - apply f_concat. intros t I2. destruct (Forall2_in_r _ _ _ _ F I2) as (p & _ & Hi). fold_parts. exact (f_item _ _ _ eq_refl eq_refl Hi).
  - destruct D as [[-> _]|(y & us & Fh & ->)]; fold_parts.
    + destruct (Forall2_in_r _ _ _ y Fh (or_introl eq_refl)) as (p & _ & Hi). exact (f_item _ _ _ eq_refl eq_refl Hi).
    + apply f_concat. intros t I2. destruct (Forall2_in_r _ _ _ t Fh (or_intror I2)) as (q & _ & Hq). fold_parts. exact (f_item _ _ _ eq_refl eq_refl Hq).
Qed.
Lemma f_words t : words t -> folded t = true.
Proof. induction 1; fold_parts; auto using f_token, f_lws. Qed.
Lemma f_addr_sep b c t : addr_sep b c t -> plain_byte c = true -> folded t = true.
Proof.
  intros H P. revert H. destruct b; cbn [addr_sep]; [|intros S; exact (f_sep _ _ S P)]. intros [->|(x & y & -> & L & S)]; fold_parts; auto using f_lws, f_sws; apply folded_plain; cbn [forallb]; rewrite P; reflexivity.
Qed.
Lemma f_addr t a b : addr_text t a b -> folded t = true.
Proof.
  intros (bare & h & ps & u & -> & _ & H & P). fold_parts.
  - destruct bare; cbn [addr_head] in H; [destruct H as [[H _] _]; exact (f_uri _ _ H)|]. destruct H as (dt & x & w & -> & D & U & S). fold_parts.
    + destruct D as [[-> _]|[(q & w1 & -> & Q & S1)|(l & -> & W & L)]]; fold_parts; auto using f_words, f_lws, f_sws. exact (f_quoted _ _ Q).
    + exact (f_uri _ _ U).
    + exact (f_sws _ S).
  - destruct P as [(-> & _)|(e & x & p & more & ps' & -> & _ & S & Q & C & _)]; fold_parts; [exact (f_addr_sep _ _ _ S eq_refl)|exact (f_param _ _ Q)|exact (f_chain _ _ _ f_semi C)].
Qed.
Lemma f_addr_list t l : addr_list t l -> folded t = true.
Proof. induction 1; fold_parts; eauto using f_addr. exact (f_addr_sep _ _ _ H0 eq_refl). Qed.
Lemma f_callid t : callid_text t -> folded t = true.
Proof.
  intros (a & b & -> & _ & F & [->|(x & -> & _ & F2)]); fold_parts; (eapply class_folded; [|eassumption]); plainc.
Qed.
Lemma f_ctype t ct : ctype_text t ct -> folded t = true.
Proof.
  intros (a & b & ps & l & -> & -> & A & C & D). fold_parts; auto using f_token. refine (f_chain _ _ _ _ D).
  intros t x (e1 & n & e2 & y & -> & S1 & T & S2 & V). fold_parts; [exact (f_sep _ _ S1 eq_refl)|apply f_token; exact T|exact (f_sep _ _ S2 eq_refl)|].
  destruct V as [V|(q & v & -> & Q)]; [apply f_token; exact V|exact (f_dq _ _ Q)].
Qed.
Lemma f_header_value k w v d d' : header_value k w v d d' -> folded w = true /\ folded v = true.
Proof.
  destruct k; cbn [header_value].
  - intros ((S & _) & V & _). auto using f_sws, f_value.
  - intros (S & l & L & _). eauto using f_sws, f_addr_list.
  - intros (S & l & L & _). eauto using f_sws, f_via_list.
  - intros (S & l & L & _). eauto using f_sws, f_ctype.
  - intros (S & L & _). eauto using f_sws, f_callid.
  - intros (S & n & L & _). eauto using f_sws, f_number.
  - intros (S & x & l & n & mth & -> & N & L & T & _). split; [auto using f_sws|]. fold_parts; eauto using f_number, f_lws, f_token.
  - intros (S & n & L & _). eauto using f_sws, f_number.
  - intros (S & n & L & _). eauto using f_sws, f_number.
  - intros (S & n & L & _). eauto using f_sws, f_number.
  - intros ((S & _) & V & _). auto using f_sws, f_value.
  - intros (S & n & L & _). eauto using f_sws, f_number.
Qed.

(** ** Lines *)
(** a line, without the CRLF at its end: it does not start with a blank or a line break, and breaks inside it are folds *)
Definition line (t : bytes) : Prop := (exists c r, t = c :: r /\ blank c = false /\ c <> CR) /\ folded t = true.
Definition join (ts : list bytes) : bytes := concat (map (fun t => t ++ CRLF) ts).
(** a packet: start line, header lines, an empty line, and what follows it *)
Definition packet (st : bytes) (ts : list bytes) (body : bytes) : bytes := st ++ CRLF ++ join ts ++ CRLF ++ body.

Lemma token_line n t : token n -> folded (n ++ t) = true -> line (n ++ t).
Proof.
  intros [N F] H. split; [|exact H]. destruct n as [|c n]; [congruence|]. exists c, (n ++ t). cbn [forallb] in F. apply andb_prop in F. destruct F as [F _]. split; [reflexivity|].
  assert (K : implb (token_class c) (negb (blank c) && negb (beq c CR)) = true) by (clear; revert c; by_bytes). rewrite F in K. cbn in K.
  apply andb_prop in K. destruct K as [K1 K2]. apply negb_true_iff in K1, K2. rewrite beq_neq in K2. auto.
Qed.
Lemma header_line t d d' : header_text t d d' -> line t.
Proof.
  intros (n & b & w & v & -> & T & Hb & H). apply token_line; [exact T|].
  assert (K : folded w = true /\ folded v = true).
  { destruct (find_header _ _) as [k|]; [exact (f_header_value _ _ _ _ _ H)|]. destruct H as (_ & (S & _) & V & _). auto using f_sws, f_value. }
  destruct K as [K1 K2]. fold_parts; auto using f_token, f_blanks.
Qed.
Lemma f_version t a b : version_text t a b -> folded t = true.
Proof. intros (x & y & n & m & -> & X & Y & _). fold_parts; eauto using f_number. Qed.
Lemma start_line_ok t m : start_text t m -> folded t = true.
Proof.
  intros [(u & x & v & maj & min & -> & T & U & V & _)|(v & maj & min & d & n & x & -> & V & _ & N & _ & R & _)]; fold_parts; eauto using f_token, f_uri, f_version, f_number, f_reason.
Qed.
Lemma cut_once a : forall b x y, folded a = true -> folded b = true -> starts_blank x = false -> starts_blank y = false ->
  a ++ CRLF ++ x = b ++ CRLF ++ y -> a = b /\ x = y.
Proof.
  assert (Z : forall x b y, folded b = true -> starts_blank x = false -> CRLF ++ x = b ++ CRLF ++ y -> b = [] /\ x = y).
  { intros x b y F S E. destruct b as [|c b]; [cbn in E; injection E as ->; auto|]. exfalso. cbn [app CRLF] in E. injection E as <- E. cbn [folded] in F. change (beq CR LF) with false in F.
    change (beq CR CR) with true in F. cbv iota in F. destruct b as [|d b]; [discriminate|]. cbn [app] in E. injection E as <- E. cbn [folded] in F. change (beq LF LF) with true in F. cbv iota in F.
    destruct b as [|e b]; [discriminate|]. cbn [app] in E. subst x. cbn [starts_blank] in S. apply andb_prop in F. destruct F as [_ F]. apply andb_prop in F. destruct F as [F _]. unfold wsp in F. unfold blank in S. change SP with " "%byte in S. change HT with x09 in S. congruence. }
  induction a as [|c a IH]; intros b x y F1 F2 S1 S2 E.
  - destruct (Z x b y F2 S1 E) as [-> ->]. auto.
  - destruct b as [|d b].
    + destruct (Z y (c :: a) x F1 S2 (eq_sym E)) as [K _]. discriminate.
    + cbn [app] in E. injection E as <- E. cbn [folded] in F1, F2. apply andb_prop in F1, F2. destruct F1 as [_ F1], F2 as [_ F2]. destruct (IH b x y F1 F2 S1 S2 E) as [-> ->]. auto.
Qed.

(** the header lines one after the other *)
Inductive steps : list bytes -> draft -> draft -> Prop :=
| st_nil d : steps [] d d
| st_cons t ts d d1 d2 : header_text t d d1 -> steps ts d1 d2 -> steps (t :: ts) d d2.
Lemma steps_lines hs d d' : header_lines hs d d' <-> exists ts, hs = join ts /\ steps ts d d'.
Proof.
  split.
  - induction 1 as [d|t d d1 ts d2 H1 _ (l & -> & H2)]; [exists []; split; [reflexivity|constructor]|]. exists (t :: l). split; [|econstructor; eassumption].
    unfold join. cbn [map concat]. rewrite <- app_assoc. reflexivity.
  - intros (ts & -> & H). induction H as [d|t ts d d1 d2 H1 _ IH]; [constructor|]. unfold join. cbn [map concat]. rewrite <- app_assoc. econstructor; eassumption.
Qed.
Lemma steps_app a : forall b d d', steps (a ++ b) d d' <-> exists d1, steps a d d1 /\ steps b d1 d'.
Proof.
  induction a as [|t a IH]; intros b d d'; cbn [app].
  - split; [intros H; exists d; split; [constructor|exact H]|]. intros (d1 & H1 & H2). inversion H1; subst. exact H2.
  - split.
    + intros H. inversion H as [|? ? ? d1 ? H1 H2]; subst. apply IH in H2. destruct H2 as (d2 & H2 & H3). exists d2. split; [econstructor; eassumption|exact H3].
    + intros (d1 & H1 & H2). inversion H1 as [|? ? ? d2 ? H3 H4]; subst. econstructor; [eassumption|]. apply IH. eauto.
Qed.
Lemma steps_line ts d d' : steps ts d d' -> Forall line ts.
Proof. induction 1; constructor; eauto using header_line. Qed.
(** what a packet written as lines denotes *)
Definition denotes (st : bytes) (ts : list bytes) (body : bytes) (m : msg) : Prop :=
  exists m0 d, start_text st m0 /\ steps ts (mkdraft m0 0 []) d /\ starts_blank body = false /\ payload_text body d m.

Lemma rest_start ts body : Forall line ts -> starts_blank (join ts ++ CRLF ++ body) = false.
Proof.
  intros F. destruct F as [|t ts ((c & r & -> & S & _) & _) _]; [reflexivity|]. exact S.
Qed.
Lemma cut_lines ts : forall body ts' body', Forall line ts -> Forall line ts' ->
  join ts ++ CRLF ++ body = join ts' ++ CRLF ++ body' -> ts = ts' /\ body = body'.
Proof.
  induction ts as [|t ts IH]; intros body ts' body' F F' E.
  - destruct F' as [|t' ts' ((c & r & -> & _ & N) & _) _]; [cbn in E; injection E as ->; auto|]. exfalso. cbn in E. injection E as <- _. congruence.
  - apply Forall_cons_iff in F. destruct F as [((c & r & E0 & _ & N) & F0) F]. destruct F' as [|t' ts' (_ & FL') F'].
    + exfalso. subst t. cbn in E. injection E as -> _. congruence.
    + unfold join in E. cbn [map concat] in E. rewrite <- !app_assoc in E. fold (join ts) in E. fold (join ts') in E.
      destruct (cut_once t t' (join ts ++ CRLF ++ body) (join ts' ++ CRLF ++ body') F0 FL') as [-> E2]; [apply rest_start; exact F|apply rest_start; exact F'|exact E|].
      destruct (IH body ts' body' F F' E2) as [-> ->]. auto.
Qed.
(** a packet is cut into lines in one way only *)
Theorem packet_unique st ts body st' ts' body' : folded st = true -> folded st' = true -> Forall line ts -> Forall line ts' ->
  packet st ts body = packet st' ts' body' -> st = st' /\ ts = ts' /\ body = body'.
Proof.
  intros FS FS' FL FL' E. destruct (cut_once st st' (join ts ++ CRLF ++ body) (join ts' ++ CRLF ++ body') FS FS') as [-> E2]; [apply rest_start; exact FL|apply rest_start; exact FL'|exact E|].
  destruct (cut_lines ts body ts' body' FL FL' E2) as [-> ->]. auto.
Qed.
(** ParseMsg on a packet written as lines *)
Theorem packet_exact st ts body m : folded st = true -> Forall line ts -> parse_msg (packet st ts body) = MOk m <-> denotes st ts body m.
Proof.
  intros FS FL. rewrite parse_exact. split.
  - intros (st' & m0 & hs & d & body' & E & S & H & SB & P). apply steps_lines in H. destruct H as (ts' & -> & H). pose proof (steps_line _ _ _ H) as FL'.
    destruct (packet_unique st ts body st' ts' body' FS (start_line_ok _ _ S) FL FL' E) as (-> & -> & ->). exists m0, d. auto.
  - intros (m0 & d & S & H & SB & P). exists st, m0, (join ts), d, body. repeat split; auto. apply steps_lines. eauto.
Qed.
(** every accepted packet can be written as lines *)
Theorem packet_lines data m : parse_msg data = MOk m -> exists st ts body, data = packet st ts body /\ folded st = true /\ Forall line ts /\ denotes st ts body m.
Proof.
  rewrite parse_exact. intros (st & m0 & hs & d & body & E & S & H & SB & P). apply steps_lines in H. destruct H as (ts & -> & H).
  exists st, ts, body. split; [exact E|]. split; [exact (start_line_ok _ _ S)|]. split; [exact (steps_line _ _ _ H)|]. exists m0, d. auto.
Qed.
