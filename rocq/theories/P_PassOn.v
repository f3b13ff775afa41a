(** C105: a message that was received and is written again, unchanged, is read by the next reader as it was by the first. *)
From Verif Require Import Bytes BytesLemmas GoLib GoLibLemmas Auto SdpModel SdpProofs SipText SipTypes SipAppend UriModel MsgModel MsgSafe UriSpec P_Text P_Uri P_Msg MsgSpec MsgNames MsgMeaning MsgLines P_MsgText MsgWf MsgRound P_MsgRound.
Local Open Scope Z_scope.

(** ** What is asked of the message that was read *)
Definition ascii (v : bytes) : Prop := Forall (fun c => bz c < 128) v.
(** A parameter value: ASCII, and a space only together with something that makes the code quote it. *)
Definition value_kept (v : bytes) : Prop := ascii v /\ (In SP v -> needs_quotes v).
(** A display name: ASCII, and no space at its ends unless there is something that makes the code quote it. *)
Definition display_kept (d : bytes) : Prop := ascii d /\ ((exists r, d = SP :: r) \/ (exists r, d = r ++ [SP]) -> needs_quotes d).
Definition no_amp_uri (u : option uri) : Prop := forall x, u = Some x -> Forall no_amp (u_header x).
Definition passable (rid : bytes) (m : msg) : Prop :=
  (* a request, or a response with a status of its own and a phrase without escapes that do not come back *)
  (status m = 0 -> request m <> None) /\ (status m <> 0 -> 100 <= status m /\ reason_text (phrase m) (phrase m)) /\
  (* the headers every message must have *)
  addrs m From <> [] /\ addrs m To <> [] /\ callid m <> [] /\ cseqmethod m <> [] /\
  no_amp_uri (request m) /\
  (forall f a, In a (addrs m f) -> no_amp_uri (a_uri a) /\ display_kept (a_display a) /\ forall n v, In (n, v) (a_param a) -> value_kept v) /\
  (forall v, In v (vias m) -> ~ In ":"%byte (v_host v) /\ forall n x, In (n, x) (v_param v) -> value_kept x) /\
  (* numbers below 2^63 *)
  0 <= cseq m /\ 0 <= maxforwards m /\ 0 <= expires m /\ 0 <= minexpires m /\
  (* values that do not begin with a second fold *)
  (forall f c r, strs m f = c :: r -> c <> CR) /\ (forall n c r, In (n, c :: r) (xheader m) -> c <> CR) /\
  (forall p, pay m = Some p -> Z.of_nat (length (Data rid p)) < 2 ^ 63 /\ match p with Misc t _ => t <> [] | PSdp s => wf_sdp s end).

(** ** From what was read to what may be written *)
(** text in which, if it is ASCII, line breaks are folds *)
Definition plain_text (v : bytes) : Prop := ascii v -> ascii_text v.
Lemma ascii_app a b : ascii (a ++ b) <-> ascii a /\ ascii b. Proof. apply Forall_app. Qed.
Lemma at_app a : ascii_text a -> forall b, ascii_text b -> ascii_text (a ++ b).
Proof. induction 1; intros b0 K; cbn [app]; [exact K|apply at_char; auto|apply at_fold; auto]. Qed.
Lemma at_class (cls : byte -> bool) w : (forall c, implb (cls c) ((bz c <? 128) && negb (beq c CR) && negb (beq c LF)) = true) -> forallb cls w = true -> ascii_text w.
Proof.
  intros H. induction w as [|c w IH]; [constructor|]. cbn [forallb]. intros F. apply andb_prop in F. destruct F as [F1 F2]. specialize (H c). rewrite F1 in H. cbn [implb] in H.
  apply andb_prop in H. destruct H as [H H3]. apply andb_prop in H. destruct H as [H1 H2]. apply negb_true_iff in H2, H3. rewrite beq_neq in H2, H3. apply at_char; auto. lia.
Qed.
Lemma plain_quoted q v : quoted_text q v -> plain_text v.
Proof.
  unfold plain_text. induction 1 as [|c t v C _ IH|c t v C _ IH|c t v C _ IH|w t v M _ IH]; intros A; [constructor| | | |].
  - inversion A as [|? ? A1 A2]; subst. assert (K : implb (quoted_class c) (negb (beq c CR) && negb (beq c LF)) = true) by (clear; revert c; by_bytes). rewrite C in K. cbn in K. apply andb_prop in K.
    destruct K as [K1 K2]. apply negb_true_iff in K1, K2. rewrite beq_neq in K1, K2. apply at_char; auto.
  - inversion A as [|? ? _ A2]; subst. inversion A2 as [|? ? _ A3]; subst. inversion A3 as [|? ? _ A4]; subst. apply at_fold; auto.
  - inversion A as [|? ? A1 A2]; subst. assert (K : implb (escapable c) (negb (beq c CR) && negb (beq c LF)) = true) by (clear; revert c; by_bytes). rewrite C in K. cbn in K. apply andb_prop in K.
    destruct K as [K1 K2]. apply negb_true_iff in K1, K2. rewrite beq_neq in K1, K2. apply at_char; auto.
  - destruct M as (c & cs & -> & N & L & _). exfalso. inversion A as [|? ? A1 _]; subst. assert (K : implb (bz c <? 128) (Nat.eqb (more_bytes c) 0) = true) by (clear; revert c; by_bytes).
    destruct cs as [|d cs]; [congruence|]. cbn [length] in L. rewrite <- L in K. apply Z.ltb_lt in A1. rewrite A1 in K. discriminate K.
Qed.
Lemma at_blanks b : blanks b -> ascii_text b. Proof. apply at_class. clear; by_bytes. Qed.
Lemma at_token b : token b -> ascii_text b. Proof. intros [_ H]. revert H. apply at_class. clear; by_bytes. Qed.
Lemma at_sws w : sws w -> ascii_text w.
Proof.
  intros [H|(a & b & -> & A & C & N)]; [apply at_blanks; exact H|]. apply at_app; [apply at_blanks; exact A|]. destruct b as [|c b]; [congruence|]. unfold blanks in C. cbn [forallb] in C. apply andb_prop in C. destruct C as [C1 C2].
  apply at_fold; [exact C1|]. apply at_blanks. exact C2.
Qed.
Lemma at_words d : words d -> ascii_text d.
Proof. induction 1; [apply at_token; assumption|]. apply at_app; [apply at_token; assumption|]. apply at_app; [apply at_sws; apply H0|assumption]. Qed.
Definition param_read (p : param) : Prop := token (fst p) /\ plain_text (snd p).
Lemma param_reads t p : param_text t p -> param_read p.
Proof.
  intros (tv & _ & T & H). split; [exact T|]. destruct H as [[_ ->]|(e & x & _ & _ & [(_ & _ & P)|(q & _ & Q)])]; [intros _; constructor| |exact (plain_quoted _ _ Q)].
  intros _. revert P. apply at_class. clear; by_bytes.
Qed.
Lemma chain_reads t l : chain semi_param t l -> Forall param_read l.
Proof. induction 1 as [|t x ts xs (e & y & _ & _ & P) _ IH]; constructor; [exact (param_reads _ _ P)|exact IH]. Qed.
Definition addr_read (a : addr) : Prop := plain_text (a_display a) /\ Forall param_read (a_param a).
Lemma addr_reads t a b : addr_text t a b -> addr_read a.
Proof.
  intros (bare & h & ps & u & _ & _ & H & P). split.
  - destruct bare; cbn [addr_head] in H; [destruct H as [_ ->]; intros _; constructor|]. destruct H as (dt & x & w & _ & D & _). destruct D as [[_ ->]|[(q & w1 & _ & Q & _)|(l & _ & W & _)]]; [intros _; constructor|exact (plain_quoted _ _ Q)|intros _; apply at_words; exact W].
  - rewrite <- (rev_involutive (a_param a)). apply Forall_rev. destruct P as [(_ & -> & _)|(e & x & p & more & ps' & _ & -> & _ & Q & C & _)]; [constructor|]. constructor; [exact (param_reads _ _ Q)|exact (chain_reads _ _ C)].
Qed.
Lemma addr_list_reads t l : addr_list t l -> Forall addr_read l.
Proof. induction 1; constructor; eauto using addr_reads. Qed.
Definition via_read (v : via) : Prop :=
  token (v_protocol v) /\ token (v_version v) /\ token (v_transport v) /\ (forallb viahost_class (v_host v) = true \/ forallb ip6_class (v_host v) = true) /\ Forall param_read (v_param v).
Lemma via_reads t v : via_text t v -> via_read v.
Proof.
  intros (e1 & e2 & l & h & p & ps & _ & T1 & _ & T2 & _ & T3 & _ & (_ & H) & _ & C). split; [exact T1|]. split; [exact T2|]. split; [exact T3|]. split; [destruct H as [[_ H]|[_ H]]; auto|].
  rewrite <- (rev_involutive (v_param v)). apply Forall_rev. exact (chain_reads _ _ C).
Qed.
Lemma via_list_reads t l : via_list t l -> Forall via_read l.
Proof.
  intros (t1 & v & t2 & l' & _ & -> & V & C). constructor; [exact (via_reads _ _ V)|]. clear V. induction C as [|t0 x ts xs (e & y & _ & _ & W) _ IH]; constructor; [exact (via_reads _ _ W)|exact IH].
Qed.
Definition no_blank (v : bytes) : Prop := value_text v /\ starts_blank v = false.
(** what every line keeps true of the message so far *)
Definition read_so_far (d : draft) : Prop :=
  let m := d_msg d in
  (forall f, Forall addr_read (addrs m f)) /\ Forall via_read (vias m) /\ (callid m = [] \/ callid_text (callid m)) /\ (cseqmethod m = [] \/ token (cseqmethod m)) /\
  (cseq m < 2 ^ 63 /\ maxforwards m < 2 ^ 63 /\ expires m < 2 ^ 63 /\ minexpires m < 2 ^ 63) /\
  (forall f, no_blank (strs m f)) /\ Forall (fun p => unknown_name (fst p) /\ no_blank (snd p)) (xheader m) /\
  (d_type d = [] \/ exists a b, d_type d = a ++ B "/" ++ b /\ token a /\ token b) /\ pay m = None.
Lemma i64_lt z : i64 z < 2 ^ 63.
Proof. unfold i64, u64. pose proof (Z.mod_pos_bound z 18446744073709551616 ltac:(lia)). destruct (Z.ltb_spec (z mod 18446744073709551616) 9223372036854775808); lia. Qed.
Lemma fold_addrs f l : forall m, addrs (fold_left (add_addr f) l m) f = addrs m f ++ l /\ (forall g, g <> f -> addrs (fold_left (add_addr f) l m) g = addrs m g).
Proof.
  induction l as [|a l IH]; intros m; cbn [fold_left]; [rewrite app_nil_r; auto|]. destruct (IH (add_addr f m a)) as [I1 I2]. rewrite I1. split.
  - unfold add_addr, set_addr, set_addrs. cbn [addrs]. assert (K : afield_eqb f f = true) by (destruct f; reflexivity). rewrite K, <- app_assoc. reflexivity.
  - intros g N. rewrite (I2 g N). unfold add_addr, set_addr, set_addrs. cbn [addrs]. assert (K : afield_eqb f g = false) by (destruct f, g; try reflexivity; congruence). rewrite K. reflexivity.
Qed.
Lemma fold_rest f l : forall m, let m' := fold_left (add_addr f) l m in
  vias m' = vias m /\ callid m' = callid m /\ cseqmethod m' = cseqmethod m /\ cseq m' = cseq m /\ maxforwards m' = maxforwards m /\ expires m' = expires m /\ minexpires m' = minexpires m /\
  strs m' = strs m /\ xheader m' = xheader m /\ pay m' = pay m.
Proof. induction l as [|a l IH]; intros m; cbv zeta; cbn [fold_left]; [repeat split|]. destruct (IH (add_addr f m a)) as (E1 & E2 & E3 & E4 & E5 & E6 & E7 & E8 & E9 & E10). rewrite E1, E2, E3, E4, E5, E6, E7, E8, E9, E10. repeat split. Qed.
Lemma str_kept f v m : (forall g, no_blank (strs m g)) -> no_blank v -> forall g, no_blank (strs (set_str f v m) g).
Proof. intros H V g. unfold set_str, set_strs. cbn [strs]. destruct (sfield_eqb f g); auto. Qed.
Ltac ands := repeat match goal with |- _ /\ _ => split end.
Lemma read_step t d d' : header_text t d d' -> read_so_far d -> read_so_far d'.
Proof.
  intros (n & b & w & v & _ & T & _ & H) (R1 & R2 & R3 & R4 & (R5 & R6 & R7 & R8) & R9 & R10 & R11 & R12).
  destruct (find_header (map lower n) known_headers) as [k|] eqn:FH.
  - destruct k; cbn [header_value] in H.
    + destruct H as ((_ & SB & _) & V & ->). unfold read_so_far. cbn [d_msg with_msg d_type d_len]. ands; auto. intros g. apply str_kept; [exact R9|split; assumption].
    + destruct H as (_ & l & L & ->). unfold read_so_far. cbn [d_msg with_msg d_type d_len]. destruct (fold_rest f l (d_msg d)) as (E1 & E2 & E3 & E4 & E5 & E6 & E7 & E8 & E9 & E10).
      rewrite E1, E2, E3, E4, E5, E6, E7, E8, E9, E10. ands; auto. intros g. destruct (fold_addrs f l (d_msg d)) as [F1 F2].
      assert (D : g = f \/ g <> f) by (destruct f, g; (left; reflexivity) || (right; discriminate)). destruct D as [->|N]; [rewrite F1; apply Forall_app; split; [apply R1|exact (addr_list_reads _ _ L)]|rewrite (F2 g N); apply R1].
    + destruct H as (_ & l & L & ->). unfold read_so_far. cbn. ands; auto. apply Forall_app. split; [exact R2|exact (via_list_reads _ _ L)].
    + destruct H as (_ & ct & (x & y & ps & l & _ & -> & A & C & _) & ->). unfold read_so_far. cbn [d_msg d_type d_len]. ands; auto. right. exists x, y. auto.
    + destruct H as (_ & L & ->). unfold read_so_far. cbn. ands; auto.
    + destruct H as (_ & z & L & ->). unfold read_so_far. cbn [d_msg d_type d_len]. ands; auto.
    + destruct H as (_ & x & l & z & mth & _ & _ & _ & M & ->). unfold read_so_far. cbn -[Z.pow Z.mul i64]. ands; auto. apply i64_lt.
    + destruct H as (_ & z & L & ->). unfold read_so_far. cbn -[Z.pow i64]. ands; auto. apply i64_lt.
    + destruct H as (_ & z & L & ->). unfold read_so_far. cbn -[Z.pow i64]. ands; auto. apply i64_lt.
    + destruct H as (_ & z & L & ->). unfold read_so_far. cbn -[Z.pow i64]. ands; auto. apply i64_lt.
    + destruct H as ((_ & SB & _) & V & ->). unfold read_so_far. cbn [d_msg with_msg d_type d_len]. ands; auto. intros g. apply str_kept; [exact R9|split; assumption].
    + destruct H as (_ & z & L & ->). unfold read_so_far. cbn -[Z.pow i64]. ands; auto; apply i64_lt.
  - destruct H as (P & (_ & SB & _) & V & ->). unfold read_so_far. cbn. ands; auto. constructor; [|exact R10]. cbn [fst snd]. split; [|split; assumption]. split; [exact T|].
    intros x k I s E. rewrite forallb_forall in P. specialize (P _ I). cbn [fst] in P. apply negb_true_iff in P. assert (Q : is_prefix (map lower n) x = true) by (apply prefix_iff; eauto). congruence.
Qed.
Lemma read_lines hs d d' : header_lines hs d d' -> read_so_far d -> read_so_far d'.
Proof. induction 1; intros R; [exact R|]. eauto using read_step. Qed.
Definition same_start (m m' : msg) : Prop := method m' = method m /\ request m' = request m /\ status m' = status m /\ vmaj m' = vmaj m /\ vmin m' = vmin m.
Lemma fold_start f l : forall m, same_start m (fold_left (add_addr f) l m).
Proof. induction l as [|a l IH]; intros m; cbn [fold_left]; [repeat split|]. exact (IH (add_addr f m a)). Qed.
Lemma start_step t d d' : header_text t d d' -> same_start (d_msg d) (d_msg d').
Proof.
  intros (n & b & w & v & _ & T & _ & H). destruct (find_header (map lower n) known_headers) as [k|].
  - destruct k; cbn [header_value] in H; decompose [and ex] H; subst d'; try (repeat split; fail). cbn [d_msg with_msg]. apply fold_start.
  - decompose [and] H. subst d'. repeat split.
Qed.
Lemma start_lines hs d d' : header_lines hs d d' -> same_start (d_msg d) (d_msg d').
Proof. induction 1 as [|t d d1 ts d2 H _ (I1 & I2 & I3 & I4 & I5)]; [repeat split|]. destruct (start_step _ _ _ H) as (E1 & E2 & E3 & E4 & E5). unfold same_start. ands; congruence. Qed.
Lemma start_fields st m : start_text st m -> 0 <= vmaj m < 256 /\ 0 <= vmin m < 256 /\ (request m <> None -> token (method m)) /\ read_so_far (mkdraft m 0 []).
Proof.
  assert (V : forall t a b, version_text t a b -> 0 <= a < 256 /\ 0 <= b < 256). { intros t a b (? & ? & x & y & _ & _ & _ & -> & ->). split; apply Z.mod_pos_bound; lia. }
  intros [(u & x & v & maj & min & _ & T & _ & K & ->)|(v & maj & min & d & n & x & _ & K & _ & _ & _ & _ & ->)]; destruct (V _ _ _ K) as [K1 K2]; cbn [vmaj vmin method request set_request set_method set_phrase set_status set_vmin set_vmaj];
    (split; [exact K1|]; split; [exact K2|]; split; [try (intros _; exact T); try (intros N; contradiction)|]).
  - unfold read_so_far. cbn -[Z.pow no_blank]. ands; auto; try lia. intros f. split; [constructor|reflexivity].
  - unfold read_so_far. cbn -[Z.pow no_blank]. ands; auto; try lia. intros f. split; [constructor|reflexivity].
Qed.
(** everything that is written in quotes, or not at all *)
Lemma tok_or v : needs_quotes v \/ forallb (fun c => token_class c || beq c SP) v = true.
Proof.
  induction v as [|c v IH]; [right; reflexivity|]. destruct IH as [(x & I & X)|IH]; [left; exists x; split; [right; exact I|exact X]|]. cbn [forallb]. rewrite IH, andb_true_r.
  destruct (token_class c) eqn:T; [right; reflexivity|]. destruct (beq c SP) eqn:E; [right; reflexivity|]. left. exists c. split; [left; reflexivity|]. split; [exact T|]. apply beq_neq. exact E.
Qed.
Lemma words_cons c w : token_class c = true -> words w -> words (c :: w).
Proof.
  intros T [x [N H]|x l t [N H] L W]; [constructor; split; [discriminate|cbn [forallb]; rewrite T; exact H]|]. change (c :: x ++ l ++ t) with ((c :: x) ++ l ++ t). apply words_more; auto. split; [discriminate|cbn [forallb]; rewrite T; exact H].
Qed.
Lemma words_split d : d <> [] -> forallb (fun c => token_class c || beq c SP) d = true -> (forall r, d <> r ++ [SP]) -> exists b w, d = b ++ w /\ blanks b /\ (forall c r, b = c :: r -> c = SP) /\ words w.
Proof.
  induction d as [|c d IH]; [congruence|]. intros _ F E. cbn [forallb] in F. apply andb_prop in F. destruct F as [F1 F2]. destruct d as [|c' d].
  - exists [], [c]. split; [reflexivity|]. split; [reflexivity|]. split; [discriminate|]. constructor. split; [discriminate|]. cbn. destruct (beq_reflect c SP) as [->|N]; [destruct (E [] eq_refl)|]. rewrite orb_false_r in F1. rewrite F1. reflexivity.
  - destruct IH as (b & w & D & Bb & FS & W); [discriminate|exact F2|intros r R; apply (E (c :: r)); rewrite R; reflexivity|]. rewrite D. destruct (beq_reflect c SP) as [->|N].
    + exists (SP :: b), w. split; [reflexivity|]. split; [exact Bb|]. split; [intros ? ? [= <- <-]; reflexivity|exact W].
    + rewrite orb_false_r in F1. exists [], (c :: b ++ w). split; [reflexivity|]. split; [reflexivity|]. split; [discriminate|]. destruct b as [|x b]; [apply words_cons; assumption|]. change (c :: (x :: b) ++ w) with ([c] ++ (x :: b) ++ w).
      apply words_more; [split; [discriminate|cbn; rewrite F1; reflexivity]|split; [left; exact Bb|discriminate]|exact W].
Qed.
Lemma kept_display d : plain_text d -> display_kept d -> display_ok d.
Proof.
  intros P [A E]. unfold display_ok. destruct (tok_or d) as [Q|F]; [right; left; split; [exact Q|exact (P A)]|]. destruct d as [|c d]; [left; reflexivity|]. right. right. split; [|exact F].
  assert (NQ : ~ needs_quotes (c :: d)). { intros (x & I & X & N). rewrite forallb_forall in F. specialize (F x I). rewrite X in F. cbn in F. apply beq_spec in F. contradiction. }
  destruct (words_split (c :: d)) as (b & w & D & _ & FS & W); [discriminate|exact F|intros r R; apply NQ, E; right; exists r; exact R|]. destruct b as [|x b]; [cbn in D; rewrite D; exact W|].
  exfalso. injection D as -> _. apply NQ, E. left. exists d. rewrite (FS x b eq_refl). reflexivity.
Qed.
Lemma kept_param p : param_read p -> value_kept (snd p) -> param_ok p.
Proof.
  intros [T P] [A E]. split; [exact T|]. destruct (tok_or (snd p)) as [Q|F]; [right; right; split; [exact Q|exact (P A)]|]. destruct (snd p) as [|c v]; [left; reflexivity|]. right. left. split; [discriminate|].
  assert (NQ : ~ needs_quotes (c :: v)). { intros (x & I & X & N). rewrite forallb_forall in F. specialize (F x I). rewrite X in F. cbn in F. apply beq_spec in F. contradiction. }
  apply forallb_forall. intros x I. rewrite forallb_forall in F. specialize (F x I). destruct (beq_reflect x SP) as [Ex|N]; [rewrite Ex in I; destruct (NQ (E I))|]. rewrite orb_false_r in F. exact F.
Qed.
Lemma kept_value v : no_blank v -> (forall c r, v = c :: r -> c <> CR) -> header_val v.
Proof.
  intros [V SB] NC. split; [exact V|]. intros c r ->. specialize (NC c r eq_refl). pose proof (value_first c r V) as NL. cbn in SB. 
  assert (K : implb (whitespacec c) (blank c || beq c CR || beq c LF) = true) by (clear; revert c; by_bytes). rewrite SB in K. rewrite <- beq_neq in NC, NL. rewrite NC, NL in K. destruct (whitespacec c); [discriminate K|reflexivity].
Qed.
Lemma kept_host h : (forallb viahost_class h = true \/ forallb ip6_class h = true) -> ~ In ":"%byte h -> forallb viahost_class h = true.
Proof.
  intros [H|H] N; [exact H|]. apply forallb_forall. intros c I. rewrite forallb_forall in H. specialize (H c I). assert (K : implb (ip6_class c) (viahost_class c || beq c ":") = true) by (clear; revert c; by_bytes). rewrite H in K. cbn in K.
  destruct (beq_reflect c ":") as [->|_]; [contradiction|]. rewrite orb_false_r in K. exact K.
Qed.
(** What was read may be written. *)
Lemma read_ok rid data m : parse_msg data = MOk m -> passable rid m -> msg_ok rid m.
Proof.
  intros H (P1 & P2 & P3 & P4 & P5 & P6 & P7 & P8 & P9 & P10 & P11 & P12 & P13 & P14 & P15 & P16). destruct (msg_complete_partial data m H) as (C1 & C2 & C3 & C4). apply parse_exact in H.
  destruct H as (st & m0 & hs & d & body & _ & S & L & SB & PT). destruct (start_fields st m0 S) as (F1 & F2 & F3 & F4). pose proof (start_lines _ _ _ L) as SL. apply read_lines in L; [|exact F4].
  assert (E : exists p, m = set_pay p (d_msg d) /\ match p with None => pay (d_msg d) = None | Some (PSdp _) => True | Some (Misc t x) => t = d_type d /\ t <> B "application/sdp" /\ x <> [] /\ starts_blank x = false end).
  { destruct L as (_ & _ & _ & _ & _ & _ & _ & _ & PN). destruct PT as [[_ ->]|(D1 & D2 & [(_ & p & _ & ->)|(D3 & ->)])].
    - exists None. split; [|exact PN]. destruct (d_msg d). cbn in PN |- *. rewrite PN. reflexivity.
    - exists (Some (PSdp p)). auto.
    - exists (Some (Misc (d_type d) body)). split; [reflexivity|]. split; [reflexivity|]. split; [exact D3|]. split; [|exact SB]. intros ->. cbn in D2. lia. }
  destruct E as (p & -> & EP). clear PT. destruct L as (R1 & R2 & R3 & R4 & (R5 & R6 & R7 & R8) & R9 & R10 & R11 & _). destruct SL as (S1 & S2 & S3 & S4 & S5). cbn [d_msg] in S1, S2, S3, S4, S5.
  unfold no_amp_uri in *. cbn [set_pay addrs vias callid cseqmethod cseq maxforwards expires minexpires strs xheader pay request status phrase method vmaj vmin] in *. 
  unfold msg_ok. cbn [set_pay addrs vias callid cseqmethod cseq maxforwards expires minexpires strs xheader pay vmaj vmin]. ands; auto; try lia.
  - unfold start_ok. cbn [set_pay request status phrase method]. destruct (Z.eq_dec (status (d_msg d)) 0) as [Z0|Z0].
    + left. split; [exact Z0|]. specialize (P1 Z0). split; [rewrite S1; apply F3; rewrite <- S2; exact P1|]. destruct (request (d_msg d)) as [u|]; [|congruence]. exists u. split; [reflexivity|]. split; [apply C4; reflexivity|apply P7; reflexivity].
    + right. destruct (P2 Z0) as [A1 A2]. split; [|exact A2]. split; [exact A1|]. destruct C1 as [(_ & _ & C)|(_ & _ & C)]; cbn [status set_pay] in C; lia.
  - intros f. apply Forall_forall. intros a I. destruct (P8 f a I) as (A1 & A2 & A3). destruct (C2 f a I) as (u & U & W). specialize (R1 f). rewrite Forall_forall in R1. destruct (R1 a I) as [B1 B2]. split; [exists u; split; [exact U|split; [exact W|exact (A1 u U)]]|].
    split; [apply kept_display; assumption|]. apply Forall_forall. intros [n v] J. rewrite Forall_forall in B2. apply kept_param; [exact (B2 _ J)|exact (A3 n v J)].
  - apply Forall_forall. intros v I. rewrite Forall_forall in R2. destruct (R2 v I) as (B1 & B2 & B3 & B4 & B5). destruct (C3 v I) as (_ & _ & _ & D1 & D2). destruct (P9 v I) as [A1 A2]. unfold via_ok. ands; auto; try lia; [apply kept_host; assumption|].
    apply Forall_forall. intros [n x] J. rewrite Forall_forall in B5. apply kept_param; [exact (B5 _ J)|exact (A2 n x J)].
  - destruct R3 as [R3|R3]; [congruence|exact R3].
  - destruct R4 as [R4|R4]; [congruence|exact R4].
  - intros f. apply kept_value; [apply R9|intros c r E; exact (P14 f c r E)].
  - apply Forall_forall. intros [n v] I. rewrite Forall_forall in R10. destruct (R10 _ I) as [A1 A2]. split; [exact A1|]. apply kept_value; [exact A2|]. cbn [snd]. intros c r ->. exact (P15 n c r I).
  - intros q ->. destruct (P16 q eq_refl) as [A1 A2]. split; [exact A1|]. destruct q as [t x|s]; [|exact A2]. destruct EP as (-> & E1 & E2 & E3). destruct R11 as [R|R]; [congruence|]. auto.
Qed.

(** ** The theorems *)
(** What is missing: messages that are not [passable]; see the refutations below. *)
Theorem passed_on_partial : forall rid data m, parse_msg data = MOk m -> passable rid m ->
  exists m', parse_msg (msg_append rid m) = MOk m' /\
    status m' = status m /\ (status m = 0 -> method m' = method m /\ request m' = request m) /\ (status m <> 0 -> phrase m <> [] -> phrase m' = phrase m) /\
    (forall f, addrs m' f = addrs m f) /\ callid m' = callid m /\ cseq m' = cseq m /\ cseqmethod m' = cseqmethod m /\ expires m' = expires m /\ minexpires m' = minexpires m /\
    (forall f, f <> AcceptContact -> f <> RetryAfter -> strs m' f = strs m f) /\ pay m' = pay m /\
    (* of a Via only the default port is left out *)
    map v_host (vias m') = map v_host (vias m) /\ map v_param (vias m') = map v_param (vias m) /\ (Forall (fun v => v_port v <> 5060) (vias m) -> vias m' = vias m) /\
    (strs m RetryAfter = [] -> xheader m' = xheader m) /\ (status m = 0 -> maxforwards m <> 0 -> maxforwards m' = maxforwards m) /\
    (vmaj m <> 0 -> vmaj m' = vmaj m /\ vmin m' = vmin m).
Proof.
  intros rid data m H P. pose proof (read_ok rid data m H P) as OK. destruct (msg_round_trip_partial rid m OK) as (m' & E & (RQ & RS & V & A & C & CS & CM & EX & ME & ST & X & PY & VJ & VN)).
  assert (SG : status m = 0 \/ 100 <= status m) by (destruct OK as [[(Z0 & _)|(Z1 & _)] _]; [left; exact Z0|right; lia]).
  exists m'. split; [exact E|]. split; [|split; [|split]].
  - destruct SG as [Z0|Z1]; [destruct (RQ ltac:(unfold IsResponse; apply Z.ltb_ge; lia)) as (_ & _ & -> & _); symmetry; exact Z0|]. apply (RS ltac:(unfold IsResponse; apply Z.ltb_lt; lia)).
  - intros Z0. destruct (RQ ltac:(unfold IsResponse; apply Z.ltb_ge; lia)) as (-> & -> & _). auto.
  - intros Z0 NE. destruct (RS ltac:(unfold IsResponse; apply Z.ltb_lt; lia)) as (_ & ->). unfold the_phrase. destruct (phrase m); congruence.
  - ands; auto.
    + rewrite V, map_map. reflexivity.
    + rewrite V, map_map. reflexivity.
    + intros NP. rewrite V. clear - NP. induction NP as [|v l N _ IH]; [reflexivity|]. cbn [map]. rewrite IH. f_equal. destruct v as [p1 p2 p3 p4 p5 p6]. unfold default_port_dropped. cbn [v_protocol v_version v_transport v_host v_port v_param] in *.
      destruct (Z.eqb_spec p5 5060); [congruence|reflexivity].
    + intros NR. rewrite X, NR. apply app_nil_r.
    + intros Z0 NM. destruct (RQ ltac:(unfold IsResponse; apply Z.ltb_ge; lia)) as (_ & _ & _ & ->). destruct (Z.eqb_spec (maxforwards m) 0); [contradiction|reflexivity].
    + intros NV. rewrite VJ, VN. unfold the_vmaj, the_vmin. destruct (Z.eqb_spec (vmaj m) 0); [contradiction|auto].
Qed.

(** ** A packet that meets the conditions: folds, quotes, escapes, two Vias, an extension header and a payload *)
Definition po_lines (l : list bytes) : bytes := concat (map (fun x => x ++ CRLF) l).
Definition po_packet : bytes := po_lines
  [B "INVITE sip:bob%20b@example.com:5070;lr?subject=hi SIP/2.0"; B "v: SIP/2.0/UDP 1.2.3.4:5090;branch=z9;received=5.6.7.8"; B "VIA:SIP/2.0/TCP"; B " host.example;x=" ++ [DQ] ++ B "a,b" ++ [DQ];
   B "f: " ++ [DQ] ++ B "Kitty " ++ [BSL] ++ [DQ] ++ B "K" ++ [BSL] ++ [DQ] ++ [DQ] ++ B " <sip:k@h>;tag=a"; B "To: Bob B <sip:bob@example.com>"; B "i: abc@h"; B "CSeq: 7 INVITE"; B "Max-Forwards: 12"; B "X-Thing: one"; B "  two";
   B "Subject: caf" ++ [xc3; xa9]; B "c: text/plain"; B "l: 2"; B ""] ++ B "hi".
(** the conditions as a test, for requests whose payload is not SDP *)
Definition quotes_b (v : bytes) : bool := existsb (fun c => negb (token_class c) && negb (beq c SP)) v.
Definition value_b (v : bytes) : bool := forallb (fun c => bz c <? 128) v && (quotes_b v || negb (existsb (beq SP) v)).
Definition display_b (v : bytes) : bool := forallb (fun c => bz c <? 128) v && (quotes_b v || negb (beq (hd x00 v) SP || beq (last v x00) SP)).
Definition no_amp_b (u : option uri) : bool := match u with None => true | Some x => forallb (fun p => free_of "&" (fst p) && free_of "&" (snd p)) (u_header x) end.
Definition addr_b (a : addr) : bool := no_amp_b (a_uri a) && display_b (a_display a) && forallb (fun p => value_b (snd p)) (a_param a).
Definition via_b (v : via) : bool := negb (existsb (beq ":") (v_host v)) && forallb (fun p => value_b (snd p)) (v_param v).
Definition no_cr_b (v : bytes) : bool := negb (beq (hd x00 v) CR).
Definition request_b (m : msg) : bool :=
  (status m =? 0) && match request m with Some _ => true | None => false end && match addrs m From, addrs m To, callid m, cseqmethod m with _ :: _, _ :: _, _ :: _, _ :: _ => true | _, _, _, _ => false end &&
  no_amp_b (request m) && forallb via_b (vias m) && (0 <=? cseq m) && (0 <=? maxforwards m) && (0 <=? expires m) && (0 <=? minexpires m) && forallb (fun p => no_cr_b (snd p)) (xheader m) &&
  match pay m with None => true | Some (Misc (_ :: _) x) => Z.of_nat (length x) <? 2 ^ 63 | _ => false end.
Lemma quotes_sound v : quotes_b v = true -> needs_quotes v.
Proof. intros H. apply existsb_exists in H. destruct H as (c & I & H). apply andb_prop in H. destruct H as [H1 H2]. apply negb_true_iff in H1, H2. exists c. rewrite beq_neq in H2. auto. Qed.
Lemma ascii_by v : forallb (fun c => bz c <? 128) v = true -> ascii v.
Proof. intros H. apply Forall_forall. intros c I. rewrite forallb_forall in H. apply Z.ltb_lt. apply H. exact I. Qed.
Lemma value_sound v : value_b v = true -> value_kept v.
Proof.
  intros H. apply andb_prop in H. destruct H as [H1 H2]. split; [apply ascii_by; exact H1|]. intros I. apply orb_prop in H2. destruct H2 as [H2|H2]; [apply quotes_sound; exact H2|]. apply negb_true_iff in H2.
  assert (K : existsb (beq SP) v = true) by (apply existsb_exists; exists SP; split; [exact I|reflexivity]). congruence.
Qed.
Lemma display_sound v : display_b v = true -> display_kept v.
Proof.
  intros H. apply andb_prop in H. destruct H as [H1 H2]. split; [apply ascii_by; exact H1|]. intros I. apply orb_prop in H2. destruct H2 as [H2|H2]; [apply quotes_sound; exact H2|]. apply negb_true_iff, orb_false_elim in H2. destruct H2 as [H2 H3].
  destruct I as [(r & ->)|(r & ->)]; [discriminate H2|]. rewrite last_last in H3. discriminate H3.
Qed.
Lemma no_amp_sound u : no_amp_b u = true -> no_amp_uri u.
Proof. intros H x ->. cbn in H. apply Forall_forall. intros p I. rewrite forallb_forall in H. specialize (H p I). apply andb_prop in H. exact H. Qed.
Lemma addr_sound a : addr_b a = true -> no_amp_uri (a_uri a) /\ display_kept (a_display a) /\ forall n v, In (n, v) (a_param a) -> value_kept v.
Proof.
  intros H. apply andb_prop in H. destruct H as [H H3]. apply andb_prop in H. destruct H as [H1 H2]. split; [apply no_amp_sound; exact H1|]. split; [apply display_sound; exact H2|]. intros n v I. rewrite forallb_forall in H3. exact (value_sound _ (H3 _ I)).
Qed.
Lemma via_sound v : via_b v = true -> ~ In ":"%byte (v_host v) /\ forall n x, In (n, x) (v_param v) -> value_kept x.
Proof.
  intros H. apply andb_prop in H. destruct H as [H1 H2]. apply negb_true_iff in H1. split; [|intros n x I; rewrite forallb_forall in H2; exact (value_sound _ (H2 _ I))]. intros I.
  assert (K : existsb (beq ":") (v_host v) = true) by (apply existsb_exists; exists ":"%byte; split; [exact I|reflexivity]). congruence.
Qed.
Lemma no_cr_sound c r : no_cr_b (c :: r) = true -> c <> CR.
Proof. unfold no_cr_b. cbn [hd]. intros H. apply negb_true_iff in H. apply beq_neq. exact H. Qed.
Lemma request_sound rid m : request_b m = true -> (forall f, forallb addr_b (addrs m f) = true) -> (forall f, no_cr_b (strs m f) = true) -> passable rid m.
Proof.
  intros H HA HS. unfold request_b in H. apply andb_prop in H. destruct H as [H H11]. apply andb_prop in H. destruct H as [H H10]. apply andb_prop in H. destruct H as [H H9]. apply andb_prop in H. destruct H as [H H8].
  apply andb_prop in H. destruct H as [H H7]. apply andb_prop in H. destruct H as [H H6]. apply andb_prop in H. destruct H as [H H5]. apply andb_prop in H. destruct H as [H H4]. apply andb_prop in H. destruct H as [H H3]. apply andb_prop in H. destruct H as [H1 H2].
  unfold passable. apply Z.eqb_eq in H1. apply Z.leb_le in H6, H7, H8, H9. ands; try assumption.
  - intros _. destruct (request m); [discriminate|discriminate H2].
  - intros N. contradiction.
  - intros E. rewrite E in H3. discriminate H3.
  - intros E. rewrite E in H3. destruct (addrs m From); discriminate H3.
  - intros E. rewrite E in H3. destruct (addrs m From), (addrs m To); discriminate H3.
  - intros E. rewrite E in H3. destruct (addrs m From), (addrs m To), (callid m); discriminate H3.
  - apply no_amp_sound. exact H4.
  - intros f a I. specialize (HA f). rewrite forallb_forall in HA. apply addr_sound, HA, I.
  - intros v I. rewrite forallb_forall in H5. apply via_sound, H5, I.
  - intros f c r E. specialize (HS f). rewrite E in HS. exact (no_cr_sound _ _ HS).
  - intros n c r I. rewrite forallb_forall in H10. exact (no_cr_sound _ _ (H10 _ I)).
  - intros p E. rewrite E in H11. destruct p as [[|t0 t] x|s]; try discriminate H11. split; [cbn [Data]; lia|discriminate].
Qed.
Theorem passed_on_example : exists m, parse_msg po_packet = MOk m /\ passable (B "1") m /\ length (vias m) = 2%nat /\ xheader m <> [] /\ pay m = Some (Misc (B "text/plain") (B "hi")) /\
  map a_display (addrs m From) = [B "Kitty " ++ [DQ] ++ B "K" ++ [DQ]].
Proof.
  eexists. split; [vm_compute; reflexivity|]. split; [|repeat split; discriminate]. apply request_sound; [vm_compute; reflexivity|intros []; vm_compute; reflexivity|intros []; vm_compute; reflexivity].
Qed.

(** ** Where it fails. Packets that are accepted although the text written for them is not, by the same reader: *)
Definition po_base (via to : bytes) (more : list bytes) (body : bytes) : bytes :=
  po_lines ([B "INVITE sip:h SIP/2.0"; B "Via: SIP/2.0/UDP " ++ via; B "From: <sip:k@h>;tag=a"; B "To: " ++ to; B "Call-ID: abc"; B "CSeq: 7 INVITE"] ++ more ++ [B ""]) ++ body.
Definition not_passed_on (data : bytes) : Prop := exists m e, parse_msg data = MOk m /\ parse_msg (msg_append (B "1") m) = MErr e.
Theorem passed_on_rejected_refuted :
  (* an IPv6 address in a Via *)
  not_passed_on (po_base (B "[::1]") (B "<sip:b@h>") [] []) /\
  (* a quoted parameter value with a space *)
  not_passed_on (po_base (B "h") (B "<sip:b@h>;x=" ++ [DQ] ++ B "a b" ++ [DQ]) [] []) /\
  (* an escaped ampersand in a URI header *)
  not_passed_on (po_base (B "h") (B "<sip:b@h?a=%26c>") [] []) /\
  (* a payload without a type *)
  not_passed_on (po_base (B "h") (B "<sip:b@h>") [B "Content-Length: 2"] (B "hi")) /\
  (* a number from 2^63 on *)
  not_passed_on (po_base (B "h") (B "<sip:b@h>") [B "Max-Forwards: 9223372036854775808"] []) /\
  (* no Call-ID, no CSeq, no To *)
  not_passed_on (po_lines [B "INVITE sip:h SIP/2.0"; B "Via: SIP/2.0/UDP h"; B "From: <sip:k@h>;tag=a"; B "To: <sip:b@h>"; B "CSeq: 7 INVITE"; B ""]) /\
  not_passed_on (po_lines [B "INVITE sip:h SIP/2.0"; B "Via: SIP/2.0/UDP h"; B "From: <sip:k@h>;tag=a"; B "To: <sip:b@h>"; B "Call-ID: a"; B ""]) /\
  not_passed_on (po_lines [B "INVITE sip:h SIP/2.0"; B "Via: SIP/2.0/UDP h"; B "From: <sip:k@h>;tag=a"; B "Call-ID: a"; B "CSeq: 7 INVITE"; B ""]).
Proof. ands; (eexists; eexists; split; [vm_compute; reflexivity|]; vm_compute; reflexivity). Qed.
(** Packets that are read again as something else: a display name is cut where it stops being ASCII, or loses the spaces at its ends, and a value its second fold. *)
Definition passed_on_as {X} (f : msg -> X) (data : bytes) (x y : X) : Prop :=
  exists m m', parse_msg data = MOk m /\ parse_msg (msg_append (B "1") m) = MOk m' /\ f m = x /\ f m' = y.
Theorem passed_on_changed_refuted :
  passed_on_as (fun m => map a_display (addrs m To)) (po_base (B "h") ([DQ] ++ B "J" ++ [xc3; xbc] ++ B "rgen" ++ [DQ] ++ B " <sip:b@h>") [] []) [B "J" ++ [xc3; xbc] ++ B "rgen"] [B "J"] /\
  passed_on_as (fun m => map a_display (addrs m To)) (po_base (B "h") ([DQ] ++ B " Bob" ++ [DQ] ++ B " <sip:b@h>") [] []) [B " Bob"] [B "Bob"] /\
  passed_on_as (fun m => strs m Subject) (po_base (B "h") (B "<sip:b@h>") [B "Subject: "; B " "; B " x"] []) (CRLF ++ B " x") (B "x") /\
  passed_on_as (fun m => map v_port (vias m)) (po_base (B "h:5060") (B "<sip:b@h>") [] []) [5060] [0].
Proof. ands; (eexists; eexists; split; [vm_compute; reflexivity|]; split; [vm_compute; reflexivity|]; split; vm_compute; reflexivity). Qed.
(** A request that may not be sent on any further is written with seventy more hops, whatever else is in it. *)
Theorem hops_reset_refuted : (forall rid data m, parse_msg data = MOk m -> passable rid m -> status m = 0 -> maxforwards m = 0 -> exists m', parse_msg (msg_append rid m) = MOk m' /\ maxforwards m' = 70) /\
  passed_on_as maxforwards (po_base (B "h") (B "<sip:b@h>") [B "Max-Forwards: 0"] []) 0 70.
Proof.
  split; [|eexists; eexists; split; [vm_compute; reflexivity|]; split; [vm_compute; reflexivity|]; split; vm_compute; reflexivity].
  intros rid data m H P Z0 M. destruct (msg_round_trip_partial rid m (read_ok rid data m H P)) as (m' & E & (RQ & _)). exists m'. split; [exact E|]. destruct (RQ ltac:(unfold IsResponse; apply Z.ltb_ge; lia)) as (_ & _ & _ & ->). rewrite M. reflexivity.
Qed.
(** A Via without a port is written with the port 0. *)
Theorem via_port_zero_written_refuted : forall v, v_port v = 0 -> exists a b, via_append v = a ++ v_host v ++ B ":0" ++ b.
Proof. intros v H. unfold via_append. rewrite H. cbn [Z.eqb negb]. change (itoa 0) with (B "0"). 
  exists ((match v_protocol v with [] => B "SIP/" | p => p ++ B "/" end) ++ (match v_version v with [] => B "2.0/" | p => p ++ B "/" end) ++ (match v_transport v with [] => B "UDP " | p => p ++ B " " end)), (param_append (v_param v)).
  rewrite <- !app_assoc. reflexivity. Qed.
Print Assumptions passed_on_partial.
Print Assumptions passed_on_rejected_refuted.
Print Assumptions passed_on_changed_refuted.
Print Assumptions hops_reset_refuted.
Print Assumptions via_port_zero_written_refuted.
