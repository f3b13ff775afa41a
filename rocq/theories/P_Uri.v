(** Properties C05-C09: ParseURI and URI.String. *)
From Verif Require Import Bytes BytesLemmas GoLib GoLibLemmas Auto AutoRe UriTable SdpModel SipText SipTypes SipAppend UriModel UriGrammar P_Text UriSpec UriProofs UriMeaning.
Local Open Scope Z_scope.

(** ** Only a user part contains @ *)
Lemma legal_free cls c w : cls c = false -> beq c "%" = false -> hex_class c = false -> legal_text cls w = true -> free_of c w = true.
Proof.
  intros H1 H2 H3. remember (length w) as n eqn:Hn. revert w Hn. induction n as [n IH] using (well_founded_induction lt_wf); intros w -> L.
  destruct w as [|d w]; [reflexivity|]. cbn [legal_text] in L. unfold free_of in *. cbn [forallb]. destruct (beq_reflect d "%") as [->|N].
  - destruct w as [|a [|b w]]; try discriminate. rewrite !andb_true_iff in L. destruct L as [[La Lb] L]. cbn [forallb].
    rewrite (IH (length w)); [|cbn; lia|reflexivity|exact L]. rewrite !andb_true_iff, !negb_true_iff. repeat split.
    + rewrite beq_neq in *. congruence.
    + rewrite beq_neq. intros ->. congruence.
    + rewrite beq_neq. intros ->. congruence.
  - apply andb_prop in L. destruct L as [L1 L2]. rewrite (IH (length w)); [|cbn; lia|reflexivity|exact L2]. rewrite andb_true_r, negb_true_iff, beq_neq. intros ->. congruence.
Qed.
Lemma class_free (cls : byte -> bool) c w : cls c = false -> forallb cls w = true -> free_of c w = true.
Proof.
  intros H. apply forallb_impl. intros x Hx. rewrite negb_true_iff, beq_neq. intros ->. congruence.
Qed.
Lemma free_concat {X} c (g : X -> bytes) l : (forall x, In x l -> free_of c (g x) = true) -> free_of c (concat (map g l)) = true.
Proof. induction l as [|x l IH]; intros H; [reflexivity|]. cbn [map concat]. rewrite free_of_app, H, IH; [reflexivity| |left; reflexivity]. intros y Hy. apply H. right. exact Hy. Qed.
Lemma item_free cls p t : cls "@"%byte = false -> item_text cls p t -> free_of "@" t = true.
Proof.
  intros H (tn & tv & -> & _ & [L _] & V). rewrite free_of_app, (legal_free cls "@" tn H eq_refl eq_refl L). cbn [andb].
  destruct V as [[-> _]|(x & -> & _ & [L2 _])]; [reflexivity|]. rewrite free_of_app, (legal_free cls "@" x H eq_refl eq_refl L2). reflexivity.
Qed.
Lemma Forall2_in_r {X Y} (R : X -> Y -> Prop) l m y : Forall2 R l m -> In y m -> exists x, In x l /\ R x y.
Proof. intros H. induction H; intros I; [destruct I|]. destruct I as [<-|I]; [eexists; split; [left; reflexivity|assumption]|]. destruct (IHForall2 I) as (z & ? & ?). exists z. cbn. auto. Qed.
Lemma scheme_free t v : scheme_text t v -> free_of "@" t = true.
Proof.
  intros (c & r & -> & H1 & H2 & _). change (c :: r) with ([c] ++ r). rewrite free_of_app. rewrite (class_free scheme_class "@" r eq_refl H2), andb_true_r.
  apply (class_free alpha_class "@" [c] eq_refl). cbn [forallb]. rewrite H1. reflexivity.
Qed.
Lemma tail_free hst prt par hdr v n ps hs : host_text hst v -> port_text prt n -> params_text par ps -> headers_text hdr hs ->
  free_of "@" (hst ++ prt ++ par ++ hdr) = true.
Proof.
  intros (x & _ & _ & Hx) Hp (ts & Ft & ->) Hh. rewrite !free_of_app. rewrite !andb_true_iff. repeat split.
  - destruct Hx as [[-> F]|[-> F]].
    + exact (class_free host_class "@" x eq_refl F).
    + rewrite !free_of_app, (class_free ip6_class "@" x eq_refl F). reflexivity.
  - destruct Hp as [[-> _]|(d & m & -> & D & _)]; [reflexivity|]. rewrite free_of_app. cbn [andb]. apply digits_value_digits in D. rewrite (class_free is_digit "@" d eq_refl D). reflexivity.
  - apply free_concat. intros t I. destruct (Forall2_in_r _ _ _ _ Ft I) as (p & _ & Hi). rewrite free_of_app, (item_free param_class p t eq_refl Hi). reflexivity.
  - destruct Hh as [[-> _]|(y & us & Fh & ->)]; [reflexivity|]. rewrite !free_of_app.
    destruct (Forall2_in_r _ _ _ y Fh (or_introl eq_refl)) as (p & _ & Hi). rewrite (item_free header_class p y eq_refl Hi). cbn [andb].
    change (free_of "@" (B "?")) with true. cbn [andb].
    apply free_concat. intros t I. destruct (Forall2_in_r _ _ _ t Fh (or_intror I)) as (q & _ & Hq). rewrite free_of_app, (item_free header_class q t eq_refl Hq). reflexivity.
Qed.

Lemma build_sans hs ps n v sv : put_headers hs (put_params ps (put_port n (put_host v (put_scheme sv uri0)))) = mkuri sv [] [] v n (rev ps) (rev hs).
Proof. rewrite <- (app_nil_r (rev ps)), <- (app_nil_r (rev hs)). reflexivity. Qed.
Lemma build_user hs ps n v sv us : put_headers hs (put_params ps (put_port n (put_host v (put_user us (put_scheme sv uri0))))) = mkuri sv us [] v n (rev ps) (rev hs).
Proof. rewrite <- (app_nil_r (rev ps)), <- (app_nil_r (rev hs)). reflexivity. Qed.
Lemma build_pass hs ps n v sv us pw : put_headers hs (put_params ps (put_port n (put_host v (put_pass pw (put_user us (put_scheme sv uri0)))))) = mkuri sv us pw v n (rev ps) (rev hs).
Proof. rewrite <- (app_nil_r (rev ps)), <- (app_nil_r (rev hs)). reflexivity. Qed.
Lemma uri_eta u : mkuri (u_scheme u) (u_user u) (u_pass u) (u_host u) (u_port u) (u_param u) (u_header u) = u.
Proof. destruct u; reflexivity. Qed.

(** ** C06: exactly the grammar *)
Theorem uri_parse_exact : forall s u, parse_uri s = POk u <-> uri_text s u.
Proof.
  intros s u. rewrite parse_grammar. unfold grammar. rewrite contains_byte_free. split.
  - intros (st & H & <-). destruct (free_of "@" s) eqn:F; cbn [negb] in H.
    + unfold uriSansUser in H. apply u_seq in H. destruct H as (r1 & s1 & H1 & H). destruct (proj1 (m_scheme s r1 ust0) _ H1) as (t & f & -> & (v & HS & ->) & E1).
      apply u_seq in H. destruct H as (r2 & s2 & H2 & H). apply u_ch in H2. destruct H2 as [-> ->].
      destruct (tail_in _ _ _ H ltac:(rewrite E1; reflexivity)) as (hst & prt & par & hdr & hv & n & ps & hs & -> & Th & Tp & Tpa & Thd & E2).
      exists t, [], hst, prt, par, hdr. rewrite E2, E1. change (uout ust0) with uri0. rewrite build_sans. cbn [u_scheme u_user u_pass u_host u_port u_param u_header].
      rewrite !rev_involutive. split; [reflexivity|]. split; [exact HS|]. split; [left; auto|]. auto.
    + unfold uriWithUser in H. apply u_seq in H. destruct H as (r1 & s1 & H1 & H). destruct (proj1 (m_scheme s r1 ust0) _ H1) as (t & f & -> & (v & HS & ->) & E1).
      apply u_seq in H. destruct H as (r2 & s2 & H2 & H). apply u_ch in H2. destruct H2 as [-> ->].
      apply u_seq in H. destruct H as (r3 & s3 & H2 & H). destruct (proj1 (m_userpass r2 r3 s1) _ H2) as (ti & fi & -> & (tu & tp & user & pass & -> & N & SL & HP) & E3).
      apply u_seq in H. destruct H as (r4 & s4 & H3 & H). apply u_ch in H3. destruct H3 as [-> ->].
      assert (Z0 : u_port (uout s3) = 0) by (rewrite E3, E1; destruct HP as [[_ ->]|(x & _ & _ & _ & ->)]; reflexivity).
      destruct (tail_in _ _ _ H Z0) as (hst & prt & par & hdr & hv & n & ps & hs & -> & Th & Tp & Tpa & Thd & E2).
      exists t, (tu ++ tp ++ B "@"), hst, prt, par, hdr. split; [rewrite <- !app_assoc; reflexivity|].
      rewrite E2, E3, E1. change (uout ust0) with uri0. destruct HP as [[-> ->]|(x & -> & Nx & Sx & ->)]; [rewrite build_user|rewrite build_pass];
        cbn [u_scheme u_user u_pass u_host u_port u_param u_header]; rewrite (rev_involutive ps), (rev_involutive hs);
        (split; [exact HS|]); (split; [|exact (conj Th (conj Tp (conj Tpa Thd)))]); right.
      * exists tu, []. auto 7.
      * exists tu, (B ":" ++ x). split; [reflexivity|]. split; [assumption|]. split; [assumption|]. right. eauto.
  - intros (sch & inf & hst & prt & par & hdr & -> & HS & HI & Hh & Hp & Hpa & Hhd).
    pose proof (tail_free _ _ _ _ _ _ _ _ Hh Hp Hpa Hhd) as TF. pose proof (scheme_free _ _ HS) as SF.
    destruct HI as [(-> & EU & EP)|(tu & tp & -> & N & SL & HP)].
    + replace (free_of "@" (sch ++ B ":" ++ [] ++ hst ++ prt ++ par ++ hdr)) with true by (cbn [app]; rewrite (free_of_app _ sch), (free_of_app _ (B ":")), SF, TF; reflexivity).
      cbn [negb]. destruct (proj2 (m_scheme (sch ++ B ":" ++ hst ++ prt ++ par ++ hdr) (B ":" ++ hst ++ prt ++ par ++ hdr) ust0) sch (put_scheme (u_scheme u)) eq_refl (ex_intro _ _ (conj HS eq_refl))) as (s1 & H1 & E1).
      destruct (tail_out hst prt par hdr _ _ _ _ s1 Hh Hp Hpa Hhd ltac:(rewrite E1; reflexivity)) as (s2 & H2 & E2).
      exists s2. split.
      * unfold uriSansUser. apply u_seq. exists (B ":" ++ hst ++ prt ++ par ++ hdr), s1. split; [exact H1|]. apply u_seq. exists (hst ++ prt ++ par ++ hdr), s1. split; [apply u_ch; auto|exact H2].
      * rewrite E2, E1. change (uout ust0) with uri0. rewrite build_sans, !rev_involutive, <- EU at 1. rewrite <- EP, EU at 1. rewrite <- EU at 1. apply uri_eta.
    + replace (free_of "@" (sch ++ B ":" ++ (tu ++ tp ++ B "@") ++ hst ++ prt ++ par ++ hdr)) with false.
      2:{ symmetry. rewrite (free_of_app _ sch), (free_of_app _ (B ":")), (free_of_app _ (tu ++ tp ++ B "@")), (free_of_app _ tu), (free_of_app _ tp).
          replace (free_of "@" (B "@")) with false by reflexivity. destruct (free_of "@" sch), (free_of "@" (B ":")), (free_of "@" tu), (free_of "@" tp); reflexivity. }
      cbn [negb]. set (rest := hst ++ prt ++ par ++ hdr) in *.
      replace (sch ++ B ":" ++ (tu ++ tp ++ B "@") ++ rest) with (sch ++ B ":" ++ (tu ++ tp) ++ B "@" ++ rest) by (rewrite <- !app_assoc; reflexivity).
      destruct (proj2 (m_scheme (sch ++ B ":" ++ (tu ++ tp) ++ B "@" ++ rest) (B ":" ++ (tu ++ tp) ++ B "@" ++ rest) ust0) sch (put_scheme (u_scheme u)) eq_refl (ex_intro _ _ (conj HS eq_refl))) as (s1 & H1 & E1).
      assert (UP : exists f, (exists tu' tp' user pass, tu ++ tp = tu' ++ tp' /\ tu' <> [] /\ slot user_class user tu' /\
          ((tp' = [] /\ f = put_user user) \/ exists x, tp' = B ":" ++ x /\ x <> [] /\ slot pass_class pass x /\ f = fun u => put_pass pass (put_user user u))) /\
          forall w, u_pass w = [] -> f w = put_pass (u_pass u) (put_user (u_user u) w)).
      { destruct HP as [[-> EP]|(x & -> & Nx & Sx)].
        - eexists. split; [exists tu, [], (u_user u), []; split; [reflexivity|]; split; [exact N|]; split; [exact SL|]; left; split; reflexivity|].
          intros w EW. rewrite EP. unfold put_pass, put_user. cbn. rewrite EW. reflexivity.
        - eexists. split; [exists tu, (B ":" ++ x), (u_user u), (u_pass u); split; [reflexivity|]; split; [exact N|]; split; [exact SL|]; right; exists x; split; [reflexivity|]; split; [exact Nx|]; split; [exact Sx|reflexivity]|]. reflexivity. }
      destruct UP as (f & UP & FW).
      destruct (proj2 (m_userpass ((tu ++ tp) ++ B "@" ++ rest) (B "@" ++ rest) s1) (tu ++ tp) f eq_refl UP) as (s2 & H2 & E2).
      assert (Z0 : u_port (uout s2) = 0) by (rewrite E2, FW; rewrite E1; reflexivity).
      destruct (tail_out hst prt par hdr _ _ _ _ s2 Hh Hp Hpa Hhd Z0) as (s3 & H3 & E3). exists s3. split.
      * unfold uriWithUser. apply u_seq. exists (B ":" ++ (tu ++ tp) ++ B "@" ++ rest), s1. split; [exact H1|]. apply u_seq. exists ((tu ++ tp) ++ B "@" ++ rest), s1. split; [apply u_ch; auto|].
        apply u_seq. exists (B "@" ++ rest), s2. split; [exact H2|]. apply u_seq. exists rest, s2. split; [apply u_ch; auto|exact H3].
      * rewrite E3, E2, FW, E1; [|rewrite E1; reflexivity]. change (uout ust0) with uri0. rewrite build_pass, !rev_involutive. apply uri_eta.
Qed.

(** every text is either a URI text or an error; a text denotes at most one URI *)
Theorem uri_parse_rejects : forall s, (forall u, ~ uri_text s u) -> exists e, parse_uri s = PErr e.
Proof.
  intros s H. destruct (parse_total s) as [(u & E)|(e & E)]; [|eauto]. apply uri_parse_exact in E. destruct (H u E).
Qed.
Theorem uri_text_unambiguous : forall s u v, uri_text s u -> uri_text s v -> u = v.
Proof. intros s u v H K. apply uri_parse_exact in H, K. congruence. Qed.
Example uri_parse_exact_ex :
  parse_uri (B "SIP:jt%40x:pw@[fE80::1]:5060;lr;a=%3b?h=1&k") =
    POk (mkuri (B "sip") (B "jt@x") (B "pw") (B "fe80::1") 5060 [(B "a", B ";"); (B "lr", [])] [(B "k", []); (B "h", B "1")]) /\
  (exists e, parse_uri (B "sip:a b") = PErr e) /\ (exists e, parse_uri (B "sip:a@b@c") = PErr e) /\ (exists e, parse_uri [] = PErr e).
Proof. split; [reflexivity|]. repeat split; eexists; vm_compute; reflexivity. Qed.

(** ** C07: total *)
(** transitions taken by the automaton on [rest] from state n *)
Fixpoint steps {A J S E} (act : A -> bytes -> S -> S + E) look (table : positive -> row A J) (rest : bytes) (s : S) (n : positive) : nat :=
  match rest with
  | [] => 0
  | _ :: rest' =>
    match look rest with
    | None => 0
    | Some c =>
      match find_row (table n) c with
      | None => 1
      | Some (o, nx) =>
        match acts act o rest s with
        | inr e => 1
        | inl s' => match nx with Adv m => Datatypes.S (steps act look table rest' s' m) | Jump j => 1 end
        end
      end
    end
  end%nat.
Theorem uri_parse_total : forall data,
  ((exists u, ParseURI data = POk u) \/ (exists e, ParseURI data = PErr e)) /\
  forall d, (steps (uri_act (length d)) byte_look uri_row d ust0 (entry d) <= length d)%nat.
Proof.
  intros data. split.
  - destruct data as [d|]; [|left; eexists; reflexivity]. cbn [ParseURI]. destruct (parse_total d) as [(u & ->)|(e & ->)]; [left|right]; eexists; reflexivity.
  - intros d. generalize (length d) at 1. intros cap. generalize ust0 (entry d). induction d as [|c d IH]; intros s n; cbn [steps length byte_look]; [lia|].
    destruct (find_row (uri_row n) (to_N c)) as [[o [m|[]]]|]; [|lia]. destruct (acts (uri_act cap) o (c :: d) s); [|lia]. specialize (IH u m). lia.
Qed.
(** a nil slice is not an error (uri_parse.go:42-44); an empty one is *)
Example uri_parse_nil : ParseURI None = POk None /\ exists e, ParseURI (Some []) = PErr e.
Proof. split; [reflexivity|]. eexists. vm_compute. reflexivity. Qed.

(** ** C05: serialise, then parse *)
Lemma escaped_text p cls s : (forall c, p c = true -> cls c = true /\ beq c "%" = false) -> slot cls s (appendEscaped p s).
Proof.
  intros H. destruct (escape_ok p cls H s []) as [L D]. rewrite app_nil_r in L, D. split; [exact L|]. rewrite D. apply app_nil_r.
Qed.
Lemma escaped_nonempty p s : s <> [] -> appendEscaped p s <> [].
Proof. destruct s as [|c s]; [congruence|]. intros _. cbn. destruct (p c); discriminate. Qed.
(** a string without & is written with characters a header may contain *)
Lemma escaped_no_amp s : free_of "&" s = true -> appendEscaped paramc s = appendEscaped (fun c => paramc c && negb (beq c "&")) s.
Proof.
  induction s as [|c s IH]; intros H; [reflexivity|]. cbn [free_of forallb] in H. apply andb_prop in H. destruct H as [H1 H2]. cbn [appendEscaped].
  rewrite H1, andb_true_r, IH by exact H2. reflexivity.
Qed.
Lemma header_slot s : free_of "&" s = true -> slot header_class s (appendEscaped paramc s).
Proof.
  intros H. rewrite escaped_no_amp by exact H. apply escaped_text. intros c Hc.
  assert (K : negb (paramc c && negb (beq c "&")) || (header_class c && negb (beq c "%")) = true) by (clear; revert c; by_bytes).
  rewrite Hc in K. cbn [negb orb] in K. apply andb_prop in K. destruct K as [K1 K2]. apply negb_true_iff in K2. auto.
Qed.
Lemma item_written cls name value : slot cls name (appendEscaped paramc name) -> slot cls value (appendEscaped paramc value) -> name <> [] ->
  item_text cls (name, value) (appendEscaped paramc name ++ (match value with [] => [] | _ => B "=" ++ appendEscaped paramc value end)).
Proof.
  intros H1 H2 N. exists (appendEscaped paramc name). eexists. split; [reflexivity|]. split; [apply escaped_nonempty; exact N|]. split; [exact H1|]. cbn [snd].
  destruct value as [|c v]; [left; auto|right]. eexists. split; [reflexivity|]. split; [apply escaped_nonempty; discriminate|exact H2].
Qed.
Lemma params_written ps : Forall (fun p => fst p <> []) ps -> params_text (uriparam_append ps) (rev ps).
Proof.
  intros H. induction H as [|[n v] ps N H (ts & F & E)]; cbn [uriparam_append rev]; [exists []; split; [constructor|reflexivity]|].
  eexists (ts ++ [_]). split; [apply Forall2_app; [exact F|]; constructor; [|constructor]|].
  - apply item_written; [apply slot_esc; constructor|apply slot_esc; constructor|exact N].
  - rewrite map_app, concat_app, E. cbn [map concat]. rewrite app_nil_r. reflexivity.
Qed.
Definition no_amp (p : param) : Prop := free_of "&" (fst p) = true /\ free_of "&" (snd p) = true.
Lemma headers_written hs : Forall (fun p => fst p <> []) hs -> Forall no_amp hs -> headers_text (uriheader_append hs) (rev hs).
Proof.
  intros H A. induction H as [|[n v] hs N H IH]; [left; auto|]. apply Forall_cons_iff in A. destruct A as [[A1 A2] A]. cbn [fst snd] in *. specialize (IH A). cbn [uriheader_append rev].
  pose proof (item_written header_class n v (header_slot n A1) (header_slot v A2) N) as I. right. destruct hs as [|h hs].
  - eexists _, []. split; [constructor; [exact I|constructor]|]. cbn [map concat]. rewrite !app_nil_r. reflexivity.
  - destruct IH as [[_ K]|(x & ts & F & E)]; [cbn in K; destruct (rev hs); discriminate|]. eexists x, (ts ++ [_]). split.
    + change (x :: ts ++ [?y]) with ((x :: ts) ++ [y]). apply Forall2_app; [exact F|]. constructor; [exact I|constructor].
    + rewrite E, map_app, concat_app. cbn [map concat]. rewrite app_nil_r, <- !app_assoc. reflexivity.
Qed.

Theorem uri_round_trip_partial : forall u, wf_uri u -> Forall no_amp (u_header u) -> parse_uri (uri_string (Some u)) = POk u.
Proof.
  intros u ((c & r & ES & A1 & A2 & A3) & HU & (HN & HL & HF) & HP & NP & NH) NA. apply uri_parse_exact. cbn [uri_string]. unfold uri_append.
  eexists (u_scheme u), _, _, _, (uriparam_append (u_param u)), (uriheader_append (u_header u)).
  split; [transitivity ((u_scheme u ++ B ":") ++ (match u_user u with
     | [] => []
     | _ :: _ =>
         match u_pass u with
         | [] => appendEscaped userc (u_user u)
         | _ :: _ => appendEscaped userc (u_user u) ++ B ":" ++ appendEscaped passc (u_pass u)
         end ++ B "@"
     end ++
     (if IsIPv6 (u_host u) then B "[" ++ u_host u ++ B "]" else u_host u) ++
     (if 0 <? u_port u then B ":" ++ Portstr (u_port u) else []) ++
     uriparam_append (u_param u) ++ uriheader_append (u_header u))); [rewrite ES; reflexivity|rewrite <- app_assoc; reflexivity]|].
  split; [exists c, r; auto|]. split; [|split; [|split; [|split; [apply params_written; exact NP|apply headers_written; assumption]]]].
  - destruct (u_user u) as [|x us] eqn:EU; [left; auto|]. right.
    destruct (u_pass u) as [|y pw] eqn:EP.
    + exists (appendEscaped userc (x :: us)), []. split; [reflexivity|]. split; [apply escaped_nonempty; discriminate|]. split; [apply slot_esc; constructor|]. left. auto.
    + exists (appendEscaped userc (x :: us)), (B ":" ++ appendEscaped passc (y :: pw)). split; [rewrite <- !app_assoc; reflexivity|].
      split; [apply escaped_nonempty; discriminate|]. split; [apply slot_esc; constructor|]. right. eexists. split; [reflexivity|]. split; [apply escaped_nonempty; discriminate|apply slot_esc; constructor].
  - exists (u_host u). split; [exact HN|]. split; [symmetry; exact HL|]. unfold IsIPv6, contains_byte. destruct (existsb (beq ":") (u_host u)); auto.
  - destruct (0 <? u_port u) eqn:EP; [right|left; split; [reflexivity|lia]]. exists (Portstr (u_port u)), (u_port u). unfold Portstr.
    split; [reflexivity|]. rewrite itoa_nonneg by lia. split; [apply utoa_value; lia|]. rewrite Z.mod_small by lia. reflexivity.
Qed.
Definition uri_example : uri :=
  mkuri (B "sips") (B "bob@home") (B "p:w") (B "2001:db8::1") 5061 [(B "lr", []); (B "transport", B "a;b")] [(B "Subject", B "hi there?"); (B "x", [])].
Example uri_round_trip_ex : wf_uri uri_example /\ Forall no_amp (u_header uri_example) /\
  uri_string (Some uri_example) = B "sips:bob%40home:p%3aw@[2001:db8::1]:5061;transport=a%3bb;lr?x&Subject=hi%20there%3f".
Proof.
  split.
  - split; [exists "s"%byte, (B "ips"); repeat split; reflexivity|]. split; [discriminate|]. split; [split; [discriminate|split; reflexivity]|]. split; [cbn; lia|].
    split; repeat constructor; discriminate.
  - split; [repeat constructor|]. reflexivity.
Qed.
(** The header part is where it fails: & is not escaped, so it separates headers when read back. *)
Theorem uri_round_trip_refuted : exists u, wf_uri u /\ parse_uri (uri_string (Some u)) <> POk u.
Proof.
  exists (mkuri (B "sip") [] [] (B "h") 0 [] [(B "a", B "x&b=y")]). split.
  - split; [exists "s"%byte, (B "ip"); repeat split; reflexivity|]. split; [reflexivity|]. split; [split; [discriminate|split; reflexivity]|]. split; [cbn; lia|].
    split; repeat constructor; discriminate.
  - vm_compute. discriminate.
Qed.

(** ** C08: parse, serialise, parse *)
Lemma lower_alpha c : alpha_class c = true -> alpha_class (lower c) = true. Proof. intros H. assert (K : negb (alpha_class c) || alpha_class (lower c) = true) by (clear; revert c; by_bytes). rewrite H in K. exact K. Qed.
Lemma lower_scheme c : scheme_class c = true -> scheme_class (lower c) = true. Proof. intros H. assert (K : negb (scheme_class c) || scheme_class (lower c) = true) by (clear; revert c; by_bytes). rewrite H in K. exact K. Qed.
Lemma lower_ip6 c : ip6_class c = true -> ip6_class (lower c) = true. Proof. intros H. assert (K : negb (ip6_class c) || ip6_class (lower c) = true) by (clear; revert c; by_bytes). rewrite H in K. exact K. Qed.
Lemma lower_twice c : lower (lower c) = lower c. Proof. apply beq_spec. revert c. by_bytes. Qed.
Lemma map_lower_twice s : map lower (map lower s) = map lower s.
Proof. rewrite map_map. apply map_ext. apply lower_twice. Qed.
Lemma forallb_map_impl (f : byte -> bool) g s : (forall c, f c = true -> f (g c) = true) -> forallb f s = true -> forallb f (map g s) = true.
Proof. intros H. induction s as [|c s IH]; cbn; [auto|]. intros K. apply andb_prop in K. destruct K as [K1 K2]. rewrite H, IH; auto. Qed.
Lemma Forall2_left {X Y} (R : X -> Y -> Prop) (P : X -> Prop) l m : (forall x y, R x y -> P x) -> Forall2 R l m -> Forall P l.
Proof. intros H F. induction F; constructor; eauto. Qed.
Lemma item_name cls p t : item_text cls p t -> fst p <> [].
Proof. intros (tn & tv & _ & N & [_ D] & _). rewrite <- D. apply pct_decode_nonempty. exact N. Qed.

Theorem uri_parsed_is_wf : forall s u, parse_uri s = POk u -> wf_uri u.
Proof.
  intros s u H. apply uri_parse_exact in H. destruct H as (sch & inf & hst & prt & par & hdr & -> & (c & r & -> & A1 & A2 & A3) & HI & (x & NX & EX & HX) & HP & (ts & FP & _) & HH).
  unfold wf_uri. rewrite A3. cbn [map]. split; [|split; [|split; [|split; [|split]]]].
  - exists (lower c), (map lower r). split; [reflexivity|]. split; [apply lower_alpha; exact A1|]. split; [apply forallb_map_impl; [exact lower_scheme|exact A2]|].
    cbn [map]. rewrite lower_twice, map_lower_twice. reflexivity.
  - destruct HI as [(_ & -> & ->)|(tu & tp & _ & N & [_ D] & _)]; [auto|]. intros E. rewrite E in D. exfalso. apply (pct_decode_nonempty tu N D).
  - rewrite EX. split; [destruct x; [congruence|discriminate]|]. split; [apply map_lower_twice|].
    assert (FH : forallb ip6_class (map lower x) = true \/ (forallb host_class (map lower x) = true)).
    { destruct HX as [[_ F]|[_ F]]; [right|left]; (apply forallb_map_impl; [|exact F]); [exact lower_scheme|exact lower_ip6]. }
    destruct (existsb (beq ":") (map lower x)) eqn:EC.
    + destruct FH as [F|F]; [exact F|]. exfalso. pose proof (class_free host_class ":" _ eq_refl F) as K. pose proof (contains_byte_free ":" (map lower x)) as K2.
      unfold contains_byte in K2. rewrite EC, K in K2. discriminate.
    + destruct FH as [F|F]; [|exact F]. pose proof (contains_byte_free ":" (map lower x)) as K2. unfold contains_byte in K2. rewrite EC in K2. symmetry in K2. apply negb_false_iff in K2.
      clear -F K2. induction (map lower x) as [|d y IH]; [reflexivity|]. cbn [forallb free_of] in *. apply andb_prop in F, K2. destruct F as [F1 F2], K2 as [K1 K2].
      unfold free_of in IH. rewrite IH by assumption. rewrite andb_true_r.
      assert (K : negb (ip6_class d) || beq d ":" || host_class d = true) by (clear; revert d; by_bytes). rewrite F1 in K. apply negb_true_iff in K1. rewrite K1 in K. exact K.
  - destruct HP as [[_ ->]|(d & n & _ & _ & ->)]; [lia|]. apply Z.mod_pos_bound. lia.
  - apply Forall_rev in FP || idtac. rewrite <- (rev_involutive (u_param u)). apply Forall_rev. eapply Forall2_left; [|exact FP]. intros p t. apply item_name.
  - rewrite <- (rev_involutive (u_header u)). apply Forall_rev. destruct HH as [[_ ->]|(y & us & F & _)]; [constructor|]. eapply Forall2_left; [|exact F]. intros p t. apply item_name.
Qed.
Theorem uri_reparse_stable_partial : forall s u, parse_uri s = POk u -> Forall no_amp (u_header u) ->
  parse_uri (uri_string (Some u)) = POk u /\ uri_string (Some u) <> [].
Proof.
  intros s u H NA. pose proof (uri_parsed_is_wf _ _ H) as W. split; [apply uri_round_trip_partial; assumption|].
  destruct W as ((c & r & ES & _) & _). cbn [uri_string]. unfold uri_append. rewrite ES. discriminate.
Qed.
Example uri_reparse_ex : exists u, parse_uri (B "SIP:%41@[AbC]:000;X=%3D?q=%20") = POk u /\ Forall no_amp (u_header u) /\
  uri_string (Some u) = B "sip:A@abc;X=%3d?q=%20".
Proof. eexists. split; [vm_compute; reflexivity|]. split; [repeat constructor|reflexivity]. Qed.
(** an escaped & in a header: the text is accepted, its serialisation is another URI, or no URI at all *)
Theorem uri_reparse_refuted :
  (exists s u, parse_uri s = POk u /\ exists e, parse_uri (uri_string (Some u)) = PErr e) /\
  (exists s u v, parse_uri s = POk u /\ parse_uri (uri_string (Some u)) = POk v /\ u <> v).
Proof.
  split.
  - exists (B "sip:h?a=%26"). eexists. split; [vm_compute; reflexivity|]. eexists. vm_compute. reflexivity.
  - exists (B "sip:h?a=x%26b"). eexists _, _. split; [vm_compute; reflexivity|]. split; [vm_compute; reflexivity|]. discriminate.
Qed.

(** ** C09 (URI part): the port *)
(** a port that fits is kept *)
Theorem uri_port_kept_partial : forall s u, parse_uri s = POk u ->
  (u_port u = 0 \/ exists pre d n post, s = pre ++ B ":" ++ d ++ post /\ digits_value d = Some n /\ u_port u = n mod 65536 /\ (n < 65536 -> u_port u = n)).
Proof.
  intros s u H. apply uri_parse_exact in H. destruct H as (sch & inf & hst & prt & par & hdr & -> & _ & _ & _ & HP & _).
  destruct HP as [[_ ->]|(d & n & -> & D & ->)]; [left; reflexivity|right]. exists (sch ++ B ":" ++ inf ++ hst), d, n, (par ++ hdr).
  split; [rewrite <- !app_assoc; reflexivity|]. split; [exact D|]. split; [reflexivity|]. intros L. apply Z.mod_small.
  split; [|exact L]. unfold digits_value in D. destruct d; [discriminate|]. eapply dec_value_nonneg; [|exact D]. lia.
Qed.
(** one that does not is replaced with another port, for every host and every such number *)
Theorem uri_port_wraps_refuted : forall host n, host <> [] -> forallb host_class host = true -> 65536 <= n ->
  exists u, parse_uri (B "sip:" ++ host ++ B ":" ++ utoa n) = POk u /\ u_port u = n mod 65536 /\ u_port u <> n.
Proof.
  intros host n N F L. exists (mkuri (B "sip") [] [] (map lower host) (n mod 65536) [] []). split; [|split; [reflexivity|]].
  - apply uri_parse_exact. exists (B "sip"), [], host, (B ":" ++ utoa n), [], []. cbn [u_scheme u_user u_pass u_host u_port u_param u_header rev]. split; [rewrite !app_nil_r; reflexivity|].
    split; [exists "s"%byte, (B "ip"); repeat split; reflexivity|]. split; [left; auto|]. split; [exists host; auto|]. split; [right; exists (utoa n), n; split; [reflexivity|]; split; [apply utoa_value; lia|reflexivity]|].
    split; [exists []; split; [constructor|reflexivity]|left; auto].
  - cbn [u_port]. pose proof (Z.mod_pos_bound n 65536). lia.
Qed.
Example uri_port_wraps_ex : exists u, parse_uri (B "sip:h:70596") = POk u /\ u_port u = 5060.
Proof. eexists. split; vm_compute; reflexivity. Qed.
Print Assumptions uri_parse_exact.
Print Assumptions uri_parse_rejects.
Print Assumptions uri_parse_total.
Print Assumptions uri_round_trip_partial.
Print Assumptions uri_reparse_stable_partial.
Print Assumptions uri_port_wraps_refuted.
