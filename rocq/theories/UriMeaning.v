(** The grammar's expressions with their actions mean the URI texts of UriSpec. *)
From Verif Require Import Bytes BytesLemmas GoLib GoLibLemmas Auto AutoRe UriTable SdpModel SipText SipTypes UriModel UriGrammar P_Text UriSpec UriProofs.
Local Open Scope Z_scope.

Definition kc (k : ranges) (c : byte) : bool := in_ranges k (to_N c).
Ltac classes := intros c; apply eqb_prop; revert c; by_bytes.
Lemma kc_alpha : forall c, kc k_alpha c = alpha_class c. Proof. classes. Qed.
Lemma kc_scheme : forall c, kc k_schemec c = scheme_class c. Proof. classes. Qed.
Lemma kc_host : forall c, kc k_hostc c = host_class c. Proof. classes. Qed.
Lemma kc_ip6 : forall c, kc k_ipv6c c = ip6_class c. Proof. classes. Qed.
Lemma kc_user : forall c, kc k_userc c = user_class c. Proof. classes. Qed.
Lemma kc_pass : forall c, kc k_passc c = pass_class c. Proof. classes. Qed.
Lemma kc_param : forall c, kc k_paramc c = param_class c. Proof. classes. Qed.
Lemma kc_header : forall c, kc k_headerc c = header_class c. Proof. classes. Qed.
Lemma kc_digit : forall c, kc k_digit c = is_digit c. Proof. classes. Qed.
Lemma kc_hex : forall c, kc k_xdigit c = hex_class c. Proof. classes. Qed.
Lemma kc_eq d : forall c, kc [(to_N d, to_N d)] c = beq c d.
Proof.
  intros c. unfold kc. cbn [in_ranges existsb fst snd]. rewrite orb_false_r. destruct (beq_reflect c d) as [->|N].
  - rewrite N.leb_refl. reflexivity.
  - destruct (N.leb_spec (to_N d) (to_N c)); [|reflexivity]. destruct (N.leb_spec (to_N c) (to_N d)); [|reflexivity]. exfalso. apply N.
    assert (E : to_N c = to_N d) by lia. pose proof (Byte.of_to_N c) as H1. pose proof (Byte.of_to_N d) as H2. rewrite E in H1. congruence.
Qed.

Notation us := (usem) (only parsing).
Lemma u_eps r s r' s' : usem Eps r s r' s' None <-> r' = r /\ s' = s. Proof. apply sem_eps_iff. Qed.
Lemma u_act a r s r' s' : usem (Act a) r s r' s' None <-> r' = r /\ uri_act_free a r s = inl s'. Proof. apply sem_act_iff. Qed.
Lemma u_cls k r s r' s' : usem (Cls k) r s r' s' None <-> exists c, r = c :: r' /\ s' = s /\ kc k c = true.
Proof.
  unfold usem. rewrite sem_cls_iff. split.
  - intros (c & n & -> & -> & H1 & H2). cbn in H1. injection H1 as <-. eauto.
  - intros (c & -> & -> & H). exists c, (to_N c). auto.
Qed.
Lemma u_ch c r s r' s' : usem (ch c) r s r' s' None <-> r = c :: r' /\ s' = s.
Proof.
  unfold ch. rewrite u_cls. split.
  - intros (d & -> & -> & H). rewrite kc_eq in H. apply beq_spec in H. subst. auto.
  - intros [-> ->]. exists c. rewrite kc_eq, beq_refl. auto.
Qed.
Lemma u_seq a b r s r' s' : usem (Seq a b) r s r' s' None <-> exists r1 s1, usem a r s r1 s1 None /\ usem b r1 s1 r' s' None.
Proof. apply sem_seq_iff. Qed.
Lemma u_alt a b r s r' s' : usem (Alt a b) r s r' s' None <-> usem a r s r' s' None \/ usem b r s r' s' None.
Proof. apply sem_alt_iff. Qed.
Lemma u_star a r s r' s' : usem (Star a) r s r' s' None <-> sems uri_act_free byte_look a r s r' s'.
Proof. apply sem_star_iff. Qed.
Lemma u_on a k r s r' s' : usem (on a k) r s r' s' None <-> exists c, r = c :: r' /\ kc k c = true /\ uri_act_free a r s = inl s'.
Proof.
  unfold on. rewrite u_seq. split.
  - intros (r1 & s1 & H1 & H2). apply u_act in H1. destruct H1 as [-> H1]. apply u_cls in H2. destruct H2 as (c & -> & -> & H2). eauto.
  - intros (c & -> & H1 & H2). exists (c :: r'), s'. split; [apply u_act; auto|]. apply u_cls. eauto.
Qed.

(** runs of lower-cased characters *)
Lemma act_lower c r s : uri_act_free ULower (c :: r) s = inl (set_buf s (ubuf s ++ [lower c])).
Proof. unfold uri_act_free, uri_act, fc. apply put_free. reflexivity. Qed.
Lemma set_buf_buf s b : ubuf (set_buf s b) = b. Proof. reflexivity. Qed.
Lemma set_buf_twice s a b : set_buf (set_buf s a) b = set_buf s b. Proof. reflexivity. Qed.
Lemma set_buf_id s : set_buf s (ubuf s) = s. Proof. destruct s; reflexivity. Qed.

Lemma u_lowers k r s r' s' : usem (Star (on ULower k)) r s r' s' None <->
  exists w, r = w ++ r' /\ forallb (kc k) w = true /\ s' = set_buf s (ubuf s ++ map lower w).
Proof.
  rewrite u_star. split.
  - intros H. induction H as [r s|r s r1 s1 r2 s2 H1 H2 IH].
    + exists []. cbn. rewrite app_nil_r, set_buf_id. auto.
    + apply u_on in H1. destruct H1 as (c & -> & H1 & H3). rewrite act_lower in H3. injection H3 as <-.
      destruct IH as (w & -> & F & ->). exists (c :: w). cbn [app forallb map]. rewrite H1, F. split; [reflexivity|]. split; [reflexivity|].
      rewrite set_buf_buf, set_buf_twice, <- app_assoc. reflexivity.
  - intros (w & -> & F & ->). revert s F. induction w as [|c w IH]; intros s F; cbn [app map forallb] in *.
    + rewrite app_nil_r, set_buf_id. constructor.
    + apply andb_prop in F. destruct F as [F1 F2]. econstructor; [apply u_on; exists c; rewrite act_lower; auto|].
      specialize (IH (set_buf s (ubuf s ++ [lower c])) F2). rewrite set_buf_buf, set_buf_twice, <- app_assoc in IH. exact IH.
Qed.
Lemma u_lowers1 k r s r' s' : usem (plus (on ULower k)) r s r' s' None <->
  exists w, r = w ++ r' /\ w <> [] /\ forallb (kc k) w = true /\ s' = set_buf s (ubuf s ++ map lower w).
Proof.
  unfold plus. rewrite u_seq. split.
  - intros (r1 & s1 & H1 & H2). apply u_on in H1. destruct H1 as (c & -> & H1 & H3). rewrite act_lower in H3. injection H3 as <-.
    apply u_lowers in H2. destruct H2 as (w & -> & F & ->). exists (c :: w). cbn [app forallb map]. rewrite H1, F.
    split; [reflexivity|]. split; [discriminate|]. split; [reflexivity|]. rewrite set_buf_buf, set_buf_twice, <- app_assoc. reflexivity.
  - intros (w & -> & N & F & ->). destruct w as [|c w]; [congruence|]. cbn [forallb] in F. apply andb_prop in F. destruct F as [F1 F2].
    exists (w ++ r'), (set_buf s (ubuf s ++ [lower c])). cbn [app]. split; [apply u_on; exists c; rewrite act_lower; auto|].
    apply u_lowers. exists w. split; [reflexivity|]. split; [assumption|]. rewrite set_buf_buf, set_buf_twice, <- app_assoc. reflexivity.
Qed.

(** runs of plain and escaped characters; [last_hex] is what is left in the variable hex *)
Fixpoint last_hex (h : Z) (w : bytes) : Z :=
  match w with
  | [] => h
  | c :: t => if beq c "%" then match t with a :: b :: t' => last_hex (u8 (u8 (unhex a * 16) + unhex b)) t' | _ => h end else last_hex h t
  end.
Definition set_text (s : ustate) (b : bytes) (h : Z) : ustate := mkust (uout s) b (ub1 s) (ub2 s) h.
Lemma unhex_value a : hex_class a = true -> unhex a = hex_value a /\ 0 <= unhex a < 16.
Proof.
  intros H. assert (K : implb (hex_class a) ((unhex a =? hex_value a) && (0 <=? unhex a) && (unhex a <? 16)) = true) by (clear; revert a; by_bytes).
  rewrite H in K. cbn in K. lia.
Qed.
Lemma act_append c r s : uri_act_free UAppend (c :: r) s = inl (set_buf s (ubuf s ++ [c])).
Proof. unfold uri_act_free, uri_act, fc. apply put_free. reflexivity. Qed.

Definition unit_text (k : ranges) (w : bytes) : Prop :=
  (exists c, w = [c] /\ kc k c = true) \/ (exists a b, w = ["%"%byte; a; b] /\ hex_class a = true /\ hex_class b = true).
Lemma u_chr k r s r' s' : kc k "%" = false -> usem (chr k) r s r' s' None <->
  exists w, r = w ++ r' /\ unit_text k w /\ s' = set_text s (ubuf s ++ pct_decode w) (last_hex (uhex s) w).
Proof.
  intros P. unfold chr. rewrite u_alt. split.
  - intros [H|H].
    + unfold escaped in H. apply u_seq in H. destruct H as (r1 & s1 & H1 & H). apply u_ch in H1. destruct H1 as [-> ->].
      apply u_seq in H. destruct H as (r2 & s2 & H1 & H2). apply u_on in H1. destruct H1 as (a & -> & Ka & E1). cbn in E1. injection E1 as <-.
      apply u_on in H2. destruct H2 as (b & -> & Kb & E2). unfold uri_act_free in E2. cbn [uri_act fc ubuf] in E2. rewrite put_free in E2 by reflexivity. injection E2 as <-.
      rewrite kc_hex in Ka, Kb. exists ["%"%byte; a; b]. split; [reflexivity|]. split; [right; eauto|].
      unfold set_text, set_buf. cbn [uout ubuf ub1 ub2 uhex pct_decode last_hex]. rewrite beq_refl. cbn [last_hex].
      destruct (unhex_value a Ka) as [Ea Ra], (unhex_value b Kb) as [Eb Rb]. f_equal. f_equal. f_equal. rewrite <- Ea, <- Eb.
      rewrite (u8_id (unhex a * 16)) by lia. rewrite u8_id by lia. f_equal. lia.
    + apply u_on in H. destruct H as (c & -> & K & E). rewrite act_append in E. injection E as <-. exists [c]. split; [reflexivity|]. split; [left; eauto|].
      assert (Hc : beq c "%" = false) by (apply beq_neq; intros ->; congruence).
      cbn [pct_decode last_hex]. rewrite Hc. reflexivity.
  - intros (w & -> & [(c & -> & K)|(a & b & -> & Ka & Kb)] & ->).
    + right. cbn [app]. apply u_on. exists c. rewrite act_append. split; [reflexivity|]. split; [assumption|].
      assert (Hc : beq c "%" = false) by (apply beq_neq; intros ->; congruence). cbn [pct_decode last_hex]. rewrite Hc. reflexivity.
    + left. unfold escaped. apply u_seq. eexists _, _. split; [apply u_ch; split; reflexivity|]. apply u_seq. eexists _, _. split.
      * apply u_on. exists a. rewrite kc_hex. split; [reflexivity|]. split; [assumption|]. reflexivity.
      * apply u_on. exists b. rewrite kc_hex. split; [reflexivity|]. split; [assumption|]. unfold uri_act_free. cbn [uri_act fc ubuf]. rewrite put_free by reflexivity.
        unfold set_text, set_buf. cbn [uout ubuf ub1 ub2 uhex pct_decode last_hex]. rewrite beq_refl. cbn [last_hex].
        destruct (unhex_value a Ka) as [Ea Ra], (unhex_value b Kb) as [Eb Rb]. f_equal. f_equal. f_equal. f_equal. rewrite <- Ea, <- Eb.
        rewrite (u8_id (unhex a * 16)) by lia. rewrite u8_id by lia. f_equal. lia.
Qed.
Lemma unit_legal k cls w t : (forall c, kc k c = cls c) -> kc k "%" = false -> unit_text k w ->
  legal_text cls (w ++ t) = legal_text cls t /\ pct_decode (w ++ t) = pct_decode w ++ pct_decode t /\ (forall h, last_hex h (w ++ t) = last_hex (last_hex h w) t).
Proof.
  intros C P [(c & -> & K)|(a & b & -> & Ka & Kb)]; cbn [app legal_text pct_decode last_hex].
  - assert (Hc : beq c "%" = false) by (apply beq_neq; intros ->; congruence). rewrite Hc, <- C, K. auto.
  - rewrite beq_refl, Ka, Kb. cbn [andb last_hex app]. auto.
Qed.
Lemma legal_units k cls : (forall c, kc k c = cls c) -> kc k "%" = false -> forall n w, (length w <= n)%nat -> w <> [] -> legal_text cls w = true ->
  exists w1 w2, w = w1 ++ w2 /\ unit_text k w1 /\ legal_text cls w2 = true /\ (length w2 < length w)%nat.
Proof.
  intros C P n w _ N L. destruct w as [|c w]; [congruence|]. cbn [legal_text] in L. destruct (beq c "%") eqn:Hc.
  - apply beq_spec in Hc. subst c. destruct w as [|a [|b w]]; try discriminate. rewrite !andb_true_iff in L. destruct L as [[La Lb] L].
    exists ["%"%byte; a; b], w. split; [reflexivity|]. split; [right; eauto|]. split; [assumption|]. cbn. lia.
  - apply andb_prop in L. destruct L as [L1 L2]. exists [c], w. split; [reflexivity|]. split; [left; exists c; rewrite C; auto|]. split; [assumption|]. cbn. lia.
Qed.
Lemma u_chrs k cls r s r' s' : (forall c, kc k c = cls c) -> kc k "%" = false ->
  usem (Star (chr k)) r s r' s' None <-> exists w, r = w ++ r' /\ legal_text cls w = true /\ s' = set_text s (ubuf s ++ pct_decode w) (last_hex (uhex s) w).
Proof.
  intros C P. rewrite u_star. split.
  - intros H. induction H as [r s|r s r1 s1 r2 s2 H1 H2 IH].
    + exists []. cbn. rewrite app_nil_r. destruct s; auto.
    + apply u_chr in H1; [|assumption]. destruct H1 as (w1 & -> & U & ->). destruct IH as (w & -> & L & ->). exists (w1 ++ w).
      destruct (unit_legal k cls w1 w C P U) as (-> & -> & ->). split; [apply app_assoc|]. split; [assumption|]. unfold set_text. cbn. rewrite app_assoc. reflexivity.
  - intros (w & -> & L & ->). remember (length w) as n eqn:Hn. revert w Hn s L. induction n as [n IH] using (well_founded_induction lt_wf); intros w -> s L.
    destruct w as [|c w0] eqn:E; [cbn; rewrite app_nil_r; destruct s; constructor|]. rewrite <- E in *.
    destruct (legal_units k cls C P (length w) w (le_n _) ltac:(subst; discriminate) L) as (w1 & w2 & -> & U & L2 & LT).
    destruct (unit_legal k cls w1 w2 C P U) as (_ & -> & ->).
    econstructor; [apply u_chr; [assumption|]; exists w1; split; [symmetry; apply app_assoc|]; split; [assumption|reflexivity]|].
    specialize (IH (length w2) LT w2 eq_refl (set_text s (ubuf s ++ pct_decode w1) (last_hex (uhex s) w1)) L2).
    unfold set_text in *. cbn in IH. rewrite <- app_assoc in IH. exact IH.
Qed.
Lemma u_chrs1 k cls r s r' s' : (forall c, kc k c = cls c) -> kc k "%" = false ->
  usem (plus (chr k)) r s r' s' None <-> exists w, r = w ++ r' /\ w <> [] /\ legal_text cls w = true /\ s' = set_text s (ubuf s ++ pct_decode w) (last_hex (uhex s) w).
Proof.
  intros C P. unfold plus. rewrite u_seq. split.
  - intros (r1 & s1 & H1 & H2). apply u_chr in H1; [|assumption]. destruct H1 as (w1 & -> & U & ->). apply (u_chrs k cls) in H2; [|assumption|assumption].
    destruct H2 as (w & -> & L & ->). exists (w1 ++ w). destruct (unit_legal k cls w1 w C P U) as (-> & -> & ->). split; [apply app_assoc|].
    split; [destruct U as [(c & -> & _)|(a & b & -> & _)]; discriminate|]. split; [assumption|]. unfold set_text. cbn. rewrite app_assoc. reflexivity.
  - intros (w & -> & N & L & ->). destruct (legal_units k cls C P (length w) w (le_n _) N L) as (w1 & w2 & -> & U & L2 & _).
    destruct (unit_legal k cls w1 w2 C P U) as (_ & -> & ->). exists (w2 ++ r'), (set_text s (ubuf s ++ pct_decode w1) (last_hex (uhex s) w1)). split.
    + apply u_chr; [assumption|]. exists w1. split; [symmetry; apply app_assoc|]. auto.
    + apply (u_chrs k cls); [assumption|assumption|]. exists w2. split; [reflexivity|]. split; [assumption|]. unfold set_text. cbn. rewrite <- app_assoc. reflexivity.
Qed.
Lemma legal_ext f g w : (forall c, f c = g c) -> legal_text f w = legal_text g w.
Proof.
  intros C. remember (length w) as n eqn:Hn. revert w Hn. induction n as [n IH] using (well_founded_induction lt_wf); intros w ->.
  destruct w as [|c w]; [reflexivity|]. cbn [legal_text]. destruct (beq c "%").
  - destruct w as [|a [|b w]]; try reflexivity. f_equal. apply (IH (length w)); [cbn; lia|reflexivity].
  - rewrite C. f_equal. apply (IH (length w)); [cbn; lia|reflexivity].
Qed.

(** ** Components: the text matched and its effect on the URI being built *)
Definition means (R : ure) (P : bytes -> (uri -> uri) -> Prop) : Prop := forall r r' s,
  (forall s', usem R r s r' s' None -> exists t f, r = t ++ r' /\ P t f /\ uout s' = f (uout s)) /\
  (forall t f, r = t ++ r' -> P t f -> exists s', usem R r s r' s' None /\ uout s' = f (uout s)).

Definition p_seq (P Q : bytes -> (uri -> uri) -> Prop) (t : bytes) (f : uri -> uri) : Prop :=
  exists t1 f1 t2 f2, t = t1 ++ t2 /\ P t1 f1 /\ Q t2 f2 /\ f = fun u => f2 (f1 u).
Definition p_lit (c : bytes) (t : bytes) (f : uri -> uri) : Prop := t = c /\ f = fun u => u.
Inductive p_star (P : bytes -> (uri -> uri) -> Prop) : bytes -> (uri -> uri) -> Prop :=
| ps_nil : p_star P [] (fun u => u)
| ps_cons t1 f1 t2 f2 : P t1 f1 -> p_star P t2 f2 -> p_star P (t1 ++ t2) (fun u => f2 (f1 u)).

Lemma m_seq A C P Q : means A P -> means C Q -> means (Seq A C) (p_seq P Q).
Proof.
  intros HA HC r r' s. split.
  - intros s' H. apply u_seq in H. destruct H as (r1 & s1 & H1 & H2). destruct (proj1 (HA r r1 s) _ H1) as (t1 & f1 & -> & P1 & E1).
    destruct (proj1 (HC r1 r' s1) _ H2) as (t2 & f2 & -> & P2 & E2). exists (t1 ++ t2), (fun u => f2 (f1 u)). split; [apply app_assoc|].
    split; [exists t1, f1, t2, f2; auto|]. congruence.
  - intros t f -> (t1 & f1 & t2 & f2 & -> & P1 & P2 & ->).
    destruct (proj2 (HA ((t1 ++ t2) ++ r') (t2 ++ r') s) t1 f1 (eq_sym (app_assoc _ _ _)) P1) as (s1 & H1 & E1).
    destruct (proj2 (HC (t2 ++ r') r' s1) t2 f2 eq_refl P2) as (s2 & H2 & E2). exists s2. split; [apply u_seq; eauto|]. congruence.
Qed.
Lemma m_alt A C P Q : means A P -> means C Q -> means (Alt A C) (fun t f => P t f \/ Q t f).
Proof.
  intros HA HC r r' s. split.
  - intros s' H. apply u_alt in H. destruct H as [H|H]; [destruct (proj1 (HA r r' s) _ H) as (t & f & ? & ? & ?)|destruct (proj1 (HC r r' s) _ H) as (t & f & ? & ? & ?)]; eauto 7.
  - intros t f E [H|H]; [destruct (proj2 (HA r r' s) t f E H) as (s' & ? & ?)|destruct (proj2 (HC r r' s) t f E H) as (s' & ? & ?)];
      exists s'; (split; [apply u_alt; auto|assumption]).
Qed.
Lemma m_eps : means Eps (p_lit []).
Proof.
  intros r r' s. split.
  - intros s' H. apply u_eps in H. destruct H as [-> ->]. exists [], (fun u => u). split; [reflexivity|]. split; [split; reflexivity|reflexivity].
  - intros t f -> [-> ->]. exists s. split; [apply u_eps; auto|reflexivity].
Qed.
Lemma m_ch c : means (ch c) (p_lit [c]).
Proof.
  intros r r' s. split.
  - intros s' H. apply u_ch in H. destruct H as [-> ->]. exists [c], (fun u => u). split; [reflexivity|]. split; [split; reflexivity|reflexivity].
  - intros t f -> [-> ->]. exists s. split; [apply u_ch; auto|reflexivity].
Qed.
Lemma m_star A P : means A P -> means (Star A) (p_star P).
Proof.
  intros HA r r' s. split.
  - intros s' H. apply u_star in H. induction H as [r s|r s r1 s1 r2 s2 H1 H2 IH].
    + exists [], (fun u => u). split; [reflexivity|]. split; [constructor|reflexivity].
    + destruct (proj1 (HA r r1 s) _ H1) as (t1 & f1 & -> & P1 & E1). destruct IH as (t2 & f2 & -> & P2 & E2).
      exists (t1 ++ t2), (fun u => f2 (f1 u)). split; [apply app_assoc|]. split; [constructor; assumption|]. congruence.
  - intros t f -> H. revert s. induction H as [|t1 f1 t2 f2 P1 P2 IH]; intros s.
    + exists s. split; [apply u_star; constructor|reflexivity].
    + destruct (proj2 (HA ((t1 ++ t2) ++ r') (t2 ++ r') s) t1 f1 (eq_sym (app_assoc _ _ _)) P1) as (s1 & H1 & E1).
      destruct (IH s1) as (s2 & H2 & E2). exists s2. split; [|congruence]. apply u_star. apply u_star in H2. econstructor; eassumption.
Qed.
Definition refines (P Q : bytes -> (uri -> uri) -> Prop) : Prop := forall t f, P t f -> exists f', Q t f' /\ forall u, f' u = f u.
Lemma m_weaken A (P Q : bytes -> (uri -> uri) -> Prop) : means A P -> refines P Q -> refines Q P -> means A Q.
Proof.
  intros H K1 K2 r r' s. split.
  - intros s' HS. destruct (proj1 (H r r' s) _ HS) as (t & f & ? & HP & ?). destruct (K1 _ _ HP) as (f' & HQ & X). exists t, f'. rewrite X. auto.
  - intros t f E HQ. destruct (K2 _ _ HQ) as (f' & HP & X). destruct (proj2 (H r r' s) t f' E HP) as (s' & ? & ?). exists s'. split; [assumption|]. congruence.
Qed.
Lemma forallb_same {X} (f g : X -> bool) (H : forall x, f x = g x) l : forallb f l = forallb g l.
Proof. induction l as [|x l IH]; cbn; [reflexivity|]. rewrite H, IH. reflexivity. Qed.

Definition put_scheme v u := mkuri v (u_user u) (u_pass u) (u_host u) (u_port u) (u_param u) (u_header u).
Definition put_user v u := mkuri (u_scheme u) v (u_pass u) (u_host u) (u_port u) (u_param u) (u_header u).
Definition put_pass v u := mkuri (u_scheme u) (u_user u) v (u_host u) (u_port u) (u_param u) (u_header u).
Definition put_host v u := mkuri (u_scheme u) (u_user u) (u_pass u) v (u_port u) (u_param u) (u_header u).
Definition put_port v u := mkuri (u_scheme u) (u_user u) (u_pass u) (u_host u) v (u_param u) (u_header u).
Definition put_param p u := mkuri (u_scheme u) (u_user u) (u_pass u) (u_host u) (u_port u) (p :: u_param u) (u_header u).
Definition put_header p u := mkuri (u_scheme u) (u_user u) (u_pass u) (u_host u) (u_port u) (u_param u) (p :: u_header u).

Ltac act_in H := apply u_act in H; let E := fresh "E" in destruct H as [-> E]; unfold uri_act_free in E; cbn [uri_act] in E; injection E as <-.
Ltac act_out := apply u_act; split; reflexivity.
Ltac seq_in H r1 s1 := apply u_seq in H; let K := fresh in destruct H as (r1 & s1 & K & H); revert K; intros K.

Lemma m_scheme : means g_scheme (fun t f => exists v, scheme_text t v /\ f = put_scheme v).
Proof.
  intros r r' s. split.
  - intros s' H. unfold g_scheme in H. apply u_seq in H. destruct H as (r1 & s1 & H1 & H). act_in H1.
    apply u_seq in H. destruct H as (r1 & s1 & H1 & H). apply u_on in H1. destruct H1 as (c & -> & K & E). rewrite act_lower in E. injection E as <-.
    apply u_seq in H. destruct H as (r2 & s2 & H1 & H). apply u_lowers in H1. destruct H1 as (w & -> & F & ->). act_in H.
    exists (c :: w), (put_scheme (lower c :: map lower w)). split; [reflexivity|]. split; [|reflexivity]. eexists. split; [|reflexivity].
    exists c, w. rewrite <- kc_alpha. rewrite (forallb_same _ _ kc_scheme) in F. auto.
  - intros t f -> (v & (c & w & -> & K1 & K2 & ->) & ->). rewrite <- kc_alpha in K1. rewrite <- (forallb_same _ _ kc_scheme) in K2.
    eexists. split.
    + unfold g_scheme. apply u_seq. eexists _, _. split; [act_out|]. apply u_seq. eexists _, _. cbn [app]. split; [apply u_on; exists c; rewrite act_lower; auto|].
      apply u_seq. eexists _, _. split; [apply u_lowers; exists w; split; [reflexivity|]; split; [exact K2|reflexivity]|]. act_out.
    + reflexivity.
Qed.

Lemma m_text k cls a put : (forall c, kc k c = cls c) -> kc k "%" = false ->
  (forall rest s, uri_act_free a rest s = inl (set_out s (put (ubuf s) (uout s)))) ->
  means (Seq (Act UStart) (Seq (plus (chr k)) (Act a))) (fun t f => exists v, t <> [] /\ slot cls v t /\ f = put v).
Proof.
  intros C P Ha r r' s. split.
  - intros s' H. apply u_seq in H. destruct H as (r1 & s1 & H1 & H). act_in H1. apply u_seq in H. destruct H as (r1 & s1 & H1 & H).
    apply (u_chrs1 k cls) in H1; [|assumption|assumption]. destruct H1 as (w & -> & N & L & ->). apply u_act in H. destruct H as [-> H]. rewrite Ha in H. injection H as <-.
    exists w, (put (pct_decode w)). split; [reflexivity|]. split; [|reflexivity]. exists (pct_decode w). unfold slot. auto.
  - intros t f -> (v & N & [L D] & ->). eexists. split.
    + apply u_seq. eexists _, _. split; [act_out|]. apply u_seq. eexists _, _. split.
      * apply (u_chrs1 k cls); [assumption|assumption|]. exists t. split; [reflexivity|]. split; [exact N|]. split; [exact L|reflexivity].
      * apply u_act. split; [reflexivity|]. apply Ha.
    + cbn. rewrite D. reflexivity.
Qed.
Lemma m_user : means g_user (fun t f => exists v, t <> [] /\ slot user_class v t /\ f = put_user v).
Proof. apply m_text; [exact kc_user|reflexivity|reflexivity]. Qed.
Lemma m_pass : means g_pass (fun t f => exists v, t <> [] /\ slot pass_class v t /\ f = put_pass v).
Proof. apply m_text; [exact kc_pass|reflexivity|reflexivity]. Qed.

Lemma m_lowers k cls a put : (forall c, kc k c = cls c) ->
  (forall rest s, uri_act_free a rest s = inl (set_out s (put (ubuf s) (uout s)))) ->
  means (Seq (Act UStart) (Seq (plus (on ULower k)) (Act a))) (fun t f => t <> [] /\ forallb cls t = true /\ f = put (map lower t)).
Proof.
  intros C Ha r r' s. split.
  - intros s' H. apply u_seq in H. destruct H as (r1 & s1 & H1 & H). act_in H1. apply u_seq in H. destruct H as (r1 & s1 & H1 & H).
    apply u_lowers1 in H1. destruct H1 as (w & -> & N & L & ->). apply u_act in H. destruct H as [-> H]. rewrite Ha in H. injection H as <-.
    exists w, (put (map lower w)). rewrite (forallb_same _ _ C) in L. auto.
  - intros t f -> (N & L & ->). rewrite <- (forallb_same _ _ C) in L. eexists. split.
    + apply u_seq. eexists _, _. split; [act_out|]. apply u_seq. eexists _, _. split.
      * apply u_lowers1. exists t. split; [reflexivity|]. split; [exact N|]. split; [exact L|reflexivity].
      * apply u_act. split; [reflexivity|]. apply Ha.
    + reflexivity.
Qed.
(** in the grammar the closing bracket follows the leaving action *)
Lemma m_assoc A C D P : means (Seq (Seq A C) D) P -> means (Seq A (Seq C D)) P.
Proof.
  intros H r r' s. destruct (H r r' s) as [H1 H2].
  assert (K : forall s', usem (Seq A (Seq C D)) r s r' s' None <-> usem (Seq (Seq A C) D) r s r' s' None).
  { intros s'. split; intros X.
    - apply u_seq in X. destruct X as (r1 & s1 & X1 & X). apply u_seq in X. destruct X as (r2 & s2 & X2 & X3). apply u_seq. eexists _, _. split; [apply u_seq; eauto|eauto].
    - apply u_seq in X. destruct X as (r1 & s1 & X & X1). apply u_seq in X. destruct X as (r2 & s2 & X2 & X3). apply u_seq. eexists _, _. split; [eauto|]. apply u_seq. eauto. }
  split.
  - intros s' X. apply K in X. exact (H1 _ X).
  - intros t f E X. destruct (H2 t f E X) as (s' & X1 & X2). exists s'. split; [apply K; exact X1|exact X2].
Qed.
Lemma u_assoc A C D r s r' s' : usem (Seq A (Seq C D)) r s r' s' None <-> usem (Seq (Seq A C) D) r s r' s' None.
Proof.
  split; intros X.
  - apply u_seq in X. destruct X as (r1 & s1 & X1 & X). apply u_seq in X. destruct X as (r2 & s2 & X2 & X3). apply u_seq. eexists _, _. split; [apply u_seq; eauto|eauto].
  - apply u_seq in X. destruct X as (r1 & s1 & X & X1). apply u_seq in X. destruct X as (r2 & s2 & X2 & X3). apply u_seq. eexists _, _. split; [eauto|]. apply u_seq. eauto.
Qed.
Lemma m_host : means g_host (fun t f => exists v, host_text t v /\ f = put_host v).
Proof.
  assert (H1 : means g_host6 (fun t f => exists x, t = B "[" ++ x ++ B "]" /\ x <> [] /\ forallb ip6_class x = true /\ f = put_host (map lower x))).
  { assert (H : means (Seq (ch "[") (Seq (Seq (Act UStart) (Seq (plus (on ULower k_ipv6c)) (Act UHost))) (ch "]")))
              (p_seq (p_lit (B "[")) (p_seq (fun t f => t <> [] /\ forallb ip6_class t = true /\ f = put_host (map lower t)) (p_lit (B "]"))))).
    { apply m_seq; [apply m_ch|]. apply m_seq; [|apply m_ch]. apply m_lowers; [exact kc_ip6|reflexivity]. }
    intros r r' s. destruct (H r r' s) as [HA HB]. unfold g_host6. split.
    - intros s' X. destruct (HA s') as (t & f & E & (t1 & f1 & t2 & f2 & -> & [-> ->] & (t3 & f3 & t4 & f4 & -> & (N & F & ->) & [-> ->] & ->) & ->) & K).
      + apply u_seq in X. destruct X as (r1 & s1 & X1 & X). apply u_seq. exists r1, s1. split; [exact X1|]. apply -> u_assoc. apply u_seq in X. destruct X as (r2 & s2 & X2 & X).
        apply u_seq. exists r2, s2. split; [exact X2|]. apply u_assoc. exact X.
      + exists (B "[" ++ t3 ++ B "]"), (put_host (map lower t3)). split; [exact E|]. split; [eauto 7|exact K].
    - intros t f -> (x & -> & N & F & ->). destruct (HB (B "[" ++ x ++ B "]") (put_host (map lower x)) eq_refl) as (s' & X & K).
      + exists (B "["), (fun u => u), (x ++ B "]"), (put_host (map lower x)). split; [reflexivity|]. split; [split; reflexivity|]. split; [|reflexivity].
        exists x, (put_host (map lower x)), (B "]"), (fun u => u). split; [reflexivity|]. split; [auto|]. split; [split; reflexivity|reflexivity].
      + exists s'. split; [|exact K]. apply u_seq in X. destruct X as (r1 & s1 & X1 & X). apply u_seq. exists r1, s1. split; [exact X1|].
        apply u_seq in X. destruct X as (r2 & s2 & X2 & X3). apply u_seq in X2. destruct X2 as (r3 & s3 & X4 & X5). apply u_seq. exists r3, s3. split; [exact X4|].
        apply u_assoc. apply u_seq. exists r2, s2. auto. }
  assert (H2 : means (Seq (Act UStart) (Seq (plus (on ULower k_hostc)) (Act UHost))) (fun t f => t <> [] /\ forallb host_class t = true /\ f = put_host (map lower t))).
  { apply m_lowers; [exact kc_host|reflexivity]. }
  unfold g_host. eapply m_weaken; [apply m_alt; [exact H1|exact H2]| |].
  - intros t f [(x & -> & N & F & ->)|(N & F & ->)]; eexists; (split; [|intros u; reflexivity]); eexists; (split; [|reflexivity]); eexists; (split; [exact N|]); (split; [reflexivity|]); auto.
  - intros t f (v & (x & N & -> & [[-> F]|[-> F]]) & ->); eexists; (split; [|intros u; reflexivity]); [right|left]; eauto 7.
Qed.

Definition port_fold (n : Z) (d : bytes) : Z := fold_left (fun a c => u16 (a * 10 + u8 (bz c - 48))) d n.
Lemma act_port c r s : uri_act_free UPort (c :: r) s = inl (set_out s (put_port (u16 (u_port (uout s) * 10 + u8 (bz c - 48))) (uout s))).
Proof. reflexivity. Qed.
Lemma m_port1 : means (on UPort k_digit) (fun t f => exists c, t = [c] /\ is_digit c = true /\ f = fun u => put_port (u16 (u_port u * 10 + u8 (bz c - 48))) u).
Proof.
  intros r r' s. split.
  - intros s' H. apply u_on in H. destruct H as (c & -> & K & E). rewrite act_port in E. injection E as <-. rewrite kc_digit in K.
    exists [c], (fun u => put_port (u16 (u_port u * 10 + u8 (bz c - 48))) u). split; [reflexivity|]. split; [eauto|reflexivity].
  - intros t f -> (c & -> & K & ->). eexists. split; [apply u_on; exists c; rewrite kc_digit; split; [reflexivity|]; split; [exact K|apply act_port]|reflexivity].
Qed.
Lemma put_port_twice a b u : put_port a (put_port b u) = put_port a u. Proof. reflexivity. Qed.
Lemma put_port_id u : put_port (u_port u) u = u. Proof. destruct u; reflexivity. Qed.
Lemma ports_star : refines (p_star (fun t f => exists c, t = [c] /\ is_digit c = true /\ f = fun u => put_port (u16 (u_port u * 10 + u8 (bz c - 48))) u))
  (fun t f => forallb is_digit t = true /\ f = fun u => put_port (port_fold (u_port u) t) u).
Proof.
  intros t f H. eexists. enough (X : forallb is_digit t = true /\ forall u, put_port (port_fold (u_port u) t) u = f u) by (split; [split; [apply X|reflexivity]|apply X]).
  induction H as [|t1 f1 t2 f2 (c & -> & K & ->) HS [IH1 IH2]].
  - split; [reflexivity|]. apply put_port_id.
  - split; [cbn; rewrite K; exact IH1|]. intros u. rewrite <- IH2. reflexivity.
Qed.
Lemma ports_star2 : refines (fun t f => forallb is_digit t = true /\ f = fun u => put_port (port_fold (u_port u) t) u)
  (p_star (fun t f => exists c, t = [c] /\ is_digit c = true /\ f = fun u => put_port (u16 (u_port u * 10 + u8 (bz c - 48))) u)).
Proof.
  intros t f [H ->]. induction t as [|c t IH].
  - eexists. split; [constructor|]. intros u. symmetry. apply put_port_id.
  - cbn [forallb] in H. apply andb_prop in H. destruct H as [H1 H2]. destruct (IH H2) as (f' & P & E).
    eexists. split; [apply (ps_cons _ [c] (fun u => put_port (u16 (u_port u * 10 + u8 (bz c - 48))) u) t f'); [exists c; split; [reflexivity|]; split; [exact H1|reflexivity]|exact P]|].
    intros u. cbv beta. rewrite E. reflexivity.
Qed.
Lemma m_port : means g_port (fun t f => t <> [] /\ forallb is_digit t = true /\ f = fun u => put_port (port_fold (u_port u) t) u).
Proof.
  unfold g_port, plus. eapply m_weaken; [eapply m_seq; [exact m_port1|eapply m_weaken; [apply m_star, m_port1|exact ports_star|exact ports_star2]]| |].
  - intros t f (t1 & f1 & t2 & f2 & -> & (c & -> & K & ->) & [F ->] & ->). eexists. split; [split; [discriminate|split; [|reflexivity]]|].
    + cbn. rewrite K. exact F.
    + reflexivity.
  - intros t f (N & F & ->). destruct t as [|c t]; [congruence|]. cbn in F. apply andb_prop in F. destruct F as [F1 F2].
    eexists. split; [exists [c], (fun u => put_port (u16 (u_port u * 10 + u8 (bz c - 48))) u), t; eexists; split; [reflexivity|]; split; [eauto|]; split; [split; [exact F2|reflexivity]|reflexivity]|].
    reflexivity.
Qed.
Lemma port_fold_value d : forall n v, dec_value n d = Some v -> port_fold (n mod 65536) d = v mod 65536.
Proof.
  induction d as [|c d IH]; intros n v H; cbn [dec_value] in H; [injection H as ->; reflexivity|].
  destruct (digit_val c) as [x|] eqn:D; [|discriminate]. unfold port_fold. cbn [fold_left].
  assert (X : u16 (n mod 65536 * 10 + u8 (bz c - 48)) = (n * 10 + x) mod 65536).
  { unfold digit_val in D. destruct (is_digit c) eqn:I; [|discriminate]. injection D as <-. unfold is_digit, in_range in I.
    unfold u8. rewrite (Z.mod_small (bz c - 48)) by lia. unfold u16. rewrite <- Z.add_mod_idemp_l by lia. rewrite Z.mul_mod_idemp_l by lia. rewrite Z.add_mod_idemp_l by lia. reflexivity. }
  rewrite X. apply IH. exact H.
Qed.

(** name[=value] *)
Lemma pct_decode_nonempty w : w <> [] -> pct_decode w <> [].
Proof. destruct w as [|c w]; [congruence|]. intros _. cbn [pct_decode]. destruct (beq c "%"); [destruct w as [|a [|b w]]|]; discriminate. Qed.
Lemma m_kv k cls a put : (forall c, kc k c = cls c) -> kc k "%" = false ->
  (forall rest s, uri_act_free a rest s = inl (set_out s (put (ub1 s, ub2 s) (uout s)))) ->
  means (g_kv k a) (fun t f => exists p, item_text cls p t /\ f = put p).
Proof.
  intros C P Ha r r' s. unfold g_kv. split.
  - intros s' H. apply u_seq in H. destruct H as (r1 & s1 & H1 & H). act_in H1. apply u_seq in H. destruct H as (r1 & s1 & H1 & H). act_in H1.
    apply u_seq in H. destruct H as (r1 & s1 & H1 & H). apply (u_chrs1 k cls) in H1; [|assumption|assumption]. destruct H1 as (w & -> & N & L & ->).
    apply u_seq in H. destruct H as (r2 & s2 & H1 & H). act_in H1. apply u_seq in H. destruct H as (r2 & s2 & H1 & H). apply u_alt in H1.
    apply u_act in H. destruct H as [-> H]. rewrite Ha in H. injection H as <-.
    destruct H1 as [H1|H1].
    + apply u_eps in H1. destruct H1 as [-> ->]. exists w, (put (pct_decode w, [])). split; [reflexivity|]. split; [|reflexivity]. eexists. split; [|reflexivity].
      exists w, []. rewrite app_nil_r. unfold slot. cbn. auto 7.
    + apply u_seq in H1. destruct H1 as (r3 & s3 & H1 & H). apply u_ch in H1. destruct H1 as [-> ->]. apply u_seq in H. destruct H as (r4 & s4 & H1 & H). act_in H1.
      apply u_seq in H. destruct H as (r5 & s5 & H1 & H). apply (u_chrs1 k cls) in H1; [|assumption|assumption]. destruct H1 as (w2 & -> & N2 & L2 & ->). act_in H.
      exists (w ++ B "=" ++ w2), (put (pct_decode w, pct_decode w2)). split; [rewrite <- !app_assoc; reflexivity|]. split; [|reflexivity]. eexists. split; [|reflexivity].
      exists w, (B "=" ++ w2). unfold slot. cbn [fst snd]. split; [reflexivity|]. split; [assumption|]. split; [auto|]. right. exists w2. auto.
  - intros t f -> ([n v] & (tn & tv & -> & N & [L D] & V) & ->). cbn [fst snd] in *. rewrite <- app_assoc.
    destruct V as [[-> ->]|(x & -> & N2 & [L2 D2])].
    + eexists. split.
      * apply u_seq. eexists _, _. split; [act_out|]. apply u_seq. eexists _, _. split; [act_out|]. apply u_seq. eexists _, _.
        split; [apply (u_chrs1 k cls); [assumption|assumption|]; exists tn; split; [reflexivity|]; split; [exact N|]; split; [exact L|reflexivity]|].
        apply u_seq. eexists _, _. split; [act_out|]. apply u_seq. eexists _, _. split; [apply u_alt; left; apply u_eps; split; reflexivity|].
        apply u_act. split; [reflexivity|]. apply Ha.
      * cbn. rewrite D. reflexivity.
    + eexists. split.
      * apply u_seq. eexists _, _. split; [act_out|]. apply u_seq. eexists _, _. split; [act_out|]. apply u_seq. eexists _, _.
        split; [apply (u_chrs1 k cls); [assumption|assumption|]; exists tn; split; [reflexivity|]; split; [exact N|]; split; [exact L|reflexivity]|].
        apply u_seq. eexists _, _. split; [act_out|]. apply u_seq. eexists _, _. split.
        { apply u_alt. right. apply u_seq. eexists _, _. split; [apply u_ch; split; reflexivity|]. apply u_seq. eexists _, _. split; [act_out|]. apply u_seq. eexists _, _.
          split; [apply (u_chrs1 k cls); [assumption|assumption|]; exists x; split; [reflexivity|]; split; [exact N2|]; split; [exact L2|reflexivity]|]. act_out. }
        apply u_act. split; [reflexivity|]. apply Ha.
      * cbn. rewrite D, D2. reflexivity.
Qed.

(** lists of items *)
Section Items.
Variables (cls : byte -> bool) (sep : byte) (put : param -> uri -> uri) (puts : list param -> uri -> uri).
Hypothesis puts_nil : forall u, puts [] u = u.
Hypothesis puts_cons : forall p ps u, puts (p :: ps) u = puts ps (put p u).
Definition p_item (t : bytes) (f : uri -> uri) : Prop := exists p, item_text cls p t /\ f = put p.
Definition p_items (t : bytes) (f : uri -> uri) : Prop :=
  exists ps ts, Forall2 (item_text cls) ps ts /\ t = concat (map (fun x => [sep] ++ x) ts) /\ f = puts ps.
Lemma items_star1 : refines (p_star (p_seq (p_lit [sep]) p_item)) p_items.
Proof.
  intros t f H. enough (X : exists ps ts, Forall2 (item_text cls) ps ts /\ t = concat (map (fun x => [sep] ++ x) ts) /\ forall u, puts ps u = f u).
  { destruct X as (ps & ts & X1 & X2 & X3). exists (puts ps). split; [exists ps, ts; auto|exact X3]. }
  induction H as [|t1 f1 t2 f2 (t3 & f3 & t4 & f4 & -> & [-> ->] & (p & I & ->) & ->) HS (ps & ts & X1 & -> & X3)].
  - exists [], []. split; [constructor|]. split; [reflexivity|]. apply puts_nil.
  - exists (p :: ps), (t4 :: ts). split; [constructor; assumption|]. split; [reflexivity|]. intros u. rewrite puts_cons. apply X3.
Qed.
Lemma items_star2 : refines p_items (p_star (p_seq (p_lit [sep]) p_item)).
Proof.
  intros t f (ps & ts & F & -> & ->). induction F as [|p x ps ts I F IH].
  - exists (fun u => u). split; [constructor|]. intros u. symmetry. apply puts_nil.
  - destruct IH as (f' & P & E). exists (fun u => f' (put p u)). split; [|intros u; rewrite puts_cons; apply E].
    cbn [map concat]. change (fun u => f' (put p u)) with (fun u => f' ((fun v => put p v) u)). constructor; [|exact P].
    exists [sep], (fun u => u), x, (put p). split; [reflexivity|]. split; [split; reflexivity|]. split; [exists p; auto|reflexivity].
Qed.
End Items.

Definition put_params ps u := mkuri (u_scheme u) (u_user u) (u_pass u) (u_host u) (u_port u) (rev ps ++ u_param u) (u_header u).
Definition put_headers hs u := mkuri (u_scheme u) (u_user u) (u_pass u) (u_host u) (u_port u) (u_param u) (rev hs ++ u_header u).
Lemma put_params_cons p ps u : put_params (p :: ps) u = put_params ps (put_param p u).
Proof. unfold put_params, put_param. cbn. rewrite <- app_assoc. reflexivity. Qed.
Lemma put_headers_cons p ps u : put_headers (p :: ps) u = put_headers ps (put_header p u).
Proof. unfold put_headers, put_header. cbn. rewrite <- app_assoc. reflexivity. Qed.
Lemma put_params_nil u : put_params [] u = u. Proof. destruct u; reflexivity. Qed.
Lemma put_headers_nil u : put_headers [] u = u. Proof. destruct u; reflexivity. Qed.

Lemma m_params : means g_params (fun t f => exists ps, params_text t ps /\ f = put_params ps).
Proof.
  unfold g_params. eapply m_weaken.
  - apply m_star. apply m_seq; [apply m_ch|]. apply (m_kv _ param_class _ put_param); [exact kc_param|reflexivity|reflexivity].
  - intros t f H. destruct (items_star1 param_class ";" put_param put_params put_params_nil put_params_cons t f H) as (f' & (ps & ts & X1 & X2 & ->) & X3).
    exists (put_params ps). split; [|exact X3]. exists ps. split; [exists ts; auto|reflexivity].
  - intros t f (ps & (ts & X1 & X2) & ->). apply (items_star2 param_class ";" put_param put_params put_params_nil put_params_cons). exists ps, ts. auto.
Qed.
Lemma m_headers : means g_headers (fun t f => exists hs, headers_text t hs /\ f = put_headers hs).
Proof.
  unfold g_headers. eapply m_weaken.
  - apply m_alt; [apply m_eps|]. apply m_seq; [apply m_ch|]. apply m_seq; [apply (m_kv _ header_class _ put_header); [exact kc_header|reflexivity|reflexivity]|].
    apply m_star. apply m_seq; [apply m_ch|]. apply (m_kv _ header_class _ put_header); [exact kc_header|reflexivity|reflexivity].
  - intros t f [[-> ->]|(t1 & f1 & t2 & f2 & -> & [-> ->] & (t3 & f3 & t4 & f4 & -> & (p & I & ->) & HS & ->) & ->)].
    + exists (put_headers []). split; [exists []; split; [left; auto|reflexivity]|]. apply put_headers_nil.
    + destruct (items_star1 header_class "&" put_header put_headers put_headers_nil put_headers_cons t4 f4 HS) as (f' & (ps & ts & X1 & -> & ->) & X3).
      exists (put_headers (p :: ps)). split; [|intros u; rewrite put_headers_cons; apply X3].
      exists (p :: ps). split; [|reflexivity]. right. exists t3, ts. split; [constructor; assumption|reflexivity].
  - intros t f (hs & [[-> ->]|(x & ts & F & ->)] & ->).
    + exists (fun u => u). split; [left; split; reflexivity|]. intros u. symmetry. apply put_headers_nil.
    + destruct hs as [|p hs]; [inversion F|]. assert (I : item_text header_class p x /\ Forall2 (item_text header_class) hs ts) by (inversion F; auto). clear F. destruct I as [I F].
      destruct (items_star2 header_class "&" put_header put_headers put_headers_nil put_headers_cons (concat (map (fun x => ["&"%byte] ++ x) ts)) (put_headers hs)) as (f' & P & E).
      { exists hs, ts. auto. }
      exists (fun u => f' (put_header p u)). split; [|intros u; rewrite put_headers_cons; apply E]. right.
      exists (B "?"), (fun u => u). eexists _, _. split; [reflexivity|]. split; [split; reflexivity|]. split; [|reflexivity].
      exists x, (put_header p). eexists _, _. split; [reflexivity|]. split; [exists p; auto|]. split; [exact P|reflexivity].
Qed.
Lemma m_portopt : means (Alt Eps (Seq (ch ":") g_port))
  (fun t f => (t = [] /\ f = fun u => u) \/ exists d, t = B ":" ++ d /\ d <> [] /\ forallb is_digit d = true /\ f = fun u => put_port (port_fold (u_port u) d) u).
Proof.
  eapply m_weaken; [apply m_alt; [apply m_eps|apply m_seq; [apply m_ch|apply m_port]]| |].
  - intros t f [H|(t1 & f1 & t2 & f2 & -> & [-> ->] & (N & F & ->) & ->)]; [exists f; split; [left; exact H|reflexivity]|].
    eexists. split; [right; exists t2; split; [reflexivity|]; split; [exact N|]; split; [exact F|reflexivity]|reflexivity].
  - intros t f [H|(d & -> & N & F & ->)]; [exists f; split; [left; exact H|reflexivity]|].
    eexists. split; [right; exists (B ":"), (fun u => u), d; eexists; split; [reflexivity|]; split; [split; reflexivity|]; split; [split; [exact N|split; [exact F|reflexivity]]|reflexivity]|reflexivity].
Qed.
Lemma m_userpass : means g_userpass (fun t f => exists tu tp user pass, t = tu ++ tp /\ tu <> [] /\ slot user_class user tu /\
    ((tp = [] /\ f = put_user user) \/ exists x, tp = B ":" ++ x /\ x <> [] /\ slot pass_class pass x /\ f = fun u => put_pass pass (put_user user u))).
Proof.
  unfold g_userpass. eapply m_weaken; [apply m_seq; [apply m_user|apply m_alt; [apply m_eps|apply m_seq; [apply m_ch|apply m_pass]]]| |].
  - intros t f (t1 & f1 & t2 & f2 & -> & (v & N & L & ->) & H & ->). destruct H as [[-> ->]|(t3 & f3 & t4 & f4 & -> & [-> ->] & (w & N2 & L2 & ->) & ->)].
    + exists (put_user v). split; [|reflexivity]. exists t1, [], v, []. auto 9.
    + exists (fun u => put_pass w (put_user v u)). split; [|reflexivity]. exists t1, (B ":" ++ t4), v, w. split; [reflexivity|]. split; [assumption|]. split; [assumption|]. right. exists t4. auto.
  - intros t f (tu & tp & user & pass & -> & N & L & [[-> ->]|(x & -> & N2 & L2 & ->)]).
    + exists (fun u => (fun v => v) (put_user user u)). split; [|reflexivity]. exists tu, (put_user user), [], (fun u => u). split; [reflexivity|]. split; [eauto|]. split; [left; split; reflexivity|reflexivity].
    + exists (fun u => put_pass pass (put_user user u)). split; [|reflexivity]. exists tu, (put_user user), (B ":" ++ x), (put_pass pass). split; [reflexivity|]. split; [eauto|]. split; [|reflexivity].
      right. exists (B ":"), (fun u => u), x, (put_pass pass). split; [reflexivity|]. split; [split; reflexivity|]. split; [eauto|reflexivity].
Qed.

(** ** The whole URI *)
Lemma tail_in r s s' : usem g_tail r s [] s' None -> u_port (uout s) = 0 ->
  exists hst prt par hdr v n ps hs, r = hst ++ prt ++ par ++ hdr /\ host_text hst v /\ port_text prt n /\ params_text par ps /\ headers_text hdr hs /\
    uout s' = put_headers hs (put_params ps (put_port n (put_host v (uout s)))).
Proof.
  intros H Z0. assert (M : means g_tail _) by (apply m_seq; [apply m_seq; [apply m_host|apply m_portopt]|apply m_seq; [apply m_params|apply m_headers]]).
  destruct (proj1 (M r [] s) _ H) as (t & f & -> & (t1 & f1 & t2 & f2 & -> & (t3 & f3 & t4 & f4 & -> & (v & Hv & ->) & HP & ->) & (t5 & f5 & t6 & f6 & -> & (ps & Hps & ->) & (hs & Hhs & ->) & ->) & ->) & E).
  rewrite app_nil_r. destruct HP as [[-> ->]|(d & -> & N & F & ->)].
  - exists t3, [], t5, t6, v, 0, ps, hs. rewrite app_nil_r. repeat (split; [solve [auto|left; auto]|]). rewrite E. rewrite <- Z0. reflexivity.
  - destruct (digits_have_value d N F) as (n & Hn & _). exists t3, (B ":" ++ d), t5, t6, v, (n mod 65536), ps, hs.
    split; [rewrite <- !app_assoc; reflexivity|]. split; [assumption|]. split; [right; eauto|]. split; [assumption|]. split; [assumption|]. rewrite E.
    cbn [u_port put_host]. rewrite Z0. unfold digits_value in Hn. destruct d; [congruence|]. rewrite <- (port_fold_value _ 0 n Hn). reflexivity.
Qed.
Lemma tail_out hst prt par hdr v n ps hs s : host_text hst v -> port_text prt n -> params_text par ps -> headers_text hdr hs -> u_port (uout s) = 0 ->
  exists s', usem g_tail (hst ++ prt ++ par ++ hdr) s [] s' None /\ uout s' = put_headers hs (put_params ps (put_port n (put_host v (uout s)))).
Proof.
  intros H1 H2 H3 H4 Z0. assert (M : means g_tail _) by (apply m_seq; [apply m_seq; [apply m_host|apply m_portopt]|apply m_seq; [apply m_params|apply m_headers]]).
  assert (X : exists f, ((fun t f => (t = [] /\ f = fun u => u) \/ exists d, t = B ":" ++ d /\ d <> [] /\ forallb is_digit d = true /\ f = fun u => put_port (port_fold (u_port u) d) u) prt f) /\
     forall u, u_port u = 0 -> f u = put_port n u).
  { destruct H2 as [[-> ->]|(d & m & -> & D & ->)].
    - eexists. split; [left; split; reflexivity|]. intros u E. rewrite <- E. symmetry. apply put_port_id.
    - eexists. split; [right; exists d; split; [reflexivity|]; split; [intros ->; discriminate|]; split; [eapply digits_value_digits; exact D|reflexivity]|].
      intros u E. cbv beta. rewrite E. unfold digits_value in D. destruct d; [discriminate|]. rewrite <- (port_fold_value _ 0 m D). reflexivity. }
  destruct X as (fp & Xp & Ep).
  destruct (proj2 (M (hst ++ prt ++ par ++ hdr) [] s) ((hst ++ prt) ++ (par ++ hdr)) (fun u => put_headers hs (put_params ps (fp (put_host v u))))) as (s' & S1 & S2).
  - rewrite app_nil_r, <- app_assoc. reflexivity.
  - exists (hst ++ prt), (fun u => fp (put_host v u)), (par ++ hdr), (fun u => put_headers hs (put_params ps u)). split; [reflexivity|]. split; [|split; [|reflexivity]].
    + exists hst, (put_host v), prt, fp. split; [reflexivity|]. split; [eauto|]. split; [exact Xp|reflexivity].
    + exists par, (put_params ps), hdr, (put_headers hs). split; [reflexivity|]. split; [eauto|]. split; [eauto|reflexivity].
  - exists s'. split; [exact S1|]. rewrite S2, Ep; [reflexivity|exact Z0].
Qed.
