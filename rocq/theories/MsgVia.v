(** Parameters and Via headers: what the machines via and via_param read and store. *)
From Verif Require Import Bytes BytesLemmas GoLib GoLibLemmas Auto AutoRe SdpModel SipText SipTypes UriTable UriModel MsgTable MsgModel MsgSafe P_Text UriSpec UriMeaning MsgSpec MsgGrammar MsgReach MsgBlocks.
Local Open Scope Z_scope.
Local Notation "a ;; b" := (Seq a b) (at level 61, right associativity).

Definition core (s : mst) : draft := mkdraft (m_msg s) (m_clen s) (m_ctype s).

(** ** Numbers *)
Lemma i64_u64 a : u64 (i64 a) = u64 a.
Proof.
  unfold i64. set (m := u64 a). assert (0 <= m < 18446744073709551616) by (apply Z.mod_pos_bound; lia).
  destruct (Z.ltb_spec m 9223372036854775808); unfold u64; [apply Z.mod_small; assumption|].
  replace (m - 18446744073709551616) with (m + (-1) * 18446744073709551616) by ring. rewrite Z.mod_add by lia. apply Z.mod_small. assumption.
Qed.
Lemma i64_ext a b : u64 a = u64 b -> i64 a = i64 b.
Proof. unfold i64. intros ->. reflexivity. Qed.
Lemma i64_step a d : i64 (i64 a * 10 + d) = i64 (a * 10 + d).
Proof.
  apply i64_ext. unfold u64. rewrite <- (Z.add_mod_idemp_l (i64 a * 10)), <- (Z.add_mod_idemp_l (a * 10)) by lia.
  rewrite <- (Z.mul_mod_idemp_l (i64 a)), <- (Z.mul_mod_idemp_l a) by lia. change (i64 a mod 18446744073709551616) with (u64 (i64 a)).
  rewrite i64_u64. reflexivity.
Qed.
Lemma dec_value_any w : forall a b v, dec_value a w = Some v -> exists v', dec_value b w = Some v'.
Proof. induction w as [|c w IH]; intros a b v H; cbn [dec_value] in *; [eauto|]. destruct (digit_val c); [eapply IH; exact H|discriminate]. Qed.
Lemma dec_value_acc w : forall n v, dec_value n w = Some v -> exists k, v = n * 10 ^ Z.of_nat (length w) + k /\ dec_value 0 w = Some k.
Proof.
  induction w as [|c w IH]; intros n v H; cbn [dec_value length] in *.
  - injection H as <-. exists 0. split; [cbn; lia|reflexivity].
  - destruct (digit_val c) as [d|]; [|discriminate]. destruct (IH _ _ H) as (k & -> & K).
    assert (K0 : exists v0, dec_value (0 * 10 + d) w = Some v0).
    { eapply dec_value_any. exact K. }
    destruct K0 as (v0 & K0). rewrite K0. destruct (IH _ _ K0) as (k' & -> & K'). rewrite K in K'. injection K' as <-. eexists. split; [|reflexivity].
    rewrite Nat2Z.inj_succ, Z.pow_succ_r by lia. ring.
Qed.
Lemma digit_value_bz c : is_digit c = true -> digit_val c = Some (bz c - 48).
Proof. intros H. unfold digit_val. rewrite H. reflexivity. Qed.
Lemma acc_fold w : forall n v, dec_value n w = Some v -> fold_left acc_int w (i64 n) = i64 v.
Proof.
  induction w as [|c w IH]; intros n v H; cbn [dec_value fold_left] in *; [injection H as ->; reflexivity|].
  unfold digit_val in H. destruct (is_digit c); [|discriminate]. unfold acc_int at 2. rewrite i64_step. apply IH. exact H.
Qed.
Lemma acc_number w n : number w n -> fold_left acc_int w 0 = i64 n.
Proof. unfold number, digits_value. destruct w as [|c w]; [discriminate|]. intros H. exact (acc_fold _ 0 n H). Qed.
Lemma acc_number_from w n a : number w n -> fold_left acc_int w a = i64 (a * 10 ^ Z.of_nat (length w) + n).
Proof.
  unfold number, digits_value. destruct w as [|c w]; [discriminate|]. intros H.
  assert (V : exists v, dec_value a (c :: w) = Some v).
  { eapply dec_value_any. exact H. }
  destruct V as (v & V). destruct (dec_value_acc _ _ _ V) as (k & E & K). rewrite H in K. injection K as <-. rewrite <- E.
  cbn [fold_left]. cbn [dec_value] in V. unfold digit_val in V. destruct (is_digit c); [|discriminate]. unfold acc_int at 2. apply acc_fold. exact V.
Qed.
Lemma number_digits w n : number w n -> w <> [] /\ forallb is_digit w = true.
Proof. intros H. split; [intros ->; discriminate|]. eapply digits_value_digits; exact H. Qed.
Lemma digits_number w : w <> [] -> forallb is_digit w = true -> exists n, number w n /\ 0 <= n.
Proof. apply digits_have_value. Qed.
Lemma mod_fold k (Hk : 0 < k) (f : Z -> byte -> Z) : (forall a c, is_digit c = true -> f a c = (a * 10 + (bz c - 48)) mod k) ->
  forall w n v, dec_value n w = Some v -> fold_left f w (n mod k) = v mod k.
Proof.
  intros F. induction w as [|c w IH]; intros n v H; cbn [dec_value fold_left] in *; [injection H as ->; reflexivity|].
  unfold digit_val in H. destruct (is_digit c) eqn:D; [|discriminate]. rewrite F by assumption.
  rewrite <- Z.add_mod_idemp_l by lia. rewrite Z.mul_mod_idemp_l by lia. rewrite Z.add_mod_idemp_l by lia. apply IH. exact H.
Qed.
Lemma mod_number k (Hk : 0 < k) (f : Z -> byte -> Z) : (forall a c, is_digit c = true -> f a c = (a * 10 + (bz c - 48)) mod k) ->
  forall w n, number w n -> fold_left f w 0 = n mod k.
Proof.
  intros F w n. unfold number, digits_value. destruct w as [|c w]; [discriminate|]. intros H. rewrite <- (mod_fold k Hk f F _ _ _ H). rewrite Z.mod_0_l by lia. reflexivity.
Qed.
Lemma kc_dig : forall c, kc k_dig c = is_digit c. Proof. classes. Qed.

Section Cap.
Variable cap : nat.
Notation ms := (@sem mact mjump _ _ (msg_act cap) msg_look).
Notation run_acts := (acts (msg_act cap)).
Notation reach := (reach cap).

Definition after (j : mjump) (r : bytes) (s : mst) (m : msg) : Prop :=
  match jump j r s with Some (n, r2) => reach n r2 s m | None => msg_finish (tl r) s = MOk m end.
Lemma machines_fun n R R' : In (n, [R]) machines -> In (n, [R']) machines -> R = R'.
Proof.
  intros H1 H2. assert (ND : NoDup (map fst machines)).
  { assert (K : map fst machines = [1; 34; 68; 103; 153; 188; 229; 256; 263; 273; 280; 281]%positive) by (vm_compute; reflexivity). rewrite K.
    repeat constructor; cbn; intuition discriminate. }
  revert H1 H2 ND. generalize machines. induction l as [|(k & x) l IH]; cbn; [tauto|]. intros H1 H2 ND. inversion ND as [|? ? N1 N2]; subst.
  destruct H1 as [H1|H1], H2 as [H2|H2].
  - congruence.
  - exfalso. apply N1. injection H1 as -> ->. apply in_map_iff. exists (n, [R']). auto.
  - exfalso. apply N1. injection H2 as -> ->. apply in_map_iff. exists (n, [R]). auto.
  - auto.
Qed.
Lemma reach_at n R r s m : In (n, [R]) machines -> (reach n r s m <-> exists j r1 s1, ms R r s r1 s1 (Some j) /\ after j r1 s1 m).
Proof.
  intros I. split.
  - intros H. inversion H as [n0 R0 r0 s0 r1 s1 m0 I0 H1 F|n0 R0 r0 s0 r1 s1 j n' r2 m0 I0 H1 J H2]; subst; rewrite <- (machines_fun n R R0 I I0) in H1.
    + exists Done, r1, s1. split; [assumption|exact F].
    + exists j, r1, s1. split; [assumption|]. unfold after. rewrite J. exact H2.
  - intros (j & r1 & s1 & H1 & H2). unfold after in H2. destruct (jump j r1 s1) as [[n' r2]|] eqn:J.
    + eapply R_step; eauto.
    + destruct j; try discriminate. eapply R_done; eauto.
Qed.
Ltac pick k := apply (nth_error_In machines k); reflexivity.
Lemma in_main : In (1%positive, [r_main]) machines. Proof. pick 0%nat. Qed.
Lemma in_ctype : In (34%positive, [r_ctype]) machines. Proof. pick 1%nat. Qed.
Lemma in_via_param : In (68%positive, [r_via_param]) machines. Proof. pick 2%nat. Qed.
Lemma in_via : In (103%positive, [r_via]) machines. Proof. pick 3%nat. Qed.
Lemma in_addr_param : In (153%positive, [r_addr_param]) machines. Proof. pick 4%nat. Qed.
Lemma in_angled : In (188%positive, [r_angled]) machines. Proof. pick 5%nat. Qed.
Lemma in_addr_uri : In (229%positive, [r_addr_uri]) machines. Proof. pick 6%nat. Qed.
Lemma in_addr : In (256%positive, [r_addr]) machines. Proof. pick 7%nat. Qed.
Lemma in_value : In (263%positive, [r_value]) machines. Proof. pick 8%nat. Qed.
Lemma in_xheader : In (273%positive, [r_xheader]) machines. Proof. pick 9%nat. Qed.
Lemma in_header : In (280%positive, [r_header]) machines. Proof. pick 10%nat. Qed.
Lemma in_names : In (281%positive, [r_names]) machines. Proof. pick 11%nat. Qed.

(** ** Separators and parameters *)
Lemma stops_at w x r : sws w -> x <> [] -> forallb (fun c => negb (blank c) && negb (beq c CR)) x = true -> stops w (x ++ r).
Proof.
  intros W N F. destruct x as [|c x]; [congruence|]. cbn [forallb] in F. apply andb_prop in F. destruct F as [F _]. apply andb_prop in F. destruct F as [F1 F2].
  split; [assumption|]. split; [discriminate|]. split; [cbn [app starts_blank]; destruct (blank c); [discriminate|reflexivity]|].
  intros c' b t E _. cbn [app] in E. injection E as -> _. discriminate.
Qed.
Lemma token_plain w : token w -> forallb (fun c => negb (blank c) && negb (beq c CR)) w = true.
Proof.
  intros [_ F]. rewrite forallb_forall in *. intros c I. specialize (F c I). revert F. 
  assert (K : implb (token_class c) (negb (blank c) && negb (beq c CR)) = true) by (revert c I; intros c _; revert c; by_bytes).
  intros F. rewrite F in K. exact K.
Qed.
Lemma stops_token w x r : sws w -> token x -> stops w (x ++ r).
Proof. intros W T. apply stops_at; [assumption|apply T|apply token_plain; assumption]. Qed.
Lemma b_psep lc ls nc ns r s r' s' y : ms (m_sws (param_sep lc ls nc ns)) r s r' s' y <->
  exists a b, (r = a ++ B "," ++ b ++ r' /\ sws a /\ stops b r' /\ y = Some (Hold nc) /\ run_acts lc r' s = inl s') \/
              (r = a ++ B ";" ++ b ++ r' /\ sws a /\ stops b r' /\ y = Some (Hold ns) /\ run_acts ls r' s = inl s').
Proof.
  rewrite b_sws. unfold param_sep. split.
  - intros (w & r1 & -> & W & H). apply b_alt in H. destruct H as [H|H]; (apply b_chx in H; [|discriminate]); destruct H as (r2 & -> & H); apply b_goto in H;
      destruct H as (-> & b & -> & S & A); exists w, b; [left|right]; auto.
  - intros (a & b & [(-> & W & S & -> & A)|(-> & W & S & -> & A)]); exists a; eexists; (split; [reflexivity|]; split; [assumption|]); apply b_alt; [left|right];
      (apply b_chx; [discriminate|]; eexists; split; [reflexivity|]; apply b_goto; eauto).
Qed.
Lemma quoted_len q v : quoted_text q v -> (length v <= length q)%nat.
Proof. intros H. induction H; cbn [length] in *; rewrite ?app_length; lia. Qed.
Lemma pvalue_len t v : pvalue_text t v -> (length v <= length t)%nat.
Proof. intros [(-> & _)|(q & -> & H)]; [lia|]. apply quoted_len in H. rewrite !app_length. cbn. lia. Qed.
Lemma param_len t p : param_text t p -> (length (snd p) <= length t)%nat.
Proof. intros (tv & -> & _ & [[-> ->]|(e & x & -> & _ & H)]); [cbn; lia|]. apply pvalue_len in H. rewrite !app_length. lia. Qed.
Lemma kc_tokenhost : forall c, kc k_tokenhost c = pvalue_class c. Proof. classes. Qed.
Lemma collects_plus1 k f : steady k = true -> (forall c, kc k c = f c) -> collects cap (m_plus (put1 k)) (fun w v => v = w /\ w <> [] /\ forallb f w = true).
Proof.
  intros T C. eapply collects_ext; [unfold m_plus; apply collects_seq; [apply (collects_put1 cap k f); assumption|apply collects_star; apply (collects_put1 cap k f); assumption]|].
  assert (P : forall w v, p_rep (fun w v => exists c, w = [c] /\ v = [c] /\ f c = true) w v <-> v = w /\ forallb f w = true).
  { intros w v. split.
    - intros H. induction H as [|w v ws vs (c & -> & -> & K) _ [-> F]]; [auto|]. cbn [app forallb]. rewrite K, F. auto.
    - intros [-> F]. induction w as [|c w IH]; [constructor|]. cbn [forallb] in F. apply andb_prop in F. destruct F as [F1 F2]. change (c :: w) with ([c] ++ w).
      constructor; [eauto|auto]. }
  intros w v. split.
  - intros (a & b & c & d & -> & -> & (x & -> & -> & K) & H). apply P in H. destruct H as [-> F]. cbn [app forallb]. rewrite K, F. split; [reflexivity|]. split; [discriminate|reflexivity].
  - intros (-> & N & F). destruct w as [|c w]; [congruence|]. cbn [forallb] in F. apply andb_prop in F. destruct F as [F1 F2]. exists [c], w, [c], w.
    split; [reflexivity|]. split; [reflexivity|]. split; [eauto|]. apply P. auto.
Qed.
Definition with_buf (v : bytes) (h : Z) (s : mst) : mst := put_hex h (put_buf v s).
Lemma quoted_fwd x r s r' s' y : ms (m_quoted ;; x) r s r' s' y -> exists q v r1 h, r = [DQ] ++ q ++ [DQ] ++ r1 /\ quoted_text q v /\ ms x r1 (with_buf v h s) r' s' y.
Proof.
  intros H. rewrite b_seq in H by reflexivity. destruct H as (r1 & s1 & H & K). unfold m_quoted in H. apply b_chx in H; [|discriminate]. destruct H as (r2 & -> & H).
  apply b_do in H. destruct H as (s2 & A & H). cbn [msg_act] in A. injection A as <-. rewrite b_seq in H by reflexivity. destruct H as (r3 & s3 & H & H2).
  apply collects_qtext in H. destruct H as (_ & q & v & h & -> & Q & ->). apply b_ch in H2; [|discriminate]. destruct H2 as (_ & -> & ->).
  exists q, v, r1, h. split; [reflexivity|]. split; [assumption|]. exact K.
Qed.
Lemma quoted_bwd q v s : quoted_text q v -> (length v <= cap)%nat -> forall r1, exists h, forall x r' s' y, ms x r1 (with_buf v h s) r' s' y -> ms (m_quoted ;; x) ([DQ] ++ q ++ [DQ] ++ r1) s r' s' y.
Proof.
  intros Q L r1. destruct (proj2 (collects_qtext cap) q v ([DQ] ++ r1) (put_buf [] s) Q) as (h & H); [right; cbn; lia|].
  exists h. intros x r' s' y K. rewrite b_seq by reflexivity. exists r1, (with_buf v h s). split; [|assumption]. unfold m_quoted.
  apply b_chx; [discriminate|]. eexists. split; [reflexivity|]. apply b_do. eexists. split; [reflexivity|]. rewrite b_seq by reflexivity. eexists _, _. split; [exact H|].
  apply b_ch; [discriminate|]. split; [reflexivity|]. split; [|reflexivity]. reflexivity.
Qed.
Lemma pvalue_fwd x r s r' s' y : m_buf s = [] -> ms (m_pvalue ;; x) r s r' s' y -> exists t v r1 h, r = t ++ r1 /\ pvalue_text t v /\ ms x r1 (with_buf v h s) r' s' y.
Proof.
  intros E H. rewrite b_seq in H by reflexivity. destruct H as (r1 & s1 & H & K). unfold m_pvalue in H. apply b_alt in H. destruct H as [H|H].
  - apply (collects_plus1 k_tokenhost pvalue_class) in H; [|reflexivity|exact kc_tokenhost]. destruct H as (_ & w & v & h & -> & (-> & N & F) & ->).
    exists w, w, r1, h. split; [reflexivity|]. split; [left; auto|]. unfold took in K. rewrite E in K. exact K.
  - assert (H' : ms (m_quoted ;; Eps) r s r1 s1 None) by (rewrite b_seq by reflexivity; exists r1, s1; split; [assumption|constructor]).
    apply quoted_fwd in H'. destruct H' as (q & v & r2 & h & -> & Q & H'). apply b_eps in H'. destruct H' as (_ & -> & ->).
    exists ([DQ] ++ q ++ [DQ]), v, r2, h. rewrite <- !app_assoc. split; [reflexivity|]. split; [right; eauto|assumption].
Qed.
Lemma pvalue_bwd t v s : m_buf s = [] -> pvalue_text t v -> (length v <= cap)%nat -> forall r1, exists h, forall x r' s' y, ms x r1 (with_buf v h s) r' s' y -> ms (m_pvalue ;; x) (t ++ r1) s r' s' y.
Proof.
  intros E [(-> & N & F)|(q & -> & Q)] L r1.
  - destruct (proj2 (collects_plus1 k_tokenhost pvalue_class eq_refl kc_tokenhost) v v r1 s) as (h & H); [auto|right; rewrite E; cbn; lia|].
    exists h. intros x r' s' y K. rewrite b_seq by reflexivity. eexists _, _. split; [unfold m_pvalue; apply b_alt; left; exact H|]. unfold took. rewrite E. exact K.
  - destruct (quoted_bwd q v s Q L r1) as (h & H). exists h. intros x r' s' y K. apply H in K. rewrite b_seq in K by reflexivity. destruct K as (r2 & s2 & K1 & K2).
    rewrite b_seq by reflexivity. rewrite <- !app_assoc. exists r2, s2. split; [|assumption]. unfold m_pvalue. apply b_alt. right. exact K1.
Qed.
Definition m_param (fin sep : mre) : mre :=
  Act MStart ;; Act MMark ;; m_token ;; Act MName ;; Alt fin (m_sws (Alt (m_ch "=" ;; m_sws (m_pvalue ;; Alt fin (m_sws sep))) sep)).
Definition got_param (p : param) (r : bytes) (h : Z) (s : mst) : mst := with_buf (snd p) h (put_name (fst p) (put_mark r s)).
Lemma mname_act w r1 s : m_mark s = w ++ r1 -> msg_act cap MName r1 s = inl (put_name w s).
Proof. intros E. cbn [msg_act]. apply (slice_at 0 r1 s w); [exact E|reflexivity]. Qed.
Lemma param_fwd fin sp r s r' s' y : ms (m_param fin sp) r s r' s' y ->
  exists x p r1 h, r = x ++ r1 /\ param_text x p /\ (ms fin r1 (got_param p r h s) r' s' y \/ ms (m_sws sp) r1 (got_param p r h s) r' s' y).
Proof.
  intros H. unfold m_param in H. apply b_do in H. destruct H as (s1 & A & H). cbn [msg_act] in A. injection A as <-.
  apply b_do in H. destruct H as (s1 & A & H). cbn [msg_act] in A. injection A as <-. apply b_token in H. destruct H as (n & r1 & -> & T & H).
  apply b_do in H. destruct H as (s1 & A & H). rewrite (mname_act n) in A by reflexivity. injection A as <-. apply b_alt in H. destruct H as [H|H].
  - exists n, (n, []), r1, (m_hex s). split; [reflexivity|]. split; [exists []; rewrite app_nil_r; auto|]. left. exact H.
  - apply b_sws in H. destruct H as (w & r2 & -> & W & H). apply b_alt in H. destruct H as [H|H].
    + apply b_chx in H; [|discriminate]. destruct H as (r3 & -> & H). apply b_sws in H. destruct H as (w2 & r4 & -> & W2 & H).
      apply pvalue_fwd in H; [|reflexivity]. destruct H as (t & v & r5 & h & -> & P & H).
      exists (n ++ (w ++ B "=" ++ w2) ++ t), (n, v), r5, h. rewrite <- !app_assoc. split; [reflexivity|]. split.
      * exists ((w ++ B "=" ++ w2) ++ t). split; [rewrite <- !app_assoc; reflexivity|]. split; [assumption|]. right. exists (w ++ B "=" ++ w2), t. split; [reflexivity|].
        split; [exists w, w2; auto|assumption].
      * apply b_alt in H. destruct H as [H|H]; [left|right]; exact H.
    + exists n, (n, []), (w ++ r2), (m_hex s). split; [reflexivity|]. split; [exists []; rewrite app_nil_r; auto|]. right. apply b_sws. exists w, r2. auto.
Qed.
Lemma param_bwd x p s r1 : param_text x p -> (length (snd p) <= cap)%nat -> exists h, forall fin sp r' s' y,
  ms fin r1 (got_param p (x ++ r1) h s) r' s' y \/ ms (m_sws sp) r1 (got_param p (x ++ r1) h s) r' s' y -> ms (m_param fin sp) (x ++ r1) s r' s' y.
Proof.
  intros (tv & -> & T & H) L. destruct p as [n v]. cbn [fst snd] in *. destruct H as [[-> ->]|(e & t & -> & (a & b & -> & Wa & Wb) & P)].
  - exists (m_hex s). intros fin sp r' s' y H. unfold m_param. apply b_do. eexists. split; [reflexivity|]. apply b_do. eexists. split; [reflexivity|].
    apply b_token. exists n, r1. split; [rewrite app_nil_r; reflexivity|]. split; [assumption|]. apply b_do. eexists. split; [apply (mname_act n); cbn [m_mark put_mark]; rewrite app_nil_r; reflexivity|].
    apply b_alt. destruct H as [H|H]; [left; exact H|right]. apply b_sws in H. destruct H as (w & r2 & -> & W & H). apply b_sws. exists w, r2. split; [reflexivity|].
    split; [assumption|]. apply b_alt. right. exact H.
  - set (full := (n ++ (a ++ ["="%byte] ++ b) ++ t) ++ r1).
    destruct (pvalue_bwd t v (put_name n (put_mark full (put_buf [] s))) eq_refl P L r1) as (h & K). exists h. intros fin sp r' s' y H.
    unfold m_param. apply b_do. eexists. split; [reflexivity|]. apply b_do. eexists. split; [reflexivity|].
    apply b_token. exists n, (a ++ ["="%byte] ++ b ++ t ++ r1). split; [unfold full; rewrite <- !app_assoc; reflexivity|]. split; [assumption|].
    apply b_do. eexists. split; [apply (mname_act n); cbn [m_mark put_mark]; unfold full; rewrite <- !app_assoc; reflexivity|].
    apply b_alt. right. apply b_sws. exists a, (["="%byte] ++ b ++ t ++ r1). split; [reflexivity|]. split; [assumption|]. apply b_alt. left.
    apply b_chx; [discriminate|]. eexists. split; [reflexivity|]. apply b_sws. exists b, (t ++ r1). split; [reflexivity|]. split; [assumption|]. apply K. apply b_alt. exact H.
Qed.

(** ** Via *)
Definition via0 : via := mkvia [] [] [] [] 0 [].
Definition vadd (ps : list param) (v : via) : via := mkvia (v_protocol v) (v_version v) (v_transport v) (v_host v) (v_port v) (ps ++ v_param v).
Definition add_vias (l : list via) (d : draft) : draft := with_msg (fun m => set_vias (vias m ++ l) m) d.
(** what may follow the host and port of [v]: its parameters and further entries *)
Definition via_rest (t : bytes) (v : via) (l : list via) : Prop :=
  exists ps qs t2 l', t = ps ++ t2 /\ chain semi_param ps qs /\ chain comma_via t2 l' /\ l = vadd (rev qs) v :: l'.
Lemma via_head t v : via_text t v -> exists x t', t = x ++ t' /\ token x.
Proof. intros (e1 & e2 & l & h & p & ps & -> & T & _). eauto. Qed.
Lemma vadd_nil v : vadd [] v = v. Proof. destruct v; reflexivity. Qed.
Lemma vadd_vadd a b v : vadd a (vadd b v) = vadd (a ++ b) v. Proof. unfold vadd. cbn. rewrite app_assoc. reflexivity. Qed.
(** the texts read by machine 68 with entry [v] begun *)
Definition par_rest (t : bytes) (v : via) (l : list via) : Prop := exists x p t', t = x ++ t' /\ param_text x p /\ via_rest t' (vadd [p] v) l.
Lemma vr_fin v : via_rest [] v [v].
Proof. exists [], [], [], []. split; [reflexivity|]. split; [constructor|]. split; [constructor|]. rewrite vadd_nil. reflexivity. Qed.
Lemma vr_semi e t v l : sep ";" e -> par_rest t v l -> via_rest (e ++ t) v l.
Proof.
  intros E (x & p & t' & -> & P & ps & qs & t2 & l' & -> & C1 & C2 & ->). exists ((e ++ x) ++ ps), (p :: qs), t2, l'. rewrite <- !app_assoc.
  split; [reflexivity|]. split; [rewrite app_assoc; constructor; [exists e, x; auto|assumption]|]. split; [assumption|]. rewrite vadd_vadd. reflexivity.
Qed.
Lemma vr_comma e t v l : sep "," e -> via_list t l -> via_rest (e ++ t) v (v :: l).
Proof.
  intros E (t1 & v1 & t2 & l' & -> & -> & V & C). exists [], [], (e ++ t1 ++ t2), (v1 :: l'). split; [reflexivity|]. split; [constructor|].
  split; [|rewrite vadd_nil; reflexivity]. rewrite app_assoc. constructor; [exists e, t1; auto|assumption].
Qed.
Lemma vr_cases t v l : via_rest t v l -> (t = [] /\ l = [v]) \/ (exists e t', t = e ++ t' /\ sep ";" e /\ par_rest t' v l) \/
  (exists e t' l', t = e ++ t' /\ sep "," e /\ via_list t' l' /\ l = v :: l').
Proof.
  intros (ps & qs & t2 & l' & -> & C1 & C2 & ->). destruct C1 as [|y p ps qs (e & x & -> & E & P) C1].
  - rewrite vadd_nil. cbn [app]. destruct C2 as [|z v1 t2 l' (e & x & -> & E & V) C2]; [auto|]. right. right. exists e, (x ++ t2), (v1 :: l'). rewrite <- app_assoc.
    split; [reflexivity|]. split; [assumption|]. split; [exists x, v1, t2, l'; auto|reflexivity].
  - right. left. exists e, (x ++ ps ++ t2). rewrite <- !app_assoc. split; [reflexivity|]. split; [assumption|]. exists x, p, (ps ++ t2). split; [reflexivity|]. split; [assumption|].
    exists ps, qs, t2, l'. split; [reflexivity|]. split; [assumption|]. split; [assumption|]. rewrite vadd_vadd. reflexivity.
Qed.
Lemma via_rest_text t v l e1 e2 lw h p t0 : v_param v = [] -> via_rest t v l ->
  t0 = v_protocol v ++ e1 ++ v_version v ++ e2 ++ v_transport v ++ lw ++ h ++ p ++ t ->
  token (v_protocol v) -> sep "/" e1 -> token (v_version v) -> sep "/" e2 -> token (v_transport v) -> lws lw -> viahost_text h (v_host v) -> viaport_text p (v_port v) ->
  via_list t0 l.
Proof.
  intros E0 (ps & qs & t2 & l' & -> & C1 & C2 & ->) -> T1 S1 T2 S2 T3 L H P.
  exists (v_protocol v ++ e1 ++ v_version v ++ e2 ++ v_transport v ++ lw ++ h ++ p ++ ps), (vadd (rev qs) v), t2, l'. rewrite <- !app_assoc. split; [reflexivity|].
  split; [reflexivity|]. split; [|assumption]. exists e1, e2, lw, h, p, ps. cbn [vadd v_protocol v_version v_transport v_host v_port v_param].
  rewrite E0, app_nil_r, rev_involutive. auto 12.
Qed.
Lemma via_list_rest t l : via_list t l -> exists v l0 e1 e2 lw h p t', t = v_protocol v ++ e1 ++ v_version v ++ e2 ++ v_transport v ++ lw ++ h ++ p ++ t' /\
  token (v_protocol v) /\ sep "/" e1 /\ token (v_version v) /\ sep "/" e2 /\ token (v_transport v) /\ lws lw /\ viahost_text h (v_host v) /\ viaport_text p (v_port v) /\
  v_param v = [] /\ via_rest t' v l0 /\ l0 = l.
Proof.
  intros (t1 & v & t2 & l' & -> & -> & (e1 & e2 & lw & h & p & ps & -> & T1 & S1 & T2 & S2 & T3 & L & H & P & C) & C2).
  exists (mkvia (v_protocol v) (v_version v) (v_transport v) (v_host v) (v_port v) []), (v :: l'), e1, e2, lw, h, p, (ps ++ t2). cbn [v_protocol v_version v_transport v_host v_port v_param].
  rewrite <- !app_assoc. split; [reflexivity|]. do 9 (split; [assumption || reflexivity|]). split; [|reflexivity].
  exists ps, (rev (v_param v)), t2, l'. split; [reflexivity|]. split; [assumption|]. split; [assumption|]. rewrite rev_involutive. unfold vadd. cbn. rewrite app_nil_r. destruct v; reflexivity.
Qed.

Lemma acts_app l1 l2 r s : run_acts (l1 ++ l2) r s = match run_acts l1 r s with inl s1 => run_acts l2 r s1 | inr e => inr e end.
Proof. revert s. induction l1 as [|a l1 IH]; intros s; cbn [app acts]; [reflexivity|]. destruct (msg_act cap a r s); [apply IH|reflexivity]. Qed.
Lemma add_vias_app v l d : add_vias l (add_vias [v] d) = add_vias (v :: l) d.
Proof. unfold add_vias, with_msg. cbn [d_msg d_len d_type]. f_equal. change (v :: l) with ([v] ++ l). rewrite app_assoc. reflexivity. Qed.
Lemma stops_sws w r : stops w r -> sws w. Proof. intros H. apply H. Qed.

(** what the machines are shown to do, forwards: *)
Definition line_end (P : bytes -> draft -> Prop) (r : bytes) (m : msg) : Prop :=
  exists t r2 s2, r = t ++ CRLF ++ r2 /\ P t (core s2) /\ starts_blank r2 = false /\ reach 280 r2 s2 m.
(** and backwards: *)
Definition leads_to (d : draft) (r2 : bytes) (G : msg -> Prop) : Prop := exists s2, core s2 = d /\ forall m, reach 280 r2 s2 m -> G m.
Definition via_fwd (N : nat) : Prop := forall r, (length r < N)%nat ->
  (forall s m, m_via s = Some via0 -> reach 103 r s m -> line_end (fun t d => exists l, via_list t l /\ d = add_vias l (core s)) r m) /\
  (forall s v m, m_via s = Some v -> reach 68 r s m -> line_end (fun t d => exists l, par_rest t v l /\ d = add_vias l (core s)) r m).
Definition via_bwd (N : nat) : Prop := forall t r2, (length t < N)%nat -> (length (t ++ CRLF ++ r2) <= cap)%nat -> starts_blank r2 = false ->
  (forall s l, m_via s = Some via0 -> via_list t l -> leads_to (add_vias l (core s)) r2 (reach 103 (t ++ CRLF ++ r2) s)) /\
  (forall s v l, m_via s = Some v -> par_rest t v l -> leads_to (add_vias l (core s)) r2 (reach 68 (t ++ CRLF ++ r2) s)).
Lemma mvia_act r s v : m_via s = Some v -> exists s', run_acts [MVia] r s = inl s' /\ core s' = add_vias [v] (core s).
Proof. intros E. cbn [acts msg_act]. unfold on_via. rewrite E. eexists. split; reflexivity. Qed.
Lemma mvianew_act r s v : m_via s = Some v -> exists s', run_acts [MVia; MViaNew] r s = inl s' /\ core s' = add_vias [v] (core s) /\ m_via s' = Some via0.
Proof. intros E. cbn [acts msg_act]. unfold on_via. rewrite E. eexists. split; [reflexivity|]. split; reflexivity. Qed.
Definition vfin (pl : list mact) : mre := eol (pl ++ [MVia]).
Definition vsep (pl : list mact) : mre := m_sws (param_sep (pl ++ [MVia; MViaNew]) (pl ++ [MStart]) 103 68).
Lemma via_tail_fwd N pl r s1 s2 v r' s' j m : via_fwd N -> (length r <= N)%nat -> (forall x, run_acts pl x s1 = inl s2) -> m_via s2 = Some v ->
  ms (vfin pl) r s1 r' s' (Some j) \/ ms (vsep pl) r s1 r' s' (Some j) -> after j r' s' m ->
  line_end (fun t d => exists l, via_rest t v l /\ d = add_vias l (core s2)) r m.
Proof.
  intros IH L A V [H|H] K.
  - unfold vfin in H. apply b_eol in H. destruct H as ([= ->] & r1 & -> & SB & -> & A2). rewrite acts_app, A in A2. destruct (mvia_act (LF :: r1) s2 v V) as (s3 & A3 & C).
    rewrite A3 in A2. injection A2 as <-. exists [], r1, s3. split; [reflexivity|]. split; [exists [v]; split; [apply vr_fin|exact C]|]. split; [assumption|exact K].
  - unfold vsep in H. apply b_psep in H. destruct H as (a & b & [(-> & Wa & Sb & E & A2)|(-> & Wa & Sb & E & A2)]); injection E as ->; rewrite acts_app, A in A2.
    + destruct (mvianew_act r' s2 v V) as (s3 & A3 & C & V3). rewrite A3 in A2. injection A2 as <-. unfold after in K. cbn [jump] in K.
      rewrite !app_length in L. cbn in L. destruct (IH r' ltac:(lia)) as [F _]. destruct (F s3 m V3 K) as (t & r2 & s4 & -> & (l & VL & D) & SB & R).
      exists ((a ++ B "," ++ b) ++ t), r2, s4. split; [rewrite <- !app_assoc; reflexivity|]. split; [|auto]. exists (v :: l). split.
      * apply vr_comma; [exists a, b; split; [reflexivity|]; split; [assumption|apply (stops_sws _ _ Sb)]|assumption].
      * rewrite D, C. apply add_vias_app.
    + cbn [acts msg_act] in A2. injection A2 as <-. unfold after in K. cbn [jump] in K.
      rewrite !app_length in L. cbn in L. destruct (IH r' ltac:(lia)) as [_ F]. destruct (F (put_buf [] s2) v m V K) as (t & r2 & s4 & -> & (l & VL & D) & SB & R).
      exists ((a ++ B ";" ++ b) ++ t), r2, s4. split; [rewrite <- !app_assoc; reflexivity|]. split; [|auto]. exists l. split; [|exact D].
      apply vr_semi; [exists a, b; split; [reflexivity|]; split; [assumption|apply (stops_sws _ _ Sb)]|assumption].
Qed.
Lemma par_stops t v l b r : par_rest t v l -> sws b -> stops b (t ++ r).
Proof. intros (x & p & t' & -> & (tv & -> & T & _) & _) W. rewrite <- !app_assoc. apply stops_token; assumption. Qed.
Lemma via_stops t l b r : via_list t l -> sws b -> stops b (t ++ r).
Proof. intros (t1 & v & t2 & l' & -> & _ & V & _) W. apply via_head in V. destruct V as (x & t' & -> & T). rewrite <- !app_assoc. apply stops_token; assumption. Qed.
Lemma via_tail_bwd N pl t r2 s1 s2 v l : via_bwd N -> (length t <= N)%nat -> (length (t ++ CRLF ++ r2) <= cap)%nat -> starts_blank r2 = false ->
  (forall x, run_acts pl x s1 = inl s2) -> m_via s2 = Some v -> via_rest t v l ->
  leads_to (add_vias l (core s2)) r2 (fun m => exists j r' s', (ms (vfin pl) (t ++ CRLF ++ r2) s1 r' s' (Some j) \/ ms (vsep pl) (t ++ CRLF ++ r2) s1 r' s' (Some j)) /\ after j r' s' m).
Proof.
  intros IH L LC SB A V H. apply vr_cases in H. destruct H as [[-> ->]|[(e & t' & -> & (a & b & -> & Wa & Wb) & P)|(e & t' & l' & -> & (a & b & -> & Wa & Wb) & P & ->)]].
  - destruct (mvia_act (LF :: r2) s2 v V) as (s3 & A3 & C). exists s3. split; [assumption|]. intros m R. exists (Go 280), (LF :: r2), s3. split; [|exact R].
    left. apply b_eol. split; [reflexivity|]. exists r2. rewrite acts_app, A. auto.
  - rewrite !app_length in L, LC. cbn in L, LC.
    destruct (IH t' r2 ltac:(lia) ltac:(rewrite !app_length; cbn; lia) SB) as [_ F].
    destruct (F (put_buf [] s2) v l V P) as (s3 & C & R3). exists s3. split; [exact C|]. intros m R. apply R3 in R. exists (Hold 68), (t' ++ CRLF ++ r2), (put_buf [] s2).
    split; [|exact R]. right. apply b_psep. exists a, b. right. rewrite <- !app_assoc. split; [reflexivity|]. split; [assumption|]. split; [eapply par_stops; eassumption|].
    split; [reflexivity|]. rewrite acts_app, A. reflexivity.
  - rewrite !app_length in L, LC. cbn in L, LC.
    destruct (IH t' r2 ltac:(lia) ltac:(rewrite !app_length; cbn; lia) SB) as [F _]. destruct (mvianew_act (t' ++ CRLF ++ r2) s2 v V) as (s4 & A4 & C4 & V4).
    destruct (F s4 l' V4 P) as (s3 & C & R3). exists s3. split; [rewrite C, C4; apply add_vias_app|]. intros m R. apply R3 in R. exists (Hold 103), (t' ++ CRLF ++ r2), s4.
    split; [|exact R]. right. apply b_psep. exists a, b. left. rewrite <- !app_assoc. split; [reflexivity|]. split; [assumption|]. split; [eapply via_stops; eassumption|].
    split; [reflexivity|]. rewrite acts_app, A. exact A4.
Qed.
Lemma via_param_is : r_via_param = m_param (vfin [MViaParam]) (param_sep ([MViaParam] ++ [MVia; MViaNew]) ([MViaParam] ++ [MStart]) 103 68).
Proof. reflexivity. Qed.
Definition param_done (p : param) (r : bytes) (h : Z) (s : mst) (v : via) : mst := put_via (Some (vadd [p] v)) (got_param p r h s).
Lemma via_param_act p r h s v x : m_via s = Some v -> run_acts [MViaParam] x (got_param p r h s) = inl (param_done p r h s v).
Proof. intros E. cbn [acts msg_act]. unfold on_via. cbn. rewrite E. destruct p. reflexivity. Qed.
Lemma viaport_fold w s v n : m_via s = Some v -> v_port v = 0 -> number w n ->
  forall g, (forall s c, m_via s <> None -> g s c = match m_via s with Some v => put_via (Some (mkvia (v_protocol v) (v_version v) (v_transport v) (v_host v) (u16 (v_port v * 10 + (bz c - 48))) (v_param v))) s | None => s end) ->
  fold_left g w s = put_via (Some (mkvia (v_protocol v) (v_version v) (v_transport v) (v_host v) (n mod 65536) (v_param v))) s.
Proof.
  intros E P0 NW g G. assert (M : n mod 65536 = fold_left (fun a c => u16 (a * 10 + (bz c - 48))) w (v_port v)).
  { rewrite P0. symmetry. apply (mod_number 65536); [lia|reflexivity|assumption]. }
  rewrite M. clear M P0 NW. destruct v as [v1 v2 v3 v4 v5 v6]. cbn [v_protocol v_version v_transport v_host v_port v_param].
  revert s v5 E. induction w as [|c w IH]; intros s v5 E; cbn [fold_left].
  - destruct s. cbn in *. subst. reflexivity.
  - rewrite (G s c) by congruence. rewrite E. cbn [v_protocol v_version v_transport v_host v_port v_param]. erewrite IH by reflexivity. reflexivity.
Qed.

Definition vset (a : mact) (b : bytes) (v : via) : via :=
  match a with
  | MViaProtocol => mkvia b (v_version v) (v_transport v) (v_host v) (v_port v) (v_param v)
  | MViaVersion => mkvia (v_protocol v) b (v_transport v) (v_host v) (v_port v) (v_param v)
  | MViaTransport => mkvia (v_protocol v) (v_version v) b (v_host v) (v_port v) (v_param v)
  | MViaHost => mkvia (v_protocol v) (v_version v) (v_transport v) b (v_port v) (v_param v)
  | _ => v
  end.
Lemma via_slice a w r s v : In a [MViaProtocol; MViaVersion; MViaTransport; MViaHost] -> m_via s = Some v -> m_mark s = w ++ r ->
  exists s1, msg_act cap a r s = inl s1 /\ m_via s1 = Some (vset a w v) /\ core s1 = core s.
Proof.
  intros I V M. cbn [In] in I. destruct I as [<-|[<-|[<-|[<-|[]]]]]; (eexists; split; [cbn [msg_act]; rewrite (slice_at 0 r s w) by (assumption || reflexivity); unfold on_via, set_v; rewrite V; reflexivity|]; split; reflexivity).
Qed.
Lemma via_field a x r s r' s' y v : In a [MViaProtocol; MViaVersion; MViaTransport; MViaHost] -> m_via s = Some v ->
  ms (Act MMark ;; m_token ;; Act a ;; x) r s r' s' y -> exists w r1 s1, r = w ++ r1 /\ token w /\ m_via s1 = Some (vset a w v) /\ core s1 = core s /\ ms x r1 s1 r' s' y.
Proof.
  intros I V H. apply b_do in H. destruct H as (s0 & A & H). cbn [msg_act] in A. injection A as <-. apply b_token in H. destruct H as (w & r1 & -> & T & H).
  apply b_do in H. destruct H as (s1 & A & H). destruct (via_slice a w r1 (put_mark (w ++ r1) s) v I V eq_refl) as (s2 & A2 & V2 & C2). rewrite A2 in A. injection A as <-.
  exists w, r1, s2. auto.
Qed.
Lemma via_field_b a w r1 s v : In a [MViaProtocol; MViaVersion; MViaTransport; MViaHost] -> m_via s = Some v -> token w ->
  exists s1, m_via s1 = Some (vset a w v) /\ core s1 = core s /\ forall x r' s' y, ms x r1 s1 r' s' y -> ms (Act MMark ;; m_token ;; Act a ;; x) (w ++ r1) s r' s' y.
Proof.
  intros I V T. destruct (via_slice a w r1 (put_mark (w ++ r1) s) v I V eq_refl) as (s2 & A2 & V2 & C2). exists s2. split; [assumption|]. split; [assumption|].
  intros x r' s' y H. apply b_do. eexists. split; [reflexivity|]. apply b_token. exists w, r1. split; [reflexivity|]. split; [assumption|]. apply b_do. eauto.
Qed.
Lemma kc_viahost : forall c, kc k_host c = viahost_class c. Proof. classes. Qed.
Lemma kc_ip6 : forall c, kc k_ip6 c = ip6_class c. Proof. classes. Qed.
Lemma via_host x r s r' s' y v : m_via s = Some v -> ms (m_viahost ;; x) r s r' s' y ->
  exists h w r1 s1, r = h ++ r1 /\ viahost_text h w /\ m_via s1 = Some (vset MViaHost w v) /\ core s1 = core s /\ ms x r1 s1 r' s' y.
Proof.
  intros V H. rewrite b_seq in H by reflexivity. destruct H as (r1 & s1 & H & K). unfold m_viahost in H. apply b_alt in H. destruct H as [H|H].
  - apply b_do in H. destruct H as (s0 & A & H). cbn [msg_act] in A. injection A as <-. apply (b_plusx cap k_host viahost_class) in H; [|reflexivity|exact kc_viahost].
    destruct H as (w & r2 & -> & N & F & H). apply b_act in H. destruct H as (_ & -> & A).
    destruct (via_slice MViaHost w r2 (put_mark (w ++ r2) s) v) as (s2 & A2 & V2 & C2); [cbn; tauto|exact V|reflexivity|]. rewrite A2 in A. injection A as <-.
    exists w, w, r2, s2. split; [reflexivity|]. split; [split; [assumption|left; auto]|]. auto.
  - apply b_chx in H; [|discriminate]. destruct H as (r2 & -> & H). apply b_do in H. destruct H as (s0 & A & H). cbn [msg_act] in A. injection A as <-.
    apply (b_plusx cap k_ip6 ip6_class) in H; [|reflexivity|exact kc_ip6]. destruct H as (w & r3 & -> & N & F & H). apply b_do in H. destruct H as (s0 & A & H).
    apply b_ch in H; [|discriminate]. destruct H as (_ & -> & ->). 
    destruct (via_slice MViaHost w (B "]" ++ r1) (put_mark (w ++ B "]" ++ r1) s) v) as (s2 & A2 & V2 & C2); [cbn; tauto|exact V|reflexivity|].
    assert (A3 : inl s0 = inl s2 :> mst + merr) by (rewrite <- A, <- A2; reflexivity). injection A3 as ->.
    exists (B "[" ++ w ++ B "]"), w, r1, s2. rewrite <- !app_assoc. split; [reflexivity|]. split; [split; [assumption|right; auto]|]. auto.
Qed.
Lemma via_host_b h w r1 s v : m_via s = Some v -> viahost_text h w ->
  exists s1, m_via s1 = Some (vset MViaHost w v) /\ core s1 = core s /\ forall x r' s' y, ms x r1 s1 r' s' y -> ms (m_viahost ;; x) (h ++ r1) s r' s' y.
Proof.
  intros V (N & [(-> & F)|(-> & F)]).
  - destruct (via_slice MViaHost w r1 (put_mark (w ++ r1) s) v) as (s2 & A2 & V2 & C2); [cbn; tauto|exact V|reflexivity|]. exists s2. split; [assumption|]. split; [assumption|].
    intros x r' s' y H. rewrite b_seq by reflexivity. exists r1, s2. split; [|assumption]. unfold m_viahost. apply b_alt. left. apply b_do. eexists. split; [reflexivity|].
    apply (b_plusx cap k_host viahost_class); [reflexivity|exact kc_viahost|]. exists w, r1. split; [reflexivity|]. split; [assumption|]. split; [assumption|]. apply b_act. auto.
  - destruct (via_slice MViaHost w (B "]" ++ r1) (put_mark (w ++ B "]" ++ r1) s) v) as (s2 & A2 & V2 & C2); [cbn; tauto|exact V|reflexivity|].
    exists s2. split; [assumption|]. split; [assumption|].
    intros x r' s' y H. rewrite b_seq by reflexivity. exists r1, s2. split; [|assumption]. unfold m_viahost. apply b_alt. right. rewrite <- !app_assoc.
    apply b_chx; [discriminate|]. eexists. split; [reflexivity|]. apply b_do. eexists. split; [reflexivity|].
    apply (b_plusx cap k_ip6 ip6_class); [reflexivity|exact kc_ip6|]. exists w, (B "]" ++ r1). split; [reflexivity|]. split; [assumption|]. split; [assumption|]. apply b_do. exists s2.
    split; [exact A2|]. apply b_ch; [discriminate|]. auto.
Qed.
(** ** the port digits: the action is only total while a Via is begun *)
Definition on_port (s : mst) (c : byte) : mst :=
  match m_via s with
  | Some v => put_via (Some (mkvia (v_protocol v) (v_version v) (v_transport v) (v_host v) (u16 (v_port v * 10 + (bz c - 48))) (v_param v))) s
  | None => s
  end.
Lemma via_digits x r s r' s' y : m_via s <> None -> (ms (m_plus (m_on MViaPort k_dig) ;; x) r s r' s' y <->
  exists w r1, r = w ++ r1 /\ w <> [] /\ forallb is_digit w = true /\ ms x r1 (fold_left on_port w s) r' s' y).
Proof.
  assert (ONE : forall x r s r' s' y, m_via s <> None -> (ms (m_on MViaPort k_dig ;; x) r s r' s' y <-> exists c r1, r = c :: r1 /\ is_digit c = true /\ ms x r1 (on_port s c) r' s' y)).
  { clear. intros x r s r' s' y V. unfold m_on. rewrite b_seq_assoc by reflexivity. rewrite b_do. split.
    - intros (s1 & A & H). apply (b_clsx cap k_dig is_digit) in H; [|reflexivity|exact kc_dig]. destruct H as (c & r1 & -> & D & H). exists c, r1.
      cbn [msg_act mfc] in A. unfold on_via, set_v in A. unfold on_port. destruct (m_via s) as [v|]; [|congruence]. injection A as <-. auto.
    - intros (c & r1 & -> & D & H). exists (on_port s c). split; [cbn [msg_act mfc]; unfold on_via, set_v, on_port; destruct (m_via s); [reflexivity|congruence]|].
      apply (b_clsx cap k_dig is_digit); [reflexivity|exact kc_dig|]. eauto. }
  assert (KEEP : forall s c, m_via s <> None -> m_via (on_port s c) <> None).
  { clear. intros s c V. unfold on_port. destruct (m_via s) eqn:E; [cbn; discriminate|congruence]. }
  assert (SPLIT : forall r s r' s', @sem mact mjump _ _ (msg_act cap) msg_look (m_on MViaPort k_dig) r s r' s' None <-> ms (m_on MViaPort k_dig ;; Eps) r s r' s' None).
  { clear. intros r s r' s'. rewrite b_seq by reflexivity. split; [intros H; exists r', s'; split; [assumption|constructor]|]. intros (r1 & s1 & H & K). apply b_eps in K. destruct K as (_ & -> & ->). exact H. }
  assert (STAR : forall x r s r' s' y, m_via s <> None -> (ms (Star (m_on MViaPort k_dig) ;; x) r s r' s' y <-> exists w r1, r = w ++ r1 /\ forallb is_digit w = true /\ ms x r1 (fold_left on_port w s) r' s' y)).
  { intros x0 r0 s0 r0' s0' y0 V. rewrite b_seq by reflexivity. split.
    - intros (r1 & s1 & H & K). apply b_star in H; [|reflexivity]. destruct H as (_ & H). revert V. induction H as [r2 s2|r2 s2 r3 s3 r4 s4 H1 H2 IH]; intros V.
      + exists [], r2. auto.
      + apply SPLIT in H1. apply ONE in H1; [|assumption]. destruct H1 as (c & r5 & -> & D & H1). apply b_eps in H1. destruct H1 as (_ & -> & ->).
        destruct (IH K (KEEP _ _ V)) as (w & r6 & -> & F & H3). exists (c :: w), r6. cbn [app forallb fold_left]. rewrite D, F. auto.
    - intros (w & r1 & -> & F & K). exists r1, (fold_left on_port w s0). split; [|assumption]. apply b_star; [reflexivity|]. split; [reflexivity|].
      clear K. revert s0 V F. induction w as [|c w IH]; intros s0 V F; cbn [app fold_left forallb] in *; [constructor|]. apply andb_prop in F. destruct F as [F1 F2].
      econstructor; [|apply IH; [apply KEEP; exact V|assumption]]. apply SPLIT. apply ONE; [assumption|]. exists c, (w ++ r1). split; [reflexivity|]. split; [assumption|]. constructor. }
  intros V. unfold m_plus. rewrite b_seq_assoc by reflexivity. rewrite ONE by assumption. split.
  - intros (c & r1 & -> & D & H). apply STAR in H; [|apply KEEP; assumption]. destruct H as (w & r2 & -> & F & H). exists (c :: w), r2. cbn [app forallb fold_left]. rewrite D, F.
    split; [reflexivity|]. split; [discriminate|]. auto.
  - intros (w & r1 & -> & N & F & H). destruct w as [|c w]; [congruence|]. cbn [forallb] in F. apply andb_prop in F. destruct F as [F1 F2]. exists c, (w ++ r1). split; [reflexivity|].
    split; [assumption|]. apply STAR; [apply KEEP; assumption|]. exists w, r1. auto.
Qed.
Definition vport (p : Z) (v : via) : via := mkvia (v_protocol v) (v_version v) (v_transport v) (v_host v) p (v_param v).
Lemma via_port fin sp r s r' s' y v : m_via s = Some v -> v_port v = 0 -> ms (Alt fin (m_sws (Alt (m_ch ":" ;; m_sws (m_plus (m_on MViaPort k_dig) ;; Alt fin (m_sws sp))) sp))) r s r' s' y ->
  exists t p r1 s1, r = t ++ r1 /\ viaport_text t p /\ m_via s1 = Some (vport p v) /\ core s1 = core s /\ (ms fin r1 s1 r' s' y \/ ms (m_sws sp) r1 s1 r' s' y).
Proof.
  intros V P0 H. assert (E0 : vport 0 v = v) by (unfold vport; rewrite <- P0; destruct v; reflexivity). apply b_alt in H. destruct H as [H|H].
  - exists [], 0, r, s. rewrite E0. split; [reflexivity|]. split; [left; auto|]. auto.
  - apply b_sws in H. destruct H as (w & r1 & -> & W & H). apply b_alt in H. destruct H as [H|H].
    + apply b_chx in H; [|discriminate]. destruct H as (r2 & -> & H). apply b_sws in H. destruct H as (w2 & r3 & -> & W2 & H). apply via_digits in H; [|congruence].
      destruct H as (d & r4 & -> & N & F & H). destruct (digits_number d N F) as (n & NW & _). rewrite (viaport_fold d s v n V P0 NW on_port) in H.
      2:{ intros s0 c V0. unfold on_port. destruct (m_via s0); reflexivity. }
      exists ((w ++ B ":" ++ w2) ++ d), (n mod 65536), r4, (put_via (Some (vport (n mod 65536) v)) s). rewrite <- !app_assoc. split; [reflexivity|]. split.
      * right. exists (w ++ B ":" ++ w2), d, n. rewrite <- !app_assoc. split; [reflexivity|]. split; [exists w, w2; auto|auto].
      * split; [reflexivity|]. split; [reflexivity|]. apply b_alt. exact H.
    + exists [], 0, (w ++ r1), s. rewrite E0. split; [reflexivity|]. split; [left; auto|]. split; [assumption|]. split; [reflexivity|]. right. apply b_sws. eauto.
Qed.
Lemma via_port_b t p s v r1 : m_via s = Some v -> v_port v = 0 -> viaport_text t p ->
  exists s1, m_via s1 = Some (vport p v) /\ core s1 = core s /\ forall fin sp r' s' y, (ms fin r1 s1 r' s' y \/ ms (m_sws sp) r1 s1 r' s' y) ->
    ms (Alt fin (m_sws (Alt (m_ch ":" ;; m_sws (m_plus (m_on MViaPort k_dig) ;; Alt fin (m_sws sp))) sp))) (t ++ r1) s r' s' y.
Proof.
  intros V P0 [[-> ->]|(e & d & n & -> & (w & w2 & -> & W & W2) & NW & ->)]. 
  - assert (E0 : vport 0 v = v) by (unfold vport; rewrite <- P0; destruct v; reflexivity). exists s. rewrite E0. split; [assumption|]. split; [reflexivity|].
    intros fin sp r' s' y [H|H]; apply b_alt; [left; exact H|right]. apply b_sws in H. destruct H as (x & r2 & -> & X & H). apply b_sws. exists x, r2. split; [reflexivity|]. split; [assumption|].
    apply b_alt. right. exact H.
  - exists (put_via (Some (vport (n mod 65536) v)) s). split; [reflexivity|]. split; [reflexivity|]. intros fin sp r' s' y H. apply b_alt. right. apply b_sws.
    exists w, (B ":" ++ w2 ++ d ++ r1). rewrite <- !app_assoc. split; [reflexivity|]. split; [assumption|]. apply b_alt. left. apply b_chx; [discriminate|]. eexists. split; [reflexivity|].
    apply b_sws. exists w2, (d ++ r1). split; [reflexivity|]. split; [assumption|]. apply via_digits; [congruence|]. destruct (number_digits _ _ NW) as [N F].
    exists d, r1. split; [reflexivity|]. split; [assumption|]. split; [assumption|]. rewrite (viaport_fold d s v n V P0 NW on_port).
    2:{ intros s0 c V0. unfold on_port. destruct (m_via s0); reflexivity. }
    apply b_alt. exact H.
Qed.
Definition via_is (v : via) : via := vport (v_port v) (vset MViaHost (v_host v) (vset MViaTransport (v_transport v) (vset MViaVersion (v_version v) (vset MViaProtocol (v_protocol v) via0)))).
Lemma via_is_same v : v_param v = [] -> via_is v = v.
Proof. destruct v. cbn. intros ->. reflexivity. Qed.
Lemma via_head_fwd r s r' s' y : m_via s = Some via0 -> ms r_via r s r' s' y ->
  exists v e1 e2 lw h p t s1, r = v_protocol v ++ e1 ++ v_version v ++ e2 ++ v_transport v ++ lw ++ h ++ p ++ t /\
    token (v_protocol v) /\ sep "/" e1 /\ token (v_version v) /\ sep "/" e2 /\ token (v_transport v) /\ lws lw /\ viahost_text h (v_host v) /\ viaport_text p (v_port v) /\
    v_param v = [] /\ m_via s1 = Some v /\ core s1 = core s /\ (ms (vfin []) t s1 r' s' y \/ ms (vsep []) t s1 r' s' y).
Proof.
  intros V0 H. unfold r_via in H.
  eapply (via_field MViaProtocol) in H; [|cbn; tauto|exact V0]. destruct H as (w1 & r1 & s1 & -> & T1 & V1 & C1 & H). apply b_sws in H. destruct H as (a1 & r2 & -> & A1 & H).
  apply b_chx in H; [|discriminate]. destruct H as (r3 & -> & H). apply b_sws in H. destruct H as (b1 & r4 & -> & B1 & H).
  eapply (via_field MViaVersion) in H; [|cbn; tauto|exact V1]. destruct H as (w2 & r5 & s2 & -> & T2 & V2 & C2 & H). apply b_sws in H. destruct H as (a2 & r6 & -> & A2 & H).
  apply b_chx in H; [|discriminate]. destruct H as (r7 & -> & H). apply b_sws in H. destruct H as (b2 & r8 & -> & B2 & H).
  eapply (via_field MViaTransport) in H; [|cbn; tauto|exact V2]. destruct H as (w3 & r9 & s3 & -> & T3 & V3 & C3 & H). apply b_lws in H. destruct H as (l & r10 & -> & L & H).
  eapply via_host in H; [|exact V3]. destruct H as (h & w4 & r11 & s4 & -> & HT & V4 & C4 & H).
  eapply via_port in H; [|exact V4|reflexivity]. destruct H as (pt & p & r12 & s5 & -> & PT & V5 & C5 & H).
  exists (vport p (vset MViaHost w4 (vset MViaTransport w3 (vset MViaVersion w2 (vset MViaProtocol w1 via0))))), (a1 ++ B "/" ++ b1), (a2 ++ B "/" ++ b2), l, h, pt, r12, s5.
  cbn [vport vset v_protocol v_version v_transport v_host v_port v_param via0]. rewrite <- !app_assoc. split; [reflexivity|]. split; [assumption|]. split; [exists a1, b1; auto|].
  split; [assumption|]. split; [exists a2, b2; auto|]. split; [assumption|]. split; [assumption|]. split; [assumption|]. split; [assumption|]. split; [reflexivity|].
  split; [exact V5|]. split; [congruence|]. exact H.
Qed.
Lemma via_head_bwd s v e1 e2 lw h p t : m_via s = Some via0 -> token (v_protocol v) -> sep "/" e1 -> token (v_version v) -> sep "/" e2 -> token (v_transport v) -> lws lw ->
  viahost_text h (v_host v) -> viaport_text p (v_port v) -> v_param v = [] ->
  exists s1, m_via s1 = Some v /\ core s1 = core s /\ forall r' s' y, (ms (vfin []) t s1 r' s' y \/ ms (vsep []) t s1 r' s' y) ->
    ms r_via (v_protocol v ++ e1 ++ v_version v ++ e2 ++ v_transport v ++ lw ++ h ++ p ++ t) s r' s' y.
Proof.
  intros V0 T1 (a1 & b1 & -> & A1 & B1) T2 (a2 & b2 & -> & A2 & B2) T3 L HT PT PN.
  edestruct (via_field_b MViaProtocol (v_protocol v)) as (s1 & V1 & C1 & K1); [cbn; tauto|exact V0|exact T1|].
  edestruct (via_field_b MViaVersion (v_version v)) as (s2 & V2 & C2 & K2); [cbn; tauto|exact V1|exact T2|].
  edestruct (via_field_b MViaTransport (v_transport v)) as (s3 & V3 & C3 & K3); [cbn; tauto|exact V2|exact T3|].
  edestruct (via_host_b h (v_host v)) as (s4 & V4 & C4 & K4); [exact V3|exact HT|].
  edestruct (via_port_b p (v_port v)) as (s5 & V5 & C5 & K5); [exact V4|reflexivity|exact PT|].
  exists s5. split; [rewrite V5; f_equal; apply (via_is_same v PN)|]. split; [congruence|]. intros r' s' y H. unfold r_via. rewrite <- !app_assoc. apply K1.
  apply b_sws. exists a1. eexists. split; [reflexivity|]. split; [assumption|]. apply b_chx; [discriminate|]. eexists. split; [reflexivity|].
  apply b_sws. exists b1. eexists. split; [reflexivity|]. split; [assumption|]. apply K2.
  apply b_sws. exists a2. eexists. split; [reflexivity|]. split; [assumption|]. apply b_chx; [discriminate|]. eexists. split; [reflexivity|].
  apply b_sws. exists b2. eexists. split; [reflexivity|]. split; [assumption|]. apply K3.
  apply b_lws. exists lw. eexists. split; [reflexivity|]. split; [assumption|]. apply K4. apply K5. exact H.
Qed.
Lemma via_fwd_all N : via_fwd N.
Proof.
  induction N as [|N IH]; intros r L; [lia|]. assert (LN : (length r <= N)%nat) by lia. clear L. split.
  - intros s m V H. apply (reach_at 103 r_via) in H; [|exact in_via]. destruct H as (j & r1 & s1 & H & K).
    apply via_head_fwd in H; [|assumption]. destruct H as (v & e1 & e2 & lw & h & p & t & s2 & -> & T1 & E1 & T2 & E2 & T3 & LW & HT & PT & PN & V2 & C2 & H).
    assert (LT : (length t <= N)%nat) by (rewrite !app_length in LN; lia).
    destruct (via_tail_fwd N [] t s2 s2 v r1 s1 j m IH LT (fun x => eq_refl) V2 H K) as (t' & r2 & s3 & -> & (l & VR & D) & SB & R).
    exists (v_protocol v ++ e1 ++ v_version v ++ e2 ++ v_transport v ++ lw ++ h ++ p ++ t'), r2, s3. rewrite <- !app_assoc. split; [reflexivity|]. split; [|auto].
    exists l. split; [|congruence]. eapply via_rest_text; eauto.
  - intros s v m V H. apply (reach_at 68 r_via_param) in H; [|exact in_via_param]. destruct H as (j & r1 & s1 & H & K). rewrite via_param_is in H.
    apply param_fwd in H. destruct H as (x & p & t & h & -> & P & H).
    assert (LT : (length t <= N)%nat) by (rewrite !app_length in LN; lia).
    destruct (via_tail_fwd N [MViaParam] t (got_param p (x ++ t) h s) (param_done p (x ++ t) h s v) (vadd [p] v) r1 s1 j m IH LT (fun y => via_param_act _ _ _ _ _ y V) eq_refl H K)
      as (t' & r2 & s3 & -> & (l & VR & D) & SB & R).
    exists (x ++ t'), r2, s3. rewrite <- !app_assoc. split; [reflexivity|]. split; [|auto]. exists l. split; [exists x, p, t'; auto|exact D].
Qed.
Lemma via_bwd_all N : via_bwd N.
Proof.
  induction N as [|N IH]; intros t r2 L LC SB; [lia|]. assert (LN : (length t <= N)%nat) by lia. clear L. split.
  - intros s l V H. apply via_list_rest in H. destruct H as (v & l0 & e1 & e2 & lw & h & p & t' & -> & T1 & E1 & T2 & E2 & T3 & LW & HT & PT & PN & VR & ->).
    destruct (via_head_bwd s v e1 e2 lw h p (t' ++ CRLF ++ r2) V T1 E1 T2 E2 T3 LW HT PT PN) as (s1 & V1 & C1 & K1).
    edestruct (via_tail_bwd N [] t' r2 s1 s1 v l IH) as (s2 & C2 & K2); try eassumption; try reflexivity.
    { rewrite !app_length in LN. lia. } { rewrite !app_length in LC. rewrite !app_length. lia. }
    exists s2. split; [congruence|]. intros m R. apply K2 in R. destruct R as (j & r3 & s3 & R & A). apply (reach_at 103 r_via); [exact in_via|]. exists j, r3, s3.
    split; [|exact A]. rewrite <- !app_assoc. apply K1. exact R.
  - intros s v l V (x & p & t' & -> & P & VR). assert (LV : (length (snd p) <= cap)%nat) by (apply param_len in P; rewrite !app_length in LC; lia).
    destruct (param_bwd x p s (t' ++ CRLF ++ r2) P LV) as (h & K1).
    edestruct (via_tail_bwd N [MViaParam] t' r2 (got_param p (x ++ t' ++ CRLF ++ r2) h s) (param_done p (x ++ t' ++ CRLF ++ r2) h s v) (vadd [p] v) l IH) as (s2 & C2 & K2);
      try eassumption; try reflexivity.
    { rewrite !app_length in LN. lia. } { rewrite !app_length in LC. rewrite !app_length. lia. } { intros y. apply via_param_act. exact V. }
    exists s2. split; [exact C2|]. intros m R. apply K2 in R. destruct R as (j & r3 & s3 & R & A). apply (reach_at 68 r_via_param); [exact in_via_param|]. exists j, r3, s3.
    split; [|exact A]. rewrite <- !app_assoc. rewrite via_param_is. apply K1. exact R.
Qed.
End Cap.
