(** Facts about the library functions of GoLib.v. *)
From Verif Require Import Bytes BytesLemmas GoLib.
Local Open Scope Z_scope.

(** ** Decimal numbers *)
Lemma dec_value_app a : forall acc b,
  dec_value acc (a ++ b) = match dec_value acc a with Some v => dec_value v b | None => None end.
Proof.
  induction a as [|c a IH]; intros acc b; cbn [app dec_value]; [reflexivity|].
  destruct (digit_val c); [apply IH|reflexivity].
Qed.

Lemma digit_of_val n : 0 <= n < 10 -> digit_val (digit_of n) = Some n.
Proof.
  intros H. assert (n = 0 \/ n = 1 \/ n = 2 \/ n = 3 \/ n = 4 \/ n = 5 \/ n = 6 \/ n = 7 \/ n = 8 \/ n = 9) as K by lia.
  repeat (destruct K as [->|K]; [reflexivity|]). subst. reflexivity.
Qed.

Lemma digit_of_is_digit n : 0 <= n < 10 -> is_digit (digit_of n) = true.
Proof. intros H. pose proof (digit_of_val n H) as K. unfold digit_val in K. destruct (is_digit (digit_of n)); [reflexivity|discriminate]. Qed.

Lemma log2_div10 n : 10 <= n -> (S (Z.to_nat (Z.log2 (n / 10))) <= Z.to_nat (Z.log2 n))%nat.
Proof.
  intros H. assert (0 < n / 10) by (apply Z.div_str_pos; lia).
  assert (Z.log2 (n / 10) + 1 <= Z.log2 n).
  { apply Z.log2_le_pow2; [lia|]. rewrite Z.pow_add_r by (try apply Z.log2_nonneg; lia).
    pose proof (Z.log2_spec (n / 10) ltac:(lia)) as [L _]. change (2 ^ 1) with 2.
    pose proof (Z.mul_div_le n 10 ltac:(lia)). lia. }
  pose proof (Z.log2_nonneg (n / 10)). lia.
Qed.

Lemma dec_spec : forall f n, 0 <= n -> (S (Z.to_nat (Z.log2 n)) <= f)%nat ->
  dec_value 0 (dec f n) = Some n /\ forallb is_digit (dec f n) = true /\ dec f n <> [] /\
  (n <> 0 -> hd x00 (dec f n) <> "0"%byte).
Proof.
  induction f as [|f IH]; intros n Hn Hf; [lia|]. cbn [dec].
  destruct (Z.ltb_spec n 10) as [Hlt|Hge].
  - cbn [dec_value]. rewrite digit_of_val by lia. cbn [forallb hd]. rewrite digit_of_is_digit by lia.
    repeat split; try discriminate.
    intros Hz E. pose proof (digit_of_val n ltac:(lia)) as K. rewrite E in K. injection K as K. lia.
  - assert (Hd : 0 < n / 10) by (apply Z.div_str_pos; lia).
    pose proof (log2_div10 n Hge) as Hl.
    destruct (IH (n / 10) ltac:(lia) ltac:(lia)) as (V & D & N & Z0).
    pose proof (Z.mod_pos_bound n 10 ltac:(lia)) as Hm.
    split.
    + rewrite dec_value_app, V. cbn [dec_value]. rewrite digit_of_val by lia. f_equal.
      pose proof (Z.div_mod n 10). lia.
    + split; [|split].
      * rewrite forallb_app'. cbn [forallb]. rewrite D, digit_of_is_digit by lia. reflexivity.
      * intros E. apply app_eq_nil in E. destruct E as [_ E]. discriminate.
      * intros _. destruct (dec f (n / 10)) as [|c l] eqn:E; [congruence|]. cbn [app hd] in *. apply Z0. lia.
Qed.

Lemma utoa_value n : 0 <= n -> digits_value (utoa n) = Some n.
Proof.
  intros H. destruct (dec_spec (S (Z.to_nat (Z.log2 n))) n H ltac:(lia)) as (V & _ & N & _).
  unfold digits_value, utoa in *. destruct (dec _ n); [congruence|exact V].
Qed.
Lemma utoa_digits n : 0 <= n -> forallb is_digit (utoa n) = true.
Proof. intros H. apply (dec_spec (S (Z.to_nat (Z.log2 n))) n H ltac:(lia)). Qed.
Lemma utoa_nonempty n : 0 <= n -> utoa n <> [].
Proof. intros H. apply (dec_spec (S (Z.to_nat (Z.log2 n))) n H ltac:(lia)). Qed.
Lemma itoa_nonneg n : 0 <= n -> itoa n = utoa n.
Proof. intros H. unfold itoa. replace (n <? 0) with false by lia. reflexivity. Qed.

Lemma utoa_inj a b : 0 <= a -> 0 <= b -> utoa a = utoa b -> a = b.
Proof. intros Ha Hb E. pose proof (utoa_value a Ha) as V. rewrite E, utoa_value in V by exact Hb. congruence. Qed.

Lemma dec_value_nonneg s : forall acc v, 0 <= acc -> dec_value acc s = Some v -> 0 <= v.
Proof.
  induction s as [|c s IH]; intros acc v Ha E; cbn [dec_value] in E; [injection E as <-; lia|].
  unfold digit_val in E. destruct (is_digit c) eqn:D; [|discriminate].
  eapply IH; [|exact E]. unfold is_digit, in_range in D. lia.
Qed.

Lemma digits_value_digits s v : digits_value s = Some v -> forallb is_digit s = true.
Proof.
  unfold digits_value. destruct s as [|c s]; [discriminate|]. generalize (c :: s) 0. clear.
  induction l as [|c l IH]; intros acc E; [reflexivity|]. cbn [dec_value] in E. cbn [forallb].
  unfold digit_val in E. destruct (is_digit c); [|discriminate]. cbn [andb]. eapply IH; exact E.
Qed.

Lemma digits_have_value s : s <> [] -> forallb is_digit s = true -> exists v, digits_value s = Some v /\ 0 <= v.
Proof.
  intros Hne H. unfold digits_value. destruct s as [|c s]; [congruence|]. clear Hne.
  assert (G : forall l acc, 0 <= acc -> forallb is_digit l = true -> exists v, dec_value acc l = Some v /\ 0 <= v).
  { clear. induction l as [|c l IH]; intros acc Ha H; cbn [dec_value]; [exists acc; auto|].
    cbn [forallb] in H. apply andb_true_iff in H. destruct H as [D H]. unfold digit_val. rewrite D.
    apply IH; [|exact H]. unfold is_digit, in_range in D. lia. }
  apply G; [lia|exact H].
Qed.

Lemma parse_uint_utoa bits n : 0 <= n < 2 ^ bits -> parse_uint bits (utoa n) = Some n.
Proof.
  intros H. unfold parse_uint. rewrite utoa_value by lia. replace (n <? 2 ^ bits) with true by lia. reflexivity.
Qed.

Lemma atoi_utoa n : 0 <= n < 2 ^ 63 -> atoi (utoa n) = Some n.
Proof.
  intros H. unfold atoi. pose proof (utoa_digits n ltac:(lia)) as D. pose proof (utoa_value n ltac:(lia)) as V.
  destruct (utoa n) as [|c t]; [discriminate|]. cbn [forallb] in D. apply andb_true_iff in D. destruct D as [D _].
  assert (K : beq c "-" = false /\ beq c "+" = false).
  { assert (K : negb (is_digit c) || (negb (beq c "-") && negb (beq c "+")) = true) by (clear; revert c; by_bytes).
    rewrite D in K. cbn [negb orb] in K. apply andb_true_iff in K. destruct K as [K1 K2].
    apply negb_true_iff in K1, K2. auto. }
  destruct K as [-> ->]. rewrite V.
  replace ((- 2 ^ 63 <=? n) && (n <? 2 ^ 63)) with true by lia. reflexivity.
Qed.

Lemma atoi_itoa n : - 2 ^ 63 <= n < 2 ^ 63 -> atoi (itoa n) = Some n.
Proof.
  intros H. unfold itoa. destruct (Z.ltb_spec n 0) as [Hn|Hn]; [|apply atoi_utoa; lia].
  unfold atoi. rewrite beq_refl, utoa_value by lia. rewrite Z.opp_involutive.
  replace ((- 2 ^ 63 <=? n) && (n <? 2 ^ 63)) with true by lia. reflexivity.
Qed.

(** ** Splitting *)
Definition free_of (c : byte) (s : bytes) : bool := forallb (fun x => negb (beq x c)) s.

Lemma free_of_app c a b : free_of c (a ++ b) = free_of c a && free_of c b.
Proof. apply forallb_app'. Qed.

Lemma split_byte_free sep s : free_of sep s = true -> split_byte sep s = [s].
Proof.
  induction s as [|c s IH]; cbn [free_of forallb split_byte]; [reflexivity|].
  intros H. apply andb_true_iff in H. destruct H as [H1 H2]. apply negb_true_iff in H1. rewrite H1.
  rewrite IH by exact H2. reflexivity.
Qed.

Lemma split_byte_cons sep a rest : free_of sep a = true -> split_byte sep (a ++ sep :: rest) = a :: split_byte sep rest.
Proof.
  induction a as [|c a IH]; cbn [free_of forallb split_byte app]; intros H.
  - rewrite beq_refl. reflexivity.
  - apply andb_true_iff in H. destruct H as [H1 H2]. apply negb_true_iff in H1. rewrite H1.
    rewrite IH by exact H2. reflexivity.
Qed.

Lemma split_byte_nonempty sep s : split_byte sep s <> [].
Proof.
  destruct s as [|c s]; cbn [split_byte]; [discriminate|]. destruct (beq c sep); [discriminate|].
  destruct (split_byte sep s); discriminate.
Qed.

(** The pieces are free of the separator, and joining them gives the input back. *)
Fixpoint join (sep : bytes) (l : list bytes) : bytes :=
  match l with [] => [] | [x] => x | x :: t => x ++ sep ++ join sep t end.

Lemma join_cons_hd sep c l : l <> [] -> join sep (cons_hd c l) = c :: join sep l.
Proof. destruct l as [|x [|y t]]; [congruence|reflexivity|reflexivity]. Qed.

Lemma split_byte_join sep s : join [sep] (split_byte sep s) = s.
Proof.
  induction s as [|c s IH]; cbn [split_byte]; [reflexivity|].
  destruct (beq_reflect c sep) as [->|H].
  - pose proof (split_byte_nonempty sep s). destruct (split_byte sep s) as [|b l] eqn:E; [congruence|].
    change (sep :: join [sep] (b :: l) = sep :: s). congruence.
  - rewrite join_cons_hd by apply split_byte_nonempty. congruence.
Qed.

Lemma split_byte_free_all sep s : Forall (fun x => free_of sep x = true) (split_byte sep s).
Proof.
  induction s as [|c s IH]; cbn [split_byte]; [repeat constructor|].
  destruct (beq_reflect c sep) as [->|H]; [constructor; [reflexivity|exact IH]|].
  destruct (split_byte sep s) as [|x t]; cbn [cons_hd].
  - constructor; [|constructor]. cbn. apply beq_neq in H. rewrite H. reflexivity.
  - inversion IH as [|? ? I1 I2]; subst. constructor; [|exact I2]. cbn [free_of forallb]. apply beq_neq in H. rewrite H. exact I1.
Qed.

Lemma split_crlf_step c s : split_crlf (c :: s) =
  match s with
  | d :: s'' => if beq c CR && beq d LF then [] :: split_crlf s'' else cons_hd c (split_crlf s)
  | [] => cons_hd c (split_crlf s)
  end.
Proof. reflexivity. Qed.

Lemma split_crlf_nonempty s : split_crlf s <> [].
Proof.
  destruct s as [|c s]; [discriminate|]. rewrite split_crlf_step. destruct s as [|d s].
  - discriminate.
  - destruct (beq c CR && beq d LF); [discriminate|]. destruct (split_crlf (d :: s)); discriminate.
Qed.

(** A line without CR. *)
Lemma split_crlf_line a rest : free_of CR a = true -> split_crlf (a ++ CRLF ++ rest) = a :: split_crlf rest.
Proof.
  induction a as [|c a IH]; intros H.
  - reflexivity.
  - cbn [free_of forallb] in H. apply andb_true_iff in H. destruct H as [H1 H2]. apply negb_true_iff in H1.
    rewrite <- app_comm_cons, split_crlf_step, H1. cbn [andb]. rewrite IH by exact H2.
    destruct (a ++ CRLF ++ rest); reflexivity.
Qed.

Lemma split_crlf_free a : free_of CR a = true -> split_crlf a = [a].
Proof.
  induction a as [|c a IH]; intros H; [reflexivity|].
  cbn [free_of forallb] in H. apply andb_true_iff in H. destruct H as [H1 H2]. apply negb_true_iff in H1.
  rewrite split_crlf_step, H1. cbn [andb]. rewrite IH by exact H2. destruct a; reflexivity.
Qed.

Lemma index_byte_free c s : free_of c s = true -> index_byte c s = None.
Proof.
  induction s as [|x s IH]; [reflexivity|]. cbn [free_of forallb index_byte]. intros H.
  apply andb_true_iff in H. destruct H as [H1 H2]. apply negb_true_iff in H1. rewrite H1.
  unfold free_of in IH. rewrite IH by exact H2. reflexivity.
Qed.

Lemma index_byte_app c a b : free_of c a = true -> index_byte c (a ++ c :: b) = Some (length a).
Proof.
  induction a as [|x a IH]; cbn [app index_byte length].
  - intros _. rewrite beq_refl. reflexivity.
  - cbn [free_of forallb]. intros H. apply andb_true_iff in H. destruct H as [H1 H2]. apply negb_true_iff in H1.
    rewrite H1. unfold free_of in IH. rewrite IH by exact H2. reflexivity.
Qed.

Lemma index_byte_some c s n : index_byte c s = Some n ->
  exists a b, s = a ++ c :: b /\ length a = n /\ free_of c a = true.
Proof.
  revert n. induction s as [|x s IH]; intros n E; [discriminate|]. cbn [index_byte] in E.
  destruct (beq_reflect x c) as [->|H].
  - injection E as <-. exists [], s. auto.
  - destruct (index_byte c s) as [k|]; [|discriminate]. injection E as <-.
    destruct (IH k eq_refl) as (a & b & -> & <- & F). exists (x :: a), b. repeat split.
    cbn [free_of forallb]. apply beq_neq in H. rewrite H. exact F.
Qed.

Lemma index_byte_none c s : index_byte c s = None -> free_of c s = true.
Proof.
  induction s as [|x s IH]; [reflexivity|]. cbn [index_byte free_of forallb].
  destruct (beq x c); [discriminate|]. destruct (index_byte c s); [discriminate|]. intros _. apply IH. reflexivity.
Qed.

Lemma has_prefix_app p s : has_prefix (p ++ s) p = true.
Proof. induction p as [|c p IH]; cbn; [destruct s; reflexivity|]. rewrite beq_refl. exact IH. Qed.

Lemma has_prefix_split s p : has_prefix s p = true -> s = p ++ skipn (length p) s.
Proof.
  revert s. induction p as [|c p IH]; intros s H; [reflexivity|]. destruct s as [|x s]; [discriminate|].
  cbn [has_prefix] in H. apply andb_true_iff in H. destruct H as [H1 H2]. apply beq_spec in H1. subst x.
  cbn [length skipn app]. f_equal. apply IH. exact H2.
Qed.

Lemma contains_byte_free c s : contains_byte c s = negb (free_of c s).
Proof.
  induction s as [|x s IH]; [reflexivity|]. cbn [contains_byte existsb free_of forallb].
  unfold contains_byte, free_of in IH. rewrite IH.
  destruct (beq_reflect c x) as [->|H].
  - rewrite beq_refl. reflexivity.
  - assert (beq x c = false) as -> by (apply beq_neq; congruence). reflexivity.
Qed.

Lemma forallb_impl {A} (f g : A -> bool) l : (forall x, f x = true -> g x = true) -> forallb f l = true -> forallb g l = true.
Proof. intros H. induction l as [|x l IH]; cbn; [auto|]. rewrite !andb_true_iff. intuition. Qed.

Lemma forallb_byte_impl (f g : byte -> bool) l :
  forallb (fun c => negb (f c) || g c) all_bytes = true -> forallb f l = true -> forallb g l = true.
Proof.
  intros H. apply forallb_impl. intros c Hc. pose proof (forall_bytes (fun c => negb (f c) || g c) H c) as K.
  cbv beta in K. rewrite Hc in K. exact K.
Qed.
