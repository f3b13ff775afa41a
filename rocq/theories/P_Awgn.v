(** Property C38: the noise generator stays inside its tables. *)
From Verif Require Import Bytes BytesLemmas AwgnModel.
Local Open Scope Z_scope.

(** The generator after any number of calls of ran1 *)
Fixpoint drawn (n : nat) (s : awgn) : awgn := match n with O => s | S k => fst (ran1 (drawn k s)) end.

Definition int64 (z : Z) : Prop := -9223372036854775808 <= z <= 9223372036854775807.
Definition inside (s : awgn) : Prop := Z.abs (ix1 s) < m1 /\ Z.abs (ix2 s) < m2 /\ Z.abs (ix3 s) < m3.
Definition positive (s : awgn) : Prop := 0 <= ix1 s < m1 /\ 0 <= ix2 s < m2 /\ 0 <= ix3 s < m3.

Lemma lcg_inside a c m x : 0 < m -> Z.abs (lcg a c m x) < m.
Proof. intros M. unfold lcg. pose proof (Z.rem_bound_abs (i64 (i64 (a * x) + c)) m). lia. Qed.
Lemma lcg_pos a c m x : 0 < m -> 0 <= a < 10000 -> 0 <= c < 100000 -> 0 <= x < 1000000 -> 0 <= lcg a c m x < m.
Proof.
  intros M A C X. unfold lcg.
  assert (0 <= a * x < 10000000000) by nia.
  rewrite (i64_id (a * x)) by lia. rewrite (i64_id (a * x + c)) by lia. apply Z.rem_bound_pos; lia.
Qed.

Lemma fill_inside s : inside s -> inside (awgn_fill s).
Proof. intros (_ & _ & H). repeat split; cbn [ix1 ix2 ix3 awgn_fill]; try (apply lcg_inside; reflexivity). exact H. Qed.
Lemma fill_positive s : positive s -> positive (awgn_fill s).
Proof.
  unfold positive, m1, m2, m3. intros (A & C & D). cbn [ix1 ix2 ix3 awgn_fill].
  split; [apply lcg_pos; unfold ia1, ic1; lia|]. split; [apply lcg_pos; unfold ia2, ic2; lia|exact D].
Qed.
Lemma iter_keeps (P : awgn -> Prop) n : forall s, (forall x, P x -> P (awgn_fill x)) -> P s -> P (Nat.iter n awgn_fill s).
Proof. induction n as [|n IH]; intros s K H; [exact H|]. simpl. apply K, IH; assumption. Qed.

(** For every seed and every number of draws: the states stay inside their moduli, and the only table entries ever
    read or written are 1..97, which exist (and ran1 can never index outside). *)
Theorem awgn_inside_tables : forall seed n, int64 seed ->
  inside (drawn n (awgn_new seed)) /\
  forall j, snd (ran1 (drawn n (awgn_new seed))) = Some j -> 1 <= j <= 97 /\ j < awgn_size.
Proof.
  intros seed n S. split.
  - induction n as [|n IH]; cbn [drawn].
    + unfold awgn_new. apply iter_keeps; [apply fill_inside|]. set (q := if _ <? _ then _ else _).
      pose proof (Z.rem_bound_abs (lcg ia1 ic1 m1 (Z.rem (i64 (ic1 + q)) m1)) m2).
      pose proof (Z.rem_bound_abs (lcg ia1 ic1 m1 (lcg ia1 ic1 m1 (Z.rem (i64 (ic1 + q)) m1))) m3).
      unfold inside. cbn [ix1 ix2 ix3]. split; [apply lcg_inside; reflexivity|]. unfold m2, m3 in *. lia.
    + cbn [ran1 fst]. repeat split; apply lcg_inside; reflexivity.
  - intros j. unfold ran1. cbn [snd ix3]. set (k := i64 _).
    destruct ((k >? 97) || (k <? 1)) eqn:E; [discriminate|]. intros [= <-]. unfold awgn_size. lia.
Qed.

Lemma new_positive seed : Z.abs seed <= 9223372036854775807 - ic1 -> positive (awgn_new seed).
Proof.
  intros S. unfold awgn_new. apply iter_keeps; [apply fill_positive|].
  assert (E : (if seed <? 0 then i64 (- seed) else seed) = Z.abs seed).
  { destruct (seed <? 0) eqn:K; [rewrite i64_id by (unfold ic1 in S; lia)|]; lia. }
  rewrite E. set (q := Z.abs seed) in *. assert (0 <= q) by (unfold q; lia). unfold ic1 in S. rewrite (i64_id (ic1 + q)) by (unfold ic1; lia).
  assert (H1 : 0 <= Z.rem (ic1 + q) m1 < m1) by (apply Z.rem_bound_pos; unfold ic1, m1; lia).
  assert (H2 : 0 <= lcg ia1 ic1 m1 (Z.rem (ic1 + q) m1) < m1) by (unfold m1 in *; apply lcg_pos; unfold ia1, ic1; lia).
  set (b := lcg ia1 ic1 m1 (Z.rem (ic1 + q) m1)) in *.
  assert (H3 : 0 <= lcg ia1 ic1 m1 b < m1) by (unfold m1 in *; apply lcg_pos; unfold ia1, ic1; lia).
  set (c := lcg ia1 ic1 m1 b) in *. unfold positive. cbn [ix1 ix2 ix3].
  split; [exact H3|]. split; apply Z.rem_bound_pos; unfold m2, m3; lia.
Qed.

(** For every seed that does not overflow when the increment is added, the states are never negative and every
    draw uses the table (the escape that returns -1 is dead code). *)
Theorem awgn_every_draw_uses_table : forall seed n, Z.abs seed <= 9223372036854775807 - ic1 ->
  positive (drawn n (awgn_new seed)) /\
  exists j, snd (ran1 (drawn n (awgn_new seed))) = Some j /\ 1 <= j <= 97.
Proof.
  intros seed n S.
  assert (P : positive (drawn n (awgn_new seed))).
  { induction n as [|n IH]; cbn [drawn]; [apply new_positive, S|]. unfold positive, m1, m2, m3 in *. destruct IH as (A & C & D). cbn [ran1 fst ix1 ix2 ix3].
    split; [apply lcg_pos; unfold ia1, ic1; lia|]. split; [apply lcg_pos; unfold ia2, ic2; lia|apply lcg_pos; unfold ia3, ic3; lia]. }
  split; [exact P|]. unfold ran1. cbn [snd ix3]. set (x := lcg ia3 ic3 m3 _).
  assert (X : 0 <= x < m3). { unfold x, positive, m1, m2, m3 in *. apply lcg_pos; unfold ia3, ic3; lia. }
  clearbody x. clear P. unfold m3 in *. rewrite (i64_id (97 * x)) by lia.
  assert (Q : 0 <= Z.quot (97 * x) 243000 <= 96).
  { rewrite Z.quot_div_nonneg by lia. split; [apply Z.div_pos; lia|]. apply Z.lt_succ_r, Z.div_lt_upper_bound; lia. }
  set (k := Z.quot (97 * x) 243000) in *. clearbody k. rewrite (i64_id (1 + k)) by lia. exists (1 + k).
  destruct ((1 + k >? 97) || (1 + k <? 1)) eqn:E; [lia|]. split; [reflexivity|lia].
Qed.

(** The largest int64 as a seed makes the addition overflow: the first draw leaves the table's range. *)
Theorem awgn_extreme_seed_refuted : exists seed, int64 seed /\ ix3 (awgn_new seed) < 0 /\ snd (ran1 (awgn_new seed)) = None.
Proof. exists 9223372036854775807. split; [unfold int64; lia|]. split; [vm_compute; reflexivity|vm_compute; reflexivity]. Qed.

(** The default seed of NewAWGN: dsp/awgn.go:55 *)
Example awgn_nonvacuous : Z.abs 7162534 <= 9223372036854775807 - ic1 /\ int64 7162534 /\ snd (ran1 (awgn_new 7162534)) <> None.
Proof. unfold int64, ic1. repeat split; try lia. vm_compute. discriminate. Qed.

Print Assumptions awgn_inside_tables.
Print Assumptions awgn_every_draw_uses_table.
Print Assumptions awgn_extreme_seed_refuted.
