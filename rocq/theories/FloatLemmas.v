(** Lemmas on binary64 arithmetic (AwgnFloat.v): each operation is the real one followed by a monotone rounding, as long
    as the result is no larger than 2^1000. Nothing here models code. *)
From Coq Require Import ZArith List Lia Reals Lra.
From Flocq Require Import Core IEEE754.BinarySingleNaN.
From Verif Require Import AwgnFloat.
Local Open Scope R_scope.

Notation fexp64 := (SpecFloat.fexp 53 1024).
Definition rnd (x : R) : R := round radix2 fexp64 (round_mode mode_NE) x.
#[global] Instance valid64 : Valid_exp fexp64 := @fexp_correct 53 1024 prec53.
#[global] Instance validrnd64 : Valid_rnd (round_mode mode_NE) := valid_rnd_round_mode mode_NE.

(** m * 2^e is a binary64 number *)
Lemma dyadic (m e : Z) : (Z.abs m < 2 ^ 53)%Z -> (-1074 <= e)%Z -> generic_format radix2 fexp64 (F2R (Float radix2 m e)).
Proof.
  intros M E. change fexp64 with (FLT_exp (-1074) 53). apply generic_format_FLT.
  exists (Float radix2 m e); [reflexivity|exact M|exact E].
Qed.
Definition fits (x : R) : Prop := generic_format radix2 fexp64 x.
Lemma fits_Z z : (Z.abs z < 2 ^ 53)%Z -> fits (IZR z).
Proof. intros H. pose proof (dyadic z 0 H ltac:(lia)) as D. unfold F2R in D. cbn [Fnum Fexp] in D. change (bpow radix2 0) with 1 in D. now rewrite Rmult_1_r in D. Qed.
Lemma fits_bpow e : (-1074 <= e <= 1023)%Z -> fits (bpow radix2 e).
Proof. intros H. apply generic_format_bpow. unfold SpecFloat.fexp, SpecFloat.emin. lia. Qed.
Lemma fits_B x : fits (@B2R 53 1024 x).
Proof. apply generic_format_B2R. Qed.
Lemma fits_opp x : fits x -> fits (- x).
Proof. apply generic_format_opp. Qed.

Lemma rnd_up x y : fits y -> x <= y -> rnd x <= y.
Proof. intros F L. apply round_le_generic; [apply valid64|apply validrnd64|exact F|exact L]. Qed.
Lemma rnd_dn x y : fits y -> y <= x -> y <= rnd x.
Proof. intros F L. apply round_ge_generic; [apply valid64|apply validrnd64|exact F|exact L]. Qed.
Lemma rnd_id x : fits x -> rnd x = x.
Proof. intros F. apply round_generic; [apply validrnd64|exact F]. Qed.

Definition big : R := bpow radix2 1000.
Lemma rnd_abs x : Rabs x <= big -> Rabs (rnd x) < bpow radix2 1024.
Proof.
  intros H. apply Rle_lt_trans with big; [|apply bpow_lt; lia].
  apply abs_round_le_generic; [apply valid64|apply validrnd64|apply fits_bpow; lia|exact H].
Qed.

Definition fin (x : f64) : Prop := is_finite x = true.
Lemma add_val x y : fin x -> fin y -> Rabs (B2R x + B2R y) <= big -> fin (fadd x y) /\ B2R (fadd x y) = rnd (B2R x + B2R y).
Proof.
  intros X Y L. pose proof (Bplus_correct 53 1024 _ _ mode_NE x y X Y) as C.
  rewrite Rlt_bool_true in C by (apply rnd_abs, L). destruct C as (V & F & _). split; [exact F|exact V].
Qed.
Lemma sub_val x y : fin x -> fin y -> Rabs (B2R x - B2R y) <= big -> fin (fsub x y) /\ B2R (fsub x y) = rnd (B2R x - B2R y).
Proof.
  intros X Y L. pose proof (Bminus_correct 53 1024 _ _ mode_NE x y X Y) as C.
  rewrite Rlt_bool_true in C by (apply rnd_abs, L). destruct C as (V & F & _). split; [exact F|exact V].
Qed.
Lemma mul_val x y : fin x -> fin y -> Rabs (B2R x * B2R y) <= big -> fin (fmul x y) /\ B2R (fmul x y) = rnd (B2R x * B2R y).
Proof.
  intros X Y L. pose proof (Bmult_correct 53 1024 _ _ mode_NE x y) as C.
  rewrite Rlt_bool_true in C by (apply rnd_abs, L). destruct C as (V & F & _).
  unfold fin in *. rewrite X, Y in F. split; [exact F|exact V].
Qed.
Lemma div_val x y : fin x -> B2R y <> 0 -> Rabs (B2R x / B2R y) <= big -> fin (fdiv x y) /\ B2R (fdiv x y) = rnd (B2R x / B2R y).
Proof.
  intros X Y L. pose proof (Bdiv_correct 53 1024 _ _ mode_NE x y Y) as C.
  rewrite Rlt_bool_true in C by (apply rnd_abs, L). destruct C as (V & F & _).
  unfold fin in *. rewrite X in F. split; [exact F|exact V].
Qed.
Lemma sqrt_val x : fin x -> 0 <= B2R x -> fin (fsqrt x) /\ B2R (fsqrt x) = rnd (sqrt (B2R x)).
Proof.
  intros X P. destruct (Bsqrt_correct 53 1024 _ _ mode_NE x) as (V & F & _). split; [|exact V].
  unfold fin, fsqrt in *. rewrite F. destruct x as [s|s| |s m e H]; try reflexivity; try discriminate.
  destruct s; [|reflexivity]. exfalso. cbn [B2R] in P. unfold F2R in P. cbn [Fnum Fexp SpecFloat.cond_Zopp] in P.
  pose proof (bpow_gt_0 radix2 e). assert (IZR (Z.neg m) < 0) by (apply IZR_lt; lia).
  assert (IZR (Z.neg m) * bpow radix2 e < 0) by nra. cbn in *. lra.
Qed.
Lemma int_val z : (Z.abs z < 2 ^ 53)%Z -> fin (of_int z) /\ B2R (of_int z) = IZR z.
Proof.
  intros H. pose proof (binary_normalize_correct 53 1024 _ _ mode_NE z 0 false) as C. cbv zeta in C.
  assert (E : F2R (Float radix2 z 0) = IZR z) by (unfold F2R; cbn [Fnum Fexp]; change (bpow radix2 0) with 1; apply Rmult_1_r).
  rewrite E in C. pose proof (rnd_id _ (fits_Z z H)) as I. unfold rnd in I. rewrite I in C.
  rewrite Rlt_bool_true in C. { destruct C as (V & F & _). split; [exact F|exact V]. }
  rewrite <- abs_IZR. apply Rlt_trans with (IZR (2 ^ 53)); [apply IZR_lt, H|].
  rewrite <- (IZR_Zpower radix2 1024) by lia. apply IZR_lt. reflexivity.
Qed.
Lemma flt_val x y : fin x -> fin y -> flt x y = Rlt_bool (B2R x) (B2R y).
Proof. apply Bltb_correct. Qed.

(** powers of two as numbers *)
Lemma bpow_neg e : (0 <= e)%Z -> bpow radix2 (- e) = / IZR (2 ^ e).
Proof. intros H. rewrite bpow_opp, <- IZR_Zpower by exact H. reflexivity. Qed.
Lemma bpow_nn e : (0 <= e)%Z -> bpow radix2 e = IZR (2 ^ e).
Proof. intros H. rewrite <- IZR_Zpower by exact H. reflexivity. Qed.
Lemma big_ge z : (z <= 2 ^ 1000)%Z -> IZR z <= big.
Proof. intros H. unfold big. rewrite bpow_nn by lia. apply IZR_le, H. Qed.

Lemma val_SF x : B2R x = SF2R radix2 (@B2SF 53 1024 x).
Proof. symmetry. apply SF2R_B2SF. Qed.
Lemma rm1_val : fin rm1 /\ B2R rm1 = IZR 4554751623138161 * / IZR (2 ^ 70).
Proof.
  assert (E : B2SF rm1 = SpecFloat.S754_finite false 4554751623138161 (-70)) by (vm_compute; reflexivity).
  split; [unfold fin; rewrite <- is_finite_SF_B2SF, E; reflexivity|].
  rewrite val_SF, E. cbn [SF2R]. unfold F2R. cbn [Fnum Fexp SpecFloat.cond_Zopp]. apply Rmult_eq_compat_l, (bpow_neg 70). lia.
Qed.
Lemma rm2_val : fin rm2 /\ B2R rm2 = IZR 8780505300748284 * / IZR (2 ^ 70).
Proof.
  assert (E : B2SF rm2 = SpecFloat.S754_finite false 8780505300748284 (-70)) by (vm_compute; reflexivity).
  split; [unfold fin; rewrite <- is_finite_SF_B2SF, E; reflexivity|].
  rewrite val_SF, E. cbn [SF2R]. unfold F2R. cbn [Fnum Fexp SpecFloat.cond_Zopp]. apply Rmult_eq_compat_l, (bpow_neg 70). lia.
Qed.
Lemma fits_q m e : (Z.abs m < 2 ^ 53)%Z -> (0 <= e <= 1074)%Z -> fits (IZR m * / IZR (2 ^ e)).
Proof. intros M E. pose proof (dyadic m (- e) M ltac:(lia)) as D. unfold F2R in D. cbn [Fnum Fexp] in D. rewrite bpow_neg in D by lia. exact D. Qed.
Ltac below z := apply Rle_trans with (IZR z); [|apply big_ge; vm_compute; discriminate].

From Verif Require Import Bytes AwgnModel.

(** the fraction float64(ix2)*rm2 *)
Lemma frac_val x lo hi : (Z.abs lo < 2 ^ 53)%Z -> (Z.abs hi < 2 ^ 53)%Z ->
  (Z.abs x < m2)%Z -> IZR lo * / IZR (2 ^ 20) <= IZR x * B2R rm2 <= IZR hi * / IZR (2 ^ 20) ->
  fin (fmul (of_int x) rm2) /\ IZR lo * / IZR (2 ^ 20) <= B2R (fmul (of_int x) rm2) <= IZR hi * / IZR (2 ^ 20).
Proof.
  intros Hl Hh X B. destruct (int_val x) as [Fx Vx]; [unfold m2 in X; lia|]. destruct rm2_val as [Fr Vr].
  destruct (mul_val (of_int x) rm2 Fx Fr) as [F V].
  - rewrite Vx, Vr. rewrite Rabs_mult. below 4%Z.
    assert (Rabs (IZR x) <= 134456) by (rewrite <- abs_IZR; apply IZR_le; unfold m2 in X; lia).
    rewrite (Rabs_pos_eq (_ * / _)) by (vm_compute IZR; lra). pose proof (Rabs_pos (IZR x)). change (2 ^ 70)%Z with 1180591620717411303424%Z. nra.
  - split; [exact F|]. rewrite V, Vx. split; [apply rnd_dn|apply rnd_up]; try apply B; apply fits_q; try assumption; lia.
Qed.

(** fresh between two bounds, when its exact ingredients are *)
Lemma fresh_val s lo hi : (Z.abs (ix1 s) < m1)%Z -> (Z.abs lo < 2 ^ 50)%Z -> (Z.abs hi < 2 ^ 50)%Z ->
  forall fl fh, (Z.abs fl < 2 ^ 30)%Z -> (Z.abs fh < 2 ^ 30)%Z -> (Z.abs (ix2 s) < m2)%Z ->
  IZR fl * / IZR (2 ^ 20) <= IZR (ix2 s) * B2R rm2 <= IZR fh * / IZR (2 ^ 20) ->
  IZR lo * / IZR (2 ^ 40) <= (IZR (ix1 s * 2 ^ 20 + fl) * / IZR (2 ^ 20)) * B2R rm1 ->
  (IZR (ix1 s * 2 ^ 20 + fh) * / IZR (2 ^ 20)) * B2R rm1 <= IZR hi * / IZR (2 ^ 40) ->
  fin (fresh s) /\ IZR lo * / IZR (2 ^ 40) <= B2R (fresh s) <= IZR hi * / IZR (2 ^ 40).
Proof.
  intros X1 Hl Hh fl fh Fl Fh X2 B Bl Bh. unfold fresh.
  destruct (frac_val (ix2 s) fl fh ltac:(lia) ltac:(lia) X2 B) as [Ff Vf]. set (q := fmul (of_int (ix2 s)) rm2) in *.
  destruct (int_val (ix1 s)) as [Fx Vx]; [unfold m1 in X1; lia|].
  assert (C : forall n, IZR (ix1 s * 2 ^ 20 + n) * / IZR (2 ^ 20) = IZR (ix1 s) + IZR n * / IZR (2 ^ 20)).
  { intros n. rewrite plus_IZR, mult_IZR. field. apply not_0_IZR. discriminate. }
  assert (A1 : Rabs (IZR (ix1 s)) <= 259200) by (rewrite <- abs_IZR; apply IZR_le; unfold m1 in X1; lia).
  assert (P20 : 0 < / IZR (2 ^ 20) <= 1). { change (2 ^ 20)%Z with 1048576%Z. lra. }
  assert (An : forall n, (Z.abs n < 2 ^ 30)%Z -> Rabs (IZR n * / IZR (2 ^ 20)) <= 1024).
  { intros n N. rewrite Rabs_mult, (Rabs_pos_eq (/ _)) by lra. assert (Rabs (IZR n) <= 1073741824) by (rewrite <- abs_IZR; apply IZR_le; lia).
    change (2 ^ 20)%Z with 1048576%Z. lra. }
  pose proof (An fl Fl) as Al. pose proof (An fh Fh) as Ah. apply Rabs_le_inv in A1, Al, Ah.
  destruct (add_val (of_int (ix1 s)) q Fx Ff) as [Fa Va].
  { rewrite Vx. below 300000%Z. apply Rabs_le. lra. }
  set (t := fadd (of_int (ix1 s)) q) in *.
  assert (T : IZR (ix1 s * 2 ^ 20 + fl) * / IZR (2 ^ 20) <= B2R t <= IZR (ix1 s * 2 ^ 20 + fh) * / IZR (2 ^ 20)).
  { rewrite Va, Vx. split; [apply rnd_dn|apply rnd_up]; try (apply fits_q; [unfold m1 in X1; lia|lia]); rewrite C; lra. }
  destruct rm1_val as [Fr Vr].
  assert (P1 : 0 < B2R rm1 <= 1). { rewrite Vr. change (2 ^ 70)%Z with 1180591620717411303424%Z. lra. }
  rewrite !C in T. rewrite C in Bl, Bh.
  destruct (mul_val t rm1 Fa Fr) as [F V].
  { below 300000%Z. rewrite Rabs_mult, (Rabs_pos_eq (B2R rm1)) by lra. assert (Rabs (B2R t) <= 300000) by (apply Rabs_le; lra).
    pose proof (Rabs_pos (B2R t)). nra. }
  split; [exact F|]. rewrite V. split; [apply rnd_dn|apply rnd_up]; try (apply fits_q; [lia|lia]); nra.
Qed.

(** the ix2 part: x2 * rm2 *)
Lemma rm2_bounds : 0 < B2R rm2 /\ 134455 * B2R rm2 <= 1048575 * / IZR (2 ^ 20) /\ 7 * / IZR (2 ^ 20) <= B2R rm2.
Proof. destruct rm2_val as [_ ->]. change (2 ^ 70)%Z with 1180591620717411303424%Z. change (2 ^ 20)%Z with 1048576%Z. lra. Qed.
Lemma part2 x : (0 <= x < m2)%Z -> IZR 0 * / IZR (2 ^ 20) <= IZR x * B2R rm2 <= IZR 1048575 * / IZR (2 ^ 20).
Proof.
  intros H. unfold m2 in H. assert (0 <= IZR x <= 134455) by (split; apply IZR_le; lia). pose proof rm2_bounds.
  change (2 ^ 20)%Z with 1048576%Z in *. nra.
Qed.
Lemma part2n x : (Z.abs x < m2)%Z -> IZR (-1048576) * / IZR (2 ^ 20) <= IZR x * B2R rm2 <= IZR 1048576 * / IZR (2 ^ 20).
Proof.
  intros H. unfold m2 in H. assert (-134455 <= IZR x <= 134455) by (split; apply IZR_le; lia). pose proof rm2_bounds.
  change (2 ^ 20)%Z with 1048576%Z in *. nra.
Qed.

Ltac nums := change (2 ^ 70)%Z with 1180591620717411303424%Z in *; change (2 ^ 20)%Z with 1048576%Z in *;
  change (2 ^ 40)%Z with 1099511627776%Z in *.
Ltac edge := rewrite plus_IZR, (mult_IZR (ix1 _)); destruct rm1_val as [_ ->]; nums; try lra.

(** every value put in the table is a number between -2 and 2 *)
Lemma fresh_any s : (Z.abs (ix1 s) < m1)%Z -> (Z.abs (ix2 s) < m2)%Z -> fin (fresh s) /\ -2 <= B2R (fresh s) <= 2.
Proof.
  intros X1 X2.
  assert (A : -259200 <= IZR (ix1 s) <= 259200) by (split; apply IZR_le; unfold m1 in X1; lia).
  destruct (fresh_val s (-2199023255552) 2199023255552 X1 eq_refl eq_refl (-1048576) 1048576 eq_refl eq_refl X2 (part2n _ X2)) as [F V]; [edge|edge|].
  split; [exact F|]. nums. lra.
Qed.

(** of the states between 40600 and 218599: between 5/32 and 27/32 *)
Lemma fresh_mid s : (40600 <= ix1 s <= 218599)%Z -> (0 <= ix2 s < m2)%Z -> fin (fresh s) /\ 5 / 32 <= B2R (fresh s) <= 27 / 32.
Proof.
  intros X1 X2.
  assert (A : 40600 <= IZR (ix1 s) <= 218599) by (split; apply IZR_le; lia).
  destruct (fresh_val s 171798691840 927712935936 ltac:(unfold m1; lia) eq_refl eq_refl 0 1048575 eq_refl eq_refl ltac:(lia) (part2 _ X2)) as [F V]; [edge|edge|].
  split; [exact F|]. nums. lra.
Qed.

(** never negative, and never more than 1, when the states are not negative *)
Lemma fresh_unit s : (0 <= ix1 s < m1)%Z -> (0 <= ix2 s < m2)%Z -> fin (fresh s) /\ 0 <= B2R (fresh s) <= 1.
Proof.
  intros X1 X2. unfold m1 in X1.
  assert (A : 0 <= IZR (ix1 s) <= 259199) by (split; apply IZR_le; lia).
  destruct (fresh_val s 0 1099511627776 ltac:(unfold m1; lia) eq_refl eq_refl 0 1048575 eq_refl eq_refl ltac:(lia) (part2 _ X2)) as [F V]; [edge|edge|].
  split; [exact F|]. nums. lra.
Qed.

(** one half only from the state 129600 of the first generator *)
Lemma fresh_half s : (0 <= ix1 s < m1)%Z -> (0 <= ix2 s < m2)%Z -> B2R (fresh s) = 1 / 2 -> ix1 s = 129600%Z.
Proof.
  intros X1 X2 H. unfold m1 in X1. destruct (Z.lt_trichotomy (ix1 s) 129600) as [L|[L|L]]; [|exact L|].
  - assert (A : 0 <= IZR (ix1 s) <= 129599) by (split; apply IZR_le; lia).
    destruct (fresh_val s 0 549755813887 ltac:(unfold m1; lia) eq_refl eq_refl 0 1048575 eq_refl eq_refl ltac:(lia) (part2 _ X2)) as [F V]; [edge|edge|].
    nums. lra.
  - assert (A : 129601 <= IZR (ix1 s) <= 259199) by (split; apply IZR_le; lia).
    destruct (fresh_val s 549755813889 1099511627776 ltac:(unfold m1; lia) eq_refl eq_refl 0 1048575 eq_refl eq_refl ltac:(lia) (part2 _ X2)) as [F V]; [edge|edge|].
    nums. lra.
Qed.

(** The pairs: v = 2u - 1, r = v1^2 + v2^2 *)
Lemma centred_val u lo hi : fin u -> fits (2 * lo) -> fits (2 * hi) -> fits (2 * lo - 1) -> fits (2 * hi - 1) ->
  -4 <= lo -> hi <= 4 -> lo <= B2R u <= hi -> fin (centred u) /\ 2 * lo - 1 <= B2R (centred u) <= 2 * hi - 1.
Proof.
  intros F L2 H2 L1 H1 B4 B4' B. unfold centred. destruct (int_val 2 eq_refl) as [Ft Vt]. destruct (int_val 1 eq_refl) as [Fo Vo].
  destruct (mul_val (of_int 2) u Ft F) as [Fm Vm]. { rewrite Vt. below 8%Z. apply Rabs_le. lra. }
  assert (T : 2 * lo <= B2R (fmul (of_int 2) u) <= 2 * hi). { rewrite Vm, Vt. split; [apply rnd_dn|apply rnd_up]; try assumption; lra. }
  destruct (sub_val _ (of_int 1) Fm Fo) as [Fs Vs]. { rewrite Vo. below 9%Z. apply Rabs_le. lra. }
  split; [exact Fs|]. rewrite Vs, Vo. split; [apply rnd_dn|apply rnd_up]; try assumption; lra.
Qed.

Lemma fits_lit x m e : x = IZR m * / IZR (2 ^ e) -> (Z.abs m < 2 ^ 53)%Z -> (0 <= e <= 1074)%Z -> fits x.
Proof. intros ->. apply fits_q. Qed.
Ltac lit m e := apply (fits_lit _ m e); [cbv [Z.pow Z.pow_pos Pos.iter Z.mul Pos.mul]; lra|vm_compute; reflexivity|lia].

Lemma centred_mid u : fin u -> 5 / 32 <= B2R u <= 27 / 32 -> fin (centred u) /\ -11 / 16 <= B2R (centred u) <= 11 / 16.
Proof.
  intros F B. destruct (centred_val u (5 / 32) (27 / 32) F) as [Fc Vc]; try lra;
    [lit 5%Z 4%Z|lit 27%Z 4%Z|lit (-11)%Z 4%Z|lit 11%Z 4%Z|]. split; [exact Fc|lra].
Qed.
Lemma centred_unit u : fin u -> 0 <= B2R u <= 1 -> fin (centred u) /\ -1 <= B2R (centred u) <= 1.
Proof.
  intros F B. destruct (centred_val u 0 1 F) as [Fc Vc]; try lra;
    [lit 0%Z 4%Z|lit 2%Z 0%Z|lit (-1)%Z 0%Z|lit 1%Z 0%Z|]. split; [exact Fc|lra].
Qed.

Lemma square_val v b : fin v -> fits (b * b) -> 0 <= b <= 4 -> - b <= B2R v <= b -> fin (fmul v v) /\ 0 <= B2R (fmul v v) <= b * b.
Proof.
  intros F Fb L B. assert (0 <= B2R v * B2R v <= b * b) by nra.
  destruct (mul_val v v F F) as [Fm Vm]. { below 16%Z. apply Rabs_le. nra. }
  split; [exact Fm|]. rewrite Vm. split; [apply rnd_dn; [lit 0%Z 0%Z|lra]|apply rnd_up; [exact Fb|lra]].
Qed.
Lemma radius_val v1 v2 b : fin v1 -> fin v2 -> fits (b * b) -> fits (2 * (b * b)) -> 0 <= b <= 4 ->
  - b <= B2R v1 <= b -> - b <= B2R v2 <= b -> fin (radius v1 v2) /\ 0 <= B2R (radius v1 v2) <= 2 * (b * b).
Proof.
  intros F1 F2 Fb Fbb L B1 B2. destruct (square_val v1 b F1 Fb L B1) as [S1 T1]. destruct (square_val v2 b F2 Fb L B2) as [S2 T2].
  unfold radius. assert (0 <= b * b <= 16) by nra.
  destruct (add_val _ _ S1 S2) as [Fa Va]. { below 32%Z. apply Rabs_le. lra. }
  split; [exact Fa|]. rewrite Va. split; [apply rnd_dn; [lit 0%Z 0%Z|lra]|apply rnd_up; [exact Fbb|lra]].
Qed.

(** two middle values make an accepted pair *)
Lemma pair_mid u1 u2 : fin u1 -> fin u2 -> 5 / 32 <= B2R u1 <= 27 / 32 -> 5 / 32 <= B2R u2 <= 27 / 32 ->
  flt (radius (centred u1) (centred u2)) (of_int 1) = true.
Proof.
  intros F1 F2 B1 B2. destruct (centred_mid u1 F1 B1) as [C1 V1]. destruct (centred_mid u2 F2 B2) as [C2 V2].
  destruct (radius_val _ _ (11 / 16) C1 C2) as [Fr Vr]; try lra; [lit 121%Z 8%Z|lit 121%Z 7%Z|].
  destruct (int_val 1 eq_refl) as [Fo Vo]. rewrite flt_val, Vo by assumption. apply Rlt_bool_true. lra.
Qed.

(** away from one half, v is at least 2^-53 away from 0 *)
Lemma half_val : bpow radix2 (-1) = 1 / 2.
Proof. change (-1)%Z with (Z.opp 1). rewrite bpow_neg by lia. change (2 ^ 1)%Z with 2%Z. lra. Qed.
Lemma centred_away u : fin u -> 0 <= B2R u <= 1 -> B2R u <> 1 / 2 -> / IZR (2 ^ 53) <= Rabs (B2R (centred u)).
Proof.
  intros F B N. set (d := / IZR (2 ^ 53)).
  assert (D : 0 < d <= 1 / 1000) by (unfold d; change (2 ^ 53)%Z with 9007199254740992%Z; lra).
  destruct (Rtotal_order (B2R u) (1 / 2)) as [L|[L|L]]; [|now destruct N|].
  - assert (P : B2R u <= 1 / 2 - d / 2).
    { rewrite <- half_val in L. pose proof (pred_ge_gt radix2 fexp64 _ _ (fits_B u) (fits_bpow (-1) ltac:(lia)) L) as P.
      rewrite pred_bpow in P. rewrite half_val in P. change (fexp64 (-1)) with (-54)%Z in P. change (-54)%Z with (Z.opp 54) in P.
      rewrite bpow_neg in P by lia. unfold d. change (2 ^ 54)%Z with 18014398509481984%Z in P. change (2 ^ 53)%Z with 9007199254740992%Z. lra. }
    destruct (centred_val u 0 (1 / 2 - d / 2) F) as [Fc Vc]; try lra;
      [lit 0%Z 4%Z|unfold d; lit 9007199254740991%Z 53%Z|lit (-1)%Z 0%Z|unfold d; lit (-1)%Z 53%Z|].
    rewrite <- Rabs_Ropp. rewrite Rabs_pos_eq; lra.
  - assert (P : 1 / 2 + d <= B2R u).
    { rewrite <- half_val in L. pose proof (succ_le_lt radix2 fexp64 _ _ (fits_bpow (-1) ltac:(lia)) (fits_B u) L) as P.
      rewrite succ_eq_pos in P by apply bpow_ge_0. rewrite ulp_bpow in P. rewrite half_val in P.
      change (fexp64 (-1 + 1)) with (-53)%Z in P. change (-53)%Z with (Z.opp 53) in P. rewrite bpow_neg in P by lia. exact P. }
    destruct (centred_val u (1 / 2 + d) 1 F) as [Fc Vc]; try lra;
      [unfold d; lit 4503599627370497%Z 52%Z|lit 2%Z 0%Z|unfold d; lit 2%Z 53%Z|lit 1%Z 0%Z|].
    rewrite Rabs_pos_eq; lra.
Qed.

Definition tiny : R := / IZR (2 ^ 106).
Lemma square_away v : fin v -> -1 <= B2R v <= 1 -> / IZR (2 ^ 53) <= Rabs (B2R v) -> tiny <= B2R (fmul v v).
Proof.
  intros F B A. destruct (mul_val v v F F) as [Fm Vm]. { below 1%Z. apply Rabs_le. nra. }
  rewrite Vm. apply rnd_dn; [unfold tiny; lit 1%Z 106%Z|].
  replace (B2R v * B2R v) with (Rabs (B2R v) * Rabs (B2R v)) by (rewrite <- Rabs_mult; apply Rabs_pos_eq; nra).
  replace tiny with (/ IZR (2 ^ 53) * / IZR (2 ^ 53)).
  - assert (0 < / IZR (2 ^ 53)) by (apply Rinv_0_lt_compat, IZR_lt; reflexivity). nra.
  - unfold tiny. rewrite <- Rinv_mult, <- mult_IZR. reflexivity.
Qed.

Lemma pair_radius u1 u2 : fin u1 -> fin u2 -> 0 <= B2R u1 <= 1 -> 0 <= B2R u2 <= 1 -> ~ (B2R u1 = 1 / 2 /\ B2R u2 = 1 / 2) ->
  fin (radius (centred u1) (centred u2)) /\ tiny <= B2R (radius (centred u1) (centred u2)) <= 2.
Proof.
  intros F1 F2 B1 B2 N. destruct (centred_unit u1 F1 B1) as [C1 V1]. destruct (centred_unit u2 F2 B2) as [C2 V2].
  destruct (radius_val _ _ 1 C1 C2) as [Fr Vr]; try lra; [lit 1%Z 0%Z|lit 2%Z 0%Z|]. split; [exact Fr|]. split; [|lra].
  assert (T0 : fits tiny) by (unfold tiny; lit 1%Z 106%Z).
  destruct (square_val _ 1 C1) as [S1 T1]; try lra; [lit 1%Z 0%Z|]. destruct (square_val _ 1 C2) as [S2 T2]; try lra; [lit 1%Z 0%Z|].
  unfold radius. destruct (add_val _ _ S1 S2) as [_ Va]. { below 2%Z. apply Rabs_le. lra. }
  rewrite Va. apply rnd_dn; [exact T0|].
  destruct (Req_dec (B2R u1) (1 / 2)) as [E1|E1].
  - assert (E2 : B2R u2 <> 1 / 2) by (intros E2; apply N; split; assumption).
    pose proof (square_away _ C2 V2 (centred_away u2 F2 B2 E2)). lra.
  - pose proof (square_away _ C1 V1 (centred_away u1 F1 B1 E1)). lra.
Qed.

(** the factor and the amplitude *)
Definition sane (log : f64 -> f64) : Prop :=
  forall r, fin r -> tiny <= B2R r < 1 -> fin (log r) /\ -1000 <= B2R (log r) <= 0.
Definition factor (log : f64 -> f64) (r : f64) : f64 := fsqrt (fdiv (fmul (of_int (-2)) (log r)) r).
Lemma factor_val log r : sane log -> fin r -> tiny <= B2R r < 1 -> fin (factor log r) /\ 0 <= B2R (factor log r) <= IZR (2 ^ 59).
Proof.
  intros S F B. destruct (S r F B) as [Fl Vl]. unfold factor. destruct (int_val (-2) eq_refl) as [Ft Vt].
  assert (T : 0 < tiny) by (apply Rinv_0_lt_compat, IZR_lt; reflexivity).
  destruct (mul_val (of_int (-2)) (log r) Ft Fl) as [Fm Vm]. { rewrite Vt. below 2000%Z. apply Rabs_le. lra. }
  assert (M : 0 <= B2R (fmul (of_int (-2)) (log r)) <= 2000).
  { rewrite Vm, Vt. split; [apply rnd_dn; [lit 0%Z 0%Z|lra]|apply rnd_up; [lit 2000%Z 0%Z|lra]]. }
  set (x := fmul (of_int (-2)) (log r)) in *.
  assert (Q : 0 <= B2R x / B2R r <= IZR (2 ^ 117)).
  { split; [apply Rmult_le_pos; [lra|left; apply Rinv_0_lt_compat; lra]|].
    apply (Rmult_le_reg_r (B2R r)); [lra|]. unfold Rdiv. rewrite Rmult_assoc, Rinv_l, Rmult_1_r by lra.
    apply Rle_trans with (IZR (2 ^ 117) * tiny).
    - unfold tiny. replace (2 ^ 117)%Z with (2048 * 2 ^ 106)%Z by reflexivity. rewrite mult_IZR, Rmult_assoc, Rinv_r by (apply not_0_IZR; discriminate). lra.
    - apply Rmult_le_compat_l; [apply IZR_le; discriminate|lra]. }
  destruct (div_val x r Fm) as [Fd Vd]; [lra| |].
  { apply Rle_trans with (IZR (2 ^ 117)); [apply Rabs_le|apply big_ge; vm_compute; discriminate].
    assert (0 <= IZR (2 ^ 117)) by (apply IZR_le; discriminate). lra. }
  assert (D : 0 <= B2R (fdiv x r) <= IZR (2 ^ 117)).
  { rewrite Vd. split; [apply rnd_dn; [lit 0%Z 0%Z|lra]|apply rnd_up; [|lra]]. rewrite <- bpow_nn by lia. apply fits_bpow. lia. }
  destruct (sqrt_val (fdiv x r) Fd ltac:(lra)) as [Fs Vs]. split; [exact Fs|]. rewrite Vs.
  assert (Q59 : sqrt (B2R (fdiv x r)) <= IZR (2 ^ 59)).
  { rewrite <- (sqrt_Rsqr (IZR (2 ^ 59))) by (apply IZR_le; discriminate). apply sqrt_le_1_alt.
    apply Rle_trans with (IZR (2 ^ 117)); [lra|]. unfold Rsqr. rewrite <- mult_IZR. apply IZR_le. vm_compute. discriminate. }
  split; [apply rnd_dn; [lit 0%Z 0%Z|apply sqrt_pos]|apply rnd_up; [|exact Q59]].
  rewrite <- bpow_nn by lia. apply fits_bpow. lia.
Qed.

Lemma scaled_val x y a b : (0 <= a)%Z -> (0 <= b)%Z -> (a + b <= 1000)%Z -> fin x -> fin y -> Rabs (B2R x) <= bpow radix2 a -> Rabs (B2R y) <= bpow radix2 b ->
  fin (fmul x y) /\ Rabs (B2R (fmul x y)) <= bpow radix2 (a + b).
Proof.
  intros La Lb L X Y A B. assert (C : Rabs (B2R x * B2R y) <= bpow radix2 (a + b)).
  { rewrite Rabs_mult, bpow_plus. pose proof (Rabs_pos (B2R x)). pose proof (Rabs_pos (B2R y)). apply Rmult_le_compat; assumption. }
  destruct (mul_val x y X Y) as [F V]. { apply Rle_trans with (1 := C). apply bpow_le, L. }
  split; [exact F|]. rewrite V. apply abs_round_le_generic; [apply valid64|apply validrnd64|apply fits_bpow; lia|exact C].
Qed.

(** Saturation: the fraction dropped, then cut to what an int16 holds *)
Lemma saturate_val nan x : fin x -> fsaturate nan x = Z.max (-32768) (Z.min 32767 (Ztrunc (B2R x))).
Proof.
  intros F. unfold fsaturate. destruct (int_val 32767 eq_refl) as [Fh Vh]. destruct (int_val (-32768) eq_refl) as [Fl Vl].
  rewrite !flt_val, Vh, Vl by assumption.
  case (Rlt_bool_spec 32767 (B2R x)); intros H.
  { assert (32767 <= Ztrunc (B2R x))%Z; [|lia]. rewrite <- (Ztrunc_IZR 32767). apply Ztrunc_le. lra. }
  case (Rlt_bool_spec (B2R x) (-32768)); intros L.
  { assert (Ztrunc (B2R x) <= -32768)%Z; [|lia]. rewrite <- (Ztrunc_IZR (-32768)). apply Ztrunc_le. lra. }
  replace (is_nan x) with false by (destruct x; try reflexivity; discriminate).
  assert (E : Btrunc x = Ztrunc (B2R x)).
  { apply eq_IZR. rewrite (Btrunc_correct 53 1024 prec1024). unfold round, F2R, scaled_mantissa, cexp, FIX_exp. cbn [Fnum Fexp Z.opp].
    change (bpow radix2 0) with 1. now rewrite !Rmult_1_r. }
  rewrite E. assert (-32768 <= Ztrunc (B2R x) <= 32767)%Z.
  { split; [rewrite <- (Ztrunc_IZR (-32768))|rewrite <- (Ztrunc_IZR 32767)]; apply Ztrunc_le; lra. }
  set (z := Ztrunc (B2R x)) in *. clearbody z. unfold i16, u16. destruct (Z.ltb_spec (z mod 65536) 32768); Z.to_euclidean_division_equations; lia.
Qed.
