(** Property C89: the comfort noise generator always returns a sample, and the sample is a number. *)
From Coq Require Import ZArith List Lia Permutation Znumtheory Reals Lra.
From Flocq Require Import Core IEEE754.BinarySingleNaN.
From Verif Require Import Bytes BytesLemmas AwgnModel AwgnFloat P_Awgn Orbit FloatLemmas.
Import ListNotations.
Local Open Scope Z_scope.

(** The generator after n calls of Get, when the loop in Get may run its body [rounds] times *)
Fixpoint gets (log : f64 -> f64) (nan : Z) (rounds n : nat) (s : noise) : option noise :=
  match n with
  | O => Some s
  | S k => match gets log nan rounds k s with
           | None => None
           | Some s => match noise_get log nan rounds s with None => None | Some (s, _) => Some s end
           end
  end.

(** * Draws *)
Lemma ran_ints s : ints (fst (ran s)) = fst (ran1 (ints s)).
Proof. unfold ran. destruct (ran1 (ints s)) as [s' [j|]]; reflexivity. Qed.
Definition draw (s : noise) : noise := fst (ran s).
Lemma draw_ints k : forall s, ints (iter k draw s) = drawn k (ints s).
Proof. induction k as [|k IH]; intros s; [reflexivity|].
  change (iter (S k) draw s) with (draw (iter k draw s)). unfold draw at 1. now rewrite ran_ints, IH. Qed.
Lemma put_length {A} (v : A) l : forall j, length (put j v l) = length l.
Proof. induction l as [|x l IH]; intros [|j]; simpl; try reflexivity. now rewrite IH. Qed.
Lemma ran_len s : length (tab (fst (ran s))) = length (tab s).
Proof. unfold ran. destruct (ran1 (ints s)) as [s' [j|]]; cbn [fst tab]; [apply put_length|reflexivity]. Qed.
Lemma put_same {A} (v d : A) l : forall j, (j < length l)%nat -> nth j (put j v l) d = v.
Proof. induction l as [|x l IH]; intros [|j] H; simpl in *; try lia; [reflexivity|]. apply IH. lia. Qed.
Lemma put_other {A} (v d : A) l : forall j k, j <> k -> nth k (put j v l) d = nth k l d.
Proof. induction l as [|x l IH]; intros [|j] [|k] H; simpl; try reflexivity; try congruence. apply IH. congruence. Qed.

Lemma ran1_inside s : inside (fst (ran1 s)).
Proof. cbn [ran1 fst]. repeat split; apply lcg_inside; reflexivity. Qed.
Lemma ran1_positive s : positive s -> positive (fst (ran1 s)).
Proof.
  unfold positive, m1, m2, m3. intros (A & C & D). cbn [ran1 fst ix1 ix2 ix3].
  split; [apply lcg_pos; unfold ia1, ic1; lia|]. split; [apply lcg_pos; unfold ia2, ic2; lia|apply lcg_pos; unfold ia3, ic3; lia].
Qed.
(** the entry of a draw, when the third state is not negative *)
Definition slot (z : Z) : Z := 1 + 97 * z / m3.
Lemma slot_range z : 0 <= z < m3 -> 1 <= slot z <= 97.
Proof. unfold slot, m3. intros H. Z.to_euclidean_division_equations; lia. Qed.
Lemma ran1_slot s : positive s -> snd (ran1 s) = Some (slot (ix3 (fst (ran1 s)))).
Proof.
  intros P. pose proof (ran1_positive s P) as (_ & _ & Q). revert Q. unfold ran1. cbn [fst snd ix3].
  set (x := lcg ia3 ic3 m3 _). clearbody x. intros X. pose proof (slot_range x X) as S. unfold slot, m3 in *.
  rewrite (i64_id (97 * x)) by lia. rewrite Z.quot_div_nonneg by lia. rewrite i64_id by lia.
  destruct ((1 + 97 * x / 243000 >? 97) || (1 + 97 * x / 243000 <? 1)) eqn:E; [lia|reflexivity].
Qed.

(** * The generators run through all their states *)
Lemma lcg_step a c m x : 0 < m -> 0 <= a < 10000 -> 0 <= c < 100000 -> 0 <= x < 1000000 -> lcg a c m x = step a c m x.
Proof.
  intros M A C X. unfold lcg, step. assert (0 <= a * x < 10000000000) by nia.
  rewrite (i64_id (a * x)) by lia. rewrite (i64_id (a * x + c)) by lia. apply Z.rem_mod_nonneg; lia.
Qed.
Lemma step_ranged a c m x : 0 < m -> ranged (Z.to_nat m) x -> ranged (Z.to_nat m) (step a c m x).
Proof. unfold ranged, step. intros M _. rewrite Z2Nat.id by lia. apply Z.mod_pos_bound, M. Qed.
Definition full (a c m : Z) : Prop :=
  (forall k, (0 < k < Z.to_nat m)%nat -> iter k (step a c m) 0 <> 0) /\ iter (Z.to_nat m) (step a c m) 0 = 0.
Ltac each tac := intros p H; cbn [In] in H; repeat (destruct H as [<-|H]; [tac|]); destruct H.
Ltac fullp a c m ps es := apply (full_period a c m ps es);
  [reflexivity
  |each ltac:(first [apply prime_2|apply prime_3|apply prime_5|apply prime_7])
  |each ltac:(cbn [In]; auto)
  |vm_compute; reflexivity|vm_compute; reflexivity
  |each ltac:(split; [reflexivity|vm_compute; discriminate])].
Lemma full1 : full ia1 ic1 m1.
Proof. fullp ia1 ic1 m1 [2; 3; 5] [2; 2; 2; 2; 2; 2; 2; 3; 3; 3; 3; 5; 5]. Qed.
Lemma full3 : full ia3 ic3 m3.
Proof. fullp ia3 ic3 m3 [2; 3; 5] [2; 2; 2; 3; 3; 3; 3; 3; 5; 5; 5]. Qed.
Lemma full1n : full ia1 (- ic1) m1.
Proof. fullp ia1 (- ic1) m1 [2; 3; 5] [2; 2; 2; 2; 2; 2; 2; 3; 3; 3; 3; 5; 5]. Qed.
Lemma full2n : full ia2 (- ic2) m2.
Proof. fullp ia2 (- ic2) m2 [2; 7] [2; 2; 2; 7; 7; 7; 7; 7]. Qed.
Lemma full3n : full ia3 (- ic3) m3.
Proof. fullp ia3 (- ic3) m3 [2; 3; 5] [2; 2; 2; 3; 3; 3; 3; 3; 5; 5; 5]. Qed.

(** * A negative state does not last *)
Section Up.
  Variables a c m : Z.
  Hypothesis M : 1 < m < 1000000.
  Hypothesis A : 0 <= a < 10000.
  Hypothesis C : 0 <= c < 100000.
  Hypothesis F : full a (- c) m.
  Let f := lcg a c m.
  Lemma lcg_negative x : - m < x < 0 -> f x < 0 -> - f x = step a (- c) m (- x).
  Proof.
    intros X. unfold f, lcg, step. assert (- 10000000000 < a * x <= 0) by nia.
    rewrite (i64_id (a * x)) by lia. rewrite (i64_id (a * x + c)) by lia. intros N.
    assert (a * x + c < 0). { destruct (Z_lt_le_dec (a * x + c) 0); [assumption|]. pose proof (Z.rem_nonneg (a * x + c) m). lia. }
    rewrite <- Z.rem_opp_l by lia. replace (a * - x + - c) with (- (a * x + c)) by lia. apply Z.rem_mod_nonneg; lia.
  Qed.
  Lemma stays_up x k : 0 <= x < m -> 0 <= iter k f x < m.
  Proof. intros X. induction k as [|k IH]; simpl; [exact X|]. apply lcg_pos; lia. Qed.
  Lemma goes_up x : Z.abs x < m -> 0 <= iter (Z.to_nat m) f x < m.
  Proof.
    intros X.
    assert (B : forall k, Z.abs (iter k f x) < m). { intros [|k]; simpl; [exact X|]. apply lcg_inside. lia. }
    destruct (Z_lt_le_dec (iter (Z.to_nat m) f x) 0) as [N|N]; [|split; [exact N|pose proof (B (Z.to_nat m)); lia]].
    exfalso.
    assert (D : forall k, (k <= Z.to_nat m)%nat -> iter k f x < 0).
    { intros k K. destruct (Z_lt_le_dec (iter k f x) 0) as [L|L]; [exact L|]. exfalso.
      pose proof (stays_up (iter k f x) (Z.to_nat m - k)) as U. rewrite <- iter_plus in U.
      replace (Z.to_nat m - k + k)%nat with (Z.to_nat m) in U by lia. pose proof (B k). lia. }
    assert (E : forall k, (k <= Z.to_nat m)%nat -> - iter k f x = iter k (step a (- c) m) (- x)).
    { induction k as [|k IH]; intros K; [reflexivity|]. simpl. rewrite <- IH by lia. apply lcg_negative.
      - pose proof (D k ltac:(lia)). pose proof (B k). lia.
      - apply (D (S k) K). }
    destruct F as [Fr F0].
    destruct (orbit_reaches (step a (- c) m) (Z.to_nat m) ltac:(lia) (fun x => step_ranged a (- c) m x ltac:(lia)) Fr F0 (- x) 0) as (k & K & Z0).
    - pose proof (D 0%nat ltac:(lia)) as D0. cbn in D0. unfold ranged. lia.
    - unfold ranged. lia.
    - rewrite <- E in Z0 by lia. pose proof (D k ltac:(lia)). lia.
  Qed.
End Up.

Lemma drawn_ix k s : ix1 (drawn k s) = iter k (lcg ia1 ic1 m1) (ix1 s) /\ ix2 (drawn k s) = iter k (lcg ia2 ic2 m2) (ix2 s) /\
  ix3 (drawn k s) = iter k (lcg ia3 ic3 m3) (ix3 s).
Proof. induction k as [|k IH]; [repeat split|]. destruct IH as (A & B & C). cbn [drawn ran1 fst ix1 ix2 ix3]. rewrite A, B, C. repeat split. Qed.

Lemma iter_up a c m k x : 1 < m < 1000000 -> 0 <= a < 10000 -> 0 <= c < 100000 -> full a (- c) m -> Z.abs x < m -> (Z.to_nat m <= k)%nat ->
  0 <= iter k (lcg a c m) x < m.
Proof.
  intros M A C F X K. replace k with (k - Z.to_nat m + Z.to_nat m)%nat by lia. rewrite iter_plus.
  apply stays_up; try assumption. apply goes_up; assumption.
Qed.
(** 259200 draws and no state is negative any more *)
Lemma drawn_positive s k : inside s -> (Z.to_nat m1 <= k)%nat -> positive (drawn k s).
Proof.
  intros (I1 & I2 & I3) K. destruct (drawn_ix k s) as (E1 & E2 & E3). unfold positive. rewrite E1, E2, E3.
  split; [|split]; apply iter_up; try assumption; try (unfold m1, m2, m3, ia1, ia2, ia3, ic1, ic2, ic3; lia);
    [apply full1n|apply full2n|unfold m1, m2 in *; lia|apply full3n|unfold m1, m3 in *; lia].
Qed.

(** * The loop ends: counting the middle values *)
Definition mid (u : f64) : bool := is_finite u && Rle_bool (5 / 32) (B2R u) && Rle_bool (B2R u) (27 / 32).
Lemma mid_spec u : mid u = true -> fin u /\ (5 / 32 <= B2R u <= 27 / 32)%R.
Proof.
  unfold mid. intros H. apply andb_prop in H. destruct H as [H H3]. apply andb_prop in H. destruct H as [H1 H2].
  split; [exact H1|]. revert H2 H3. case Rle_bool_spec; [|discriminate]. case Rle_bool_spec; [|discriminate]. intros; split; assumption.
Qed.
Lemma mid_fresh s : 40600 <= ix1 s <= 218599 -> 0 <= ix2 s < m2 -> mid (fresh s) = true.
Proof.
  intros A B. destruct (fresh_mid s A B) as [F [L H]]. unfold mid, fin in *. rewrite F. now rewrite !Rle_bool_true.
Qed.
Definition one (b : bool) : nat := if b then 1 else 0.
Fixpoint mids (l : list f64) : nat := match l with [] => O | u :: l => (one (mid u) + mids l)%nat end.
Lemma mids_le l : (mids l <= length l)%nat.
Proof. induction l as [|u l IH]; cbn [mids length]; [lia|]. destruct (mid u); cbn [one]; lia. Qed.
Lemma mids_put v d l : forall j, (j < length l)%nat -> (mids (put j v l) + one (mid (nth j l d)) = mids l + one (mid v))%nat.
Proof. induction l as [|u l IH]; intros [|j] H; cbn [length put nth mids] in *; try lia. specialize (IH j). lia. Qed.

(** middle values among the next n draws, and among the next n values put in the table *)
Fixpoint got (n : nat) (s : noise) : nat := match n with O => O | S k => (one (mid (snd (ran s))) + got k (draw s))%nat end.
Fixpoint made (n : nat) (s : awgn) : nat :=
  match n with O => O | S k => let s' := fst (ran1 s) in (one (mid (fresh s')) + made k s')%nat end.
Definition steady (s : noise) : Prop := positive (ints s) /\ length (tab s) = 98%nat.
Lemma ran_eq s : positive (ints s) ->
  let s' := fst (ran1 (ints s)) in let j := Z.to_nat (slot (ix3 s')) in
  ran s = (mknoise (rms s) s' (put j (fresh s') (tab s)) (gset s) (iset s), nth j (tab s) (of_int 0)).
Proof.
  intros P. cbv zeta. pose proof (ran1_slot _ P) as E. unfold ran. destruct (ran1 (ints s)) as [s' o]. cbn [fst snd] in *. now rewrite E.
Qed.
Lemma steady_draw s : steady s -> steady (draw s).
Proof. intros [P L]. unfold steady, draw. rewrite ran_ints, ran_len. split; [apply ran1_positive, P|exact L]. Qed.
Lemma balance n : forall s, steady s -> (got n s + mids (tab (iter n draw s)) = mids (tab s) + made n (ints s))%nat.
Proof.
  induction n as [|n IH]; intros s S; [cbn; lia|]. rewrite iter_S. cbn [got made]. specialize (IH (draw s) (steady_draw s S)).
  destruct S as [P L]. pose proof (ran_eq s P) as E. cbv zeta in E. set (s' := fst (ran1 (ints s))) in *.
  assert (Q : positive s') by (apply ran1_positive, P). pose proof (slot_range (ix3 s') (proj2 (proj2 Q))) as J.
  pose proof (mids_put (fresh s') (of_int 0) (tab s) (Z.to_nat (slot (ix3 s'))) ltac:(rewrite L; lia)) as B.
  assert (E1 : ints (draw s) = s') by apply ran_ints.
  assert (E2 : tab (draw s) = put (Z.to_nat (slot (ix3 s'))) (fresh s') (tab s)) by (unfold draw; now rewrite E).
  assert (E3 : snd (ran s) = nth (Z.to_nat (slot (ix3 s'))) (tab s) (of_int 0)) by now rewrite E.
  rewrite E3. rewrite E1, E2 in IH. lia.
Qed.

Definition central (x : Z) : bool := (40600 <=? x) && (x <=? 218599).
Lemma made_ge n : forall s, positive s ->
  (length (filter central (map (fun k => iter k (step ia1 ic1 m1) (ix1 s)) (seq 1 n))) <= made n s)%nat.
Proof.
  induction n as [|n IH]; intros s P; [cbn; lia|]. cbn [made]. set (s' := fst (ran1 s)).
  assert (Q : positive s') by (apply ran1_positive, P). specialize (IH s' Q).
  assert (X : ix1 s' = step ia1 ic1 m1 (ix1 s)).
  { apply lcg_step; unfold m1, ia1, ic1; try lia. destruct P as (P & _). unfold m1 in P. lia. }
  cbn [seq map filter]. rewrite <- seq_shift, map_map.
  rewrite (map_ext _ (fun k => iter k (step ia1 ic1 m1) (ix1 s'))).
  2:{ intros k. rewrite X. symmetry. rewrite <- iter_S. reflexivity. }
  change (iter 1 (step ia1 ic1 m1) (ix1 s)) with (step ia1 ic1 m1 (ix1 s)). rewrite <- X.
  destruct (central (ix1 s')) eqn:C; cbn [length].
  - rewrite mid_fresh; [cbn [one]; lia| |apply Q]. unfold central in C. lia.
  - destruct (mid (fresh s')); cbn [one]; lia.
Qed.
Lemma filter_perm {A} (p : A -> bool) l l' : Permutation l l' -> length (filter p l) = length (filter p l').
Proof.
  induction 1 as [|x l l' H IH|x y l|l l' l'' H1 IH1 H2 IH2]; cbn [filter]; [reflexivity| | |congruence].
  - destruct (p x); cbn [length]; lia.
  - destruct (p x), (p y); reflexivity.
Qed.
Lemma filter_all {A} (p : A -> bool) l : (forall x, In x l -> p x = true) -> filter p l = l.
Proof. induction l as [|x l IH]; intros H; [reflexivity|]. cbn [filter]. rewrite (H x) by now left. f_equal. apply IH. intros y Y. apply H. now right. Qed.
Lemma made_period s : positive s -> (Z.to_nat 178000 <= made (Z.to_nat m1) s)%nat.
Proof.
  intros P. eapply Nat.le_trans; [|apply made_ge, P]. destruct full1 as [Fr F0].
  rewrite (filter_perm central _ _ (orbit_permutes (step ia1 ic1 m1) (Z.to_nat m1) ltac:(unfold m1; lia)
    (fun x => step_ranged ia1 ic1 m1 x ltac:(unfold m1; lia)) Fr F0 (ix1 s) ltac:(destruct P as (P & _); unfold ranged; unfold m1 in *; lia))).
  replace (Z.to_nat m1) with (Z.to_nat 40600 + (Z.to_nat 178000 + Z.to_nat 40600))%nat by (unfold m1; lia).
  rewrite !seq_app, !map_app, !filter_app, !app_length. cbn [Nat.add].
  rewrite (filter_all central (map Z.of_nat (seq (Z.to_nat 40600) (Z.to_nat 178000)))).
  - rewrite map_length, seq_length. lia.
  - intros x X. apply in_map_iff in X. destruct X as (n & <- & X). apply in_seq in X. unfold central. lia.
Qed.

Definition accept (u1 u2 : f64) : bool := flt (radius (centred u1) (centred u2)) (of_int 1).
Lemma pick_S k s : pick (S k) s =
  if accept (snd (ran s)) (snd (ran (draw s)))
  then Some (draw (draw s), centred (snd (ran s)), centred (snd (ran (draw s)))) else pick k (draw (draw s)).
Proof. unfold draw, accept. cbn [pick]. destruct (ran s) as [s1 u1]. cbn [fst snd]. destruct (ran s1) as [s2 u2]. reflexivity. Qed.
Lemma accept_mid u1 u2 : mid u1 = true -> mid u2 = true -> accept u1 u2 = true.
Proof. intros M1 M2. destruct (mid_spec _ M1) as [F1 B1]. destruct (mid_spec _ M2) as [F2 B2]. exact (pair_mid _ _ F1 F2 B1 B2). Qed.
#[local] Opaque accept centred ran.
Lemma pick_none k : forall s, pick k s = None -> (got (k + k) s <= k)%nat.
Proof.
  induction k as [|k IH]; intros s H; [cbn; lia|]. replace (S k + S k)%nat with (S (S (k + k))) by lia. cbn [got]. rewrite pick_S in H.
  destruct (accept (snd (ran s)) (snd (ran (draw s)))) eqn:C; [discriminate|]. specialize (IH _ H).
  destruct (mid (snd (ran s))) eqn:M1; [|destruct (mid (snd (ran (draw s)))); cbn [one]; lia]. destruct (mid (snd (ran (draw s)))) eqn:M2; [|cbn [one]; lia].
  rewrite (accept_mid _ _ M1 M2) in C. discriminate.
Qed.
Lemma steady_draws n : forall s, steady s -> steady (iter n draw s).
Proof. induction n as [|n IH]; intros s S; [exact S|]. rewrite iter_S. apply IH, steady_draw, S. Qed.
Lemma balance_le n s : steady s -> (made n (ints s) <= got n s + 98)%nat.
Proof.
  intros S. pose proof (balance n s S) as B. pose proof (mids_le (tab (iter n draw s))) as T.
  destruct (steady_draws n s S) as [_ L]. rewrite L in T. lia.
Qed.
Lemma pick_steady_n k n m s : steady s -> (k + k = n)%nat -> (m <= made n (ints s))%nat -> (k + 98 < m)%nat -> pick k s <> None.
Proof. intros S <- D L H. apply pick_none in H. pose proof (balance_le (k + k) s S). lia. Qed.
Lemma pick_steady s : steady s -> pick (Z.to_nat 129600) s <> None.
Proof.
  intros S. apply (pick_steady_n _ (Z.to_nat m1) (Z.to_nat 178000)); [exact S|unfold m1; lia|apply made_period, S|lia].
Qed.
Lemma pick_split a b : forall s, pick (a + b) s = match pick a s with Some x => Some x | None => pick b (iter (a + a) draw s) end.
Proof.
  induction a as [|a IH]; intros s; [reflexivity|]. replace (S a + S a)%nat with (S (S (a + a))) by lia. rewrite !iter_S.
  cbn [Nat.add]. rewrite !pick_S. destruct (accept _ _); [reflexivity|]. apply IH.
Qed.

Definition rounds : nat := Z.to_nat 259200.
Definition wf (s : noise) : Prop := inside (ints s) /\ length (tab s) = 98%nat.
Lemma pick_wf s : wf s -> exists s' v1 v2, pick rounds s = Some (s', v1, v2).
Proof.
  intros [I L]. unfold rounds. replace (Z.to_nat 259200) with (Z.to_nat 129600 + Z.to_nat 129600)%nat by lia. rewrite pick_split.
  destruct (pick (Z.to_nat 129600) s) as [[[s' v1] v2]|] eqn:E; [eauto|].
  set (s0 := iter _ draw s).
  assert (S : steady s0).
  { split.
    - unfold s0. rewrite draw_ints. apply drawn_positive; [exact I|unfold m1; lia].
    - unfold s0. generalize (Z.to_nat 129600 + Z.to_nat 129600)%nat. intros n. clear -L. revert s L.
      induction n as [|n IH]; intros s L; [exact L|]. rewrite iter_S. apply IH. unfold draw. now rewrite ran_len. }
  pose proof (pick_steady s0 S) as P. destruct (pick (Z.to_nat 129600) s0) as [[[s' v1] v2]|]; [eauto|now destruct P].
Qed.
Lemma wf_draw s : wf s -> wf (draw s).
Proof. intros [_ L]. unfold wf, draw. rewrite ran_ints, ran_len. split; [apply ran1_inside|exact L]. Qed.
Lemma pick_keeps (P : noise -> Prop) k : (forall s, P s -> P (draw s)) -> forall s s' v1 v2, P s -> pick k s = Some (s', v1, v2) -> P s'.
Proof.
  intros K. induction k as [|k IH]; intros s s' v1 v2 W H; [discriminate|]. rewrite pick_S in H. pose proof (K _ (K s W)) as W2.
  destruct (accept _ _); [injection H as <- _ _; exact W2|]. exact (IH _ s' v1 v2 W2 H).
Qed.
Lemma get_wf log nan s : wf s -> exists s' x, noise_get log nan rounds s = Some (s', x) /\ wf s'.
Proof.
  intros W. unfold noise_get, amplitude. destruct (iset s =? 0).
  - destruct (pick_wf s W) as (s' & v1 & v2 & E). rewrite E. do 2 eexists. split; [reflexivity|].
    exact (pick_keeps wf _ wf_draw s s' v1 v2 W E).
  - do 2 eexists. split; [reflexivity|exact W].
Qed.

(** * The constructor *)
Lemma filled_ints n p : fst (filled n p) = iter n awgn_fill (fst p).
Proof. induction n as [|n IH]; [reflexivity|]. cbn [filled]. unfold fill. cbn [fst]. now rewrite IH. Qed.
Lemma filled_len n p : length (snd (filled n p)) = length (snd p).
Proof. induction n as [|n IH]; [reflexivity|]. cbn [filled]. unfold fill. cbn [snd]. now rewrite put_length. Qed.
Lemma new_ints seed r : ints (noise_new seed r) = awgn_new seed.
Proof. unfold noise_new, awgn_new. cbn [ints]. now rewrite filled_ints. Qed.
Lemma new_len seed r : length (tab (noise_new seed r)) = 98%nat.
Proof. unfold noise_new. cbn [tab]. now rewrite filled_len. Qed.
Lemma new_wf seed r : int64 seed -> wf (noise_new seed r).
Proof. intros S. split; [rewrite new_ints; exact (proj1 (awgn_inside_tables seed 0 S))|apply new_len]. Qed.

Lemma gets_wf log nan n s : wf s -> exists s', gets log nan rounds n s = Some s' /\ wf s'.
Proof.
  intros W. induction n as [|n (s1 & E & W1)]; [now exists s|]. cbn [gets]. rewrite E.
  destruct (get_wf log nan s1 W1) as (s2 & x & E2 & W2). rewrite E2. now exists s2.
Qed.

(** * The history of the table *)
Notation f1 := (step ia1 ic1 m1).
Notation f2 := (step ia2 ic2 m2).
Notation f3 := (step ia3 ic3 m3).
Definition at_time (x0 y0 : Z) (t : nat) : awgn := mkawgn (iter t f1 x0) (iter t f2 y0) 0.
Definition hist (x0 y0 z0 : Z) (T : nat) (w : nat -> nat) (s : noise) : Prop :=
  (97 <= T)%nat /\ ints s = mkawgn (iter T f1 x0) (iter T f2 y0) (iter (T - 97) f3 z0) /\ length (tab s) = 98%nat /\
  (forall j, (1 <= j <= 97)%nat -> (1 <= w j <= T)%nat /\ nth j (tab s) (of_int 0) = fresh (at_time x0 y0 (w j)) /\
     forall t, (w j < t <= T)%nat -> (97 < t)%nat -> Z.to_nat (slot (iter (t - 97) f3 z0)) <> j) /\
  (forall i j, (1 <= i <= 97)%nat -> (1 <= j <= 97)%nat -> w i = w j -> i = j).

Section History.
  Variables x0 y0 z0 : Z.
  Hypothesis HX : 0 <= x0 < m1.
  Hypothesis HY : 0 <= y0 < m2.
  Hypothesis HZ : 0 <= z0 < m3.
  Lemma step_iter a c m x t : 0 < m -> 0 <= x < m -> 0 <= iter t (step a c m) x < m.
  Proof. intros M X. destruct t as [|t]; [exact X|]. apply Z.mod_pos_bound, M. Qed.
  Lemma X_range t : 0 <= iter t f1 x0 < m1. Proof. apply step_iter; [reflexivity|exact HX]. Qed.
  Lemma Y_range t : 0 <= iter t f2 y0 < m2. Proof. apply step_iter; [reflexivity|exact HY]. Qed.
  Lemma Z_range t : 0 <= iter t f3 z0 < m3. Proof. apply step_iter; [reflexivity|exact HZ]. Qed.
  Lemma X_next t : lcg ia1 ic1 m1 (iter t f1 x0) = iter (S t) f1 x0.
  Proof. pose proof (X_range t) as H. apply lcg_step; unfold m1, ia1, ic1 in *; lia. Qed.
  Lemma Y_next t : lcg ia2 ic2 m2 (iter t f2 y0) = iter (S t) f2 y0.
  Proof. pose proof (Y_range t) as H. apply lcg_step; unfold m2, ia2, ic2 in *; lia. Qed.
  Lemma Z_next t : lcg ia3 ic3 m3 (iter t f3 z0) = iter (S t) f3 z0.
  Proof. pose proof (Z_range t) as H. apply lcg_step; unfold m3, ia3, ic3 in *; lia. Qed.

  Lemma hist_positive T w s : hist x0 y0 z0 T w s -> positive (ints s).
  Proof. intros (_ & E & _). rewrite E. split; [apply X_range|split; [apply Y_range|apply Z_range]]. Qed.

  Definition entry (T : nat) : nat := Z.to_nat (slot (iter (S T - 97) f3 z0)).
  Lemma entry_range T : (1 <= entry T <= 97)%nat.
  Proof. unfold entry. pose proof (slot_range _ (Z_range (S T - 97))). lia. Qed.
  Definition rewrite_at (T : nat) (w : nat -> nat) (j : nat) : nat := if Nat.eqb j (entry T) then S T else w j.

  Lemma hist_ran T w s : hist x0 y0 z0 T w s ->
    hist x0 y0 z0 (S T) (rewrite_at T w) (draw s) /\ snd (ran s) = fresh (at_time x0 y0 (w (entry T))).
  Proof.
    intros H. pose proof (ran_eq s (hist_positive _ _ _ H)) as E. cbv zeta in E. destruct H as (L & I & N & W & J).
    assert (I' : fst (ran1 (ints s)) = mkawgn (iter (S T) f1 x0) (iter (S T) f2 y0) (iter (S T - 97) f3 z0)).
    { rewrite I. cbn [ran1 fst ix1 ix2 ix3]. rewrite X_next, Y_next, Z_next. now replace (S (T - 97)) with (S T - 97)%nat by lia. }
    rewrite I' in E. cbn [ix3] in E. fold (entry T) in E. pose proof (entry_range T) as B.
    split.
    - unfold draw. rewrite E. cbn [fst]. unfold hist. cbn [ints tab]. split; [lia|]. split; [reflexivity|].
      split; [now rewrite put_length|]. split.
      + intros j Hj. unfold rewrite_at. destruct (Nat.eqb_spec j (entry T)) as [->|D].
        * split; [lia|]. split; [rewrite put_same by lia; reflexivity|]. intros t Ht. lia.
        * destruct (W j Hj) as (A & C & F). split; [lia|]. split; [rewrite put_other by congruence; exact C|].
          intros t Ht Ht'. destruct (Nat.eq_dec t (S T)) as [->|]; [fold (entry T); congruence|]. apply F; lia.
      + intros i j Hi Hj. unfold rewrite_at. pose proof (proj1 (W i Hi)). pose proof (proj1 (W j Hj)).
        destruct (Nat.eqb_spec i (entry T)); destruct (Nat.eqb_spec j (entry T)); try congruence; try lia. apply J; assumption.
    - rewrite E. cbn [snd]. apply W, B.
  Qed.

  (** every entry is read again within 243000 draws *)
  Lemma slot_onto j : 1 <= j <= 97 -> exists z, 0 <= z < m3 /\ slot z = j.
  Proof.
    intros H. exists (((j - 1) * 243000 + 96) / 97). unfold slot, m3. split; Z.to_euclidean_division_equations; lia.
  Qed.
  Lemma hist_age T w s j : hist x0 y0 z0 T w s -> (1 <= j <= 97)%nat -> (T < w j + Z.to_nat 243096)%nat.
  Proof.
    intros (L & I & N & W & J) Hj. destruct (W j Hj) as (A & _ & F). set (b := Nat.max (w j) 97).
    destruct (slot_onto (Z.of_nat j) ltac:(lia)) as (z & Hz & Sz). destruct full3 as [Fr F0].
    destruct (orbit_reaches f3 (Z.to_nat m3) ltac:(unfold m3; lia) (fun x => step_ranged ia3 ic3 m3 x ltac:(unfold m3; lia)) Fr F0
      (iter (b - 97) f3 z0) z) as (k & K & E).
    - pose proof (Z_range (b - 97)). unfold ranged. lia.
    - unfold ranged. lia.
    - rewrite <- iter_plus in E. destruct (le_lt_dec (b + k) T) as [Q|Q]; [exfalso|unfold m3 in K; lia].
      apply (F (b + k)%nat); [lia|lia|]. replace (b + k - 97)%nat with (k + (b - 97))%nat by lia. rewrite E, Sz. lia.
  Qed.

  (** two values drawn one after the other are never both one half *)
  Lemma distinct_times t t' : t <> t' -> (t < t' + Z.to_nat 259200)%nat -> (t' < t + Z.to_nat 259200)%nat -> iter t f1 x0 <> iter t' f1 x0.
  Proof.
    intros D L L'. destruct full1 as [Fr F0].
    pose proof (orbit_distinct f1 (Z.to_nat m1) ltac:(unfold m1; lia) (fun x => step_ranged ia1 ic1 m1 x ltac:(unfold m1; lia)) Fr F0 x0) as O.
    assert (R : ranged (Z.to_nat m1) x0) by (unfold ranged; rewrite Z2Nat.id by discriminate; exact HX).
    destruct (Nat.lt_trichotomy t t') as [Q|[Q|Q]]; [|contradiction|].
    - apply (O t t' R Q). unfold m1. lia.
    - intros E. symmetry in E. revert E. apply (O t' t R Q). unfold m1. lia.
  Qed.
  Lemma fresh_at_unit t : fin (fresh (at_time x0 y0 t)) /\ (0 <= B2R (fresh (at_time x0 y0 t)) <= 1)%R.
  Proof. apply fresh_unit; [apply X_range|apply Y_range]. Qed.
  Lemma fresh_at_half t : B2R (fresh (at_time x0 y0 t)) = (1 / 2)%R -> iter t f1 x0 = 129600.
  Proof. apply (fresh_half (at_time x0 y0 t)); [apply X_range|apply Y_range]. Qed.
  Lemma pair_not_half T w s : hist x0 y0 z0 T w s ->
    exists t t', snd (ran s) = fresh (at_time x0 y0 t) /\ snd (ran (draw s)) = fresh (at_time x0 y0 t') /\ iter t f1 x0 <> iter t' f1 x0.
  Proof.
    intros H. destruct (hist_ran T w s H) as [H1 E1]. destruct (hist_ran _ _ _ H1) as [_ E2].
    exists (w (entry T)), (rewrite_at T w (entry (S T))). split; [exact E1|]. split; [exact E2|].
    pose proof (hist_age T w s (entry T) H (entry_range T)) as A1. pose proof (hist_age _ _ _ (entry (S T)) H1 (entry_range (S T))) as A2.
    destruct H as (L & _ & _ & W & J). pose proof (proj1 (W _ (entry_range T))) as B1. pose proof (proj1 (W _ (entry_range (S T)))) as B2.
    apply distinct_times.
    - unfold rewrite_at. destruct (Nat.eqb_spec (entry (S T)) (entry T)) as [E|D]; [lia|]. intros C. apply D. symmetry. apply J; try apply entry_range. exact C.
    - lia.
    - unfold rewrite_at in *. destruct (Nat.eqb_spec (entry (S T)) (entry T)); lia.
  Qed.

  Definition lived (s : noise) : Prop := exists T w, hist x0 y0 z0 T w s.
  Lemma lived_draw s : lived s -> lived (draw s).
  Proof. intros (T & w & H). exists (S T), (rewrite_at T w). apply hist_ran, H. Qed.
End History.

(** the constructor starts such a history *)
Lemma filled_hist x0 y0 z0 n : 0 <= x0 < m1 -> 0 <= y0 < m2 -> (n <= 97)%nat ->
  let p := filled n (mkawgn x0 y0 z0, repeat (of_int 0) 98) in
  fst p = mkawgn (iter n f1 x0) (iter n f2 y0) z0 /\
  forall j, (1 <= j <= n)%nat -> nth j (snd p) (of_int 0) = fresh (at_time x0 y0 j).
Proof.
  intros X Y. cbv zeta. induction n as [|n IH]; intros L; [split; [reflexivity|intros j H; lia]|].
  destruct (IH ltac:(lia)) as [E W]. cbn [filled]. unfold fill.
  assert (E' : awgn_fill (fst (filled n (mkawgn x0 y0 z0, repeat (of_int 0) 98))) = mkawgn (iter (S n) f1 x0) (iter (S n) f2 y0) z0).
  { rewrite E. unfold awgn_fill. cbn [ix1 ix2 ix3]. now rewrite X_next, Y_next. }
  rewrite E'. cbn [fst snd]. split; [reflexivity|]. intros j H.
  destruct (Nat.eq_dec j (S n)) as [->|D].
  - rewrite put_same; [reflexivity|]. rewrite filled_len. cbn [snd]. rewrite repeat_length. lia.
  - rewrite put_other by congruence. apply W. lia.
Qed.

(** the seeds for which adding the increment does not overflow *)
Definition ordinary (seed : Z) : Prop := Z.abs seed <= 9223372036854775807 - ic1.
Lemma new_lived seed r : ordinary seed -> exists x0 y0 z0, 0 <= x0 < m1 /\ 0 <= y0 < m2 /\ 0 <= z0 < m3 /\ lived x0 y0 z0 (noise_new seed r).
Proof.
  intros S. unfold noise_new.
  assert (E : (if seed <? 0 then i64 (- seed) else seed) = Z.abs seed).
  { unfold ordinary, ic1 in S. destruct (seed <? 0) eqn:K; [rewrite i64_id by lia|]; lia. }
  rewrite E. set (q := Z.abs seed) in *. assert (0 <= q) by (unfold q; lia). unfold ordinary, ic1 in S. fold q in S.
  rewrite (i64_id (ic1 + q)) by (unfold ic1; lia).
  assert (H1 : 0 <= Z.rem (ic1 + q) m1 < m1) by (apply Z.rem_bound_pos; unfold ic1, m1; lia).
  set (a := Z.rem (ic1 + q) m1) in *.
  assert (H2 : 0 <= lcg ia1 ic1 m1 a < m1) by (unfold m1 in *; apply lcg_pos; unfold ia1, ic1; lia).
  set (b := lcg ia1 ic1 m1 a) in *.
  assert (H3 : 0 <= lcg ia1 ic1 m1 b < m1) by (unfold m1 in *; apply lcg_pos; unfold ia1, ic1; lia).
  set (c := lcg ia1 ic1 m1 b) in *.
  assert (H4 : 0 <= Z.rem b m2 < m2) by (apply Z.rem_bound_pos; unfold m2; lia).
  assert (H5 : 0 <= Z.rem c m3 < m3) by (apply Z.rem_bound_pos; unfold m3; lia).
  exists c, (Z.rem b m2), (Z.rem c m3). split; [exact H3|]. split; [exact H4|]. split; [exact H5|].
  exists 97%nat, (fun j => j). pose proof (filled_hist c (Z.rem b m2) (Z.rem c m3) 97 H3 H4 (le_n _)) as F. cbv zeta in F.
  destruct F as [F1 F2]. unfold hist. cbn [ints tab]. split; [lia|]. split; [rewrite F1, Nat.sub_diag; reflexivity|].
  split; [rewrite filled_len; reflexivity|]. split; [|auto].
  intros j Hj. split; [lia|]. split; [exact (F2 j Hj)|]. intros t Ht Ht'. lia.
Qed.

Section Samples.
  Variables x0 y0 z0 : Z.
  Hypothesis HX : 0 <= x0 < m1.
  Hypothesis HY : 0 <= y0 < m2.
  Hypothesis HZ : 0 <= z0 < m3.
  Lemma pick_good k : forall s s' v1 v2, lived x0 y0 z0 s -> pick k s = Some (s', v1, v2) ->
    lived x0 y0 z0 s' /\ fin v1 /\ fin v2 /\ (-1 <= B2R v1 <= 1)%R /\ (-1 <= B2R v2 <= 1)%R /\
    fin (radius v1 v2) /\ (tiny <= B2R (radius v1 v2) < 1)%R.
  Proof.
    induction k as [|k IH]; intros s s' v1 v2 H E; [discriminate|]. rewrite pick_S in E.
    pose proof (lived_draw x0 y0 z0 HX HY HZ _ (lived_draw x0 y0 z0 HX HY HZ s H)) as H2.
    destruct (accept (snd (ran s)) (snd (ran (draw s)))) eqn:A; [|exact (IH _ _ _ _ H2 E)].
    destruct H as (T & w & H). destruct (pair_not_half x0 y0 z0 HX HY HZ T w s H) as (t & t' & E1 & E2 & D).
    rewrite E1, E2 in *. destruct (fresh_at_unit x0 y0 HX HY t) as [Fa Va]. destruct (fresh_at_unit x0 y0 HX HY t') as [Fb Vb].
    pose proof (fresh_at_half x0 y0 HX HY t) as Ha. pose proof (fresh_at_half x0 y0 HX HY t') as Hb.
    set (u1 := fresh (at_time x0 y0 t)) in *. set (u2 := fresh (at_time x0 y0 t')) in *. clearbody u1 u2.
    assert (P : (s', v1, v2) = (draw (draw s), centred u1, centred u2)) by congruence. injection P as -> -> ->.
    destruct (pair_radius u1 u2 Fa Fb Va Vb) as [Fr Vr]. { intros [Q1 Q2]. apply D. rewrite (Ha Q1), (Hb Q2). reflexivity. }
    destruct (centred_unit u1 Fa Va) as [C1 W1]. destruct (centred_unit u2 Fb Vb) as [C2 W2].
    split; [exact H2|]. split; [exact C1|]. split; [exact C2|]. split; [exact W1|]. split; [exact W2|]. split; [exact Fr|].
    split; [apply Vr|]. with_strategy transparent [accept] (unfold accept in A). destruct (int_val 1 eq_refl) as [Fo Vo]. rewrite flt_val, Vo in A by assumption.
    revert A. case Rlt_bool_spec; [auto|discriminate].
  Qed.

  Lemma gets_lived log nan k n s s' : lived x0 y0 z0 s -> gets log nan k n s = Some s' -> lived x0 y0 z0 s'.
  Proof.
    intros R. revert s'. induction n as [|n IH]; intros s' E; cbn [gets] in E; [congruence|].
    destruct (gets log nan k n s) as [s1|]; [|discriminate]. specialize (IH s1 eq_refl). unfold noise_get, amplitude in E.
    destruct (iset s1 =? 0).
    - destruct (pick k s1) as [[[s2 v1] v2]|] eqn:P; [|discriminate]. injection E as <-.
      exact (pick_keeps (lived x0 y0 z0) k (lived_draw x0 y0 z0 HX HY HZ) s1 s2 v1 v2 IH P).
    - injection E as <-. exact IH.
  Qed.

  Variable log : f64 -> f64.
  Hypothesis LOG : sane log.
  Variable r0 : f64.
  Hypothesis R0 : fin r0 /\ (Rabs (B2R r0) <= bpow radix2 900)%R.
  (** between calls of Get: the history, the volume, and a stored sample that is a number *)
  Definition ready (s : noise) : Prop :=
    lived x0 y0 z0 s /\ rms s = r0 /\ fin (gset s) /\ (Rabs (B2R (gset s)) <= bpow radix2 59)%R.
  Lemma pick_rms k : forall s s' v1 v2, pick k s = Some (s', v1, v2) -> rms s' = rms s.
  Proof.
    assert (D : forall s, rms (draw s) = rms s).
    { intros s. unfold draw. with_strategy transparent [ran] (unfold ran). destruct (ran1 (ints s)) as [s' [j|]]; reflexivity. }
    intros s s' v1 v2 E. apply (pick_keeps (fun x => rms x = rms s) k) with (2 := eq_refl) (3 := E). intros x X. now rewrite D.
  Qed.
  Lemma scaled v : fin v -> (-1 <= B2R v <= 1)%R -> (Rabs (B2R v) <= bpow radix2 0)%R.
  Proof. intros _ B. change (bpow radix2 0) with 1%R. apply Rabs_le. lra. Qed.
  Lemma amplitude_good k s s' amp : ready s -> amplitude log k s = Some (s', amp) ->
    ready s' /\ fin amp /\ (Rabs (B2R amp) <= bpow radix2 959)%R.
  Proof.
    intros (H & R & G & Gb) E. unfold amplitude in E. destruct (iset s =? 0).
    - destruct (pick k s) as [[[s1 v1] v2]|] eqn:P; [|discriminate].
      destruct (pick_good k s s1 v1 v2 H P) as (H1 & F1 & F2 & B1 & B2 & Fr & Br). pose proof (pick_rms k s s1 v1 v2 P) as R1.
      destruct (factor_val log (radius v1 v2) LOG Fr Br) as [Ff Bf]. unfold factor in *.
      set (fac := fsqrt _) in *. clearbody fac.
      assert (Bf' : (Rabs (B2R fac) <= bpow radix2 59)%R) by (rewrite bpow_nn by lia; apply Rabs_le; lra).
      destruct (scaled_val v1 fac 0 59 ltac:(lia) ltac:(lia) ltac:(lia) F1 Ff (scaled v1 F1 B1) Bf') as [Fg Bg].
      destruct (scaled_val v2 fac 0 59 ltac:(lia) ltac:(lia) ltac:(lia) F2 Ff (scaled v2 F2 B2) Bf') as [Fa Ba].
      assert (R2 : rms s1 = r0) by congruence.
      destruct (scaled_val (fmul v2 fac) (rms s1) (0 + 59) 900 ltac:(lia) ltac:(lia) ltac:(lia) Fa) as [F B];
        [rewrite R2; apply R0|exact Ba|rewrite R2; apply R0|].
      assert (Q : (s', amp) = (mknoise (rms s1) (ints s1) (tab s1) (fmul v1 fac) 1, fmul (fmul v2 fac) (rms s1))) by congruence.
      injection Q as -> ->. split; [|split; [exact F|exact B]].
      unfold ready. cbn [rms gset]. split; [exact H1|]. split; [exact R2|]. split; [exact Fg|exact Bg].
    - assert (Q : (s', amp) = (mknoise (rms s) (ints s) (tab s) (gset s) 0, fmul (gset s) (rms s))) by congruence. injection Q as -> ->.
      destruct (scaled_val (gset s) (rms s) 59 900 ltac:(lia) ltac:(lia) ltac:(lia) G) as [F B];
        [rewrite R; apply R0|exact Gb|rewrite R; apply R0|].
      split; [|split; [exact F|exact B]]. unfold ready. cbn [rms gset]. split; [exact H|]. split; [exact R|]. split; [exact G|exact Gb].
  Qed.
  Lemma gets_ready nan k n s s' : ready s -> gets log nan k n s = Some s' -> ready s'.
  Proof.
    intros R. revert s'. induction n as [|n IH]; intros s' E; cbn [gets] in E; [congruence|].
    destruct (gets log nan k n s) as [s1|]; [|discriminate]. specialize (IH s1 eq_refl). unfold noise_get in E.
    destruct (amplitude log k s1) as [[s2 amp]|] eqn:A; [|discriminate]. injection E as <-. exact (proj1 (amplitude_good k s1 s2 amp IH A)).
  Qed.
End Samples.

(** * C89 *)
(** Get always returns: for every seed, any volume, any [log], and after any number of earlier samples, the loop that
    draws pairs ends, and its body runs at most 259200 times. *)
Theorem noise_get_returns : forall log nan volume seed n, int64 seed ->
  exists s s' x, gets log nan (Z.to_nat 259200) n (noise_new seed volume) = Some s /\
    noise_get log nan (Z.to_nat 259200) s = Some (s', x).
Proof.
  intros log nan r seed n S. fold rounds. destruct (gets_wf log nan n _ (new_wf seed r S)) as (s & E & W).
  destruct (get_wf log nan s W) as (s' & x & E' & _). exists s, s', x. split; assumption.
Qed.

(** The pair it accepts lies inside the unit circle and not at its centre, so neither the logarithm of 0 nor a division
    by 0 is ever computed: two values 1/2 cannot meet in the table. *)
Theorem noise_pair_usable : forall log nan volume seed n k s s' v1 v2, ordinary seed ->
  gets log nan k n (noise_new seed volume) = Some s -> pick k s = Some (s', v1, v2) ->
  fin v1 /\ fin v2 /\ (-1 <= B2R v1 <= 1)%R /\ (-1 <= B2R v2 <= 1)%R /\ fin (radius v1 v2) /\ (0 < B2R (radius v1 v2) < 1)%R.
Proof.
  intros log nan r seed n k s s' v1 v2 S E P. destruct (new_lived seed r S) as (x0 & y0 & z0 & X & Y & Z & H).
  pose proof (gets_lived x0 y0 z0 X Y Z log nan k n _ s H E) as H'.
  destruct (pick_good x0 y0 z0 X Y Z k s s' v1 v2 H' P) as (_ & F1 & F2 & B1 & B2 & Fr & Br).
  split; [exact F1|]. split; [exact F2|]. split; [exact B1|]. split; [exact B2|]. split; [exact Fr|].
  assert (0 < tiny)%R by (apply Rinv_0_lt_compat, IZR_lt; reflexivity). lra.
Qed.

(** Every sample is a number cut to 16 bits: the amplitude is never infinite nor NaN, and Get returns it without its
    fraction, or the nearest int16 when it is too large for one. *)
Theorem noise_sample_is_number : forall log nan volume seed n, ordinary seed -> sane log ->
  fin volume /\ (Rabs (B2R volume) <= bpow radix2 900)%R ->
  exists s s' amp x, gets log nan (Z.to_nat 259200) n (noise_new seed volume) = Some s /\
    amplitude log (Z.to_nat 259200) s = Some (s', amp) /\ noise_get log nan (Z.to_nat 259200) s = Some (s', x) /\
    fin amp /\ x = Z.max (-32768) (Z.min 32767 (Ztrunc (B2R amp))).
Proof.
  intros log nan r seed n S L R. fold rounds.
  assert (S' : int64 seed) by (unfold ordinary, ic1, int64 in *; lia).
  destruct (gets_wf log nan n _ (new_wf seed r S')) as (s & E & W). destruct (get_wf log nan s W) as (s' & x & E' & _).
  destruct (new_lived seed r S) as (x0 & y0 & z0 & X & Y & Z & H).
  assert (Q : ready x0 y0 z0 r (noise_new seed r)).
  { split; [exact H|]. split; [reflexivity|]. destruct (int_val 0 eq_refl) as [F V]. cbn [gset noise_new]. split; [exact F|].
    rewrite V, Rabs_R0. apply bpow_ge_0. }
  pose proof (gets_ready x0 y0 z0 X Y Z log L r R nan rounds n _ s Q E) as G.
  unfold noise_get in *. destruct (amplitude log rounds s) as [[s1 amp]|] eqn:A; [|discriminate]. injection E' as <- <-.
  destruct (amplitude_good x0 y0 z0 X Y Z log L r R rounds s s1 amp G A) as (_ & F & _).
  exists s, s1, amp, (fsaturate nan amp). split; [exact E|]. split; [exact A|]. split; [rewrite A; reflexivity|]. split; [exact F|].
  apply saturate_val, F.
Qed.

(** For the generator a program makes: a volume between -1000 and 1000 decibels, and a math.Pow that keeps within
    (generous) bounds. *)
Definition sane_pow (pow10 : f64 -> f64) : Prop :=
  forall x, fin x -> (-100 <= B2R x <= 100)%R -> fin (pow10 x) /\ (Rabs (B2R (pow10 x)) <= bpow radix2 400)%R.
Theorem new_awgn_sample : forall log nan pow10 seed volume n, ordinary seed -> sane log -> sane_pow pow10 -> fin volume -> (-1000 <= B2R volume <= 1000)%R ->
  exists s s' amp x, gets log nan (Z.to_nat 259200) n (NewAWGN_DBM0 pow10 seed volume) = Some s /\
    amplitude log (Z.to_nat 259200) s = Some (s', amp) /\ noise_get log nan (Z.to_nat 259200) s = Some (s', x) /\
    fin amp /\ x = Z.max (-32768) (Z.min 32767 (Ztrunc (B2R amp))).
Proof.
  intros log nan pow10 seed v n S L P F B. unfold NewAWGN_DBM0, NewAWGN_DBOV.
  apply noise_sample_is_number; [exact S|exact L|].
  assert (D : B2SF dbm0MaxPower = SpecFloat.S754_finite false 6935543426150564 (-50)) by (vm_compute; reflexivity).
  assert (Fd : fin dbm0MaxPower) by (unfold fin; rewrite <- is_finite_SF_B2SF, D; reflexivity).
  assert (Vd : (0 <= B2R dbm0MaxPower <= 10)%R).
  { rewrite val_SF, D. cbn [SF2R]. unfold F2R. cbn [Fnum Fexp SpecFloat.cond_Zopp]. change (-50)%Z with (Z.opp 50).
    rewrite bpow_neg by lia. change (2 ^ 50)%Z with 1125899906842624%Z. lra. }
  destruct (sub_val v dbm0MaxPower F Fd) as [Fs Vs]. { below 1100%Z. apply Rabs_le. lra. }
  assert (Bs : (-1010 <= B2R (fsub v dbm0MaxPower) <= 1000)%R).
  { rewrite Vs. split; [apply rnd_dn; [apply (fits_Z (-1010)); reflexivity|lra]|apply rnd_up; [apply (fits_Z 1000); reflexivity|lra]]. }
  set (lv := fsub v dbm0MaxPower) in *. destruct (int_val 20 eq_refl) as [F20 V20].
  destruct (div_val lv (of_int 20) Fs) as [Fq Vq]; [rewrite V20; lra| |].
  { rewrite V20. below 100%Z. apply Rabs_le. lra. }
  assert (Bq : (-100 <= B2R (fdiv lv (of_int 20)) <= 100)%R).
  { rewrite Vq, V20. split; [apply rnd_dn; [apply (fits_Z (-100)); reflexivity|lra]|apply rnd_up; [apply (fits_Z 100); reflexivity|lra]]. }
  destruct (P _ Fq Bq) as [Fp Bp]. destruct (int_val 32768 eq_refl) as [Fm Vm].
  destruct (scaled_val _ (of_int 32768) 400 15 ltac:(lia) ltac:(lia) ltac:(lia) Fp Fm Bp) as [Fr Br].
  { rewrite Vm, bpow_nn by lia. change (2 ^ 15)%Z with 32768%Z. apply Rabs_le. lra. }
  split; [exact Fr|]. apply Rle_trans with (1 := Br). apply bpow_le. lia.
Qed.

(** NewAWGN is one of these. *)
Example new_awgn_seed pow10 volume : NewAWGN pow10 volume = NewAWGN_DBM0 pow10 7162534 volume /\ ordinary 7162534.
Proof. split; [reflexivity|unfold ordinary, ic1; lia]. Qed.

(** With the seed of NewAWGN, volume factor 100 and a crude logarithm: the hypotheses hold, the first pair is accepted,
    and the first three samples come out. *)
Example noise_nonvacuous :
  let log := fun _ => of_int (-1) in let s := noise_new 7162534 (of_int 100) in
  int64 7162534 /\ ordinary 7162534 /\ sane log /\ sane_pow (fun _ => of_int 1) /\
  (fin (of_int 100) /\ (Rabs (B2R (of_int 100)) <= bpow radix2 900)%R) /\
  match noise_get log 0 10 s with
  | Some (s1, x1) => match noise_get log 0 10 s1 with
    | Some (s2, x2) => match noise_get log 0 10 s2 with Some (_, x3) => [x1; x2; x3] | None => [] end | None => [] end | None => [] end
  = [129; -57; 7].
Proof.
  cbv zeta. split; [unfold int64; lia|]. split; [unfold ordinary, ic1; lia|]. split.
  { intros r _ _. destruct (int_val (-1) eq_refl) as [F V]. split; [exact F|]. rewrite V. lra. }
  split.
  { intros r _ _. destruct (int_val 1 eq_refl) as [F V]. split; [exact F|]. rewrite V. rewrite Rabs_R1. apply (bpow_le radix2 0 400). lia. }
  split.
  { destruct (int_val 100 eq_refl) as [F V]. split; [exact F|]. rewrite V. rewrite Rabs_pos_eq by lra.
    apply Rle_trans with (bpow radix2 7); [rewrite bpow_nn by lia; apply IZR_le; discriminate|apply bpow_le; lia]. }
  vm_compute. reflexivity.
Qed.
