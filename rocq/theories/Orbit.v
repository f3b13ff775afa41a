(** Orbits of x -> (a*x + c) mod m: when the first return of 0 is after m steps, every residue is visited once in any m
    consecutive steps. Used for the noise generator (P_Noise.v); nothing here models code. *)
From Coq Require Import ZArith List Lia Permutation Znumtheory.
Import ListNotations.
Local Open Scope Z_scope.

Notation iter := Nat.iter.
Lemma iter_plus {A} (f : A -> A) i j x : iter (i + j) f x = iter i f (iter j f x).
Proof. induction i as [|i IH]; simpl; [reflexivity|now rewrite IH]. Qed.
Lemma iter_mul {A} (f : A -> A) k x : iter k f x = x -> forall u, iter (u * k) f x = x.
Proof. intros H u. induction u as [|u IH]; [reflexivity|]. simpl Nat.mul. rewrite iter_plus, IH. exact H. Qed.
Lemma iter_S {A} (f : A -> A) k x : iter (S k) f x = iter k f (f x).
Proof. replace (S k) with (k + 1)%nat by lia. apply iter_plus. Qed.

Section Full.
  Variable f : Z -> Z.
  Variable m : nat.
  Definition ranged (x : Z) : Prop := 0 <= x < Z.of_nat m.
  Hypothesis M : (0 < m)%nat.
  Hypothesis K : forall x, ranged x -> ranged (f x).
  Hypothesis R : forall k, (0 < k < m)%nat -> iter k f 0 <> 0.
  Hypothesis Z0 : iter m f 0 = 0.

  Lemma orbit_ranged k : forall x, ranged x -> ranged (iter k f x).
  Proof. induction k as [|k IH]; intros x H; simpl; [exact H|]. apply K, IH, H. Qed.
  Lemma ranged_0 : ranged 0. Proof. unfold ranged. lia. Qed.

  Lemma orbit_inj i j : (i < m)%nat -> (j < m)%nat -> iter i f 0 = iter j f 0 -> i = j.
  Proof.
    assert (W : forall i j, (i < j)%nat -> (j < m)%nat -> iter i f 0 <> iter j f 0).
    { clear i j. intros i j L J E. apply (f_equal (iter (m - j) f)) in E. rewrite <- !iter_plus in E.
      replace (m - j + j)%nat with m in E by lia. rewrite Z0 in E. apply (R (m - j + i)%nat); [lia|exact E]. }
    intros I J E. destruct (Nat.lt_trichotomy i j) as [L|[L|L]]; [|exact L|].
    - now destruct (W i j L J).
    - now destruct (W j i L I).
  Qed.

  Lemma residues_nodup : NoDup (map Z.of_nat (seq 0 m)).
  Proof. apply FinFun.Injective_map_NoDup; [intros a b; apply Nat2Z.inj|apply seq_NoDup]. Qed.
  Lemma residues_in x : In x (map Z.of_nat (seq 0 m)) <-> ranged x.
  Proof.
    rewrite in_map_iff. unfold ranged. split.
    - intros (n & <- & I). apply in_seq in I. lia.
    - intros H. exists (Z.to_nat x). split; [lia|]. apply in_seq. lia.
  Qed.

  Lemma map_nodup {A B} (g : A -> B) l : (forall a b, In a l -> In b l -> g a = g b -> a = b) -> NoDup l -> NoDup (map g l).
  Proof.
    intros I N. induction N as [|x l H N IH]; simpl; constructor.
    - intros J. apply in_map_iff in J. destruct J as (y & E & J). apply H.
      rewrite (I x y); [exact J|now left|now right|now symmetry].
    - apply IH. intros a b Ha Hb. apply I; now right.
  Qed.

  (** every residue is on the orbit of 0 *)
  Lemma orbit_all x : ranged x -> exists k, (k < m)%nat /\ iter k f 0 = x.
  Proof.
    intros H. assert (I : incl (map Z.of_nat (seq 0 m)) (map (fun k => iter k f 0) (seq 0 m))).
    { apply NoDup_length_incl.
      - apply map_nodup; [|apply seq_NoDup]. intros a b A B. apply in_seq in A, B. apply orbit_inj; lia.
      - now rewrite !map_length.
      - intros y Y. apply in_map_iff in Y. destruct Y as (k & <- & Y). apply residues_in, orbit_ranged, ranged_0. }
    specialize (I x (proj2 (residues_in x) H)). apply in_map_iff in I. destruct I as (k & E & I). apply in_seq in I.
    exists k. split; [lia|exact E].
  Qed.

  (** no residue comes back before m steps, and each is back after m *)
  Lemma orbit_no_return x k : ranged x -> (0 < k < m)%nat -> iter k f x <> x.
  Proof.
    intros H L E. destruct (orbit_all x H) as (i & I & <-). rewrite <- iter_plus in E.
    apply (f_equal (iter (m - i) f)) in E. rewrite <- !iter_plus in E.
    replace (m - i + (k + i))%nat with (k + m)%nat in E by lia. replace (m - i + i)%nat with m in E by lia.
    rewrite iter_plus, Z0 in E. exact (R k L E).
  Qed.
  Lemma orbit_distinct x i j : ranged x -> (i < j)%nat -> (j - i < m)%nat -> iter i f x <> iter j f x.
  Proof.
    intros H L J E. replace j with (j - i + i)%nat in E by lia. rewrite iter_plus in E.
    refine (orbit_no_return (iter i f x) (j - i) _ _ _); [apply orbit_ranged, H|lia|now symmetry].
  Qed.

  (** m consecutive steps visit each residue once *)
  Lemma orbit_permutes x : ranged x -> Permutation (map (fun k => iter k f x) (seq 1 m)) (map Z.of_nat (seq 0 m)).
  Proof.
    intros H. apply NoDup_Permutation_bis.
    - apply map_nodup; [|apply seq_NoDup]. intros a b A B E. apply in_seq in A, B.
      destruct (Nat.lt_trichotomy a b) as [L|[L|L]]; [|exact L|].
      + now destruct (orbit_distinct x a b H L ltac:(lia)).
      + now destruct (orbit_distinct x b a H L ltac:(lia)).
    - rewrite !map_length, !seq_length. lia.
    - intros y Y. apply in_map_iff in Y. destruct Y as (k & <- & Y). apply residues_in, orbit_ranged, H.
  Qed.
  Lemma orbit_reaches x y : ranged x -> ranged y -> exists k, (1 <= k <= m)%nat /\ iter k f x = y.
  Proof.
    intros H Y. apply residues_in in Y. apply (Permutation_in _ (Permutation_sym (orbit_permutes x H))) in Y.
    apply in_map_iff in Y. destruct Y as (k & E & I). apply in_seq in I. exists k. split; [lia|exact E].
  Qed.
End Full.

(** Powers of the affine map, by squaring *)
Definition step (a c m x : Z) : Z := (a * x + c) mod m.
Definition after (m : Z) (g h : Z * Z) : Z * Z := ((fst g * fst h) mod m, (fst g * snd h + snd g) mod m).
Fixpoint apow (a c m : Z) (p : positive) : Z * Z :=
  match p with
  | xH => (a mod m, c mod m)
  | xO q => let g := apow a c m q in after m g g
  | xI q => let g := apow a c m q in after m (a mod m, c mod m) (after m g g)
  end.
Definition aff (m : Z) (g : Z * Z) (x : Z) : Z := (fst g * x + snd g) mod m.
Lemma aff_after m g h x : m <> 0 -> aff m (after m g h) x = aff m g (aff m h x).
Proof.
  intros M. unfold aff, after. cbn [fst snd]. destruct g as [a b], h as [c d]; cbn [fst snd].
  rewrite Zplus_mod_idemp_r, <- (Zplus_mod_idemp_l ((a * c) mod m * x)), Zmult_mod_idemp_l, Zplus_mod_idemp_l.
  rewrite <- (Zplus_mod_idemp_l (a * _)), Zmult_mod_idemp_r, Zplus_mod_idemp_l. f_equal. ring.
Qed.
Lemma aff_one a c m x : m <> 0 -> aff m (a mod m, c mod m) x = step a c m x.
Proof.
  intros M. unfold aff, step. cbn [fst snd].
  now rewrite Zplus_mod_idemp_r, <- Zplus_mod_idemp_l, Zmult_mod_idemp_l, Zplus_mod_idemp_l.
Qed.
Lemma apow_iter a c m p x : m <> 0 -> iter (Pos.to_nat p) (step a c m) x = aff m (apow a c m p) x.
Proof.
  intros M. revert x. induction p as [p IH|p IH|]; intros x; cbn [apow].
  - rewrite Pos2Nat.inj_xI, !aff_after, aff_one, <- !IH by exact M.
    change (S (2 * Pos.to_nat p)) with (1 + (2 * Pos.to_nat p))%nat. rewrite iter_plus. simpl Nat.mul. rewrite Nat.add_0_r, iter_plus. reflexivity.
  - rewrite Pos2Nat.inj_xO, aff_after, <- !IH by exact M. simpl Nat.mul. rewrite Nat.add_0_r, iter_plus. reflexivity.
  - now rewrite aff_one by exact M.
Qed.

(** The first return of 0 is after m steps, as soon as 0 does not return after m/p steps for any prime p of m *)
Lemma returns_gcd (f : Z -> Z) x i j : (0 < i)%nat -> iter i f x = x -> iter j f x = x -> iter (Nat.gcd i j) f x = x.
Proof.
  intros P I J. destruct (Nat.gcd_bezout_pos i j P) as (u & v & E).
  assert (W : iter (Nat.gcd i j + v * j) f x = x) by (rewrite <- E; apply iter_mul, I).
  rewrite iter_plus, iter_mul in W by exact J. exact W.
Qed.
Lemma first_return (f : Z -> Z) (m : nat) (ps : list nat) : (0 < m)%nat -> iter m f 0 = 0 ->
  (forall n, (1 < n)%nat -> Nat.divide n m -> exists p, In p ps /\ Nat.divide p n /\ (1 < p)%nat) ->
  (forall p, In p ps -> iter (m / p) f 0 <> 0) ->
  forall k, (0 < k < m)%nat -> iter k f 0 <> 0.
Proof.
  intros M Z0 P N k L E. pose proof (returns_gcd f 0 k m ltac:(lia) E Z0) as G. set (g := Nat.gcd k m) in *.
  assert (D : Nat.divide g m) by apply Nat.gcd_divide_r. assert (D' : Nat.divide g k) by apply Nat.gcd_divide_l.
  destruct D as (n & D). assert (g <= k)%nat by (apply Nat.divide_pos_le; [lia|exact D']).
  assert (1 < n)%nat. { destruct n as [|[|n]]; [simpl in D; lia|simpl in D; lia|lia]. }
  destruct (P n ltac:(assumption)) as (p & I & (q & Q) & Lp); [exists g; lia|].
  apply (N p I). replace (m / p)%nat with (q * g)%nat; [apply iter_mul, G|].
  rewrite D, Q. replace (q * p * g)%nat with (q * g * p)%nat by lia. symmetry. apply Nat.div_mul. lia.
Qed.

(** A divisor > 1 of a product of powers of the listed primes is divisible by one of them *)
Lemma smooth_divisor (ps : list Z) (m : Z) : (forall p, In p ps -> prime p) ->
  (exists es : list Z, (forall p, In p es -> In p ps) /\ m = fold_right Z.mul 1 es) ->
  forall n, 1 < n -> (n | m) -> exists p, In p ps /\ (p | n).
Proof.
  intros P (es & S & ->). induction es as [|e es IH]; intros n L D; cbn [fold_right] in D.
  - apply Z.divide_1_r_nonneg in D; lia.
  - assert (Pe : prime e) by (apply P, S; now left).
    destruct (Zdivide_dec e n) as [De|De].
    + exists e. split; [apply S; now left|exact De].
    + apply IH; [intros p Hp; apply S; now right|exact L|].
      apply (Gauss n e); [exact D|]. apply rel_prime_sym, prime_rel_prime; assumption.
Qed.

Lemma prime_5 : prime 5.
Proof.
  constructor; [lia|]. intros n H. assert (N : n = 1 \/ n = 2 \/ n = 3 \/ n = 4) by lia.
  destruct N as [->|[->|[->| ->]]]; apply Zgcd_1_rel_prime; reflexivity.
Qed.
Lemma prime_7 : prime 7.
Proof.
  constructor; [lia|]. intros n H. assert (N : n = 1 \/ n = 2 \/ n = 3 \/ n = 4 \/ n = 5 \/ n = 6) by lia.
  destruct N as [->|[->|[->|[->|[->| ->]]]]]; apply Zgcd_1_rel_prime; reflexivity.
Qed.

Lemma full_period a c m (ps es : list Z) : 1 < m -> (forall p, In p ps -> prime p) ->
  (forall p, In p es -> In p ps) -> m = fold_right Z.mul 1 es ->
  aff m (apow a c m (Z.to_pos m)) 0 = 0 ->
  (forall p, In p ps -> 0 < m / p /\ aff m (apow a c m (Z.to_pos (m / p))) 0 <> 0) ->
  (forall k, (0 < k < Z.to_nat m)%nat -> iter k (step a c m) 0 <> 0) /\ iter (Z.to_nat m) (step a c m) 0 = 0.
Proof.
  intros M P S E Z0 N.
  assert (T : forall z x, 0 < z -> iter (Z.to_nat z) (step a c m) x = aff m (apow a c m (Z.to_pos z)) x).
  { intros z x L. rewrite <- apow_iter by lia. f_equal. destruct z; lia. }
  assert (Z1 : iter (Z.to_nat m) (step a c m) 0 = 0) by (rewrite T by lia; exact Z0).
  split; [|exact Z1]. apply (first_return _ _ (map Z.to_nat ps)); [lia|exact Z1| |].
  - intros n L (q & D). destruct (smooth_divisor ps m P (ex_intro _ es (conj S E)) (Z.of_nat n)) as (p & I & (r & Q)); [lia|exists (Z.of_nat q); lia|].
    pose proof (P p I) as Pp. destruct Pp as [Pp _]. exists (Z.to_nat p). split; [now apply in_map|]. split; [|lia].
    exists (Z.to_nat r). nia.
  - intros p I. apply in_map_iff in I. destruct I as (z & <- & I). pose proof (P z I) as [Pz _].
    destruct (N z I) as [L H]. rewrite <- Z2Nat.inj_div by lia. rewrite T by exact L. exact H.
Qed.
