(** The comfort noise generator with its floating point: dsp/awgn.go:39-132. AwgnModel.v has the integer states; here the
    table of float64 values, the pairs drawn from it (Box-Muller), and the sample. Floating point is IEEE 754 binary64
    with rounding to nearest even, as Flocq defines it (infinities and NaN included): what Go computes on amd64, where
    it never fuses a multiplication with an addition. [math.Log] is a parameter, [math.Sqrt] is the correctly rounded
    square root of IEEE 754, and [math.Pow] is a parameter too. *)
From Coq Require Import ZArith List.
From Flocq Require Import IEEE754.BinarySingleNaN.
From Verif Require Import Bytes AwgnModel.
Import ListNotations.
Local Open Scope Z_scope.

(** float64 *)
Notation f64 := (binary_float 53 1024).
Definition prec53 : FLX.Prec_gt_0 53 := eq_refl.
Definition prec1024 : Prec_lt_emax 53 1024 := eq_refl.
#[global] Existing Instance prec53.
#[global] Existing Instance prec1024.
Definition fadd : f64 -> f64 -> f64 := Bplus mode_NE.
Definition fsub : f64 -> f64 -> f64 := Bminus mode_NE.
Definition fmul : f64 -> f64 -> f64 := Bmult mode_NE.
Definition fdiv : f64 -> f64 -> f64 := Bdiv mode_NE.
Definition fsqrt : f64 -> f64 := Bsqrt mode_NE.
(** [float64(z)], and the literals [1.0], [2.0], [-2.0] *)
Definition of_int (z : Z) : f64 := binary_normalize 53 1024 _ _ mode_NE z 0 false.
Definition flt : f64 -> f64 -> bool := Bltb.

(** dsp/awgn.go:29,33: the constants are exact quotients, rounded once when they meet a float64 *)
Definition rm1 : f64 := fdiv (of_int 1) (of_int m1).
Definition rm2 : f64 := fdiv (of_int 1) (of_int m2).

(** dsp/awgn.go:41-49. [ints] has ix1, ix2, ix3; [tab] is the array r of 98 entries. *)
Record noise := mknoise { rms : f64; ints : awgn; tab : list f64; gset : f64; iset : Z }.

Fixpoint put {A} (j : nat) (v : A) (l : list A) : list A :=
  match l, j with [], _ => [] | _ :: l, O => v :: l | x :: l, S j => x :: put j v l end.

(** [(float64(s.ix1) + float64(s.ix2)*rm2) * rm1]: dsp/awgn.go:78,118 *)
Definition fresh (s : awgn) : f64 := fmul (fadd (of_int (ix1 s)) (fmul (of_int (ix2 s)) rm2)) rm1.

(** dsp/awgn.go:75-79: round j of the table set-up *)
Definition fill (j : nat) (p : awgn * list f64) : awgn * list f64 :=
  let s := awgn_fill (fst p) in (s, put j (fresh s) (snd p)).
Fixpoint filled (n : nat) (p : awgn * list f64) : awgn * list f64 :=
  match n with O => p | S k => fill n (filled k p) end.

(** dsp/awgn.go:62-83  NewAWGN_DBOV, given [rms0], the value of [math.Pow(10.0, level/20.0) * 32768.0] *)
Definition noise_new (idum : Z) (rms0 : f64) : noise :=
  let idum := if idum <? 0 then i64 (- idum) else idum in
  let a := Z.rem (i64 (ic1 + idum)) m1 in
  let b := lcg ia1 ic1 m1 a in
  let c := lcg ia1 ic1 m1 b in
  let p := filled 97 (mkawgn c (Z.rem b m2) (Z.rem c m3), repeat (of_int 0) 98) in
  mknoise rms0 (fst p) (snd p) (of_int 0) 0.

(** dsp/awgn.go:51-60,67  the three constructors, from the volume; [pow10 x] is [math.Pow(10.0, x)], and the constant
    [3.14 + 3.02] is the exact 6.16, rounded once *)
Definition dbm0MaxPower : f64 := fdiv (of_int 616) (of_int 100).
Definition NewAWGN_DBOV (pow10 : f64 -> f64) (idum : Z) (level : f64) : noise :=
  noise_new idum (fmul (pow10 (fdiv level (of_int 20))) (of_int 32768)).
Definition NewAWGN_DBM0 (pow10 : f64 -> f64) (idum : Z) (level : f64) : noise :=
  NewAWGN_DBOV pow10 idum (fsub level dbm0MaxPower).
Definition NewAWGN (pow10 : f64 -> f64) (volume : f64) : noise := NewAWGN_DBM0 pow10 7162534 volume.

(** dsp/awgn.go:107-120  ran1 *)
Definition ran (s : noise) : noise * f64 :=
  let (s', o) := ran1 (ints s) in
  match o with
  | None => (mknoise (rms s) s' (tab s) (gset s) (iset s), of_int (-1))
  | Some j => (mknoise (rms s) s' (put (Z.to_nat j) (fresh s') (tab s)) (gset s) (iset s),
               nth (Z.to_nat j) (tab s) (of_int 0))
  end.

(** dsp/awgn.go:88-95: the loop that draws pairs until one lies inside the unit circle; [rounds] bounds the number of
    times its body may run, and None says that was not enough *)
Definition centred (u : f64) : f64 := fsub (fmul (of_int 2) u) (of_int 1).
Definition radius (v1 v2 : f64) : f64 := fadd (fmul v1 v1) (fmul v2 v2).
Fixpoint pick (rounds : nat) (s : noise) : option (noise * f64 * f64) :=
  match rounds with
  | O => None
  | S k =>
    let (s1, u1) := ran s in
    let (s2, u2) := ran s1 in
    let v1 := centred u1 in
    let v2 := centred u2 in
    if flt (radius v1 v2) (of_int 1) then Some (s2, v1, v2) else pick k s2
  end.

(** dsp/awgn.go:85-105  Get, up to the saturation: the state and the amplitude. [log] is math.Log. *)
Definition amplitude (log : f64 -> f64) (rounds : nat) (s : noise) : option (noise * f64) :=
  if iset s =? 0 then
    match pick rounds s with
    | None => None
    | Some (s, v1, v2) =>
      let r := radius v1 v2 in
      let fac := fsqrt (fdiv (fmul (of_int (-2)) (log r)) r) in
      Some (mknoise (rms s) (ints s) (tab s) (fmul v1 fac) 1, fmul (fmul v2 fac) (rms s))
    end
  else Some (mknoise (rms s) (ints s) (tab s) (gset s) 0, fmul (gset s) (rms s)).

(** dsp/awgn.go:123-132  fsaturate. [int16(damp)] drops the fraction; of a NaN it is whatever the machine makes of it,
    here the parameter [nan]. *)
Definition fsaturate (nan : Z) (damp : f64) : Z :=
  if flt (of_int 32767) damp then 32767
  else if flt damp (of_int (-32768)) then -32768
  else if is_nan damp then nan else i16 (Btrunc damp).

(** dsp/awgn.go:85-105  Get *)
Definition noise_get (log : f64 -> f64) (nan : Z) (rounds : nat) (s : noise) : option (noise * Z) :=
  match amplitude log rounds s with None => None | Some (s, amp) => Some (s, fsaturate nan amp) end.
