(** The integer part of the comfort noise generator: dsp/awgn.go. The table contents and the Box-Muller
    step are in AwgnFloat.v; [awgn_access] is the table index read and written by one call of ran1, or None when
    ran1 returns -1 without touching the table. *)
From Verif Require Import Bytes.
Local Open Scope Z_scope.

(** dsp/awgn.go:26-36 *)
Definition m1 : Z := 259200. Definition ia1 : Z := 7141. Definition ic1 : Z := 54773.
Definition m2 : Z := 134456. Definition ia2 : Z := 8121. Definition ic2 : Z := 28411.
Definition m3 : Z := 243000. Definition ia3 : Z := 4561. Definition ic3 : Z := 51349.

(** dsp/awgn.go:41-49; the array has [awgn_size] entries *)
Record awgn := mkawgn { ix1 : Z; ix2 : Z; ix3 : Z }.
Definition awgn_size : Z := 98.

(** [(a*x + c) % m] on int64; Go's % truncates towards zero *)
Definition lcg (a c m x : Z) : Z := Z.rem (i64 (i64 (a * x) + c)) m.

(** dsp/awgn.go:75-79: one round of the table set-up loop *)
Definition awgn_fill (s : awgn) : awgn := mkawgn (lcg ia1 ic1 m1 (ix1 s)) (lcg ia2 ic2 m2 (ix2 s)) (ix3 s).
(** dsp/awgn.go:62-83  NewAWGN_DBOV *)
Definition awgn_new (idum : Z) : awgn :=
  let idum := if idum <? 0 then i64 (- idum) else idum in
  let a := Z.rem (i64 (ic1 + idum)) m1 in
  let b := lcg ia1 ic1 m1 a in
  let c := lcg ia1 ic1 m1 b in
  Nat.iter 97 awgn_fill (mkawgn c (Z.rem b m2) (Z.rem c m3)).

(** dsp/awgn.go:108-120  ran1 *)
Definition ran1 (s : awgn) : awgn * option Z :=
  let s' := mkawgn (lcg ia1 ic1 m1 (ix1 s)) (lcg ia2 ic2 m2 (ix2 s)) (lcg ia3 ic3 m3 (ix3 s)) in
  let j := i64 (1 + Z.quot (i64 (97 * ix3 s')) m3) in
  (s', if (j >? 97) || (j <? 1) then None else Some j).
