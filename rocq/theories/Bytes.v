(** Byte strings and machine integers: the common vocabulary of the model.
    A Go [string] / [[]byte] is a [list byte]; Go integers are [Z] with explicit wraps. *)
From Coq Require Export List Arith ZArith NArith Bool Lia.
From Coq Require Export Strings.Byte.
From Coq Require Export ZifyBool ZifyNat ZifyN.
Export ListNotations.
Global Open Scope list_scope.

Notation bytes := (list byte).

(** String literals in the model: the UTF-8 bytes of a Go string literal. *)
Inductive lit := Lit (l : bytes).
Definition lit_parse (l : bytes) : lit := Lit l.
Definition lit_print (x : lit) : bytes := let 'Lit l := x in l.
Declare Scope lit_scope.
Delimit Scope lit_scope with lit.
String Notation lit lit_parse lit_print : lit_scope.
Definition B (s : lit) : bytes := let 'Lit l := s in l.
Arguments B s%lit_scope.

(** Numeric value of a byte, and the byte of a number ([byte(x)] in Go: wraps modulo 256). *)
Definition bz (b : byte) : Z := Z.of_N (Byte.to_N b).
Definition zb (z : Z) : byte :=
  match Byte.of_N (Z.to_N (Z.modulo z 256)) with Some b => b | None => x00 end.

(** Go's fixed-width integer conversions (language spec, "Conversions between numeric types"). *)
Definition u8 (z : Z) : Z := Z.modulo z 256.
Definition u16 (z : Z) : Z := Z.modulo z 65536.
Definition u32 (z : Z) : Z := Z.modulo z 4294967296.
Definition u64 (z : Z) : Z := Z.modulo z 18446744073709551616.
Definition i64 (z : Z) : Z :=
  let m := u64 z in if Z.ltb m 9223372036854775808 then m else (m - 18446744073709551616)%Z.
Definition i16 (z : Z) : Z :=
  let m := u16 z in if Z.ltb m 32768 then m else (m - 65536)%Z.

Definition beq (a b : byte) : bool := Byte.eqb a b.

(** Byte string equality ([==] on Go strings). *)
Fixpoint bseq (a b : bytes) : bool :=
  match a, b with
  | [], [] => true
  | x :: a', y :: b' => beq x y && bseq a' b'
  | _, _ => false
  end.

Definition CR : byte := x0d.
Definition LF : byte := x0a.
Definition CRLF : bytes := [CR; LF].
Definition SP : byte := x20.
Definition HT : byte := x09.

Definition all_bytes : list byte :=
  map (fun n => match Byte.of_N (N.of_nat n) with Some b => b | None => x00 end) (seq 0 256).

(** [is_in lo hi b]: byte range test used by the generated tables. *)
Definition in_range (lo hi : Z) (b : byte) : bool := Z.leb lo (bz b) && Z.leb (bz b) hi.

Definition is_digit (b : byte) : bool := in_range 48 57 b.
Definition is_upper (b : byte) : bool := in_range 65 90 b.
Definition is_lower (b : byte) : bool := in_range 97 122 b.
Definition is_alpha (b : byte) : bool := is_upper b || is_lower b.
Definition is_alnum (b : byte) : bool := is_alpha b || is_digit b.

(** Result of running Go code: a value, or a run-time panic. *)
Inductive res (A : Type) : Type :=
| Ok (a : A)
| Panic.
Arguments Ok {A} a.
Arguments Panic {A}.

Definition rbind {A C} (r : res A) (f : A -> res C) : res C :=
  match r with Ok a => f a | Panic => Panic end.
