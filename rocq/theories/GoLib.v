(** The pieces of Go's standard library the code relies on, re-specified as total functions. *)
From Verif Require Import Bytes.
Local Open Scope Z_scope.

(** strings.HasPrefix *)
Fixpoint has_prefix (s p : bytes) : bool :=
  match p, s with
  | [], _ => true
  | a :: p', b :: s' => beq a b && has_prefix s' p'
  | _, [] => false
  end.

(** strings.Index(s, c) for a one byte needle: None is -1. *)
Fixpoint index_byte (c : byte) (s : bytes) : option nat :=
  match s with
  | [] => None
  | x :: s' => if beq x c then Some O else option_map S (index_byte c s')
  end.

Definition contains_byte (c : byte) (s : bytes) : bool := existsb (beq c) s.

(** Put a byte in front of the first piece. *)
Definition cons_hd (c : byte) (l : list bytes) : list bytes :=
  match l with [] => [[c]] | h :: t => (c :: h) :: t end.

(** strings.Split(s, sep) for a one byte separator. *)
Fixpoint split_byte (sep : byte) (s : bytes) : list bytes :=
  match s with
  | [] => [[]]
  | c :: s' => if beq c sep then [] :: split_byte sep s' else cons_hd c (split_byte sep s')
  end.

(** strings.Split(s, "\r\n"), bytes.Split(s, "\r\n") *)
Fixpoint split_crlf (s : bytes) : list bytes :=
  match s with
  | [] => [[]]
  | c :: s' =>
    match s' with
    | d :: s'' => if beq c CR && beq d LF then [] :: split_crlf s'' else cons_hd c (split_crlf s')
    | [] => cons_hd c (split_crlf s')
    end
  end.

(** strconv.Itoa / FormatInt(_, 10) / FormatUint(_, 10). The recursion depth bound is the
    number of binary digits, which is at least the number of decimal ones. *)
Definition digit_of (n : Z) : byte := zb (48 + n).
Fixpoint dec (fuel : nat) (n : Z) : bytes :=
  match fuel with
  | O => []
  | S f => if n <? 10 then [digit_of n] else dec f (n / 10) ++ [digit_of (n mod 10)]
  end.
Definition utoa (n : Z) : bytes := dec (S (Z.to_nat (Z.log2 n))) n.
Definition itoa (n : Z) : bytes := if n <? 0 then "-"%byte :: utoa (- n) else utoa n.

(** Value of a string of decimal digits, unbounded. *)
Definition digit_val (c : byte) : option Z := if is_digit c then Some (bz c - 48) else None.
Fixpoint dec_value (acc : Z) (s : bytes) : option Z :=
  match s with
  | [] => Some acc
  | c :: s' => match digit_val c with Some d => dec_value (acc * 10 + d) s' | None => None end
  end.
Definition digits_value (s : bytes) : option Z :=
  match s with [] => None | _ => dec_value 0 s end.

(** strconv.ParseUint(s, 10, bits): error (None) on syntax or range. *)
Definition parse_uint (bits : Z) (s : bytes) : option Z :=
  match digits_value s with
  | Some v => if v <? 2 ^ bits then Some v else None
  | None => None
  end.

(** strconv.Atoi on a 64 bit platform: optional sign, then digits, in int64 range. *)
Definition atoi (s : bytes) : option Z :=
  let range (v : Z) := if (- 2 ^ 63 <=? v) && (v <? 2 ^ 63) then Some v else None in
  match s with
  | c :: t =>
    if beq c "-" then match digits_value t with Some v => range (- v) | None => None end
    else if beq c "+" then match digits_value t with Some v => range v | None => None end
    else match digits_value s with Some v => range v | None => None end
  | [] => None
  end.

(** strings.EqualFold(s, t) for an ASCII t: simple Unicode folding; the only non-ASCII
    code points that fold to ASCII are U+017F (c5 bf, s) and U+212A (e2 84 aa, k). *)
Definition lower (c : byte) : byte := if in_range 65 90 c then zb (bz c + 32) else c.
Fixpoint equal_fold (s t : bytes) : bool :=
  match t with
  | [] => match s with [] => true | _ => false end
  | d :: t' =>
    match s with
    | [] => false
    | c :: s' =>
      if bz c <? 128 then beq (lower c) (lower d) && equal_fold s' t'
      else
        match s' with
        | c2 :: s2 =>
          if beq c xc5 && beq c2 xbf then beq (lower d) "s" && equal_fold s2 t'
          else match s2 with
               | c3 :: s3 => if beq c xe2 && beq c2 x84 && beq c3 xaa then beq (lower d) "k" && equal_fold s3 t' else false
               | [] => false
               end
        | [] => false
        end
    end
  end.
