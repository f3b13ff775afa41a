(** A small amd64 machine: just the instructions used by dsp/dsp_amd64.s.
    General registers hold unsigned 64 bit values in [0, 2^64). *)
From Verif Require Import Bytes.
Local Open Scope Z_scope.

Inductive reg := AX | BX | CX | DX | R13.
Inductive opnd := R (r : reg) | I (z : Z).

(** Go assembly operand order: the destination is the LAST operand;
    [CMPQ a, b] sets the flags of a - b. *)
Inductive instr :=
| MOVQ (src : opnd) (dst : reg)
| LDARG (n : Z) (dst : reg)          (* MOVQ arg+n(FP), dst *)
| STRET (src : reg)                  (* MOVQ src, ret(FP) *)
| ADDQ (src : opnd) (dst : reg)
| SUBQ (src : opnd) (dst : reg)
| ANDQ (src : opnd) (dst : reg)
| ORQ (src : opnd) (dst : reg)
| XORQ (src : opnd) (dst : reg)
| NOTQ (dst : reg)
| SHLQ (src : opnd) (dst : reg)
| SARQ (src : opnd) (dst : reg)
| BSRQ (src dst : reg)
| DECQ (dst : reg)
| CMPQ (a : reg) (b : opnd)
| JMP (pc : nat)
| JS (pc : nat)
| JE (pc : nat)
| JGE (pc : nat)
| MOVO_LD (a : reg)                  (* MOVO 0(a), X0 : aligned 16 byte load *)
| MOVO_ST (a : reg)                  (* MOVO X0, 0(a) : aligned 16 byte store *)
| PADDSW (a : reg)                   (* PADDSW 0(a), X0 : eight saturating int16 adds *)
| RET.

(** Memory is read and written in 16 bit units by the code modelled here, always
    at even addresses: [mem a] is the signed word stored at bytes a and a+1. *)
Record cpu := mkcpu {
  rax : Z; rbx : Z; rcx : Z; rdx : Z; r13 : Z;
  x0 : list Z;                       (* eight signed words, lowest first *)
  sf : bool; zf : bool; ovf : bool;
  mem : Z -> Z;
  ret : option Z
}.

Definition getr (s : cpu) (r : reg) : Z :=
  match r with AX => rax s | BX => rbx s | CX => rcx s | DX => rdx s | R13 => r13 s end.
Definition setr (s : cpu) (r : reg) (v : Z) : cpu :=
  match s with mkcpu a b c d e x f g o m t =>
    match r with
    | AX => mkcpu v b c d e x f g o m t
    | BX => mkcpu a v c d e x f g o m t
    | CX => mkcpu a b v d e x f g o m t
    | DX => mkcpu a b c v e x f g o m t
    | R13 => mkcpu a b c d v x f g o m t
    end
  end.
Definition setx0 (s : cpu) (v : list Z) : cpu :=
  match s with mkcpu a b c d e x f g o m t => mkcpu a b c d e v f g o m t end.
Definition setmem (s : cpu) (v : Z -> Z) : cpu :=
  match s with mkcpu a b c d e x f g o m t => mkcpu a b c d e x f g o v t end.
Definition setret (s : cpu) (v : Z) : cpu :=
  match s with mkcpu a b c d e x f g o m t => mkcpu a b c d e x f g o m (Some v) end.
(** Signed reading of a 64 bit register. *)
Definition s64 (z : Z) : Z := i64 z.

(** Flags of an arithmetic result: sign, zero and signed overflow.
    (Logical and shift instructions also set flags; no code below tests them
    before the next CMPQ, so they are not modelled for those.) *)
Definition setflags (s : cpu) (exact : Z) : cpu :=
  match s with mkcpu a b c d e x _ _ _ m t =>
    mkcpu a b c d e x (Z.ltb (s64 exact) 0) (Z.eqb (u64 exact) 0)
          (negb (Z.eqb (s64 exact) exact)) m t
  end.

Definition opv (s : cpu) (o : opnd) : Z :=
  match o with R r => getr s r | I z => u64 z end.

(** Signed saturation to 16 bits, as performed by PADDSW. *)
Definition sat16 (z : Z) : Z :=
  if Z.ltb 32767 z then 32767 else if Z.ltb z (-32768) then -32768 else z.

Definition ld8 (m : Z -> Z) (a : Z) : list Z :=
  [m a; m (a+2); m (a+4); m (a+6); m (a+8); m (a+10); m (a+12); m (a+14)].
Definition st8 (m : Z -> Z) (a : Z) (v : list Z) : Z -> Z :=
  fun p => if (a <=? p) && (p <? a + 16) && Z.even p
           then nth (Z.to_nat ((p - a) / 2)) v 0 else m p.
Fixpoint padd (a b : list Z) : list Z :=
  match a, b with x :: a', y :: b' => sat16 (x + y) :: padd a' b' | _, _ => [] end.

(** One instruction. [None]: hardware fault (misaligned 16 byte access, BSR of
    zero whose result is undefined). *)
Definition exec (args : Z -> Z) (i : instr) (s : cpu) (pc : nat) : option (cpu * option nat) :=
  let next s' := Some (s', Some (S pc)) in
  match i with
  | MOVQ o d => next (setr s d (opv s o))
  | LDARG n d => next (setr s d (u64 (args n)))
  | STRET r => next (setret s (s64 (getr s r)))
  | ADDQ o d => next (setr s d (u64 (getr s d + opv s o)))
  | SUBQ o d => next (setr s d (u64 (getr s d - opv s o)))
  | ANDQ o d => next (setr s d (Z.land (getr s d) (opv s o)))
  | ORQ o d => next (setr s d (Z.lor (getr s d) (opv s o)))
  | XORQ o d => next (setr s d (Z.lxor (getr s d) (opv s o)))
  | NOTQ d => next (setr s d (u64 (Z.lnot (getr s d))))
  | SHLQ o d => next (setr s d (u64 (Z.shiftl (getr s d) (opv s o mod 64))))
  | SARQ o d => next (setr s d (u64 (Z.shiftr (s64 (getr s d)) (opv s o mod 64))))
  | BSRQ a d => if Z.eqb (getr s a) 0 then None else next (setr s d (Z.log2 (getr s a)))
  | DECQ d => next (setr s d (u64 (getr s d - 1)))
  | CMPQ a o => next (setflags s (s64 (getr s a) - s64 (opv s o)))
  | JMP t => Some (s, Some t)
  | JS t => Some (s, Some (if sf s then t else S pc))
  | JE t => Some (s, Some (if zf s then t else S pc))
  | JGE t => Some (s, Some (if Bool.eqb (sf s) (ovf s) then t else S pc))
  | MOVO_LD a => if Z.eqb (getr s a mod 16) 0 then next (setx0 s (ld8 (mem s) (getr s a))) else None
  | MOVO_ST a => if Z.eqb (getr s a mod 16) 0 then next (setmem s (st8 (mem s) (getr s a) (x0 s))) else None
  | PADDSW a => if Z.eqb (getr s a mod 16) 0 then next (setx0 s (padd (x0 s) (ld8 (mem s) (getr s a)))) else None
  | RET => Some (s, None)
  end.

Inductive outcome := Halt (s : cpu) | Fault | OutOfFuel.

Fixpoint run (fuel : nat) (prog : list instr) (args : Z -> Z) (s : cpu) (pc : nat) : outcome :=
  match fuel with
  | O => OutOfFuel
  | S f =>
    match nth_error prog pc with
    | None => Fault
    | Some i => match exec args i s pc with
                | None => Fault
                | Some (s', None) => Halt s'
                | Some (s', Some pc') => run f prog args s' pc'
                end
    end
  end.
