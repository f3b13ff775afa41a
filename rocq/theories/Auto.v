(** Table-driven automata with actions: how the goto code generated by Ragel runs (sip/uri_parse.go, sip/msg_parse.go).
    A position [p] in the input is represented by the rest of the input, [data[p:]].
    A row lists, for one state, disjoint sets of input symbols with the actions executed and where to go. *)
From Verif Require Import Bytes.

(** inclusive ranges of symbols *)
Definition ranges := list (N * N).
Definition in_ranges (k : ranges) (c : N) : bool := existsb (fun x => N.leb (fst x) c && N.leb c (snd x)) k.

Section Auto.
Context {A J S E : Type}.
(** what an action does, given the input from the current position on: a new state, or an early return *)
Variable act : A -> bytes -> S -> S + E.
(** the symbol at a position; None at the end of the input *)
Variable look : bytes -> option N.

(** [stN] with p++, or any other way to continue *)
Inductive next := Adv (n : positive) | Jump (j : J).
Definition row := list (ranges * list A * next).
Variable table : positive -> row.

Fixpoint acts (l : list A) (rest : bytes) (s : S) : S + E :=
  match l with
  | [] => inl s
  | a :: l' => match act a rest s with inl s' => acts l' rest s' | inr e => inr e end
  end.

Fixpoint find_row (r : row) (c : N) : option (list A * next) :=
  match r with
  | [] => None
  | (k, o, n) :: r' => if in_ranges k c then Some (o, n) else find_row r' c
  end.

Inductive outcome :=
| OEof (n : positive) (s : S)                 (* p == pe in state n *)
| OBad (n : positive) (rest : bytes) (s : S)  (* goto st0 *)
| OExit (j : J) (rest : bytes) (s : S)        (* a jump, taken at position rest *)
| OErr (e : E).                               (* return or panic inside an action *)

(** The automaton from state n at position rest *)
Fixpoint run (rest : bytes) (s : S) (n : positive) : outcome :=
  match rest with
  | [] => OEof n s
  | _ :: rest' =>
    match look rest with
    | None => OEof n s
    | Some c =>
      match find_row (table n) c with
      | None => OBad n rest s
      | Some (o, nx) =>
        match acts o rest s with
        | inr e => OErr e
        | inl s' => match nx with Adv m => run rest' s' m | Jump j => OExit j rest s' end
        end
      end
    end
  end.
End Auto.
Arguments Adv {J} n.
Arguments Jump {J} j.
Arguments next J : clear implicits.
Arguments row A J : clear implicits.
Arguments outcome J S E : clear implicits.
