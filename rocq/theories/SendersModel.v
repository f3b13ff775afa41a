(** Several goroutines which call Send of one transport at the same time (dialog/transport.go:79-104). What they share is the transport: its
    Contact, which Send only reads, and its Via, of which Send reads everything and writes Param, through the message, if the message had no Via.
    Simplifications: reading and writing the pointer Via.Param is atomic and there is one order of all accesses (Go promises that only without a
    data race); the lists of parameters themselves are never written. A message is given to one Send only and has not been sent before. A panic is
    noticed before the first access to Param; it ends the program wherever it is. *)
From Coq Require Import List ZArith.
From Verif Require Import Bytes GoLib SdpModel SipText SipTypes SipAppend UtilModel DialogMsg TransportModel.
Import ListNotations.
Local Open Scope Z_scope.

(** what Send returns and leaves, for its caller: the message, the datagrams written (where, the message, the text), and whether nil is returned *)
Definition result := res (held * list (bytes * msg * bytes) * bool).
Definition result_of (r : res sending) : result := match r with Ok s => Ok (sd_held s, sd_wire s, sd_ok s) | Panic => Panic end.

(** dialog/transport.go:80-91  what Send does to a message apart from its Via, until it is stamped; with the address it is written to, if there is one *)
Definition prepared (tp : transport) (m : msg) (w : net) : res (msg * option bytes) :=
  let* m := PopulateMessage [tp_via tp] (tp_contact tp) m (n_draws w) in
  let* (m, r) := RouteMessage [tp_via tp] (tp_contact tp) m in
  match r with
  | inr _ => Ok (m, None)
  | inl (host, port) =>
    match n_resolve w (JoinHostPort host (Portstr port)) with
    | None => Ok (m, None)
    | Some a => Ok (if 0 <? maxforwards m then set_maxforwards (maxforwards m - 1) m else m, Some a)
    end
  end.

(** where a goroutine is in Send:
    - Fresh: it has not looked at Via.Param (dialog/route.go:33-62 up to the Get);
    - Checked: it found no branch (62);
    - Adding p: it has read the list p to put the branch in front of it (63-67) and has not written;
    - Branched: the Via has a branch, as far as it knows (dialog/route.go:69-77, dialog/transport.go:81-92);
    - Stamping p: it has read the list p to put the time in front of it (dialog/receiver.go:95-99) and has not written;
    - Stamped: it is to write the message (dialog/transport.go:94-103);
    - Finished r. *)
Inductive place := Fresh | Checked | Adding (p : list param) | Branched | Stamping (p : list param) | Stamped | Finished (r : result).

(** a message whose Via will be the transport's: a request without Via (dialog/route.go:33-36) *)
Definition borrows (m : msg) : bool := negb (IsResponse m) && match vias m with [] => true | _ => false end.

(** one access to Via.Param: the parameters afterwards, and where the goroutine is then. A message which does not borrow the transport's Via is sent without one. *)
Definition access (tp : transport) (m : msg) (w : net) (p : list param) (g : place) : option (list param * place) :=
  match g with
  | Fresh => if borrows m
             then match prepared tp m w with
                  | Panic => Some (p, Finished Panic)
                  | Ok _ => Some (p, match param_get p (B "branch") with None => Checked | Some _ => Branched end)
                  end
             else Some (p, Finished (result_of (Send tp (mkheld m false) w)))
  | Checked => Some (p, Adding p)
  | Adding q => Some ((B "branch", GenerateBranch (dr_branch (n_draws w))) :: q, Branched)
  | Branched => match prepared tp m w with
                | Panic => Some (p, Finished Panic)
                | Ok (m, None) => Some (p, Finished (Ok (mkheld (set_vias [set_vparam p (tp_via tp)] m) true, [], false)))
                | Ok (_, Some _) => Some (p, match n_stamp w with None => Stamped | Some _ => Stamping p end)
                end
  | Stamping q => Some (match n_stamp w with None => p | Some t => (B "usi", t) :: q end, Stamped)
  | Stamped => match prepared tp m w with
               | Ok (m, Some a) => let m := set_vias [set_vparam p (tp_via tp)] m in let text := msg_append (n_rid w) m in
                                   Some (p, Finished (Ok (mkheld m true, [(a, m, text)], n_write w a text)))
               | _ => Some (p, Finished Panic)
               end
  | Finished _ => None
  end.

(** the parameters of the transport's Via, and where each of the goroutines is *)
Definition scene : Type := list param * list place.
Definition put {A} (i : nat) (x : A) (l : list A) : list A := firstn i l ++ x :: skipn (S i) l.
(** the scheduler lets the i-th goroutine make its next access *)
Inductive turn (tp : transport) (jobs : list (msg * net)) : scene -> nat -> scene -> Prop :=
| turn_of i m w p g p' g' gs : nth_error jobs i = Some (m, w) -> nth_error gs i = Some g -> access tp m w p g = Some (p', g') -> turn tp jobs (p, gs) i (p', put i g' gs).
Inductive turns (tp : transport) (jobs : list (msg * net)) : scene -> list nat -> scene -> Prop :=
| no_turn c : turns tp jobs c [] c
| next_turn c i c' l c'' : turn tp jobs c i c' -> turns tp jobs c' l c'' -> turns tp jobs c (i :: l) c''.
(** all at the beginning *)
Definition opening (tp : transport) (jobs : list (msg * net)) : scene := (v_param (tp_via tp), repeat Fresh (length jobs)).
