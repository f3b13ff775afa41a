(** The frames an RTP session hands to its application: rtp/session.go:46-64 (Frame, the channels C and R), 71-93 (NewSession) and 188-220 (receiver). The
    goroutine has one frame at a time, writes the sound of a datagram to it, offers it over C, and then takes another one from R. A frame is a pointer: both sides
    can write to the memory behind it at any time. Closing the session is in RtpCloseModel.v. *)
From Coq Require Import ZArith.
From Verif Require Import Bytes RtpModel.
Local Open Scope Z_scope.

(** rtp/session.go:44  [type Frame [160]int16]; a [*Frame] is a number, nil is None *)
Definition memory := nat -> list Z.
Definition write (h : memory) (p : nat) (x : list Z) : memory := fun q => if Nat.eqb q p then x else h q.

(** Where the goroutine is: rtp/session.go:191-219 *)
Inductive floc :=
| FRead      (* 192 in ReadFrom *)
| FOffer     (* 216 [c <- frame] *)
| FWait      (* 217 [frame = <-r] *)
| FEnd       (* 193-197, 219 ReadFrom failed *)
| FPanic.    (* an access out of bounds or through nil *)

(** The goroutine's variables frame and buf (rtp/session.go:189-190), the memory of all frames, and how many frames were made so far. *)
Record fstate := mkf { fl : floc; frame : option nat; fbuf : bytes; mem : memory; made : nat }.

(** rtp/session.go:189-190  [buf := make([]byte, 2048)], [frame := new(Frame)] *)
Definition fstart : fstate := mkf FRead (Some 0%nat) (repeat x00 2048) (fun _ => repeat 0 160) 1%nat.

Inductive fact :=
| FArrive (pkt : bytes)            (* ReadFrom returns a datagram *)
| FFail                            (* ReadFrom fails *)
| FTake (p : option nat)           (* the application receives p from C *)
| FGive (p : option nat)           (* the application sends p to R *)
| FMake (p : nat)                  (* the application makes a frame, [new(Frame)] *)
| FStore (p : nat) (x : list Z).   (* the application writes to a frame *)

(** What an action does, if it is possible. The channels are unbuffered (rtp/session.go:77-79): a frame is handed over when both sides are there. Simplified: the
    goroutine writes the 160 samples at once (rtp/session.go:213-215). *)
Definition fdo (a : fact) (s : fstate) : option fstate :=
  match a with
  | FArrive pkt =>
    match fl s with
    | FRead =>
      let '(b, amt) := recv_into (fbuf s) pkt in
      match recv_packet b amt with
      | Ok None => Some (mkf FRead (frame s) b (mem s) (made s))
      | Ok (Some x) =>
        match frame s with
        | Some p => Some (mkf FOffer (frame s) b (write (mem s) p x) (made s))
        | None => Some (mkf FPanic (frame s) b (mem s) (made s))
        end
      | Panic => Some (mkf FPanic (frame s) b (mem s) (made s))
      end
    | _ => None
    end
  | FFail => match fl s with FRead => Some (mkf FEnd (frame s) (fbuf s) (mem s) (made s)) | _ => None end
  | FTake p =>
    match fl s with
    | FOffer => if match p, frame s with Some a, Some b => Nat.eqb a b | None, None => true | _, _ => false end then Some (mkf FWait (frame s) (fbuf s) (mem s) (made s)) else None
    | _ => None
    end
  | FGive p => match fl s with FWait => Some (mkf FRead p (fbuf s) (mem s) (made s)) | _ => None end
  | FMake p => if Nat.eqb p (made s) then Some (mkf (fl s) (frame s) (fbuf s) (write (mem s) p (repeat 0 160)) (S (made s))) else None
  | FStore p x => if Nat.ltb p (made s) && Nat.eqb (length x) 160 then Some (mkf (fl s) (frame s) (fbuf s) (write (mem s) p x) (made s)) else None
  end.

(** A sequence of actions, in the order in which they happen. *)
Fixpoint fdos (l : list fact) (s : fstate) : option fstate :=
  match l with
  | [] => Some s
  | a :: l' => match fdo a s with Some s' => fdos l' s' | None => None end
  end.
