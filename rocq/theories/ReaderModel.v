(** The goroutine that receives for a transport (dialog/receiver.go:26-57, started at dialog/transport.go:74), together with the application, which
    reads the channels C and E and may close the socket at any time, and the network. Both channels are unbuffered (dialog/transport.go:62-63): the
    goroutine waits until the application takes what it has.
    Simplifications: the queue of the socket is a list (the network may also lose a datagram: then it is not in it); after Close ReadFromUDP returns an
    error even if datagrams are in the queue; an error has no text. *)
From Coq Require Import List ZArith.
From Verif Require Import Bytes GoLib SdpModel SipText SipTypes SipAppend UtilModel DialogMsg MsgModel TransportModel.
Import ListNotations.
Local Open Scope Z_scope.

(** a datagram: what it holds, where it comes from, and what is stamped on it when it is read *)
Definition gram : Type := bytes * (bytes * Z) * option bytes.
(** where the goroutine is:
    - Reading: in ReadFromUDP (dialog/receiver.go:32);
    - Offering d: in c <- msg (53);
    - Reporting: in e <- err (34);
    - LeftLoop: before close(c) (55);
    - ClosedOne: before close(e) (56);
    - Ended: returned;
    - Crashed: the program has ended with a panic. *)
Inductive stage := Reading | Offering (d : delivered) | Reporting | LeftLoop | ClosedOne | Ended | Crashed.
Record reader := mkreader { rd_at : stage; rd_buf : bytes; rd_queue : list gram; rd_open : bool; rd_c : bool; rd_e : bool }.
(** dialog/receiver.go:27  a buffer of 2048 bytes; dialog/transport.go:51-74  an open socket and open channels *)
Definition started : reader := mkreader Reading (repeat "000"%byte 2048) [] true true true.

(** what happens *)
Inductive event :=
| Arrives (x : gram)       (* a datagram comes to the socket *)
| IsRead (x : gram)        (* the goroutine reads it *)
| Taken (m : msg)          (* the application receives a message from C *)
| SocketFails              (* ReadFromUDP returns an error *)
| ErrorTaken               (* the application receives it from E *)
| CloseC | CloseE          (* the goroutine closes the channels *)
| CSeenClosed | ESeenClosed (* the application receives from a closed channel *)
| SocketClosed.            (* the application closes the socket *)

Definition at_ (s : stage) (r : reader) : reader := mkreader s (rd_buf r) (rd_queue r) (rd_open r) (rd_c r) (rd_e r).
(** the goroutine has read a datagram (dialog/receiver.go:31-54) *)
Definition after_read (lhost : bytes) (lport : Z) (x : gram) (q : list gram) (r : reader) : reader :=
  match x with
  | (data, src, stamp) =>
    match TransportModel.receive lhost lport (rd_buf r) data src stamp with
    | Panic => mkreader Crashed (rd_buf r) q (rd_open r) (rd_c r) (rd_e r)
    | Ok (buf, None) => mkreader Reading buf q (rd_open r) (rd_c r) (rd_e r)
    | Ok (buf, Some d) => mkreader (Offering d) buf q (rd_open r) (rd_c r) (rd_e r)
    end
  end.
Inductive happens (lhost : bytes) (lport : Z) : reader -> event -> reader -> Prop :=
| it_arrives r x : rd_open r = true -> rd_at r <> Crashed ->
    happens lhost lport r (Arrives x) (mkreader (rd_at r) (rd_buf r) (rd_queue r ++ [x]) (rd_open r) (rd_c r) (rd_e r))
| it_is_read r x q : rd_at r = Reading -> rd_open r = true -> rd_queue r = x :: q -> happens lhost lport r (IsRead x) (after_read lhost lport x q r)
| it_is_taken r d : rd_at r = Offering d -> happens lhost lport r (Taken (seen (rd_buf r) d)) (at_ Reading r)
| it_fails r : rd_at r = Reading -> happens lhost lport r SocketFails (at_ Reporting r)
| error_is_taken r : rd_at r = Reporting -> happens lhost lport r ErrorTaken (at_ LeftLoop r)
| it_closes_c r : rd_at r = LeftLoop -> happens lhost lport r CloseC (mkreader ClosedOne (rd_buf r) (rd_queue r) (rd_open r) false (rd_e r))
| it_closes_e r : rd_at r = ClosedOne -> happens lhost lport r CloseE (mkreader Ended (rd_buf r) (rd_queue r) (rd_open r) (rd_c r) false)
| c_is_closed r : rd_c r = false -> happens lhost lport r CSeenClosed r
| e_is_closed r : rd_e r = false -> happens lhost lport r ESeenClosed r
| socket_is_closed r : rd_open r = true -> rd_at r <> Crashed -> happens lhost lport r SocketClosed (mkreader (rd_at r) (rd_buf r) (rd_queue r) false (rd_c r) (rd_e r)).
Inductive history (lhost : bytes) (lport : Z) : reader -> list event -> reader -> Prop :=
| nothing_yet r : history lhost lport r [] r
| and_then r e r' l r'' : happens lhost lport r e r' -> history lhost lport r' l r'' -> history lhost lport r (e :: l) r''.
