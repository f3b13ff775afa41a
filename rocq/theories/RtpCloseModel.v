(** The goroutines of an RTP session as a transition system: rtp/session.go:165-186 (Close, CloseAfterError),
    188-220 (receiver), 71-93 (NewSession: the three channels are unbuffered). One step is one channel or socket
    operation. The application is any sequence of receives from C and E and returns of frames over R, followed by
    Close or CloseAfterError; it does not use R after closing. *)
From Verif Require Import Bytes.

(** Where the receive goroutine is: rtp/session.go:188-220 *)
Inductive rloc :=
| RRead      (* 192 blocked in ReadFrom *)
| RErr       (* 193 ReadFrom failed *)
| RSendE     (* 195 [e <- err] *)
| RGot       (* 201-215 a datagram was read *)
| RSendC     (* 216 [c <- frame] *)
| RWaitR     (* 217 [frame = <-r] *)
| RCloseE    (* 219 *)
| RDone
| RPanic.    (* a nil frame was written to *)

(** Where the application goroutine is: rtp/session.go:165-186 *)
Inductive aloc :=
| AIdle (holds : bool)   (* outside Close; [holds]: has a frame received from C and not yet returned *)
| AClose1    (* 170 [frame, ok := <-rs.C] *)
| AClose2    (* 171 [rs.R <- frame] *)
| AClose3    (* 173 [<-rs.E] *)
| AClose4    (* 174-175 *)
| AAfter1    (* 184 [close(rs.R)] *)
| AAfter2    (* 185 [<-rs.E] *)
| ADone.

Record cstate := mkc { rl : rloc; al : aloc; sock_open : bool; c_closed : bool; e_closed : bool; r_closed : bool; frame_nil : bool }.

(** rtp/session.go:71-93 *)
Definition cstart : cstate := mkc RRead (AIdle false) true false false false false.

Inductive cstep : cstate -> cstate -> Prop :=
(* the receive goroutine; a read on a closed socket fails *)
| s_datagram a c e r n : cstep (mkc RRead a true c e r n) (mkc RGot a true c e r n)
| s_readerr a s c e r n : cstep (mkc RRead a s c e r n) (mkc RErr a s c e r n)
| s_closec a s c e r n : cstep (mkc RErr a s c e r n) (mkc RSendE a s true e r n)
| s_drop a s c e r n : cstep (mkc RGot a s c e r n) (mkc RRead a s c e r n)
| s_deliver a s c e r : cstep (mkc RGot a s c e r false) (mkc RSendC a s c e r false)
| s_nilframe a s c e r : cstep (mkc RGot a s c e r true) (mkc RPanic a s c e r true)
| s_rclosed a s c e n : cstep (mkc RWaitR a s c e true n) (mkc RRead a s c e true true)
| s_closee a s c e r n : cstep (mkc RCloseE a s c e r n) (mkc RDone a s c true r n)
(* the application before it closes the session *)
| s_take s c e r n : cstep (mkc RSendC (AIdle false) s c e r n) (mkc RWaitR (AIdle true) s c e r n)
| s_return s c e n : cstep (mkc RWaitR (AIdle true) s c e false n) (mkc RRead (AIdle false) s c e false n)
| s_error h s c e r n : cstep (mkc RSendE (AIdle h) s c e r n) (mkc RCloseE (AIdle h) s c e r n)
(* Close *)
| s_close p h s c e r n : cstep (mkc p (AIdle h) s c e r n) (mkc p AClose1 false c e r n)
| s_close1_frame s c e r n : cstep (mkc RSendC AClose1 s c e r n) (mkc RWaitR AClose2 s c e r n)
| s_close1_closed p s e r n : cstep (mkc p AClose1 s true e r n) (mkc p AClose3 s true e r n)
| s_close2 s c e n : cstep (mkc RWaitR AClose2 s c e false n) (mkc RRead AClose3 s c e false n)
| s_close3_err s c e r n : cstep (mkc RSendE AClose3 s c e r n) (mkc RCloseE AClose4 s c e r n)
| s_close3_closed p s c r n : cstep (mkc p AClose3 s c true r n) (mkc p AClose4 s c true r n)
| s_close4 p s c e r n : cstep (mkc p AClose4 s c e r n) (mkc p ADone s c e true n)
(* CloseAfterError *)
| s_after p h s c e r n : cstep (mkc p (AIdle h) s c e r n) (mkc p AAfter1 false c e r n)
| s_after1 p s c e r n : cstep (mkc p AAfter1 s c e r n) (mkc p AAfter2 s c e true n)
| s_after2_err s c e r n : cstep (mkc RSendE AAfter2 s c e r n) (mkc RCloseE ADone s c e r n)
| s_after2_closed p s c r n : cstep (mkc p AAfter2 s c true r n) (mkc p ADone s c true r n).
