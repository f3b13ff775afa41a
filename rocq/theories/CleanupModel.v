(** The goroutines of a dialog and its receivers as a transition system: dialog/dialog.go:104-150 (run), 191-227 (connect), 493-517
    (cleanup) and dialog/receiver.go:26-57 (ReceiveMessages). One step is one channel or socket operation. What the loop does with a
    message is in DialogModel.v; here it takes messages and errors, may connect to another address, and may end at any time. Sending a
    notification to the application is left out: it is assumed to be taken. *)
From Verif Require Import Bytes.

(** Where a receive goroutine is: dialog/receiver.go:31-56 *)
Inductive rloc :=
| RRead      (* 32 in ReadFromUDP *)
| RGot       (* 37-52 a datagram was read *)
| RSendC     (* 53 [c <- msg] *)
| RSendE     (* 34 [e <- err] *)
| RCloseC    (* 55 *)
| RCloseE    (* 56 *)
| RDone.
(** a receiver: where it is, whether its socket is open, whether its channels are closed *)
Record rcv := mkr { rl : rloc; opened : bool; cc : bool; ec : bool }.
(** dialog/dialog.go:202-207: a new socket, new channels, a new goroutine *)
Definition fresh : rcv := mkr RRead true false false.
(** The steps of a receiver by itself. A read on a closed socket fails; on an open one it may. A packet which is not accepted is dropped. *)
Inductive rstep : rcv -> rcv -> Prop :=
| r_datagram c e : rstep (mkr RRead true c e) (mkr RGot true c e)
| r_fail o c e : rstep (mkr RRead o c e) (mkr RSendE o c e)
| r_drop o c e : rstep (mkr RGot o c e) (mkr RRead o c e)
| r_deliver o c e : rstep (mkr RGot o c e) (mkr RSendC o c e)
| r_closec o c e : rstep (mkr RCloseC o c e) (mkr RCloseE o true e)
| r_closee o c e : rstep (mkr RCloseE o c e) (mkr RDone o c true).
(** a receive from c: a message is handed over, or the channel is closed *)
Inductive takes_c : rcv -> rcv -> Prop :=
| take_msg o c e : takes_c (mkr RSendC o c e) (mkr RRead o c e)
| take_c_closed p o e : takes_c (mkr p o true e) (mkr p o true e).
Inductive takes_e : rcv -> rcv -> Prop :=
| take_err o c e : takes_e (mkr RSendE o c e) (mkr RCloseC o c e)
| take_e_closed p o c : takes_e (mkr p o c true) (mkr p o c true).
Definition close (r : rcv) : rcv := mkr (rl r) false (cc r) (ec r).

(** Where the dialog goroutine is *)
Inductive dloc :=
| DLoop      (* 109-149 the loop *)
| DFail1     (* 196, 505 connect: cleanupSock waits for the messages of the old socket *)
| DFail2     (* 506 ... and for its error *)
| DDial      (* 197 *)
| DEnd       (* 493 cleanup begins *)
| D1C        (* 505 [<-dls.sockMsgs] *)
| D1E        (* 506 [<-dls.sockErrs] *)
| D2         (* 510 *)
| D2C        (* 514 *)
| D2E        (* 515 *)
| DChans     (* 496-498 *)
| DDone.
(** the dialog, whether dls.sock and dls.csock are set, and their receivers (None before the socket exists) *)
Record cstate := mkc { dl : dloc; has1 : bool; has2 : bool; r1 : option rcv; r2 : option rcv }.
Inductive cstep : cstate -> cstate -> Prop :=
(* the receivers *)
| s_r1 d h1 h2 r r' q : rstep r r' -> cstep (mkc d h1 h2 (Some r) q) (mkc d h1 h2 (Some r') q)
| s_r2 d h1 h2 p r r' : rstep r r' -> cstep (mkc d h1 h2 p (Some r)) (mkc d h1 h2 p (Some r'))
(* 130-137 the loop takes a message *)
| s_msg1 h1 h2 r r' q : takes_c r r' -> cstep (mkc DLoop h1 h2 (Some r) q) (mkc DLoop h1 h2 (Some r') q)
| s_msg2 h1 h2 p r r' : takes_c r r' -> cstep (mkc DLoop h1 h2 p (Some r)) (mkc DLoop h1 h2 p (Some r'))
(* 111-125 an error: the socket is closed and forgotten, and the loop ends *)
| s_err1 h2 r r' q : takes_e r r' -> cstep (mkc DLoop true h2 (Some r) q) (mkc DEnd false h2 (Some (close r')) q)
| s_err2 h1 p r r' : takes_e r r' -> cstep (mkc DLoop h1 true p (Some r)) (mkc DEnd h1 false p (Some (close r')))
(* 191-227 another address. The goroutine of the old socket is not looked at any more; it has only to close its channels. *)
| s_failover h2 r q : cstep (mkc DLoop true h2 (Some r) q) (mkc DFail1 false h2 (Some (close r)) q)
| s_failover1 h1 h2 r r' q : takes_c r r' -> cstep (mkc DFail1 h1 h2 (Some r) q) (mkc DFail2 h1 h2 (Some r') q)
| s_failover2 h1 h2 r r' q : takes_e r r' -> cstep (mkc DFail2 h1 h2 (Some r) q) (mkc DDial h1 h2 (Some r') q)
| s_dial h1 h2 p q : cstep (mkc DDial h1 h2 p q) (mkc DLoop true h2 (Some fresh) q)
| s_undial h1 h2 p q : cstep (mkc DDial h1 h2 p q) (mkc DEnd false h2 p q)
| s_dialc h1 p : cstep (mkc DLoop h1 false p None) (mkc DLoop h1 true p (Some fresh))
(* the loop ends, for whatever reason *)
| s_end h1 h2 p q : cstep (mkc DLoop h1 h2 p q) (mkc DEnd h1 h2 p q)
(* 501-508 *)
| s_nosock h2 p q : cstep (mkc DEnd false h2 p q) (mkc D2 false h2 p q)
| s_close1 h2 r q : cstep (mkc DEnd true h2 (Some r) q) (mkc D1C false h2 (Some (close r)) q)
| s_wait1c h1 h2 r r' q : takes_c r r' -> cstep (mkc D1C h1 h2 (Some r) q) (mkc D1E h1 h2 (Some r') q)
| s_wait1e h1 h2 r r' q : takes_e r r' -> cstep (mkc D1E h1 h2 (Some r) q) (mkc D2 h1 h2 (Some r') q)
(* 510-517 *)
| s_nocsock h1 p q : cstep (mkc D2 h1 false p q) (mkc DChans h1 false p q)
| s_close2 h1 p r : cstep (mkc D2 h1 true p (Some r)) (mkc D2C h1 false p (Some (close r)))
| s_wait2c h1 h2 p r r' : takes_c r r' -> cstep (mkc D2C h1 h2 p (Some r)) (mkc D2E h1 h2 p (Some r'))
| s_wait2e h1 h2 p r r' : takes_e r r' -> cstep (mkc D2E h1 h2 p (Some r)) (mkc DChans h1 h2 p (Some r'))
(* 496-498 *)
| s_chans h1 h2 p q : cstep (mkc DChans h1 h2 p q) (mkc DDone h1 h2 p q).
(** the first connection is made *)
Definition cstart : cstate := mkc DDial false false None None.
Inductive steps : cstate -> cstate -> Prop :=
| steps_refl s : steps s s
| steps_step s t u : cstep s t -> steps t u -> steps s u.
