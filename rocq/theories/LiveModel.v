(** The event loop of a dialog (DialogModel.v) together with the goroutines that read its sockets (CleanupModel.v). DialogModel lets the loop
    go over to another address at once; here, as in dialog/dialog.go:191-196 and 501-508, it closes the old socket first and then waits for
    the goroutine of that socket, once for a message and once for an error. What is done when the loop has ended is in CleanupModel.v.
    Simplification: if the contact socket cannot be opened, connect leaves the socket it has just opened, and the next call of connect waits for the
    goroutine of that one too; here it does not wait again. *)
From Verif Require Import Bytes GoLib SdpModel SipText SipTypes DialogMsg DialogModel CleanupModel AppModel.

(** The same world, in which no socket can be opened. *)
Definition deaf (cfg : config) : config :=
  mkconfig (c_loose cfg) (c_max cfg) (fun n => let w := c_world cfg n in mkworld (w_dns w) (fun _ => None) (w_listen w) (w_write w) (w_draws w) (w_stamp w) (w_rid w)).
(** dialog/dialog.go:192-196: whether handling [e] reaches the call of cleanupSock in connect with a socket to close. It does if, were no socket
    to be opened, the loop would be left without one. (An error of the socket closes it too, in line 112, but nobody is waited for.) *)
Definition closes (cfg : config) (e : event) (s : dstate) : bool :=
  match e with
  | ESockErr _ => false
  | _ => match so s, so (r_state (handle (deaf cfg) e s)) with Some _, None => true | _, _ => false end
  end.
(** What the loop has sent and reported when it reaches that call: everything but the failure to contact anyone with which it would then end. *)
Definition said (cfg : config) (e : event) (s : dstate) : list out := removelast (r_out (handle (deaf cfg) e s)).

(** Where the loop is: it waits for an event; it has come to line 503 and is about to close its socket; it waits in line 505 for a message of the
    goroutine whose socket it has closed; it waits in line 506 for its error; it has ended. *)
Inductive lloc := LLoop | LBusy (e : event) | LClose1 (e : event) | LClose2 (e : event) | LOver.
(** [lv] is the loop before the event which is being handled, [lr1] and [lr2] are the goroutines reading the connected and the contact socket. *)
Record live := mklive { lv : result; lat : lloc; lr1 : option rcv; lr2 : option rcv }.
(** all that was sent and reported so far *)
Definition shown (cfg : config) (l : live) : list out :=
  r_out (lv l) ++ match lat l with LBusy e | LClose1 e | LClose2 e => said cfg e (r_state (lv l)) | _ => [] end.

(** dialog/dialog.go:111-147: where an event comes from. What a message says is not kept with the goroutine that has read it: it may be any. *)
Inductive taken : event -> option rcv -> option rcv -> option rcv -> option rcv -> Prop :=
| t_msg1 m o c e q : taken (EMsg m) (Some (mkr RSendC o c e)) q (Some (mkr RRead o c e)) q
| t_msg2 m o c e p : taken (EMsg m) p (Some (mkr RSendC o c e)) p (Some (mkr RRead o c e))
| t_err1 b o c e q : taken (ESockErr b) (Some (mkr RSendE o c e)) q (Some (mkr RCloseC false c e)) q
| t_err2 o c e p : taken ECsockErr p (Some (mkr RSendE o c e)) p (Some (mkr RCloseC false c e))
| t_reqtimer p q : taken EReqTimer p q p q
| t_rsptimer p q : taken ERspTimer p q p q
| t_hangup p q : taken EHangup p q p q.
(** dialog/dialog.go:202-207, 219-224: a goroutine is started for a socket which was opened. *)
Definition reader (old new : bool) (r : option rcv) : option rcv := if negb old && new then Some fresh else r.
Definition has {A} (o : option A) : bool := match o with Some _ => true | None => false end.
Definition place (r : result) : lloc := match r_v r with Cont => LLoop | _ => LOver end.

Inductive lstep (cfg : config) : live -> option event -> live -> Prop :=
(* the goroutines that read *)
| l_read1 r a p p' q : rstep p p' -> lstep cfg (mklive r a (Some p) q) None (mklive r a (Some p') q)
| l_read2 r a p q q' : rstep q q' -> lstep cfg (mklive r a p (Some q)) None (mklive r a p (Some q'))
(* an event for which no socket is closed *)
| l_turn r e p q p' q' : r_v r = Cont -> enabled e (r_state r) = true -> taken e p q p' q' -> closes cfg e (r_state r) = false ->
    lstep cfg (mklive r LLoop p q) (Some e)
      (mklive (turn cfg r e) (place (turn cfg r e)) (reader (has (so (r_state r))) (has (so (r_state (turn cfg r e)))) p') (reader (has (cso (r_state r))) (has (cso (r_state (turn cfg r e)))) q'))
(* an event for which the socket is closed: what comes before that *)
| l_busy r e p q p' q' : r_v r = Cont -> enabled e (r_state r) = true -> taken e p q p' q' -> closes cfg e (r_state r) = true ->
    lstep cfg (mklive r LLoop p q) (Some e) (mklive r (LBusy e) p' q')
(* 503-504 *)
| l_close r e p q : lstep cfg (mklive r (LBusy e) (Some p) q) None (mklive r (LClose1 e) (Some (close p)) q)
(* 505 *)
| l_wait1 r e p p' q : takes_c p p' -> lstep cfg (mklive r (LClose1 e) (Some p) q) None (mklive r (LClose2 e) (Some p') q)
(* 506, and then the rest of the turn; if the address is not the last and the socket cannot be opened, the next is tried *)
| l_wait2 r e p p' q : takes_e p p' ->
    lstep cfg (mklive r (LClose2 e) (Some p) q) None
      (mklive (turn cfg r e) (place (turn cfg r e)) (if has (so (r_state (turn cfg r e))) then Some fresh else Some p') (reader (has (cso (r_state r))) (has (cso (r_state (turn cfg r e)))) q)).
(** The events that were handled, in order. *)
Inductive lsteps (cfg : config) : live -> list event -> live -> Prop :=
| ls_nil l : lsteps cfg l [] l
| ls_quiet l l1 es l2 : lstep cfg l None l1 -> lsteps cfg l1 es l2 -> lsteps cfg l es l2
| ls_event l e l1 es l2 : lstep cfg l (Some e) l1 -> lsteps cfg l1 es l2 -> lsteps cfg l (e :: es) l2.
(** dialog/dialog.go:104-108: the INVITE has been sent (or not) *)
Definition lbegin (cfg : config) (m : msg) : live :=
  let r := start cfg m in mklive r (place r) (reader false (has (so (r_state r))) None) (reader false (has (cso (r_state r))) None).
