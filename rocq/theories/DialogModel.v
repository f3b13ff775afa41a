(** dialog/dialog.go: the event loop of a dialog. The loop takes one event at a time; what it does with it is a function of the state of
    the dialog and of the answers of the outside world. Notifications and datagrams are outputs. Sending a notification waits until the
    application takes it; that waiting is not modelled here. Closing the old socket (cleanupSock) waits for its receiver; see
    CleanupModel.v. *)
From Verif Require Import Bytes GoLib SdpModel SipText SipTypes SipAppend UtilModel DialogMsg.
Local Open Scope Z_scope.

(** dialog/dialog.go:33-38 *)
Definition Proceeding : Z := 0.
Definition Ringing : Z := 1.
Definition Answered : Z := 2.
Definition Hangup : Z := 3.

(** a connected socket: remote and local address *)
Record sock := mksock { so_remote : bytes; so_lhost : bytes; so_lport : Z }.
(** The errors that are reported: of routing and name lookup, of the socket, "Failed to contact", "strange SIP version",
    ">=200 response w/o Contact", "froot loop" (remote, local), and a response. *)
Inductive derr := DRoute | DLookup | DSocket | DContact (dest : bytes) | DVersion | DNoContact | DRemoteLoop | DLocalLoop | DResponse (m : msg).
(** OnErr, OnState, OnPeer (IP text and port), and a datagram: to whom, the message, its text *)
Inductive out := OErr (e : derr) | OState (n : Z) | OPeer (ip : bytes) (port : Z) | OSend (to : bytes) (m : msg) (text : bytes).

(** Answers of the outside world. The loop asks for one after the other; [ask] below counts. *)
Record world := mkworld {
  w_dns : dns; w_dial : bytes -> option sock; w_listen : option Z; w_write : bytes -> bool; w_draws : draws; w_stamp : option bytes; w_rid : bytes }.
(** flags (dialog/dialog.go:40-44) and the world *)
Record config := mkconfig { c_loose : bool; c_max : Z; c_world : nat -> world }.

(** dialog/dialog.go:54-79  dialogState, without the channels. [req] is None while the current request is the object [invite],
    and Some message for another one. A timer is armed or not. [clock] is the number of answers of the world used so far. *)
Record dstate := mkd {
  st : Z; dest : bytes; daddr : bytes; so : option sock; cso : option Z; routes : list bytes;
  invite : msg; remote : option msg; req : option msg; resends : Z; rtimer : bool;
  response : option msg; rspresends : Z; rsptimer : bool; lseq : Z; rseq : Z; clock : nat }.
Definition set_st x s := mkd x (dest s) (daddr s) (so s) (cso s) (routes s) (invite s) (remote s) (req s) (resends s) (rtimer s) (response s) (rspresends s) (rsptimer s) (lseq s) (rseq s) (clock s).
Definition set_dest x s := mkd (st s) x (daddr s) (so s) (cso s) (routes s) (invite s) (remote s) (req s) (resends s) (rtimer s) (response s) (rspresends s) (rsptimer s) (lseq s) (rseq s) (clock s).
Definition set_daddr x s := mkd (st s) (dest s) x (so s) (cso s) (routes s) (invite s) (remote s) (req s) (resends s) (rtimer s) (response s) (rspresends s) (rsptimer s) (lseq s) (rseq s) (clock s).
Definition set_so x s := mkd (st s) (dest s) (daddr s) x (cso s) (routes s) (invite s) (remote s) (req s) (resends s) (rtimer s) (response s) (rspresends s) (rsptimer s) (lseq s) (rseq s) (clock s).
Definition set_cso x s := mkd (st s) (dest s) (daddr s) (so s) x (routes s) (invite s) (remote s) (req s) (resends s) (rtimer s) (response s) (rspresends s) (rsptimer s) (lseq s) (rseq s) (clock s).
Definition set_routes x s := mkd (st s) (dest s) (daddr s) (so s) (cso s) x (invite s) (remote s) (req s) (resends s) (rtimer s) (response s) (rspresends s) (rsptimer s) (lseq s) (rseq s) (clock s).
Definition set_invite x s := mkd (st s) (dest s) (daddr s) (so s) (cso s) (routes s) x (remote s) (req s) (resends s) (rtimer s) (response s) (rspresends s) (rsptimer s) (lseq s) (rseq s) (clock s).
Definition set_remote x s := mkd (st s) (dest s) (daddr s) (so s) (cso s) (routes s) (invite s) x (req s) (resends s) (rtimer s) (response s) (rspresends s) (rsptimer s) (lseq s) (rseq s) (clock s).
Definition set_req x s := mkd (st s) (dest s) (daddr s) (so s) (cso s) (routes s) (invite s) (remote s) x (resends s) (rtimer s) (response s) (rspresends s) (rsptimer s) (lseq s) (rseq s) (clock s).
Definition set_resends x s := mkd (st s) (dest s) (daddr s) (so s) (cso s) (routes s) (invite s) (remote s) (req s) x (rtimer s) (response s) (rspresends s) (rsptimer s) (lseq s) (rseq s) (clock s).
Definition set_rtimer x s := mkd (st s) (dest s) (daddr s) (so s) (cso s) (routes s) (invite s) (remote s) (req s) (resends s) x (response s) (rspresends s) (rsptimer s) (lseq s) (rseq s) (clock s).
Definition set_response x s := mkd (st s) (dest s) (daddr s) (so s) (cso s) (routes s) (invite s) (remote s) (req s) (resends s) (rtimer s) x (rspresends s) (rsptimer s) (lseq s) (rseq s) (clock s).
Definition set_rspresends x s := mkd (st s) (dest s) (daddr s) (so s) (cso s) (routes s) (invite s) (remote s) (req s) (resends s) (rtimer s) (response s) x (rsptimer s) (lseq s) (rseq s) (clock s).
Definition set_rsptimer x s := mkd (st s) (dest s) (daddr s) (so s) (cso s) (routes s) (invite s) (remote s) (req s) (resends s) (rtimer s) (response s) (rspresends s) x (lseq s) (rseq s) (clock s).
Definition set_lseq x s := mkd (st s) (dest s) (daddr s) (so s) (cso s) (routes s) (invite s) (remote s) (req s) (resends s) (rtimer s) (response s) (rspresends s) (rsptimer s) x (rseq s) (clock s).
Definition set_rseq x s := mkd (st s) (dest s) (daddr s) (so s) (cso s) (routes s) (invite s) (remote s) (req s) (resends s) (rtimer s) (response s) (rspresends s) (rsptimer s) (lseq s) x (clock s).
Definition set_clock x s := mkd (st s) (dest s) (daddr s) (so s) (cso s) (routes s) (invite s) (remote s) (req s) (resends s) (rtimer s) (response s) (rspresends s) (rsptimer s) (lseq s) (rseq s) x.

(** The functions of the loop return true or false; false makes every caller return false, and the loop ends. A function is therefore
    an action which goes on, halts or crashes (panics). *)
Inductive verdict := Cont | Halt | Crash.
Record result := mkres { r_state : dstate; r_out : list out; r_v : verdict }.
Definition action := dstate -> result.
Definition go (s : dstate) : result := mkres s [] Cont.
Definition crash : action := fun s => mkres s [] Crash.
Definition upd (f : dstate -> dstate) : action := fun s => go (f s).
Definition emit (o : out) : action := fun s => mkres s [o] Cont.
Definition halt : action := fun s => mkres s [] Halt.
(** a, and if it goes on, b *)
Definition seq (a b : action) : action := fun s =>
  let r := a s in match r_v r with Cont => let r' := b (r_state r) in mkres (r_state r') (r_out r ++ r_out r') (r_v r') | _ => r end.
Infix ";;" := seq (at level 60, right associativity).
Definition look {A} (f : dstate -> A) (k : A -> action) : action := fun s => k (f s) s.
(** k with the value, or a crash *)
Definition val {A} (x : res A) (k : A -> action) : action := match x with Ok a => k a | Panic => crash end.
(** an error is reported and the loop ends *)
Definition fail (e : derr) : action := emit (OErr e) ;; halt.

Section Loop.
Variable cfg : config.
(** the next answer of the world *)
Definition ask (k : world -> action) : action := fun s => k (c_world cfg (clock s)) (set_clock (S (clock s)) s).

(** the current request, and an assignment to its fields *)
Definition the_request (s : dstate) : msg := match req s with Some m => m | None => invite s end.
Definition set_the_request (m : msg) (s : dstate) : dstate := match req s with Some _ => set_req (Some m) s | None => set_invite m s end.

(** dialog/dialog.go:401-422  send; [keep] stores the message as it is afterwards *)
Definition send (m : msg) (keep : msg -> dstate -> dstate) : action :=
  let m1 := if 0 <? maxforwards m then set_maxforwards (maxforwards m - 1) m else m in
  upd (keep m1) ;;
  if (0 <? maxforwards m) && (maxforwards m1 =? 0) then fail DLocalLoop else
  ask (fun w =>
    val (addTimestamp m1 (w_stamp w)) (fun m2 =>
    upd (keep m2) ;;
    look so (fun o => match o with
      | None => crash
      | Some k => let text := msg_append (w_rid w) m2 in
          if w_write w text then emit (OSend (so_remote k) m2 text) else fail DSocket
      end))).
Definition drop (m : msg) (s : dstate) : dstate := s.

(** dialog/dialog.go:191-227  connect, when a new socket is needed: the answer says whether it succeeded; false makes popRoute go on with the next address *)
Definition connect (w : world) (s : dstate) : dstate * bool :=
  if match so s with Some k => bseq (daddr s) (so_remote k) | None => false end then (s, true) else
  let s := set_so None s in
  match w_dial w (daddr s) with
  | None => (s, false)
  | Some k =>
    let s := set_so (Some k) s in
    match cso s with
    | None => if c_loose cfg then match w_listen w with Some p => (set_cso (Some p) s, true) | None => (s, false) end else (s, true)
    | Some _ => (s, true)
    end
  end.

Definition with_addr (a : bytes) (d : sdp) : sdp := mksdp (s_origin d) a (s_audio d) (s_video d) (s_session d) (s_time d) (s_ptime d) (s_sendonly d) (s_recvonly d) (s_attrs d) (s_other d).
Definition with_origin (o : origin) (d : sdp) : sdp := mksdp o (s_addr d) (s_audio d) (s_video d) (s_session d) (s_time d) (s_ptime d) (s_sendonly d) (s_recvonly d) (s_attrs d) (s_other d).
(** dialog/dialog.go:229-279  populate, given the sockets and what is drawn *)
Definition populate (k : sock) (cport : option Z) (w : world) (m : msg) : res msg :=
  let m := match vias m with [] => set_vias [mkvia [] [] [] (so_lhost k) 0 []] m | _ => m end in
  let* m := match vias m with
    | [] => Panic
    | v :: l =>
      let v := set_vport (so_lport k) v in
      let b := GenerateBranch (dr_branch (w_draws w)) in
      let p := match param_get (v_param v) (B "branch") with Some _ => param_set (v_param v) (B "branch") b | None => (B "branch", b) :: v_param v end in
      Ok (set_vias (set_vparam p v :: l) m)
    end in
  let m := match addrs m Contact with [] => set_addr Contact [mkaddr (Some (mkuri (B "sip") [] [] (so_lhost k) 0 [] [])) [] []] m | _ => m end in
  let* m := match addrs m Contact with
    | [] => Panic
    | a :: l =>
      let* u := deref (a_uri a) in
      let u := set_uport (match cport with Some p => p | None => so_lport k end) u in
      let u := match param_get (u_param u) (B "transport") with None => set_uparam ((B "transport", B "udp") :: u_param u) u | Some _ => u end in
      Ok (set_addr Contact (set_auri (Some u) a :: l) m)
    end in
  let m := if bseq (method m) (B "INVITE") then
      match pay m with
      | Some (PSdp d) =>
        let d := match s_addr d with [] => with_addr (so_lhost k) d | _ => d end in
        let o := s_origin d in
        let o := match o_addr o with [] => mkorigin (o_user o) (o_id o) (o_version o) (so_lhost k) | _ => o end in
        let o := match o_id o with [] => mkorigin (o_user o) (GenerateOriginID (dr_origin (w_draws w))) (o_version o) (o_addr o) | _ => o end in
        set_pay (Some (PSdp (with_origin o d))) m
      | _ => m
      end else m in
  PopulateMessage [] [] m (w_draws w).

(** dialog/dialog.go:170-189  popRoute. The recursion takes one route each time. *)
Fixpoint pop_route (rs : list bytes) : action :=
  match rs with
  | [] => upd (set_routes []) ;; look dest (fun d => fail (DContact d))
  | a :: rest =>
    upd (set_daddr a) ;; upd (set_routes rest) ;;
    ask (fun w s =>
      let (s, ok) := connect w s in
      if negb ok then pop_route rest s else
      match so s with
      | None => crash s
      | Some k =>
        val (populate k (cso s) w (the_request s)) (fun m =>
        upd (set_the_request m) ;;
        look st (fun n => if n <? Answered then upd (set_rseq 0) ;; upd (set_remote None) ;; upd (set_lseq (cseq m)) else upd (fun s => s)) ;;
        upd (set_resends 0) ;; upd (set_rtimer true) ;;
        send m set_the_request) s
      end)
  end.
Definition popRoute : action := look routes pop_route.

(** dialog/dialog.go:152-168  sendRequest; [which] is None for the object [invite] *)
Definition sendRequest (which : option msg) : action :=
  look (fun s => match which with Some m => m | None => invite s end) (fun m =>
  val (RouteMessage [] [] m) (fun '(m, r) =>
  (* RouteMessage may have changed the request in place *)
  upd (fun s => match which with Some _ => s | None => set_invite m s end) ;;
  match r with
  | inr _ => fail DRoute
  | inl (host, port) =>
    ask (fun w => look st (fun n =>
      match RouteAddress (w_dns w) host port (n <? Answered) with
      | None => fail DLookup
      | Some rs => upd (set_req (match which with Some _ => Some m | None => None end)) ;; upd (set_routes rs) ;; upd (set_dest host) ;; popRoute
      end))
  end)).

(** dialog/dialog.go:395-399  checkSDP; Audio is nil when the session has no audio *)
Definition checkSDP (m : msg) : action :=
  match pay m with
  | Some (PSdp d) => match s_audio d with Some a => emit (OPeer (s_addr d) (m_port a)) | None => crash end
  | _ => upd (fun s => s)
  end.
(** dialog/dialog.go:488-491  transition *)
Definition transition (n : Z) : action := upd (set_st n) ;; emit (OState n).

(** dialog/dialog.go:300-354  handleResponse *)
Definition handleResponse (m : msg) : action :=
  look the_request (fun q =>
  if negb (ResponseMatch q m) then upd (fun s => s) else
  (if (200 <=? status m) && bseq (method q) (B "INVITE") then
     match addrs m Contact with
     | [] => fail DNoContact
     | _ => val (NewAck m q) (fun ack => send ack drop)
     end
   else upd (fun s => s)) ;;
  upd (set_routes []) ;; upd (set_rtimer false) ;;
  (if status m <=? 200 then checkSDP m else upd (fun s => s)) ;;
  if status m =? 100 then transition Proceeding
  else if (status m =? 180) || (status m =? 183) then transition Ringing
  else if status m =? 200 then
    if bseq (cseqmethod m) (B "INVITE") then
      look remote (fun r => match r with None => transition Answered | Some _ => upd (fun s => s) end) ;; upd (set_remote (Some m))
    else if bseq (cseqmethod m) (B "BYE") || bseq (cseqmethod m) (B "CANCEL") then transition Hangup ;; halt
    else upd (fun s => s)
  else if status m =? 503 then
    look req (fun r => match r with
      | None => look so (fun k => match k with Some _ => popRoute | None => crash end)
      | Some _ => fail (DResponse m)
      end)
  else if (status m =? 301) || (status m =? 302) then
    val (uri_of (addrs m Contact)) (fun u => upd (fun s => set_invite (set_addr Route [] (set_request u (invite s))) s) ;; sendRequest None)
  else if 200 <? status m then fail (DResponse m)
  else upd (fun s => s)).

(** dialog/dialog.go:444-449  sendResponse *)
Definition keep_response (m : msg) (s : dstate) : dstate := set_response (Some m) s.
Definition sendResponse (m : msg) : action :=
  upd (set_response (Some m)) ;; upd (set_rspresends 0) ;; upd (set_rsptimer true) ;; send m keep_response.

(** dialog/dialog.go:356-393  handleRequest *)
Definition handleRequest (m : msg) : action :=
  if maxforwards m <=? 0 then send (NewResponse m 483) drop ;; fail DRemoteLoop else
  look rseq (fun r =>
  if negb (r =? 0) && (cseq m <? r) then send (NewResponse m 500) drop else
  upd (set_rseq (cseq m)) ;;
  if bseq (method m) (B "BYE") then send (NewResponse m 200) drop ;; transition Hangup ;; halt
  else if bseq (method m) (B "OPTIONS") then send (NewResponse m 200) drop
  else if bseq (method m) (B "INVITE") then upd (set_remote (Some m)) ;; checkSDP m ;; sendResponse (NewResponse m 200)
  else if bseq (method m) (B "ACK") then upd (set_response None) ;; upd (set_rsptimer false)
  else send (NewResponse m 405) drop).

(** dialog/dialog.go:281-298  handleMessage *)
Definition handleMessage (m : msg) : action :=
  if negb (vmaj m =? 2) || negb (vmin m =? 0) then send (NewResponse m 505) drop ;; fail DVersion else
  look the_request (fun q =>
  if negb (bseq (callid m) (callid q)) then send (NewResponse m 481) drop
  else if IsResponse m then handleResponse m else handleRequest m).

(** dialog/dialog.go:424-441  resendRequest. The current request is never nil here: run has set it. The log line needs the socket. *)
Definition resendRequest : action :=
  look resends (fun n =>
  if n <? c_max cfg then
    look the_request (fun q => send q set_the_request) ;; upd (set_resends (n + 1)) ;; upd (set_rtimer true)
  else look so (fun k => match k with Some _ => popRoute | None => crash end)).
(** dialog/dialog.go:451-469  resendResponse *)
Definition resendResponse : action :=
  look response (fun r => match r with
  | None => upd (fun s => s)
  | Some m =>
    look rspresends (fun n =>
    if n <? c_max cfg then send m keep_response ;; upd (set_rspresends (n + 1)) ;; upd (set_rsptimer true)
    else look so (fun k => match k with Some _ => popRoute | None => crash end))
  end).
(** dialog/dialog.go:471-486  sendHangup. The CANCEL shares the Via of the INVITE, so a time stamp is seen in both. *)
Definition sendHangup : action :=
  look st (fun n =>
  if (n =? Proceeding) || (n =? Ringing) then
    look (fun s => NewCancel (invite s)) (fun c => send c (fun m s => set_invite (set_vias (vias m) (invite s)) s))
  else if n =? Answered then
    look (fun s => s) (fun s =>
      match remote s with
      | None => crash
      | Some rm => val (NewBye (invite s) rm (Some (lseq s))) (fun '(bye, n) => upd (set_lseq n) ;; sendRequest (Some bye))
      end)
  else if n =? Hangup then crash
  else transition Hangup ;; halt).

(** What the loop waits for (dialog/dialog.go:109-149): an error of the connected socket (refused or another), an error of the contact
    socket, the timers, a message from one of the receivers, the application's wish to hang up. *)
Inductive event := ESockErr (refused : bool) | ECsockErr | EReqTimer | ERspTimer | EMsg (m : msg) | EHangup.
(** Errors need a socket; a timer must be armed. *)
Definition enabled (e : event) (s : dstate) : bool :=
  match e with
  | ESockErr _ => match so s with Some _ => true | None => false end
  | ECsockErr => match cso s with Some _ => true | None => false end
  | EReqTimer => rtimer s
  | ERspTimer => rsptimer s
  | EMsg _ | EHangup => true
  end.
(** dialog/dialog.go:111-148  one turn of the loop. After a refusal the log line calls a method of the socket which was just set to nil. *)
Definition handle (e : event) : action :=
  match e with
  | ESockErr true => upd (set_so None) ;; look so (fun k => match k with Some _ => popRoute | None => crash end)
  | ESockErr false => upd (set_so None) ;; fail DSocket
  | ECsockErr => upd (set_cso None) ;; fail DSocket
  | EReqTimer => upd (set_rtimer false) ;; resendRequest
  | ERspTimer => upd (set_rsptimer false) ;; resendResponse
  | EMsg m => handleMessage m
  | EHangup => sendHangup
  end.
(** dialog/dialog.go:82-108  the dialog as NewDialog makes it, and the first step of run *)
Definition init (m : msg) : dstate := mkd Proceeding [] [] None None [] m None None 0 false None 0 false 0 0 0.
Definition start (m : msg) : result := sendRequest None (init m).
(** A run: events which are enabled, until the loop ends. Events after the end are not looked at. *)
Inductive run : result -> list event -> result -> Prop :=
| run_nil r : run r [] r
| run_step r e es r' : r_v r = Cont -> enabled e (r_state r) = true ->
    run (mkres (r_state (handle e (r_state r))) (r_out r ++ r_out (handle e (r_state r))) (r_v (handle e (r_state r)))) es r' -> run r (e :: es) r'.
Definition dialog (m : msg) (es : list event) (r : result) : Prop := run (start m) es r.
End Loop.
