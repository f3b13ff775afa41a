(** Package dialog: messages.go, route.go, util.go and the message part of receiver.go.
    Messages are values here. The Via object which a message shares with its transport is modelled in TransportModel.v. *)
From Verif Require Import Bytes GoLib SdpModel SipText SipTypes SipAppend UtilModel.
Local Open Scope Z_scope.

Notation "'let*' x := e 'in' k" := (rbind e (fun x => k)) (at level 200, x pattern, e at level 100, k at level 200, right associativity).

(** dialog/messages.go:24-27, sip/method constants *)
Definition GosipUA : bytes := B "slytherin/1.o".
Definition GosipAllow : bytes := B "INVITE, ACK, CANCEL, BYE, OPTIONS".
(** what is drawn from the random source while one message is prepared *)
Record draws := mkdraws { dr_branch : bytes; dr_tag : bytes; dr_callid : bytes; dr_cseq : Z; dr_origin : Z }.
(** x.Uri of a possibly nil address *)
Definition uri_of (l : list addr) : res (option uri) := match l with a :: _ => Ok (a_uri a) | [] => Panic end.
(** *p of a pointer which may be nil *)
Definition deref {A} (p : option A) : res A := match p with Some a => Ok a | None => Panic end.
(** updates of the first element of a list through its pointer *)
Definition set_vparam (p : list param) (v : via) : via := mkvia (v_protocol v) (v_version v) (v_transport v) (v_host v) (v_port v) p.
Definition set_vport (p : Z) (v : via) : via := mkvia (v_protocol v) (v_version v) (v_transport v) (v_host v) p (v_param v).
Definition set_aparam (p : list param) (a : addr) : addr := mkaddr (a_uri a) (a_display a) p.
Definition set_auri (u : option uri) (a : addr) : addr := mkaddr u (a_display a) (a_param a).
Definition set_uparam (p : list param) (u : uri) : uri := mkuri (u_scheme u) (u_user u) (u_pass u) (u_host u) (u_port u) p (u_header u).
Definition set_uport (p : Z) (u : uri) : uri := mkuri (u_scheme u) (u_user u) (u_pass u) (u_host u) p (u_param u) (u_header u).

(** dialog/messages.go:29-41  NewRequest *)
Definition NewRequest (tvia : list via) (tcontact : list addr) (mth : bytes) (to from : list addr) (r : draws) : res msg :=
  let* uto := uri_of to in
  match via_Copy tvia, addr_Copy (addr_Or from tcontact) with
  | v :: vs, f :: fs =>
    let* cid := GenerateCallID (dr_callid r) in
    Ok (set_method mth (set_request (uri_Copy uto) (set_vias (via_Branch (GenerateBranch (dr_branch r)) v :: vs)
       (set_addr From (addr_Tag (GenerateTag (dr_tag r)) f :: fs) (set_addr To (addr_Copy to) (set_callid cid
       (set_cseq (GenerateCSeq (dr_cseq r)) (set_cseqmethod mth (set_str UserAgent GosipUA msg0)))))))))
  | _, _ => Panic
  end.
(** dialog/messages.go:43-57  NewResponse *)
Definition NewResponse (m : msg) (st : Z) : msg :=
  set_status st (set_phrase (Phrase st) (set_vias (vias m) (set_addr From (addrs m From) (set_addr To (addrs m To)
    (set_callid (callid m) (set_cseq (cseq m) (set_cseqmethod (cseqmethod m) (set_addr RecordRoute (addrs m RecordRoute)
    (set_str UserAgent GosipUA (set_str Allow GosipAllow msg0)))))))))).
(** dialog/messages.go:60-75  NewAck *)
Definition NewAck (m invite : msg) : res msg :=
  let* u := uri_of (addrs m Contact) in
  let* v := via_Detach (vias m) in
  Ok (set_method (B "ACK") (set_request u (set_addr From (addrs m From) (set_addr To (addrs m To) (set_vias v (set_callid (callid m)
    (set_cseq (cseq m) (set_cseqmethod (B "ACK") (set_addr Route (addr_Reversed (addrs m RecordRoute))
    (set_str Authorization (strs invite Authorization) (set_str ProxyAuthorization (strs invite ProxyAuthorization)
    (set_str UserAgent GosipUA msg0)))))))))))).
(** dialog/messages.go:77-92  NewCancel, without the log line *)
Definition NewCancel (invite : msg) : msg :=
  set_method (B "CANCEL") (set_request (request invite) (set_vias (vias invite) (set_addr From (addrs invite From) (set_addr To (addrs invite To)
    (set_callid (callid invite) (set_cseq (cseq invite) (set_cseqmethod (B "CANCEL") (set_addr Route (addrs invite Route) msg0)))))))).
(** dialog/messages.go:94-110  NewBye; [lseq] is the counter behind the pointer, or nil. The new value of the counter is returned. *)
Definition NewBye (invite remote : msg) (lseq : option Z) : res (msg * Z) :=
  let n := i64 (match lseq with Some n => n | None => cseq invite end + 1) in
  let* u := uri_of (addrs remote Contact) in
  Ok (set_method (B "BYE") (set_request u (set_addr From (addrs invite From) (set_addr To (addrs remote To) (set_callid (callid invite)
    (set_cseq n (set_cseqmethod (B "BYE") (set_addr Route (addr_Reversed (addrs remote RecordRoute)) msg0))))))), n).
(** a pointer to one list element, as the list functions take it *)
Definition at_ptr {A} (p : option A) : list A := match p with Some a => [a] | None => [] end.
(** dialog/messages.go:114-120  ResponseMatch *)
Definition ResponseMatch (req rsp : msg) : bool :=
  IsResponse rsp && (cseq rsp =? cseq req) && bseq (cseqmethod rsp) (method req) &&
  via_CompareHostPort (at_ptr (via_Last (vias rsp))) (vias req) && via_CompareBranch (at_ptr (via_Last (vias rsp))) (vias req).
(** dialog/messages.go:125-131  AckMatch *)
Definition AckMatch (m ack : msg) : bool :=
  negb (IsResponse ack) && bseq (method ack) (B "ACK") && (cseq ack =? cseq m) && bseq (cseqmethod ack) (B "ACK") &&
  via_CompareHostPort (at_ptr (via_Last (vias ack))) (vias m).

(** dialog/util.go:25-30  or5060 *)
Definition or5060 (port : Z) : Z := if port =? 0 then 5060 else port.

(** dialog/route.go:32-77  PopulateMessage. The message may now share its Via object with the transport; see TransportModel.v. *)
Definition PopulateMessage (tvia : list via) (tcontact : list addr) (m : msg) (r : draws) : res msg :=
  if IsResponse m then Ok m else
  let m := match vias m with [] => set_vias tvia m | _ => m end in
  let m := match addrs m Contact with [] => set_addr Contact tcontact m | _ => m end in
  let m := match addrs m To with [] => set_addr To [mkaddr (request m) [] []] m | _ => m end in
  let* m := match addrs m From with
            | [] => match addr_Copy (addrs m Contact) with
                    | [] => Panic
                    | a :: l => let* u := deref (a_uri a) in Ok (set_addr From (set_auri (Some (set_uparam [] u)) a :: l) m)
                    end
            | _ => Ok m
            end in
  let* m := match callid m with [] => let* c := GenerateCallID (dr_callid r) in Ok (set_callid c m) | _ => Ok m end in
  let m := if cseq m =? 0 then set_cseq (GenerateCSeq (dr_cseq r)) m else m in
  let m := match cseqmethod m with [] => set_cseqmethod (method m) m | _ => m end in
  let m := if maxforwards m =? 0 then set_maxforwards 70 m else m in
  let m := match strs m UserAgent with [] => set_str UserAgent GosipUA m | _ => m end in
  let* m := match vias m with
            | [] => Panic
            | v :: l => match param_get (v_param v) (B "branch") with
                        | None => Ok (set_vias (set_vparam ((B "branch", GenerateBranch (dr_branch r)) :: v_param v) v :: l) m)
                        | Some _ => Ok m
                        end
            end in
  match addrs m From with
  | [] => Panic
  | a :: l => match param_get (a_param a) (B "tag") with
              | None => Ok (set_addr From (set_aparam ((B "tag", GenerateTag (dr_tag r)) :: a_param a) a :: l) m)
              | Some _ => Ok m
              end
  end.

Inductive route_err := RRegister | RPort.
(** dialog/route.go:79-125  RouteMessage: the message as it is left behind, and where it goes *)
Definition RouteMessage (tvia : list via) (tcontact : list addr) (m : msg) : res (msg * (bytes * Z + route_err)) :=
  if IsResponse m then
    let m := if via_CompareHostPort tvia (vias m) then set_vias (tl (vias m)) m else m in
    match vias m with
    | [] => Panic
    | v :: _ =>
      let host := match param_get (v_param v) (B "received") with Some (_, x) => x | None => v_host v end in
      match param_get (v_param v) (B "rport") with
      | Some (_, c :: x) => match atoi (c :: x) with Some i => Ok (m, inl (host, u16 i)) | None => Ok (m, inr RPort) end
      | _ => Ok (m, inl (host, v_port v))
      end
    end
  else
    let m := if addr_CompareHostPort tcontact (addrs m Route) then set_addr Route (tl (addrs m Route)) m else m in
    match addrs m Route with
    | [] => let* u := deref (request m) in Ok (m, inl (u_host u, u_port u))
    | r :: _ =>
      if bseq (method m) (B "REGISTER") then Ok (m, inr RRegister) else
      let* u := deref (a_uri r) in
      match param_get (u_param u) (B "lr") with
      | Some _ => Ok (m, inl (u_host u, u_port u))
      | None =>
        let route := addr_Copy (addrs m Route) ++ [mkaddr (request m) [] []] in
        let* q := uri_of route in
        let m := set_addr Route (tl route) (set_request q m) in
        let* u := deref q in Ok (m, inl (u_host u, u_port u))
      end
    end.

(** The name service: net.ParseIP, net.LookupSRV (targets and ports in the order of the answer) and net.ResolveUDPAddr,
    each with the text of its argument; None is an error. *)
Record dns := mkdns { parse_ip : bytes -> bool; lookup_srv : bytes -> option (list (bytes * Z)); resolve_udp : bytes -> option bytes }.
(** net.JoinHostPort *)
Definition JoinHostPort (host port : bytes) : bytes := if contains_byte ":" host then B "[" ++ host ++ B "]:" ++ port else host ++ B ":" ++ port.
(** dialog/route.go:136-142  the loop over the SRV records, from the last to the first *)
Fixpoint srv_routes (rsrvs : list (bytes * Z)) (routes : list bytes) : list bytes :=
  match rsrvs with [] => routes | (t, p) :: l => srv_routes l (JoinHostPort t (Portstr p) :: routes) end.
(** dialog/route.go:127-158  RouteAddress: the list of addresses *)
Definition RouteAddress (d : dns) (host : bytes) (port : Z) (wantSRV : bool) : option (list bytes) :=
  let single p := match resolve_udp d (JoinHostPort host (Portstr p)) with Some a => Some [a] | None => None end in
  if parse_ip d host then Some [JoinHostPort host (Portstr (if port =? 0 then 5060 else port))]
  else if port =? 0 then
    if wantSRV then
      match lookup_srv d host with
      | Some (s :: l) => Some (srv_routes (rev (s :: l)) [])
      | _ => single 5060
      end
    else single 5060
  else single port.

(** an assignment to the value of the parameter Get returns *)
Fixpoint param_set (p : list param) (name value : bytes) : list param :=
  match p with
  | [] => []
  | (n, v) :: next => if equal_fold n name then (n, value) :: next else (n, v) :: param_set next name value
  end.
(** dialog/receiver.go:59-91  addReceived; [src] is the sender's IP text and port *)
Definition addReceived (m : msg) (src : bytes * Z) : res msg :=
  if IsResponse m then Ok m else
  match vias m with
  | [] => Panic
  | v :: l =>
    let v := if v_port v =? snd src then v else
      match param_get (v_param v) (B "rport") with
      | None => set_vparam ((B "rport", itoa (snd src)) :: v_param v) v
      | Some (_, []) => set_vparam (param_set (v_param v) (B "rport") (itoa (snd src))) v
      | Some _ => v
      end in
    let v := if bseq (v_host v) (fst src) then v else
      match param_get (v_param v) (B "received") with None => set_vparam ((B "received", fst src) :: v_param v) v | Some _ => v end in
    Ok (set_vias (v :: l) m)
  end.
(** dialog/receiver.go:93-101  addTimestamp; [stamp] is the text of the time, or None when the flag is off *)
Definition addTimestamp (m : msg) (stamp : option bytes) : res msg :=
  match stamp with
  | None => Ok m
  | Some t => match vias m with [] => Panic | v :: l => Ok (set_vias (set_vparam ((B "usi", t) :: v_param v) v :: l) m) end
  end.
(** dialog/receiver.go:49-51  our own entry on top of the Route list is removed *)
Definition pop_own_route (lhost : bytes) (lport : Z) (m : msg) : res msg :=
  match addrs m Route with
  | [] => Ok m
  | r :: l => let* u := deref (a_uri r) in Ok (if bseq (u_host u) lhost && (or5060 (u_port u) =? lport) then set_addr Route l m else m)
  end.
(** dialog/receiver.go:105-127  fixMessagesFromStrictRouters, without the log line. With one or with more Route entries, the last one
    becomes the request URI. *)
Definition fixMessagesFromStrictRouters (lhost : bytes) (lport : Z) (m : msg) : msg :=
  match request m with
  | None => m
  | Some u =>
    match param_get (u_param u) (B "lr"), addr_Last (addrs m Route) with
    | Some _, Some last => if bseq (u_host u) lhost && (or5060 (u_port u) =? lport) then set_addr Route (removelast (addrs m Route)) (set_request (a_uri last) m) else m
    | _, _ => m
    end
  end.
(** dialog/receiver.go:47-52  what ReceiveMessages does to a parsed message before it delivers it *)
Definition prepare (lhost : bytes) (lport : Z) (src : bytes * Z) (stamp : option bytes) (m : msg) : res msg :=
  let* m := addReceived m src in
  let* m := addTimestamp m stamp in
  let* m := pop_own_route lhost lport m in
  Ok (fixMessagesFromStrictRouters lhost lport m).
