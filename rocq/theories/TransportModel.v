(** dialog/transport.go and the receive loop of dialog/receiver.go, with the two places where objects are shared: the Via object of the
    transport, which messages without a Via come to use, and the receive buffer, which payloads point into. *)
From Verif Require Import Bytes GoLib SdpModel SipText SipTypes SipAppend UtilModel DialogMsg MsgModel.
Local Open Scope Z_scope.

(** dialog/transport.go:30-36  Transport: the Via object and the Contact. NewTransport (46-76) makes the Via with the local address, without
    parameters and without a next entry; sockets are in [net]. *)
Record transport := mktp { tp_via : via; tp_contact : list addr }.
(** dialog/transport.go:46-76  NewTransport, given the local address of the socket *)
Definition NewTransport (contact : list addr) (lhost : bytes) (lport : Z) : res transport :=
  match addr_Copy contact with
  | [] => Panic
  | a :: _ => let* u := deref (a_uri a) in
    Ok (mktp (mkvia [] [] [] lhost lport [])
         [set_auri (Some (set_uparam ((B "transport", B "udp") :: u_param u) (set_uport lport u))) a])
  end.
(** A message the application holds. Its Via pointer may be the pointer to the transport's Via object: then the Via it has is the one
    the transport has now. *)
Record held := mkheld { h_msg : msg; h_shared : bool }.
Definition view (tp : transport) (h : held) : msg := if h_shared h then set_vias [tp_via tp] (h_msg h) else h_msg h.
(** The outside world during one call: what is drawn, the time if messages are stamped, what net.ResolveUDPAddr and WriteTo do, and the
    number drawn for an SDP without origin ID. *)
Record net := mknet { n_draws : draws; n_stamp : option bytes; n_resolve : bytes -> option bytes; n_write : bytes -> bytes -> bool; n_rid : bytes }.
Record sending := mksending { sd_tp : transport; sd_held : held; sd_wire : list (bytes * msg * bytes); sd_ok : bool }.
(** the changes made through the message's Via pointer are seen by the transport if the pointer is the transport's *)
Definition left_behind (tp : transport) (shared : bool) (m : msg) (wire : list (bytes * msg * bytes)) (ok : bool) : sending :=
  mksending (if shared then match vias m with v :: _ => mktp v (tp_contact tp) | [] => tp end else tp) (mkheld m shared) wire ok.
(** dialog/transport.go:79-104  Send: the transport and the message afterwards, what was written (where, the message, the text), and whether nil was returned *)
Definition Send (tp : transport) (h : held) (w : net) : res sending :=
  let m := view tp h in
  let shared := h_shared h || (negb (IsResponse m) && match vias m with [] => true | _ => false end) in
  let* m := PopulateMessage [tp_via tp] (tp_contact tp) m (n_draws w) in
  let* (m, r) := RouteMessage [tp_via tp] (tp_contact tp) m in
  match r with
  | inr _ => Ok (left_behind tp shared m [] false)
  | inl (host, port) =>
    match n_resolve w (JoinHostPort host (Portstr port)) with
    | None => Ok (left_behind tp shared m [] false)
    | Some a =>
      let m := if 0 <? maxforwards m then set_maxforwards (maxforwards m - 1) m else m in
      let* m := addTimestamp m (n_stamp w) in
      let text := msg_append (n_rid w) m in
      Ok (left_behind tp shared m [(a, m, text)] (n_write w a text))
    end
  end.

(** dialog/receiver.go:26-57  ReceiveMessages: the buffer has 2048 bytes and every datagram is read into its beginning, cut to that size. *)
Definition read_into (buf datagram : bytes) : bytes := let d := firstn (length buf) datagram in d ++ skipn (length d) buf.
(** A message which was delivered: what the parser copied out of the buffer, and for a payload of another type than SDP the part of the
    buffer it points to (sip/msg_parse.rl:60-76). *)
Record delivered := mkdel { dv_msg : msg; dv_payload : option (nat * nat) }.
Definition deliver (packet : bytes) (m : msg) : delivered :=
  mkdel m (match pay m with Some (Misc t d) => Some (length packet - length d, length d)%nat | _ => None end).
(** the message as its holder sees it while the buffer has the given contents *)
Definition seen (buf : bytes) (d : delivered) : msg :=
  match dv_payload d, pay (dv_msg d) with
  | Some (off, len), Some (Misc t _) => set_pay (Some (Misc t (firstn len (skipn off buf)))) (dv_msg d)
  | _, _ => dv_msg d
  end.
(** dialog/receiver.go:31-54  one turn of the loop: the buffer afterwards, and the message if one is delivered *)
Definition receive (lhost : bytes) (lport : Z) (buf datagram : bytes) (src : bytes * Z) (stamp : option bytes) : res (bytes * option delivered) :=
  let buf' := read_into buf datagram in
  let packet := firstn (length buf) datagram in
  match parse_msg packet with
  | MErr _ => Ok (buf', None)
  | MPanics | MFuel => Panic
  | MOk m => let* m := prepare lhost lport src stamp m in Ok (buf', Some (deliver packet m))
  end.
