(** The other programs in example/: options, rawsip and echo. They write and read datagrams themselves; what the socket does is an argument. *)
From Verif Require Import Bytes GoLib SdpModel SipText SipTypes SipAppend UtilModel DialogMsg MsgModel RtpModel.
Local Open Scope Z_scope.

(** How such a program ends: without a complaint, with t.Error or t.Fatal, with a panic. *)
Inductive ending := Passed | Failed | Crashed.
(** "pokémon/1.o" in UTF-8 *)
Definition pokemon : bytes := B "pok" ++ [xc3; xa9] ++ B "mon/1.o".
(** options_test.go:87-97, echo_test.go:236-245, 252-260, 354-362: what was read into the 2048 bytes, through ParseMsg *)
Definition read_msg (datagram : option bytes) : option msg :=
  match datagram with
  | Some t => match parse_msg (firstn 2048 t) with MOk m => Some m | _ => None end
  | None => None
  end.

(** options_test.go:39-79: the message, given the addresses of the connection and what is drawn *)
Definition options_msg (lhost : bytes) (lport : Z) (rhost : bytes) (rport : Z) (d : draws) : res msg :=
  let* cid := GenerateCallID (dr_callid d) in
  Ok (set_cseq (GenerateCSeq (dr_cseq d)) (set_callid cid (set_method (B "OPTIONS") (set_cseqmethod (B "OPTIONS") (set_str Accept (B "application/sdp") (set_str UserAgent pokemon
     (set_request (Some (mkuri (B "sip") (B "echo") [] rhost rport [] []))
     (set_vias [mkvia (B "UDP") (B "2.0") [] lhost lport [(B "branch", GenerateBranch (dr_branch d))]]
     (set_addr Contact [mkaddr (Some (mkuri [] [] [] lhost lport [] [])) [] []]
     (set_addr From [mkaddr (Some (mkuri [] (B "gosip") [] (B "justinetunney.com") 5060 [] [])) [] [(B "tag", GenerateTag (dr_tag d))]]
     (set_addr To [mkaddr (Some (mkuri [] [] [] rhost rport [] [])) [] []] msg0))))))))))).
(** options_test.go:99-117: the tests of the answer; msg.To is used without a test for nil *)
Definition options_check (o y : msg) : ending :=
  match addrs y To with
  | [] => Crashed
  | t :: ts =>
    if (IsResponse y && (status y =? 200) && bseq (phrase y) (B "OK")) && bseq (callid o) (callid y) && ((cseq o =? cseq y) && bseq (cseqmethod o) (cseqmethod y)) &&
       bseq (addr_append (addrs o From)) (addr_append (addrs y From)) && (match param_get (a_param t) (B "tag") with Some _ => true | None => false end) &&
       bseq (addr_append (addrs o To)) (addr_append (set_aparam [] t :: ts))
    then Passed else Failed
  end.
(** options_test.go:29-118: [sent] says whether the datagram could be written, [answer] what is read within a second *)
Definition options_run (o : msg) (rid : bytes) (sent : bytes -> bool) (answer : option bytes) : ending :=
  if sent (msg_append rid o) then match read_msg answer with Some y => options_check o y | None => Failed end else Failed.

(** rawsip_test.go:48-65: the packet; [laddr] is the local address as text, [raddr] the constant of line 39 *)
Definition raw_packet (laddr raddr : bytes) (d : draws) : res bytes :=
  let* cid := GenerateCallID (dr_callid d) in
  Ok (B "OPTIONS sip:echo@" ++ laddr ++ B " SIP/2.0" ++ CRLF ++
      B "Via: SIP/2.0/UDP " ++ laddr ++ CRLF ++
      B "Max-Forwards: 70" ++ CRLF ++
      B "To: <sip:" ++ raddr ++ B ">" ++ CRLF ++
      B "From: <sip:" ++ laddr ++ B ">;tag=" ++ GenerateTag (dr_tag d) ++ CRLF ++
      B "Call-ID: " ++ cid ++ CRLF ++
      B "CSeq: " ++ itoa (GenerateCSeq (dr_cseq d)) ++ B " OPTIONS" ++ CRLF ++
      B "Contact: <sip:" ++ laddr ++ B ">" ++ CRLF ++
      B "User-Agent: " ++ pokemon ++ CRLF ++
      B "Accept: application/sdp" ++ CRLF ++
      B "Content-Length: 0" ++ CRLF ++ CRLF).
(** rawsip_test.go:67-98 *)
Definition raw_run (packet : bytes) (sent : bytes -> bool) (answer : option bytes) : ending :=
  if sent packet then
    match answer with
    | Some t => match split_crlf (firstn 2048 t) with l :: _ => if bseq l (B "SIP/2.0 200 OK") then Passed else Failed | [] => Crashed end
    | None => Failed
    end
  else Failed.

(** echo_test.go:183-224: the INVITE; [rip], [rport] is the local address of the RTP socket, [oid] the number drawn by sdp.New *)
Definition echo_invite (lhost : bytes) (lport : Z) (rhost : bytes) (rport : Z) (rip : bytes) (rtport : Z) (oid : bytes) (d : draws) : res msg :=
  let* cid := GenerateCallID (dr_callid d) in
  Ok (set_callid cid (set_cseq (GenerateCSeq (dr_cseq d)) (set_method (B "INVITE") (set_cseqmethod (B "INVITE")
     (set_request (Some (mkuri (B "sip") (B "echo") [] rhost rport [] []))
     (set_vias [mkvia [] [] [] lhost lport [(B "branch", GenerateBranch (dr_branch d))]]
     (set_addr From [mkaddr (Some (mkuri (B "sip") [] [] lhost lport [] [])) (B "Echo Test") [(B "tag", GenerateTag (dr_tag d))]]
     (set_addr To [mkaddr (Some (mkuri (B "sip") [] [] rhost rport [] [])) [] []]
     (set_addr Contact [mkaddr (Some (mkuri (B "sip") [] [] lhost lport [] [])) [] []]
     (set_str UserAgent (B "gosip/1.o") (set_pay (Some (PSdp (sdp_new rip rtport oid [ULAWCodec; DTMFCodec]))) msg0))))))))))).
(** echo_test.go:274-282: the ACK *)
Definition echo_ack (invite y : msg) : msg :=
  set_request (request invite) (set_addr From (addrs y From) (set_addr To (addrs y To) (set_callid (callid y) (set_method (B "ACK") (set_cseq (cseq y) (set_cseqmethod (B "ACK") (set_vias (vias y) msg0))))))).
(** echo_test.go:342-345: the BYE, which is the ACK changed *)
Definition echo_bye (ack : msg) : msg := set_method (B "BYE") (set_cseqmethod (B "BYE") (set_cseq (i64 (cseq ack + 1)) ack)).
(** echo_test.go:291-310: what the goroutine sends each time. Header.Write appends to the slice it is given and returns the result, which is dropped;
    the slice itself has no room and is not changed. *)
Definition echo_frame (h : header) : bytes := let frameout := repeat x00 12 ++ map (fun n => zb (Z.of_nat n)) (List.seq 0 160) in let _ := header_write h frameout in frameout.
(** echo_test.go:246, 261, 363: is it this response? *)
Definition response_is (st : Z) (ph : bytes) (y : msg) : bool := IsResponse y && (status y =? st) && bseq (phrase y) ph.
(** echo_test.go:321-340: the datagram that comes to the RTP socket is read into [memory] *)
Definition echo_heard (memory datagram : bytes) : bool :=
  let d := firstn 2048 datagram in
  (Z.of_nat (length d) =? 172) && (match header_read (d ++ skipn (length d) memory) with Ok (inl _) => true | _ => false end) &&
  forallb (fun n => match nth_error (d ++ skipn (length d) memory) (12 + n) with Some b => beq b (zb (Z.of_nat n)) | None => false end) (List.seq 0 160).
(** What the sockets do: whether each datagram can be written, the three answers, what comes to the RTP socket and what [memory] contained. *)
Record sockets := mksockets { k_sent : bytes -> bool; k_first : option bytes; k_second : option bytes; k_memory : bytes; k_audio : option bytes; k_third : option bytes }.
(** echo_test.go:342-366, 266-340 and 226-264, from the end to the beginning; also the datagrams of the SIP socket. The goroutine is left out but for what it sends (echo_frame); that it shares the variable amt with the rest is left out. *)
Definition echo_hangup (invite y : msg) (rid : bytes) (k : sockets) : ending * list bytes :=
  let bye := msg_append rid (echo_bye (echo_ack invite y)) in
  (if k_sent k bye then match read_msg (k_third k) with Some z => if response_is 200 (B "OK") z then Passed else Failed | None => Failed end else Failed, [bye]).
Definition echo_answered (invite y : msg) (rid : bytes) (k : sockets) : ending * list bytes :=
  match pay y with
  | Some (PSdp d) =>
    match s_audio d with
    | None => (Crashed, [])
    | Some _ =>
      let ack := msg_append rid (echo_ack invite y) in
      if k_sent k ack then
        match k_audio k with
        | Some p => if echo_heard (k_memory k) p then let (v, out) := echo_hangup invite y rid k in (v, ack :: out) else (Failed, [ack])
        | None => (Failed, [ack])
        end
      else (Failed, [ack])
    end
  | _ => (Failed, [])
  end.
Definition echo_main (invite : msg) (rid : bytes) (k : sockets) : ending * list bytes :=
  let text := msg_append rid invite in
  if k_sent k text then
    match read_msg (k_first k) with
    | Some y1 =>
      if response_is 100 (B "Trying") y1 then
        match read_msg (k_second k) with
        | Some y => if response_is 200 (B "OK") y then let (v, out) := echo_answered invite y rid k in (v, text :: out) else (Failed, [text])
        | None => (Failed, [text])
        end
      else (Failed, [text])
    | None => (Failed, [text])
    end
  else (Failed, [text]).
