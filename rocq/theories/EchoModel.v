(** example/echo2/echo2_test.go: the program that calls an echo application with the message constructors and a transport. *)
From Verif Require Import Bytes GoLib SdpModel SipText SipTypes SipAppend UtilModel DialogMsg TransportModel.
Local Open Scope Z_scope.

(** The variables of the loop (echo2_test.go:52-76). [e_resend] is what the timer sends again: nothing stands for the INVITE itself, which is
    the same object. [e_cancel] says that it is the CANCEL, whose Via pointer is that of the INVITE. [e_failed]: t.Error was called. Time is left out:
    a timer is armed or not. The audio (rs, frame, awgn) is left out but for the peer. *)
Record echo := mkecho { e_tp : transport; e_invite : held; e_answered : bool; e_msg : option msg; e_resend : option held; e_cancel : bool; e_resends : Z; e_timer : bool; e_death : bool; e_peer : option (bytes * Z); e_failed : bool }.
(** what was transmitted: where, the message, the text *)
Definition wire := list (bytes * msg * bytes).
(** how the program stands: in the loop, after it (echo2_test.go:166-169: success if answered and not failed), ended by t.Fatal or return, ended by a panic *)
Inductive verdict := Going (e : echo) | Over (answered failed : bool) | Fatal | Crash.
(** assignments to one of the variables *)
Definition with_tp (tp : transport) (e : echo) : echo := mkecho tp (e_invite e) (e_answered e) (e_msg e) (e_resend e) (e_cancel e) (e_resends e) (e_timer e) (e_death e) (e_peer e) (e_failed e).
Definition with_msg (m : msg) (e : echo) : echo := mkecho (e_tp e) (e_invite e) (e_answered e) (Some m) (e_resend e) (e_cancel e) (e_resends e) (e_timer e) (e_death e) (e_peer e) (e_failed e).
Definition with_timer (b : bool) (e : echo) : echo := mkecho (e_tp e) (e_invite e) (e_answered e) (e_msg e) (e_resend e) (e_cancel e) (e_resends e) b (e_death e) (e_peer e) (e_failed e).
Definition with_answered (e : echo) : echo := mkecho (e_tp e) (e_invite e) true (e_msg e) (e_resend e) (e_cancel e) (e_resends e) (e_timer e) (e_death e) (e_peer e) (e_failed e).
Definition with_peer (p : bytes * Z) (e : echo) : echo := mkecho (e_tp e) (e_invite e) (e_answered e) (e_msg e) (e_resend e) (e_cancel e) (e_resends e) (e_timer e) (e_death e) (Some p) (e_failed e).

(** echo2_test.go:52-57, 65-72: the INVITE is made and sent, then the timers are started. A failure is t.Fatal. The addresses, constants in the program, are arguments. *)
Definition echo_start (tp : transport) (to from : list addr) (ip : bytes) (port : Z) (oid : bytes) (d : draws) (w : net) : verdict * wire :=
  match NewRequest [tp_via tp] (tp_contact tp) (B "INVITE") to from d with
  | Panic => (Crash, [])
  | Ok m =>
    match Send tp (mkheld (set_pay (Some (PSdp (sdp_new ip port oid [ULAWCodec; DTMFCodec]))) m) false) w with
    | Panic => (Crash, [])
    | Ok s => (if sd_ok s then Going (mkecho (sd_tp s) (sd_held s) false None None false 0 true true None false) else Fatal, sd_wire s)
    end
  end.
(** What the select statement receives. *)
Inductive happening := RtpError | SipError | Audio | Tick (sent : bool) | Message (m : msg) | ResendTimer | DeathTimer.
(** echo2_test.go:127-130  the payload of a response *)
Definition take_payload (m : msg) (e : echo) : verdict :=
  match pay m with
  | Some (PSdp d) => match s_audio d with Some a => Going (with_peer (s_addr d, m_port a) e) | None => Crash end
  | _ => Going e
  end.
(** echo2_test.go:101-126  the status of a response; an error status ends the program as failed (t.Errorf and return) *)
Definition take_status (m : msg) (e : echo) : verdict :=
  if status m <? 200 then take_payload m (if status m =? 100 then with_timer false e else e)
  else if status m =? 200 then
    if bseq (cseqmethod m) (B "INVITE") then take_payload m (with_answered e)
    else if bseq (cseqmethod m) (B "BYE") then Over (e_answered e) (e_failed e)
    else if bseq (cseqmethod m) (B "CANCEL") then Over (e_answered e) (e_failed e)
    else take_payload m e
  else Fatal.
(** echo2_test.go:93-140  a message arrives *)
Definition take_message (m : msg) (w : net) (e : echo) : verdict * wire :=
  let e := with_msg m e in
  if IsResponse m then
    if (200 <=? status m) && (cseq m =? cseq (h_msg (e_invite e))) then
      match NewAck m (view (e_tp e) (e_invite e)) with
      | Panic => (Crash, [])
      | Ok ack =>
        match Send (e_tp e) (mkheld ack false) w with
        | Panic => (Crash, [])
        | Ok s => (if sd_ok s then take_status m (with_tp (sd_tp s) e) else Fatal, sd_wire s)
        end
      end
    else (take_status m e, [])
  else if bseq (method m) (B "BYE") then
    match Send (e_tp e) (mkheld (NewResponse (view (e_tp e) (e_invite e)) 200) (h_shared (e_invite e))) w with
    | Panic => (Crash, [])
    | Ok s => (if sd_ok s then Over (e_answered e) (e_failed e) else Fatal, sd_wire s)
    end
  else (Going e, []).
(** after Send: the message that was sent is changed, and with the CANCEL the Via of the INVITE *)
Definition sent_again (s : sending) (e : echo) : echo :=
  match e_resend e with
  | None => mkecho (sd_tp s) (sd_held s) (e_answered e) (e_msg e) None (e_cancel e) (e_resends e) (e_timer e) (e_death e) (e_peer e) (e_failed e)
  | Some _ => mkecho (sd_tp s) (if e_cancel e then mkheld (set_vias (vias (h_msg (sd_held s))) (h_msg (e_invite e))) (h_shared (e_invite e)) else e_invite e)
                (e_answered e) (e_msg e) (Some (sd_held s)) (e_cancel e) (e_resends e) (e_timer e) (e_death e) (e_peer e) (e_failed e)
  end.
(** echo2_test.go:141-150  the timer for retransmissions *)
Definition take_timer (w : net) (e : echo) : verdict * wire :=
  if e_resends e =? 2 then (Fatal, [])
  else
    match Send (e_tp e) (match e_resend e with Some h => h | None => e_invite e end) w with
    | Panic => (Crash, [])
    | Ok s => (if sd_ok s then let e := sent_again s e in
                 Going (mkecho (e_tp e) (e_invite e) (e_answered e) (e_msg e) (e_resend e) (e_cancel e) (e_resends e + 1) true (e_death e) (e_peer e) (e_failed e))
               else Fatal, sd_wire s)
    end.
(** echo2_test.go:151-162  the end of the call *)
Definition take_death (w : net) (e : echo) : verdict * wire :=
  let made := if e_answered e then match e_msg e with
                                   | Some m => match NewBye (view (e_tp e) (e_invite e)) m None with Ok (b, _) => Ok (mkheld b false) | Panic => Panic end
                                   | None => Panic
                                   end
              else Ok (mkheld (NewCancel (view (e_tp e) (e_invite e))) (h_shared (e_invite e))) in
  match made with
  | Panic => (Crash, [])
  | Ok h =>
    match Send (e_tp e) h w with
    | Panic => (Crash, [])
    | Ok s => let e := sent_again s (mkecho (e_tp e) (e_invite e) (e_answered e) (e_msg e) (Some h) (negb (e_answered e)) (e_resends e) (e_timer e) (e_death e) (e_peer e) (e_failed e)) in
              (Going (mkecho (e_tp e) (e_invite e) (e_answered e) (e_msg e) (e_resend e) (e_cancel e) 0 true false (e_peer e) (e_failed e || negb (sd_ok s))), sd_wire s)
    end
  end.
(** echo2_test.go:79-163  one turn of the loop; a timer that is not armed does not fire, and the one for the end fires once *)
Definition echo_turn (h : happening) (w : net) (e : echo) : verdict * wire :=
  match h with
  | RtpError | SipError => (Fatal, [])
  | Audio => (Going e, [])
  | Tick sent => (if sent then Going e else Fatal, [])
  | Message m => take_message m w e
  | ResendTimer => if e_timer e then take_timer w e else (Going e, [])
  | DeathTimer => if e_death e then take_death w e else (Going e, [])
  end.
(** echo2_test.go:77-164  the loop, for what happens in [hs], each with the world during it *)
Fixpoint echo_run (hs : list (happening * net)) (v : verdict) : verdict * wire :=
  match hs, v with
  | (h, w) :: hs, Going e => let (v, out) := echo_turn h w e in let (v, more) := echo_run hs v in (v, out ++ more)
  | _, _ => (v, [])
  end.
