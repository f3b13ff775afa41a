(** The repository's telephone, fone/main.go: the INVITE it makes, and its select loop together with the dialog and the RTP session.
    Not modelled: the sound devices, the terminal and the keyboard (their calls return; what they log is not kept), the command line. *)
From Verif Require Import Bytes GoLib SdpModel SipText SipTypes UtilModel DialogMsg DialogModel AppModel RtpCloseModel.
Local Open Scope Z_scope.

(** fone/main.go:115-134  the INVITE. [requestURI] is what sip.ParseURI made of the command line, [user] the value of $USER, [id] what
    util.GenerateOriginID returned. Request and To share one URI object; nothing in the dialog writes to it. *)
Definition fone_invite (requestURI : uri) (publicIP user id : bytes) (rtpPort : Z) : msg :=
  let at_host (u : bytes) : addr := mkaddr (Some (mkuri [] u [] publicIP 0 [] [])) [] [] in
  set_method (B "INVITE") (set_request (Some requestURI) (set_vias [mkvia [] [] [] publicIP 0 []]
  (set_addr To [mkaddr (Some requestURI) [] []] (set_addr From [at_host user] (set_addr Contact [at_host []]
  (set_pay (Some (PSdp (mksdp (mkorigin [] id [] publicIP) publicIP (Some (mkmedia [] rtpPort [ULAWCodec; DTMFCodec])) None [] [] 0 false false [] [])))
  (set_str Warning (B "dark lord funk you up") msg0))))))).

(** Where the main goroutine is. *)
Inductive ploc :=
| PLoop                        (* 177 select *)
| PHold                        (* 212 [rs.R <- frame] *)
| PFail                        (* 234 in rs.CloseAfterError *)
| PAsk                         (* 235, 237 [dl.Hangup <- true] *)
| PLeave                       (* 223 return: the deferred rs.Close (111) *)
| PExit (code : nat) (tidied : bool)  (* the program has ended; [tidied]: the deferred calls were made, endwin (171) among them *)
| PPanic.                      (* a nil frame or a nil error was used *)

(** [ph_answered]: 174. [ph_death]: a signal is in the channel of 149, which has room for one; signal.Notify drops those that do not fit.
    [ph_readers]: how many goroutines of 158 read the keyboard. *)
Record phone := mkphone { ph_at : ploc; ph_dl : sys; ph_rtp : cstate; ph_answered : bool; ph_death : bool; ph_peer : option (bytes * Z); ph_readers : nat }.

(** what happens, for an observer of the phone *)
Inductive happening :=
| HSignal                      (* the user interrupts the program *)
| HInterrupt                   (* 236 *)
| HTake (o : out)              (* 215, 216, 230 *)
| HAsked                       (* [dl.Hangup <- true] is done *)
| HDialog (e : event)          (* a turn of the dialog *)
| HReadFail                    (* the RTP socket fails *)
| HError                       (* 232 *)
| HAudio                       (* 180-202: a frame or a digit is sent *)
| HInside.                     (* anything else: the receive goroutine, a frame taken or returned, closing *)

(** 215-228  what the loop does with a notification *)
Definition hears (o : out) (p : phone) : phone :=
  match o with
  | OPeer ip port => mkphone PLoop (ph_dl p) (ph_rtp p) (ph_answered p) (ph_death p) (Some (ip, port)) (ph_readers p)
  | OState n =>
    if n =? Answered then mkphone PLoop (ph_dl p) (ph_rtp p) true (ph_death p) (ph_peer p) (S (ph_readers p))
    else if n =? Hangup then
      if ph_answered p then
        (* rs.Close does nothing when the session was closed before: rtp/session.go:166-168 *)
        match al (ph_rtp p) with
        | ADone => mkphone (PExit 0 true) (ph_dl p) (ph_rtp p) (ph_answered p) (ph_death p) (ph_peer p) (ph_readers p)
        | _ => let r := ph_rtp p in mkphone PLeave (ph_dl p) (mkc (rl r) AClose1 false (c_closed r) (e_closed r) (r_closed r) (frame_nil r)) (ph_answered p) (ph_death p) (ph_peer p) (ph_readers p)
        end
      else mkphone (PExit 1 false) (ph_dl p) (ph_rtp p) (ph_answered p) (ph_death p) (ph_peer p) (ph_readers p)
    else mkphone PLoop (ph_dl p) (ph_rtp p) (ph_answered p) (ph_death p) (ph_peer p) (ph_readers p)
  | OErr _ => mkphone (PExit 1 false) (ph_dl p) (ph_rtp p) (ph_answered p) (ph_death p) (ph_peer p) (ph_readers p)
  | OSend _ _ _ => p
  end.
Definition gone (l : ploc) : bool := match l with PExit _ _ | PPanic => true | _ => false end.
Section Fone.
Variable cfg : config.
(** One step of one goroutine. A select takes any case that is ready. When the dialog goroutine panics the program is gone, so there is no step. *)
Inductive pstep : phone -> happening -> phone -> Prop :=
| p_signal l s r a d c k : gone l = false -> pstep (mkphone l s r a d c k) HSignal (mkphone l s r a true c k)
| p_dialog l s s' e r a d c k : gone l = false -> sstep cfg s (AEvent e) s' -> pstep (mkphone l s r a d c k) (HDialog e) (mkphone l s' r a d c k)
(* the receive goroutine alone *)
| p_readfail l s r r' a d c k : gone l = false -> cstep r r' -> al r' = al r -> rl r = RRead -> rl r' = RErr -> pstep (mkphone l s r a d c k) HReadFail (mkphone l s r' a d c k)
| p_receiver l s r r' a d c k : gone l = false -> cstep r r' -> al r' = al r -> rl r' <> RErr -> rl r <> RSendE -> pstep (mkphone l s r a d c k) HInside (mkphone l s r' a d c k)
(* 180-202 *)
| p_audio s r a d c k : pstep (mkphone PLoop s r a d c k) HAudio (mkphone PLoop s r a d c k)
(* 204-212 *)
| p_frame s r r' a d c k : cstep r r' -> rl r = RSendC -> al r = AIdle false -> al r' = AIdle true -> pstep (mkphone PLoop s r a d c k) HInside (mkphone PHold s r' a d c k)
| p_noframe s r a d c k : c_closed r = true -> pstep (mkphone PLoop s r a d c k) HInside (mkphone PPanic s r a d c k)
| p_return s r r' a d c k : cstep r r' -> al r = AIdle true -> al r' = AIdle false -> pstep (mkphone PHold s r a d c k) HInside (mkphone PLoop s r' a d c k)
(* 215-231 *)
| p_take s s' o r a d c k : sstep cfg s (ATake o) s' -> pstep (mkphone PLoop s r a d c k) (HTake o) (hears o (mkphone PLoop s' r a d c k))
(* 232-235: the error is taken, and CloseAfterError begins by closing the socket *)
| p_error s r r' a d c k : cstep r r' -> rl r = RSendE -> al r = AIdle false -> al r' = AIdle false ->
    pstep (mkphone PLoop s r a d c k) HError (mkphone PFail s (mkc (rl r') AAfter1 false (c_closed r') (e_closed r') (r_closed r') (frame_nil r')) a d c k)
| p_noerror s r a d c k : e_closed r = true -> pstep (mkphone PLoop s r a d c k) HInside (mkphone PPanic s r a d c k)
| p_closing s r r' a d c k : cstep r r' -> al r' <> al r -> pstep (mkphone PFail s r a d c k) HInside (mkphone PFail s r' a d c k)
| p_closed s r a d c k : al r = ADone -> pstep (mkphone PFail s r a d c k) HInside (mkphone PAsk s r a d c k)
(* 236-237 *)
| p_death s r a c k : pstep (mkphone PLoop s r a true c k) HInterrupt (mkphone PAsk s r a false c k)
| p_ask s s' r a d c k : sstep cfg s AAsk s' -> pstep (mkphone PAsk s r a d c k) HAsked (mkphone PLoop s' r a d c k)
(* 223: the deferred Close, and the end *)
| p_leaving s r r' a d c k : cstep r r' -> al r' <> al r -> pstep (mkphone PLeave s r a d c k) HInside (mkphone PLeave s r' a d c k)
| p_left s r a d c k : al r = ADone -> pstep (mkphone PLeave s r a d c k) HInside (mkphone (PExit 0 true) s r a d c k).
(** a dialog that panicked ends the program *)
Definition alive (p : phone) : Prop := r_v (loop (ph_dl p)) <> Crash.
Inductive psteps : phone -> list happening -> phone -> Prop :=
| ps_nil p : psteps p [] p
| ps_snoc p l q h u : psteps p l q -> alive q -> pstep q h u -> psteps p (l ++ [h]) u.
(** 137-176 *)
Definition dialled (m : msg) : phone := mkphone PLoop (begin cfg m) cstart false false None 0.
End Fone.
