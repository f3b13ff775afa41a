(** The program of example/echo3/echo3_test.go: a call made with dialog.NewDialog and rtp.NewSession, and the loop of its test.
    Not modelled: what the noise sounds like (C38, C89) and the time: the ticker may tick and the 200 ms be over at any moment. *)
From Verif Require Import Bytes GoLib SdpModel SipText SipTypes UtilModel DialogMsg DialogModel AppModel RtpCloseModel.
Local Open Scope Z_scope.

(** example/echo3/echo3_test.go:41-51  the INVITE; [id] is what util.GenerateOriginID returned, [rtpPort] the port of the RTP session *)
Definition echo3_invite (id : bytes) (rtpPort : Z) : msg :=
  set_method (B "INVITE") (set_request (Some (mkuri [] (B "echo") [] (B "127.0.0.1") 5060 [] []))
  (set_pay (Some (PSdp (mksdp (mkorigin [] id [] []) [] (Some (mkmedia [] rtpPort [ULAWCodec; DTMFCodec])) None [] [] 0 false false [] []))) msg0)).

(** Where the test goroutine is. *)
Inductive tloc :=
| TLoop                        (* 71 select *)
| THold (nothing : bool)       (* 94 [rs.R <- frame]; [nothing]: the frame is nil, C was closed *)
| TFail                        (* 97 in rs.CloseAfterError *)
| TAsk                         (* 98, 100 [dl.Hangup <- true] *)
| TLeave                       (* 81, 90 return and 77 t.Fatal: the deferred rs.Close (38) *)
| TEnd                         (* the test is over *)
| TPanic.                      (* a value was sent on a closed channel *)
(** [ts_answered]: 69. [ts_failed]: t.Error or t.Fatal was called. [ts_timer]: the value of the timer of 66 has not been taken. [ts_peer]: rs.Peer *)
Record test := mktest { ts_at : tloc; ts_dl : sys; ts_rtp : cstate; ts_answered : bool; ts_failed : bool; ts_timer : bool; ts_peer : option (bytes * Z) }.

(** what happens, for an observer of the test *)
Inductive moment :=
| MTimer                       (* 99 *)
| MTake (o : out)              (* 79, 82, 92 *)
| MAsked                       (* [dl.Hangup <- true] is done *)
| MDialog (e : event)          (* a turn of the dialog *)
| MReadFail                    (* the open RTP socket fails *)
| MError                       (* 95 *)
| MAudio (sent : bool)         (* 72-78: a frame is sent, or cannot be sent *)
| MInside.                     (* anything else: the receive goroutine, a frame taken or returned, closing *)

(** the test function is left: the deferred rs.Close does nothing when the session was closed before (rtp/session.go:166-168) *)
Definition leave (failed : bool) (p : test) : test :=
  match al (ts_rtp p) with
  | ADone => mktest TEnd (ts_dl p) (ts_rtp p) (ts_answered p) failed (ts_timer p) (ts_peer p)
  | _ => let r := ts_rtp p in mktest TLeave (ts_dl p) (mkc (rl r) AClose1 false (c_closed r) (e_closed r) (r_closed r) (frame_nil r)) (ts_answered p) failed (ts_timer p) (ts_peer p)
  end.
(** 79-92  what the loop does with a notification *)
Definition hears (o : out) (p : test) : test :=
  match o with
  | OErr _ => leave true p
  | OState n =>
    if n =? Answered then mktest TLoop (ts_dl p) (ts_rtp p) true (ts_failed p) (ts_timer p) (ts_peer p)
    else if n =? Hangup then leave (ts_failed p || negb (ts_answered p)) p
    else p
  | OPeer ip port => mktest TLoop (ts_dl p) (ts_rtp p) (ts_answered p) (ts_failed p) (ts_timer p) (Some (ip, port))
  | OSend _ _ _ => p
  end.
(** 97  CloseAfterError begins by closing the socket; it does nothing when that was done before (rtp/session.go:179-181) *)
Definition close_after_error (p : test) : test :=
  match al (ts_rtp p) with
  | ADone => mktest TAsk (ts_dl p) (ts_rtp p) (ts_answered p) true (ts_timer p) (ts_peer p)
  | _ => let r := ts_rtp p in mktest TFail (ts_dl p) (mkc (rl r) AAfter1 false (c_closed r) (e_closed r) (r_closed r) (frame_nil r)) (ts_answered p) true (ts_timer p) (ts_peer p)
  end.
Definition over (l : tloc) : bool := match l with TEnd | TPanic => true | _ => false end.
Section Echo3.
Variable cfg : config.
(** One step of one goroutine. A select takes any case that is ready; a receive from a closed channel is always ready. *)
Inductive tstep : test -> moment -> test -> Prop :=
| t_dialog l s s' e r a f t c : over l = false -> sstep cfg s (AEvent e) s' -> tstep (mktest l s r a f t c) (MDialog e) (mktest l s' r a f t c)
(* the receive goroutine alone *)
| t_readfail l s r r' a f t c : over l = false -> cstep r r' -> al r' = al r -> sock_open r = true -> rl r = RRead -> rl r' = RErr -> tstep (mktest l s r a f t c) MReadFail (mktest l s r' a f t c)
| t_receiver l s r r' a f t c : over l = false -> cstep r r' -> al r' = al r -> (rl r' = RErr -> sock_open r = false) -> rl r <> RSendE -> tstep (mktest l s r a f t c) MInside (mktest l s r' a f t c)
(* 72-78: rtp/session.go:96-98 nothing is sent, and no error returned, without a peer or a socket *)
| t_audio s r a f t c : tstep (mktest TLoop s r a f t c) (MAudio true) (mktest TLoop s r a f t c)
| t_mute s r a f t c : c <> None -> al r <> ADone -> tstep (mktest TLoop s r a f t c) (MAudio false) (leave true (mktest TLoop s r a f t c))
(* 79-92 *)
| t_take s s' o r a f t c : sstep cfg s (ATake o) s' -> tstep (mktest TLoop s r a f t c) (MTake o) (hears o (mktest TLoop s' r a f t c))
(* 93-94 *)
| t_frame s r r' a f t c : cstep r r' -> rl r = RSendC -> al r = AIdle false -> al r' = AIdle true -> tstep (mktest TLoop s r a f t c) MInside (mktest (THold false) s r' a f t c)
| t_noframe s r a f t c : c_closed r = true -> tstep (mktest TLoop s r a f t c) MInside (mktest (THold true) s r a f t c)
| t_return s r r' a f t c : cstep r r' -> al r = AIdle true -> al r' = AIdle false -> tstep (mktest (THold false) s r a f t c) MInside (mktest TLoop s r' a f t c)
| t_nilback s r a f t c : rl r = RWaitR -> r_closed r = false -> tstep (mktest (THold true) s r a f t c) MInside (mktest TLoop s (mkc RRead (al r) (sock_open r) (c_closed r) (e_closed r) false true) a f t c)
| t_sendclosed b s r a f t c : r_closed r = true -> tstep (mktest (THold b) s r a f t c) MInside (mktest TPanic s r a f t c)
(* 95-98 *)
| t_error s r r' a f t c : cstep r r' -> rl r = RSendE -> al r = AIdle false -> al r' = AIdle false -> tstep (mktest TLoop s r a f t c) MError (close_after_error (mktest TLoop s r' a f t c))
| t_noerror s r a f t c : e_closed r = true -> tstep (mktest TLoop s r a f t c) MError (close_after_error (mktest TLoop s r a f t c))
| t_closing s r r' a f t c : cstep r r' -> al r' <> al r -> tstep (mktest TFail s r a f t c) MInside (mktest TFail s r' a f t c)
| t_closed s r a f t c : al r = ADone -> tstep (mktest TFail s r a f t c) MInside (mktest TAsk s r a f t c)
(* 99-100 *)
| t_timer s r a f c : tstep (mktest TLoop s r a f true c) MTimer (mktest TAsk s r a f false c)
| t_ask s s' r a f t c : sstep cfg s AAsk s' -> tstep (mktest TAsk s r a f t c) MAsked (mktest TLoop s' r a f t c)
(* the deferred Close, and the end *)
| t_leaving s r r' a f t c : cstep r r' -> al r' <> al r -> tstep (mktest TLeave s r a f t c) MInside (mktest TLeave s r' a f t c)
| t_left s r a f t c : al r = ADone -> tstep (mktest TLeave s r a f t c) MInside (mktest TEnd s r a f t c).
(** a dialog that panicked ends the program *)
Definition alive (p : test) : Prop := r_v (loop (ts_dl p)) <> Crash.
Inductive tsteps : test -> list moment -> test -> Prop :=
| ts_nil p : tsteps p [] p
| ts_snoc p l q h u : tsteps p l q -> alive q -> tstep q h u -> tsteps p (l ++ [h]) u.
(** 54-69 *)
Definition begun (m : msg) : test := mktest TLoop (begin cfg m) cstart false false true None.
End Echo3.
