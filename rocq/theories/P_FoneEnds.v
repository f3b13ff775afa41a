(** C88: how the repository's telephone ends when the callee refuses, when its user gives up and when the callee hangs up (C87 for fone/main.go). *)
From Verif Require Import Bytes BytesLemmas GoLib GoLibLemmas SdpModel SdpProofs SipText SipTypes SipAppend UtilModel P_Text P_Lists UriSpec UriModel P_Uri MsgModel MsgSpec MsgGrammar P_MsgText MsgWf MsgRound P_MsgRound
  DialogMsg P_DialogMsg TransportModel P_Transport DialogModel P_DialogEnd P_DialogRuns P_DialogTell AppModel P_App RtpCloseModel FoneModel P_Fone P_Written P_Call P_Talk P_CallEnds P_FoneCall.
Local Open Scope Z_scope.

Lemma phone_ends cfg m es r k o : dialog cfg m es r -> r_v r = Halt -> notes (r_out r) = k ++ [o] ->
  exists l p n t, psteps cfg (dialled cfg m) l p /\ dialled_events l = es /\ loop (ph_dl p) = r /\ ph_at p = PExit n t /\ heard l = k ++ [o] /\
    ((exists e, o = OErr e) -> n = 1%nat /\ t = false) /\ (o = OState Hangup -> In (OState Answered) k -> n = 0%nat /\ t = true).
Proof.
  intros D V N. destruct (phone_follows cfg m es r D V) as (l & p & n & t & S & E & L & P & H). exists l, p, n, t. rewrite N in H. repeat (split; [assumption|]).
  destruct (exit_status _ _ _ _ _ _ S P) as (_ & _ & _ & q & o' & HQ & K). rewrite H in HQ. apply app_inj_tail in HQ. destruct HQ as [<- <-]. split.
  - intros (e & ->). destruct K as [(_ & _ & X & _)|[(_ & _ & X & _)|(X & Y & _)]]; [discriminate|discriminate|auto].
  - intros -> I. destruct K as [(X & Y & _)|[(_ & _ & _ & X)|(_ & _ & e & X)]]; [auto|contradiction|discriminate].
Qed.
Lemma notes_app a b : notes (a ++ b) = notes a ++ notes b. Proof. apply filter_app. Qed.
Lemma notes_told ps : notes (concat (map told ps)) = concat (map told ps).
Proof.
  assert (NT : forall q, notes (told q) = told q). { intros q. unfold told, progress, media_of. rewrite notes_app. f_equal; [destruct (rp_pay q) as [[? ?|x]|]; try reflexivity; destruct (s_audio x); reflexivity|]. destruct (_ =? 100); [reflexivity|]. destruct (_ || _)%bool; reflexivity. }
  induction ps as [|q ps IH]; [reflexivity|]. cbn [map concat]. rewrite notes_app, IH, NT. reflexivity.
Qed.
Lemma notes_media p : notes (media_of p) = media_of p. Proof. unfold media_of. destruct p as [[? ?|x]|]; try reflexivity. destruct (s_audio x); reflexivity. Qed.

(** ** The callee refuses: status 1 *)
Theorem phone_call_refused : forall cfg text u h user d port ps a c cs,
  parse_uri text = POk u -> Forall no_amp (u_header u) -> public_host h -> port_ok port -> (forall n, faultless (c_world cfg n)) ->
  Forall (fun p => reply_ok p /\ rp_status p < 200) ps -> reply_ok a -> 200 < rp_status a -> ~ In (rp_status a) [301; 302; 503] -> rp_contact a = c :: cs ->
  exists k inv inv_text rs answer ack ack_text l p,
    method inv = B "INVITE" /\ request inv = Some u /\ Forall2 (answered k inv_text) ps rs /\ answered k inv_text a answer /\ status answer = rp_status a /\ method ack = B "ACK" /\ acked inv (a_uri c) ack_text /\
    psteps cfg (dialled cfg (fone_invite u h user (GenerateOriginID d) port)) l p /\ ph_at p = PExit 1 false /\ dialled_events l = map EMsg rs ++ [EMsg answer] /\
    r_out (loop (ph_dl p)) = OSend (so_remote k) inv inv_text :: concat (map told ps) ++ [OSend (so_remote k) ack ack_text; OErr (DResponse answer)] /\
    heard l = concat (map told ps) ++ [OErr (DResponse answer)].
Proof.
  intros cfg text u h user d port ps a c cs PU NA H PT NF PS AO GT NI AC. pose proof (fone_invite_given cfg text u h user d port PU NA H PT) as IG. set (m := fone_invite u h user (GenerateOriginID d) port) in *.
  destruct (call_refused cfg m ps a c cs NF IG PS AO GT NI AC) as (k & inv & it & rs & an & ack & at_ & s & M1 & R1 & _ & _ & F & AN & AS & AM & AK & D).
  destruct (phone_ends cfg m _ _ (concat (map told ps)) (OErr (DResponse an)) D eq_refl) as (l & p & n & t & S & E & L & P & HE & X & _); [cbn [r_out]; change (OSend (so_remote k) inv it :: concat (map told ps) ++ ?z) with ([OSend (so_remote k) inv it] ++ concat (map told ps) ++ z); rewrite !notes_app, notes_told; reflexivity|].
  destruct X as [-> ->]; [eauto|]. exists k, inv, it, rs, an, ack, at_, l, p. repeat (split; [assumption|]). split; [rewrite L; reflexivity|exact HE].
Qed.
(** ** Its user gives up before the answer: the call is cancelled; the phone ends with status 1 and reports the callee's answer to the INVITE as an error *)
Theorem phone_call_cancelled : forall cfg text u h user d port ps a b c cs,
  parse_uri text = POk u -> Forall no_amp (u_header u) -> public_host h -> port_ok port -> (forall n, faultless (c_world cfg n)) ->
  Forall (fun p => reply_ok p /\ rp_status p < 200) ps -> reply_ok b -> reply_ok a -> 200 < rp_status a -> ~ In (rp_status a) [301; 302; 503] -> rp_contact a = c :: cs ->
  exists k inv inv_text rs cancel cancel_text confirm answer ack ack_text l p,
    method inv = B "INVITE" /\ request inv = Some u /\ Forall2 (answered k inv_text) ps rs /\ method cancel = B "CANCEL" /\ cancelled inv cancel_text /\ answered k cancel_text b confirm /\
    answered k inv_text a answer /\ status answer = rp_status a /\ method ack = B "ACK" /\ acked inv (a_uri c) ack_text /\
    psteps cfg (dialled cfg (fone_invite u h user (GenerateOriginID d) port)) l p /\ ph_at p = PExit 1 false /\ dialled_events l = map EMsg rs ++ [EHangup; EMsg confirm; EMsg answer] /\
    r_out (loop (ph_dl p)) = OSend (so_remote k) inv inv_text :: concat (map told ps) ++ [OSend (so_remote k) cancel cancel_text; OSend (so_remote k) ack ack_text; OErr (DResponse answer)] /\
    heard l = concat (map told ps) ++ [OErr (DResponse answer)].
Proof.
  intros cfg text u h user d port ps a b c cs PU NA H PT NF PS BO AO GT NI AC. pose proof (fone_invite_given cfg text u h user d port PU NA H PT) as IG. set (m := fone_invite u h user (GenerateOriginID d) port) in *.
  destruct (call_cancelled cfg m ps a b c cs NF IG PS BO AO GT NI AC) as (k & inv & it & rs & can & ct & co & an & ack & at_ & s & M1 & R1 & _ & _ & F & CM & _ & CA & CO & AN & AS & AM & AK & D).
  destruct (phone_ends cfg m _ _ (concat (map told ps)) (OErr (DResponse an)) D eq_refl) as (l & p & n & t & S & E & L & P & HE & X & _); [cbn [r_out]; change (OSend (so_remote k) inv it :: concat (map told ps) ++ ?z) with ([OSend (so_remote k) inv it] ++ concat (map told ps) ++ z); rewrite !notes_app, notes_told; reflexivity|].
  destruct X as [-> ->]; [eauto|]. exists k, inv, it, rs, can, ct, co, an, ack, at_, l, p. repeat (split; [assumption|]). split; [rewrite L; reflexivity|exact HE].
Qed.
(** ** The callee hangs up: status 0 *)
Theorem phone_peer_hangs_up : forall cfg text u h user d port ps a c cs,
  parse_uri text = POk u -> Forall no_amp (u_header u) -> public_host h -> port_ok port -> (forall n, faultless (c_world cfg n)) ->
  Forall (fun p => reply_ok p /\ rp_status p < 200) ps -> reply_ok a -> rp_status a = 200 -> rp_contact a = c :: cs ->
  exists k inv inv_text rs answer ack ack_text,
    method inv = B "INVITE" /\ request inv = Some u /\ Forall2 (answered k inv_text) ps rs /\ answered k inv_text a answer /\ method ack = B "ACK" /\ acked inv (a_uri c) ack_text /\
    forall rid bye v b src stamp, on_its_way rid bye v b -> the_vmaj bye = 2 -> the_vmin bye = 0 -> source_ok src -> (forall t, stamp = Some t -> token t) -> method bye = B "BYE" -> callid bye = callid inv ->
      exists r rsp rsp_text l p, delivers (so_lhost k) (so_lport k) (msg_append rid bye) src stamp r /\ gets rid bye r /\ recognised bye 200 rsp_text /\
      psteps cfg (dialled cfg (fone_invite u h user (GenerateOriginID d) port)) l p /\ ph_at p = PExit 0 true /\ dialled_events l = map EMsg rs ++ [EMsg answer; EMsg r] /\
      r_out (loop (ph_dl p)) = OSend (so_remote k) inv inv_text :: concat (map told ps) ++ [OSend (so_remote k) ack ack_text] ++ media_of (rp_pay a) ++ [OState Answered; OSend (so_remote k) rsp rsp_text; OState Hangup] /\
      heard l = concat (map told ps) ++ media_of (rp_pay a) ++ [OState Answered; OState Hangup].
Proof.
  intros cfg text u h user d port ps a c cs PU NA H PT NF PS AO A200 AC. pose proof (fone_invite_given cfg text u h user d port PU NA H PT) as IG. set (m := fone_invite u h user (GenerateOriginID d) port) in *.
  destruct (peer_hangs_up cfg m ps a c cs NF IG PS AO A200 AC) as (k & inv & it & rs & an & ack & at_ & M1 & R1 & _ & _ & F & AN & AM & AK & W).
  exists k, inv, it, rs, an, ack, at_. repeat (split; [assumption|]). intros rid bye v b src stamp OW VJ VN SO TK BM BC. destruct (W rid bye v b src stamp OW VJ VN SO TK BM BC) as (r & rsp & rt & s & DL & GT & RC & D).
  destruct (phone_ends cfg m _ _ (concat (map told ps) ++ media_of (rp_pay a) ++ [OState Answered]) (OState Hangup) D eq_refl) as (l & p & n & t & S & E & L & P & HE & _ & X);
    [cbn [r_out]; change (OSend (so_remote k) inv it :: concat (map told ps) ++ ?z) with ([OSend (so_remote k) inv it] ++ concat (map told ps) ++ z); rewrite !notes_app, notes_told, notes_media; cbn [app notes filter note]; rewrite <- !app_assoc; reflexivity|].
  destruct X as [-> ->]; [reflexivity|apply in_or_app; right; apply in_or_app; right; left; reflexivity|]. exists r, rsp, rt, l, p. repeat (split; [assumption|]). split; [rewrite L; reflexivity|]. rewrite HE, <- !app_assoc. reflexivity.
Qed.

(** ** Example: the calls of phone_call_example and ends_example *)
Example phone_ends_example : exists u, parse_uri (B "sip:+12125650666@10.0.0.1") = POk u /\ Forall no_amp (u_header u) /\ public_host (B "10.0.0.9") /\ port_ok 4000 /\ (forall n, faultless (c_world (ex_cfg 1) n)) /\
  Forall (fun p => reply_ok p /\ rp_status p < 200) [ex_reply 100 [] None; ex_reply 180 [] None; ex_reply 183 [] (Some (PSdp peer_sdp))] /\
  reply_ok (ex_reply 486 (at_ (B "10.0.0.2")) None) /\ reply_ok (ex_reply 487 (at_ (B "10.0.0.2")) None) /\ reply_ok (ex_reply 200 [] None) /\ reply_ok (ex_reply 200 (at_ (B "10.0.0.2")) (Some (PSdp peer_sdp))).
Proof.
  destruct phone_call_example as (u & A1 & A2 & A3 & A4 & A5 & A6 & A7 & A8 & _). destruct ends_example as (_ & _ & B1 & B2 & B3). exists u. repeat (split; [assumption|]). assumption.
Qed.
