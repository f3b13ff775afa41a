(** C98 for the programs of the repository: the calls of fone (C83) and of example/echo3 (C97), by the dialog with its goroutines. *)
From Verif Require Import Bytes BytesLemmas GoLib GoLibLemmas SdpModel SdpProofs SipText SipTypes SipAppend UtilModel P_Text P_Lists UriSpec UriModel P_Uri MsgModel MsgSpec MsgGrammar P_MsgText MsgWf MsgRound P_MsgRound
  DialogMsg P_DialogMsg DialogModel P_DialogEnd P_DialogRuns P_DialogTell AppModel P_App RtpCloseModel FoneModel P_Fone P_Written P_Call P_FoneCall P_Invite Echo3Model P_Echo3 P_Echo3Call LiveModel P_Live P_LiveCall.
Local Open Scope Z_scope.

(** ** The phone *)
(** The events which its dialog handles in phone_call_goes_through are handled, with the same effect, by a dialog that waits for its goroutines. *)
Theorem phone_call_goes_through_live : forall cfg text u h user d port ps a b c cs,
  parse_uri text = POk u -> Forall no_amp (u_header u) -> public_host h -> port_ok port -> (forall n, faultless (c_world cfg n)) -> goes_back cfg (fone_invite u h user (GenerateOriginID d) port) a ->
  Forall (fun p => reply_ok p /\ rp_status p < 200) ps -> reply_ok a -> rp_status a = 200 -> rp_contact a = c :: cs -> reply_ok b -> rp_status b = 200 -> rp_pay b = None ->
  exists k inv inv_text rs answer ack ack_text k' bye bye_text confirm l p lv,
    method inv = B "INVITE" /\ request inv = Some u /\ method ack = B "ACK" /\ acked inv (a_uri c) ack_text /\ method bye = B "BYE" /\ request bye = a_uri c /\
    Forall2 (answered k inv_text) ps rs /\ answered k inv_text a answer /\ answered k' bye_text b confirm /\
    psteps cfg (dialled cfg (fone_invite u h user (GenerateOriginID d) port)) l p /\ ph_at p = PExit 0 true /\
    dialled_events l = map EMsg rs ++ [EMsg answer; EHangup; EMsg confirm] /\
    r_out (loop (ph_dl p)) = OSend (so_remote k) inv inv_text :: concat (map told ps) ++ [OSend (so_remote k) ack ack_text] ++ media_of (rp_pay a) ++ [OState Answered; OSend (so_remote k') bye bye_text; OState Hangup] /\
    heard l = concat (map told ps) ++ media_of (rp_pay a) ++ [OState Answered; OState Hangup] /\
    ph_peer p = last_peer (concat (map told ps) ++ media_of (rp_pay a)) /\ ph_readers p = 1%nat /\
    lsteps cfg (lbegin cfg (fone_invite u h user (GenerateOriginID d) port)) (dialled_events l) lv /\ lat lv = LOver /\ shown cfg lv = r_out (loop (ph_dl p)).
Proof.
  intros cfg text u h user d port ps a b c cs PU NA H PT NF GB PS AO A200 AC BO B200 BP.
  destruct (phone_call_goes_through cfg text u h user d port ps a b c cs PU NA H PT NF PS AO A200 AC BO B200 BP) as (k & inv & it & rs & an & ack & at_ & k' & bye & bt & co & l & p & Q1 & Q2 & Q3 & Q4 & Q5 & Q6 & Q7 & Q8 & Q9 & W1 & W2 & S & E & L & O & R3).
  pose proof (GB _ _ W1 W2) as RK. destruct (exit_status _ _ _ _ _ _ S E) as (_ & D & V & _). destruct (loop (ph_dl p)) as [s o v] eqn:LP. cbn [r_out r_v] in *.
  destruct (fair_lives cfg _ _ _ _ _ (so_remote k) (faultless_opens _ NF) D) as (lv & L1 & L2 & L3); [rewrite V; discriminate|rewrite L; regulars|rewrite O; fairs|].
  exists k, inv, it, rs, an, ack, at_, k', bye, bt, co, l, p, lv. rewrite LP. cbn [r_out]. do 13 (split; [assumption|]). destruct R3 as (R3 & R4 & R5). do 3 (split; [assumption|]). split; [exact L1|]. split; [rewrite L2; unfold place; cbn [r_v]; rewrite V; reflexivity|exact L3].
Qed.
(** The user of the phone who hangs up on somebody at another address may wait for ever. *)
Theorem phone_hangs_refuted : forall cfg text u h user d port ps a c cs,
  parse_uri text = POk u -> Forall no_amp (u_header u) -> public_host h -> port_ok port -> (forall n, faultless (c_world cfg n)) -> goes_elsewhere cfg (fone_invite u h user (GenerateOriginID d) port) a ->
  Forall (fun p => reply_ok p /\ rp_status p < 200) ps -> reply_ok a -> rp_status a = 200 -> rp_contact a = c :: cs ->
  exists k inv inv_text rs answer ack ack_text l, method inv = B "INVITE" /\ Forall2 (answered k inv_text) ps rs /\ answered k inv_text a answer /\ method ack = B "ACK" /\
    lsteps cfg (lbegin cfg (fone_invite u h user (GenerateOriginID d) port)) (map EMsg rs ++ [EMsg answer; EHangup]) l /\ stuck cfg l /\
    shown cfg l = OSend (so_remote k) inv inv_text :: concat (map told ps) ++ [OSend (so_remote k) ack ack_text] ++ media_of (rp_pay a) ++ [OState Answered].
Proof.
  intros cfg text u h user d port ps a c cs PU NA H PT NF GE PS AO A200 AC. pose proof (fone_invite_given cfg text u h user d port PU NA H PT) as IG.
  destruct (call_hangs_refuted cfg _ ps a c cs NF IG GE PS AO A200 AC) as (k & inv & it & rs & an & ack & at_ & l & Q1 & Q2 & Q3 & Q4 & _ & Q5 & Q6 & Q7). exists k, inv, it, rs, an, ack, at_, l. auto 10.
Qed.

(** ** example/echo3 *)
(** The server's Contact (or its proxy) is where the test sends its INVITE. *)
Definition at_home (cfg : config) (a : reply) : Prop := forall y, first_address cfg (way_back (rp_rr a) (rp_contact a)) false y -> y = B "127.0.0.1:5060".
Definition not_at_home (cfg : config) (a : reply) : Prop := forall y, first_address cfg (way_back (rp_rr a) (rp_contact a)) false y -> y <> B "127.0.0.1:5060".
Theorem echo3_call_goes_through_live : forall cfg d port ps a b c cs,
  (forall n, faultless (c_world cfg n)) -> local_public cfg -> knows_loopback cfg -> port_ok port -> at_home cfg a ->
  Forall (fun p => reply_ok p /\ rp_status p < 200) ps -> reply_ok a -> rp_status a = 200 -> rp_contact a = c :: cs -> reply_ok b -> rp_status b = 200 -> rp_pay b = None ->
  exists k inv inv_text rs answer ack ack_text k' bye bye_text confirm l p lv,
    method inv = B "INVITE" /\ so_remote k = B "127.0.0.1:5060" /\ method ack = B "ACK" /\ acked inv (a_uri c) ack_text /\ method bye = B "BYE" /\ request bye = a_uri c /\
    Forall2 (answered k inv_text) ps rs /\ answered k inv_text a answer /\ answered k' bye_text b confirm /\
    tsteps cfg (begun cfg (echo3_invite (GenerateOriginID d) port)) l p /\ ts_at p = TEnd /\ ts_failed p = false /\
    t_events l = map EMsg rs ++ [EMsg answer; EHangup; EMsg confirm] /\ In MTimer l /\
    r_out (loop (ts_dl p)) = OSend (so_remote k) inv inv_text :: concat (map told ps) ++ [OSend (so_remote k) ack ack_text] ++ media_of (rp_pay a) ++ [OState Answered; OSend (so_remote k') bye bye_text; OState Hangup] /\
    t_heard l = concat (map told ps) ++ media_of (rp_pay a) ++ [OState Answered; OState Hangup] /\
    ts_peer p = last_peer (concat (map told ps) ++ media_of (rp_pay a)) /\
    lsteps cfg (lbegin cfg (echo3_invite (GenerateOriginID d) port)) (t_events l) lv /\ lat lv = LOver /\ shown cfg lv = r_out (loop (ts_dl p)).
Proof.
  intros cfg d port ps a b c cs NF LP KL PT GB PS AO A200 AC BO B200 BP.
  destruct (echo3_call_goes_through cfg d port ps a b c cs NF LP KL PT PS AO A200 AC BO B200 BP) as (k & inv & it & rs & an & ack & at_ & k' & bye & bt & co & l & p & Q1 & Q2 & Q3 & Q4 & Q5 & Q6 & Q7 & Q8 & Q9 & W2 & S & E & F & L & T & O & R).
  pose proof (GB _ W2) as RK. rewrite <- Q2 in RK. destruct (test_verdict _ _ _ _ S E) as (TV & X & _). apply TV in F as FF. destruct FF as (_ & NA & _).
  destruct (X NA) as (_ & D & V). destruct (loop (ts_dl p)) as [s o v] eqn:LQ. cbn [r_out r_v] in *.
  destruct (fair_lives cfg _ _ _ _ _ (so_remote k) (faultless_opens _ NF) D) as (lv & L1 & L2 & L3); [rewrite V; discriminate|rewrite L; regulars|rewrite O; fairs|].
  exists k, inv, it, rs, an, ack, at_, k', bye, bt, co, l, p, lv. rewrite LQ. cbn [r_out]. do 15 (split; [assumption|]). destruct R as (R1 & R2). do 2 (split; [assumption|]). split; [exact L1|]. split; [rewrite L2; unfold place; cbn [r_v]; rewrite V; reflexivity|exact L3].
Qed.
(** The test does not end if the server's Contact is elsewhere: its dialog stops when it is told to hang up. *)
Theorem echo3_hangs_refuted : forall cfg d port ps a c cs,
  (forall n, faultless (c_world cfg n)) -> local_public cfg -> knows_loopback cfg -> port_ok port -> not_at_home cfg a ->
  Forall (fun p => reply_ok p /\ rp_status p < 200) ps -> reply_ok a -> rp_status a = 200 -> rp_contact a = c :: cs ->
  exists k inv inv_text rs answer ack ack_text l, method inv = B "INVITE" /\ Forall2 (answered k inv_text) ps rs /\ answered k inv_text a answer /\ method ack = B "ACK" /\
    lsteps cfg (lbegin cfg (echo3_invite (GenerateOriginID d) port)) (map EMsg rs ++ [EMsg answer; EHangup]) l /\ stuck cfg l /\
    shown cfg l = OSend (so_remote k) inv inv_text :: concat (map told ps) ++ [OSend (so_remote k) ack ack_text] ++ media_of (rp_pay a) ++ [OState Answered].
Proof.
  intros cfg d port ps a c cs NF LP KL PT GE PS AO A200 AC. pose proof (echo3_invite_given cfg d port LP PT) as IG.
  assert (G : goes_elsewhere cfg (echo3_invite (GenerateOriginID d) port) a).
  { intros x y (n & rest & X) Y. replace x with (B "127.0.0.1:5060"); [exact (GE y Y)|]. specialize (KL n). change (next_hop (echo3_invite (GenerateOriginID d) port)) with (B "127.0.0.1", 5060) in X. cbn [fst snd] in X. unfold RouteAddress in X. rewrite KL in X. vm_compute in X. injection X as <- _. reflexivity. }
  destruct (call_hangs_refuted cfg _ ps a c cs NF IG G PS AO A200 AC) as (k & inv & it & rs & an & ack & at_ & l & Q1 & Q2 & Q3 & Q4 & _ & Q5 & Q6 & Q7). exists k, inv, it, rs, an, ack, at_, l. auto 10.
Qed.

(** ** Examples: answers with a Contact where the INVITE went, and with one elsewhere *)
Example apps_example : (exists u, parse_uri (B "sip:+12125650666@10.0.0.1") = POk u /\ Forall no_amp (u_header u) /\
    goes_back (ex_cfg 1) (fone_invite u (B "10.0.0.9") (B "me") (GenerateOriginID 5) 4000) (direct_reply 200 (at_ (B "10.0.0.1")) None) /\
    goes_elsewhere (ex_cfg 1) (fone_invite u (B "10.0.0.9") (B "me") (GenerateOriginID 5) 4000) (direct_reply 200 (at_ (B "10.0.0.2")) None)) /\
  at_home loop_cfg (direct_reply 200 (at_ (B "127.0.0.1")) None) /\ not_at_home loop_cfg (direct_reply 200 (at_ (B "10.0.0.2")) None).
Proof.
  split; [eexists; split; [vm_compute; reflexivity|]; split; [constructor|]; split|split].
  - intros x y (n & r & X) (n' & r' & Y). vm_compute in X, Y. injection X as <- _. injection Y as <- _. reflexivity.
  - intros x y (n & r & X) (n' & r' & Y). vm_compute in X, Y. injection X as <- _. injection Y as <- _. discriminate.
  - intros y (n' & r' & Y). vm_compute in Y. injection Y as <- _. reflexivity.
  - intros y (n' & r' & Y). vm_compute in Y. injection Y as <- _. discriminate.
Qed.
