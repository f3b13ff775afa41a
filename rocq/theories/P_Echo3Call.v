(** C97: the call of example/echo3 goes through (C77 and C90 for its INVITE). *)
From Verif Require Import Bytes BytesLemmas GoLib GoLibLemmas SdpModel SdpProofs SipText SipTypes SipAppend UtilModel P_Text P_Lists UriSpec UriModel P_Uri MsgModel MsgSpec MsgGrammar P_MsgText MsgWf MsgRound P_MsgRound
  DialogMsg P_DialogMsg DialogModel P_DialogEnd P_DialogRuns P_DialogTell AppModel P_App RtpCloseModel P_Fone P_Written P_Call P_FoneCall P_Invite Echo3Model P_Echo3.
Local Open Scope nat_scope.

(** ** The test can follow every dialog that is asked to hang up at most once *)
Definition hangups (es : list event) : nat := length (filter (fun e => match e with EHangup => true | _ => false end) es).
Definition t_idle (r : result) (t : bool) (p : test) : Prop := ts_at p = TLoop /\ ts_dl p = mksys r [] 0 /\ ts_rtp p = cstart /\ ts_timer p = t.
(** nothing went wrong with the sound *)
Definition sound_fine (l : list moment) : Prop := ~ In MReadFail l /\ ~ In MError l /\ ~ In (MAudio false) l.
Lemma fine_app a b : sound_fine a -> sound_fine b -> sound_fine (a ++ b).
Proof. unfold sound_fine. rewrite !in_app_iff. tauto. Qed.
Lemma fine_takes w : sound_fine (map MTake w).
Proof. unfold sound_fine. rewrite !in_map_iff. repeat split; intros (x & X & _); discriminate X. Qed.
Lemma t_follow_notes cfg r w t p : r_v r <> Crash -> ts_at p = TLoop -> ts_dl p = mksys r w 0 -> ts_rtp p = cstart -> ts_timer p = t -> calm w ->
  exists q, tsteps cfg p (map MTake w) q /\ t_idle r t q.
Proof.
  intros V P D R X C. destruct (t_hear_all cfg w p P) as (q & S & Q1 & Q2 & Q3 & Q4 & Q5 & Q6); [unfold alive; rewrite D; exact V|exists []; rewrite D, app_nil_r; reflexivity|exact C|].
  exists q. split; [exact S|]. rewrite D in Q2, Q3, Q6. cbn [loop waiting asked] in *. rewrite skipn_all in Q6. split; [exact Q1|]. split; [destruct (ts_dl q); cbn in *; congruence|]. split; congruence.
Qed.
Lemma t_follow_event cfg r e t p : r_v r = Cont -> enabled e (r_state r) = true -> t_idle r t p -> (e = EHangup -> t = true) ->
  exists l q, tsteps cfg p l q /\ t_heard l = [] /\ t_events l = [e] /\ sound_fine l /\ ts_at q = TLoop /\ ts_dl q = mksys (turn cfg r e) (fresh_notes cfg r e) 0 /\ ts_rtp q = cstart /\
    ts_timer q = match e with EHangup => false | _ => t end.
Proof.
  intros V E (P & D & R & X) HT. destruct p as [at0 s rt a f t0 c]. cbn [ts_at ts_dl ts_rtp ts_timer] in *. subst.
  assert (A : forall l n b, alive (mktest l (mksys r [] n) cstart a f b c)) by (intros; unfold alive; cbn [ts_dl loop]; rewrite V; discriminate).
  assert (K : e = EHangup \/ e <> EHangup) by (destruct e; try (right; discriminate); left; reflexivity). destruct K as [->|NE].
  - rewrite (HT eq_refl). exists [MTimer; MAsked; MDialog EHangup]. exists (mktest TLoop (mksys (turn cfg r EHangup) (fresh_notes cfg r EHangup) 0) cstart a f false c). split; [|repeat split; try reflexivity; cbn; intuition discriminate].
    eapply tsteps_cons; [apply A|apply t_timer|]. eapply tsteps_cons; [apply A|apply t_ask; apply s_ask; [rewrite V; discriminate|unfold hangup_room; lia]|].
    apply tsteps_one; [apply A|]. apply t_dialog; [reflexivity|]. apply s_hangup. exact V.
  - exists [MDialog e], (mktest TLoop (mksys (turn cfg r e) (fresh_notes cfg r e) 0) cstart a f t c). split; [apply tsteps_one; [apply A|apply t_dialog; [reflexivity|apply s_event; assumption]]|].
    repeat split; try reflexivity; try (cbn; intuition discriminate). destruct e; try reflexivity. congruence.
Qed.
Lemma t_follow_run cfg r es r' : run cfg r es r' -> r_v r' = Cont -> forall t p, t_idle r t p -> hangups es <= (if t then 1 else 0) ->
  exists l q t', tsteps cfg p l q /\ t_events l = es /\ sound_fine l /\ t_idle r' t' q /\ (hangups es = 0 -> t' = t).
Proof.
  induction 1 as [r|r e es r' V E R IH]; intros VR t p I HU; [exists [], p, t; split; [constructor|split; [reflexivity|split; [repeat split; intros []|split; [exact I|auto]]]]|].
  assert (HE : e = EHangup -> t = true) by (intros ->; destruct t; [reflexivity|cbn in HU; lia]).
  destruct (t_follow_event cfg r e t p V E I HE) as (l1 & q1 & S1 & _ & D1 & F1 & Q1 & Q2 & Q3 & Q4).
  assert (VC : r_v (handle cfg e (r_state r)) = Cont) by (inversion R; subst; [exact VR|assumption]).
  assert (C : calm (fresh_notes cfg r e)) by (apply notes_calm; pose proof (tidy_handle cfg e (r_state r)) as T; cbv zeta in T; rewrite VC in T; exact T).
  destruct (t_follow_notes cfg (turn cfg r e) (fresh_notes cfg r e) (ts_timer q1) q1) as (q2 & S2 & I2); [cbn [turn r_v]; rewrite VC; discriminate|assumption|assumption|assumption|reflexivity|assumption|].
  destruct (IH VR _ q2 I2) as (l3 & q3 & t' & S3 & D3 & F3 & I3 & H3); [rewrite Q4; unfold hangups in *; cbn [filter] in HU; destruct e; cbn [length] in HU; destruct t; lia|].
  exists (l1 ++ map MTake (fresh_notes cfg r e) ++ l3), q3, t'.
  split; [eapply tsteps_trans; [exact S1|eapply tsteps_trans; [exact S2|exact S3]]|]. split; [rewrite !t_events_app, D1, t_events_takes, D3; reflexivity|]. split; [apply fine_app; [exact F1|apply fine_app; [apply fine_takes|exact F3]]|]. split; [exact I3|].
  intros Z. unfold hangups in *. cbn [filter] in Z. rewrite H3, Q4; destruct e; cbn [length] in Z; try reflexivity; try exact Z; discriminate Z.
Qed.
Lemma hangups_app a b : hangups (a ++ b) = hangups a + hangups b.
Proof. unfold hangups. rewrite filter_app, app_length. reflexivity. Qed.
(** The dialog is asked to hang up only after the timer fired or the RTP socket failed. *)
Lemma t_reason cfg m l p : tsteps cfg (begun cfg m) l p -> t_asks l <> 0 \/ ts_at p = TAsk \/ ts_at p = TFail -> In MTimer l \/ In MError l.
Proof.
  remember (begun cfg m) as i eqn:I. induction 1 as [p|p l q h u S IH A P]; [subst p; intros [X|[X|X]]; [destruct (X eq_refl)|discriminate X..]|]. specialize (IH I). rewrite t_asks_snoc, !in_app_iff. intros H.
  assert (LV : forall g v, ts_at (leave g v) <> TAsk /\ ts_at (leave g v) <> TFail) by (intros g v; destruct (leave_at g v) as [-> | ->]; split; discriminate).
  assert (K : t_asks l <> 0 \/ ts_at q = TAsk \/ ts_at q = TFail \/ In MTimer [h] \/ In MError [h]).
  { destruct P; cbn [ts_at] in *; rewrite ?Nat.add_0_r in H; cbn [In]; try tauto; try (destruct H as [H|[H|H]]; [tauto|discriminate H..]); try (destruct H as [H|[H|H]]; [tauto|destruct (LV true (mktest TLoop s r a f t c)); contradiction..]).
    destruct H as [H|H]; [tauto|]. exfalso. destruct o as [e|n|ip port|x y z]; cbn [Echo3Model.hears ts_at] in H; try (destruct H; discriminate); try (destruct (LV true (mktest TLoop s' r a f t c)); tauto).
    destruct (Z.eqb n Answered); [destruct H; discriminate|]. destruct (Z.eqb n Hangup); [|destruct H; discriminate]. match type of H with context[leave ?g ?v] => destruct (LV g v) end. tauto. }
  tauto.
Qed.
Lemma served_hangups l : count is_served l = hangups (events l).
Proof. unfold count, hangups. induction l as [|a l IH]; [reflexivity|]. destruct a as [| |e]; cbn [filter is_served events flat_map app]; [exact IH|exact IH|]. destruct e; cbn [filter is_served length]; try exact IH. f_equal. exact IH. Qed.
Theorem test_hangs_up_for_a_reason : forall cfg m l p, tsteps cfg (begun cfg m) l p -> In EHangup (t_events l) -> In MTimer l \/ In MError l.
Proof.
  intros cfg m l p S I. apply (t_reason _ _ _ _ S). left. destruct (test_session _ _ _ _ S) as (acts & SS & _ & E & N). pose proof (served_were_asked _ _ _ _ SS) as W. rewrite served_hangups, E, N in W.
  assert (X : hangups (t_events l) <> 0) by (apply in_split in I; destruct I as (x & y & ->); rewrite hangups_app; unfold hangups at 2; cbn; lia). lia.
Qed.
(** For every execution of the dialog that ends and in which it is asked to hang up at most once there is an execution of the test in which the dialog
    does exactly that, and the test hears all of it and ends; the sound makes no trouble. *)
Theorem echo3_follows : forall cfg m es r, dialog cfg m es r -> r_v r = Halt -> hangups es <= 1 ->
  exists l p, tsteps cfg (begun cfg m) l p /\ t_events l = es /\ loop (ts_dl p) = r /\ ts_at p = TEnd /\ t_heard l = notes (r_out r) /\ ~ In MError l /\ ~ In (MAudio false) l.
Proof.
  intros cfg m es r D V HU.
  assert (K : exists l p, tsteps cfg (begun cfg m) l p /\ t_events l = es /\ sound_fine l /\ loop (ts_dl p) = r /\ ts_at p = TLoop).
  { destruct (r_v (start cfg m)) eqn:V0.
    - destruct (run_snoc _ _ _ _ D) as (es1 & e & r1 & -> & R1 & V1 & E1 & ->); [congruence|exact V0|]. rewrite hangups_app in HU.
      pose proof (tidy_sendRequest cfg None (init m)) as T. change (sendRequest cfg None (init m)) with (start cfg m) in T. cbv zeta in T. rewrite V0 in T.
      destruct (t_follow_notes cfg (start cfg m) (notes (r_out (start cfg m))) true (begun cfg m)) as (q0 & S0 & I0); try reflexivity; [rewrite V0; discriminate|apply notes_calm; exact T|].
      destruct (t_follow_run _ _ _ _ R1 V1 true _ I0) as (l1 & q1 & t1 & S1 & D1 & F1 & I1 & T1); [lia|].
      destruct (t_follow_event cfg _ _ t1 _ V1 E1 I1) as (l2 & q2 & S2 & _ & D2 & F2 & Q1 & Q2 & _ & _); [intros ->; apply T1; cbn in HU; lia|].
      exists ((map MTake (notes (r_out (start cfg m))) ++ l1) ++ l2), q2. split; [eapply tsteps_trans; [eapply tsteps_trans; eassumption|exact S2]|]. split; [rewrite !t_events_app, t_events_takes, D1, D2; reflexivity|].
      split; [apply fine_app; [apply fine_app; [apply fine_takes|exact F1]|exact F2]|]. split; [rewrite Q2; reflexivity|exact Q1].
    - inversion D; subst; [|congruence]. exists [], (begun cfg m). split; [constructor|]. split; [reflexivity|]. split; [repeat split; intros []|]. auto.
    - inversion D; subst; congruence. }
  destruct K as (l & p & S & DE & (_ & F2 & F3) & LP & P). rewrite <- LP in V. destruct (test_ends_with_dialog _ _ _ _ S V P) as (k & q & S2 & Q1 & Q2 & Q3 & Q4 & Q5 & Q6).
  exists (l ++ k), q. split; [eapply tsteps_trans; eassumption|]. rewrite t_events_app, Q4, app_nil_r. split; [exact DE|]. split; [congruence|]. split; [exact Q1|]. split; [rewrite Q3; congruence|]. rewrite !in_app_iff. tauto.
Qed.

(** ** The INVITE *)
Local Open Scope Z_scope.
Definition echo_uri : uri := mkuri (B "sip") (B "echo") [] (B "127.0.0.1") 5060 [] [].
(** the local address of every socket is a name or IPv4 address *)
Definition local_public (cfg : config) : Prop := forall n a k, w_dial (c_world cfg n) a = Some k -> public_host (so_lhost k).
Lemma or_else_l (x e : bytes) : x <> [] -> or_else x e = x. Proof. destruct x; [congruence|reflexivity]. Qed.
Lemma echo3_filled rid lh id' d port : public_host lh ->
  written_sdp rid (filled_sdp lh id' (mksdp (mkorigin [] (GenerateOriginID d) [] []) [] (Some (mkmedia [] port [ULAWCodec; DTMFCodec])) None [] [] 0 false false [] [])) = fone_sdp lh (GenerateOriginID d) port.
Proof.
  intros (N & _). destruct (origin_word d) as (NI & _). unfold fone_sdp, written_sdp, written_origin, filled_sdp, with_origin, with_addr. cbn [s_origin s_addr s_audio s_video s_session s_time s_ptime s_sendonly s_recvonly s_attrs s_other o_user o_id o_version o_addr or_else].
  rewrite !(or_else_l _ _ NI), !(or_else_l _ _ N), ?(or_else_l _ _ NI). cbn [option_map written_media or_else m_proto m_port m_codecs]. reflexivity.
Qed.
Theorem echo3_invite_given : forall cfg d port, local_public cfg -> port_ok port -> invite_given cfg (echo3_invite (GenerateOriginID d) port).
Proof.
  intros cfg d port LP P. split; [|split; [reflexivity|]; split; [reflexivity|]; split; [left; reflexivity|reflexivity]].
  split; [reflexivity|]. split; [split; [discriminate|reflexivity]|]. split.
  { eexists. split; [reflexivity|]. unfold uri_given, written_uri. cbn [u_scheme u_user u_pass u_host u_port u_param u_header or_else]. split; [|constructor].
    split; [eexists _, _; split; [reflexivity|]; repeat split|]. split; [reflexivity|]. cbn. repeat split; try reflexivity; try lia; try discriminate; constructor. }
  split; [cbn; lia|]. split; [cbn; lia|].
  split; [intros []; cbn; constructor|]. split; [left; reflexivity|]. split; [left; reflexivity|]. split; [cbn; lia|]. split; [left; reflexivity|]. split; [left; reflexivity|]. split; [cbn; lia|]. split; [cbn; lia|]. split.
  { intros f. destruct f; exact header_val_nil. }
  split; [constructor|]. intros p E. injection E as <-. split; [reflexivity|]. intros n i a k j DI. rewrite echo3_filled by (exact (LP _ _ _ DI)). apply fone_sdp_ok; [exact (LP _ _ _ DI)|exact P].
Qed.
(** net.ParseIP knows that 127.0.0.1 is an address *)
Definition knows_loopback (cfg : config) : Prop := forall n, parse_ip (w_dns (c_world cfg n)) (B "127.0.0.1") = true.
Lemma echo3_socket cfg d port k : (forall n, faultless (c_world cfg n)) -> local_public cfg -> knows_loopback cfg -> port_ok port -> so (r_state (start cfg (echo3_invite (GenerateOriginID d) port))) = Some k ->
  public_host (so_lhost k) /\ so_remote k = B "127.0.0.1:5060".
Proof.
  intros NF LP KL PT K. pose proof (echo3_invite_given cfg d port LP PT) as (RG & MI & _ & LR & _). set (m := echo3_invite (GenerateOriginID d) port) in *.
  destruct (sent_faultless cfg NF None (init m)) as (s0 & k0 & x & n & E0 & _ & _ & (_ & _ & _ & _ & n' & RA) & _ & K0 & SG0 & _); [split; discriminate|exact RG|change (method m <> B "REGISTER"); rewrite MI; discriminate|exact LR|].
  unfold start in K. rewrite E0 in K. cbn [r_state] in K. assert (k0 = k) by congruence. subst k0. split.
  - destruct (proj1 SG0 k K) as ((i & a & DI) & _). exact (LP _ _ _ DI).
  - unfold next_hop in RA. cbn [m echo3_invite invite init addrs set_method set_request set_pay msg0 request fst snd u_host u_port] in RA. unfold RouteAddress in RA. rewrite KL in RA. injection RA as RA _. rewrite <- RA. vm_compute. reflexivity.
Qed.
(** The server reads the call to sip:echo@127.0.0.1:5060 from the local address of the dialog, with the port of the RTP session. *)
Theorem echo3_invite_arrives : forall cfg d port, (forall n, faultless (c_world cfg n)) -> local_public cfg -> knows_loopback cfg -> port_ok port ->
  let m := echo3_invite (GenerateOriginID d) port in
  exists k inv text seen tag contact_port branch_params,
    so (r_state (start cfg m)) = Some k /\ contact_port = match cso (r_state (start cfg m)) with Some p => p | None => so_lport k end /\ so_remote k = B "127.0.0.1:5060" /\
    parse_msg text = MOk seen /\ method seen = B "INVITE" /\ request seen = Some echo_uri /\ addrs seen To = [mkaddr (Some echo_uri) [] []] /\
    addrs seen From = [mkaddr (Some (mkuri (B "sip") [] [] (so_lhost k) contact_port [] [])) [] [(B "tag", tag)]] /\
    addrs seen Contact = [mkaddr (Some (mkuri (B "sip") [] [] (so_lhost k) contact_port [(B "transport", B "udp")] [])) [] []] /\
    vias seen = [mkvia (B "SIP") (B "2.0") (B "UDP") (so_lhost k) (so_lport k) branch_params] /\
    pay seen = Some (PSdp (fone_sdp (so_lhost k) (GenerateOriginID d) port)) /\
    forall l p, tsteps cfg (begun cfg m) l p -> exists later, r_out (loop (ts_dl p)) = OSend (so_remote k) inv text :: later.
Proof.
  intros cfg d port NF LP KL PT m. pose proof (echo3_invite_given cfg d port LP PT) as IG. fold m in IG.
  destruct (invite_arrives cfg m NF IG) as (k & inv & it & seen & K & P & R & D). cbv zeta in K, R. destruct (echo3_socket cfg d port k NF LP KL PT K) as [PH RM].
  destruct R as (_ & R1 & R2 & _ & _ & _ & _ & _ & _ & _ & _ & R3 & (f & fl & tag & F1 & F2) & (c & cl & cu & q & C1 & C2 & C3 & C4 & C5) & (v & p & br & V1 & V2 & _) & _ & _ & _ & _ & rid & id & R4).
  set (cp := match cso (r_state (start cfg m)) with Some p => p | None => so_lport k end) in *.
  cbn [m echo3_invite addrs set_method set_request set_pay msg0 request or_else vias method option_map] in R1, R2, R3, F1, C1, V1. injection C1 as <- <-. injection C2 as <-. injection V1 as <-.
  cbn [u_scheme u_user u_pass u_host u_port u_param u_header a_display a_param map written_addr option_map a_uri] in C3.
  assert (Q : q = [(B "transport", B "udp")]) by (destruct C4 as [-> | ->]; [destruct (C5 eq_refl)|reflexivity]). subst q. clear C4 C5. rewrite C3 in F1. unfold bare in F1. cbn [map nameless] in F1. injection F1 as <- <-.
  exists k, inv, it, seen, tag, cp, p. split; [exact K|]. split; [reflexivity|]. split; [exact RM|]. split; [exact P|]. split; [exact R1|]. split; [exact R2|]. split; [exact R3|].
  split; [exact F2|]. split; [exact C3|]. split; [exact V2|]. split; [rewrite R4; cbn [m echo3_invite pay set_method set_request set_pay]; rewrite echo3_filled by exact PH; reflexivity|].
  intros l u S. destruct (test_session _ _ _ _ S) as (acts & SS & _). destruct (steps_inv _ _ _ _ SS) as (_ & _ & _ & RN). exact (D (events acts) _ RN).
Qed.
(** ** The call *)
(** With a network without faults and a server that answers and confirms the BYE, there is an execution in which the test sends its INVITE to
    127.0.0.1:5060, has the server's media address, hangs up when its timer fires, and passes. *)
Theorem echo3_call_goes_through : forall cfg d port ps a b c cs,
  (forall n, faultless (c_world cfg n)) -> local_public cfg -> knows_loopback cfg -> port_ok port ->
  Forall (fun p => reply_ok p /\ rp_status p < 200) ps -> reply_ok a -> rp_status a = 200 -> rp_contact a = c :: cs -> reply_ok b -> rp_status b = 200 -> rp_pay b = None ->
  exists k inv inv_text rs answer ack ack_text k' bye bye_text confirm l p,
    method inv = B "INVITE" /\ so_remote k = B "127.0.0.1:5060" /\ method ack = B "ACK" /\ acked inv (a_uri c) ack_text /\ method bye = B "BYE" /\ request bye = a_uri c /\
    Forall2 (answered k inv_text) ps rs /\ answered k inv_text a answer /\ answered k' bye_text b confirm /\
    first_address cfg (way_back (rp_rr a) (rp_contact a)) false (so_remote k') /\
    tsteps cfg (begun cfg (echo3_invite (GenerateOriginID d) port)) l p /\ ts_at p = TEnd /\ ts_failed p = false /\
    t_events l = map EMsg rs ++ [EMsg answer; EHangup; EMsg confirm] /\ In MTimer l /\
    r_out (loop (ts_dl p)) = OSend (so_remote k) inv inv_text :: concat (map told ps) ++ [OSend (so_remote k) ack ack_text] ++ media_of (rp_pay a) ++ [OState Answered; OSend (so_remote k') bye bye_text; OState Hangup] /\
    t_heard l = concat (map told ps) ++ media_of (rp_pay a) ++ [OState Answered; OState Hangup] /\
    ts_peer p = last_peer (concat (map told ps) ++ media_of (rp_pay a)).
Proof.
  intros cfg d port ps a b c cs NF LP KL PT PS AO A200 AC BO B200 BP.
  pose proof (echo3_invite_given cfg d port LP PT) as IG. destruct (echo3_invite_arrives cfg d port NF LP KL PT) as (k0 & inv0 & it0 & _ & _ & _ & _ & _ & _ & RM & _ & _ & _ & _ & _ & _ & _ & _ & ST). set (m := echo3_invite (GenerateOriginID d) port) in *.
  destruct (call_goes_through cfg m ps a b c cs NF IG PS AO A200 AC BO B200 BP) as (k & inv & it & rs & an & ack & at_ & k' & bye & bt & co & s & M1 & R1 & _ & _ & F & AN & AM & AK & BM & BR & _ & _ & _ & _ & AC2 & W1 & W2 & D).
  destruct (echo3_follows cfg m _ _ D eq_refl) as (l & p & S & E & L & P & HE & NE & NA).
  { rewrite hangups_app. replace (hangups (map EMsg rs)) with 0%nat; [cbn; lia|]. clear. unfold hangups. induction rs as [|r rs IH]; [reflexivity|exact IH]. }
  cbn [r_out] in HE.
  assert (NT : forall q, notes (told q) = told q). { intros q. unfold told, progress, media_of, notes. rewrite filter_app. f_equal; [destruct (rp_pay q) as [[? ?|x]|]; try reflexivity; destruct (s_audio x); reflexivity|]. destruct (_ =? 100); [reflexivity|]. destruct (_ || _)%bool; reflexivity. }
  assert (NC : notes (concat (map told ps)) = concat (map told ps)). { clear -NT. induction ps as [|q ps IH]; [reflexivity|]. cbn [map concat]. unfold notes in *. rewrite filter_app, IH, NT. reflexivity. }
  assert (NM : notes (media_of (rp_pay a)) = media_of (rp_pay a)) by (unfold media_of; destruct (rp_pay a) as [[? ?|x]|]; try reflexivity; destruct (s_audio x); reflexivity).
  assert (HF : t_heard l = concat (map told ps) ++ media_of (rp_pay a) ++ [OState Answered; OState Hangup]).
  { rewrite HE. unfold notes in *. cbn [filter note]. rewrite !filter_app, NC, NM. reflexivity. }
  exists k, inv, it, rs, an, ack, at_, k', bye, bt, co, l, p. destruct (t_remembers _ _ _ _ S) as (_ & PE & _).
  assert (RK : so_remote k = B "127.0.0.1:5060"). { destruct (ST l p S) as (later & X). rewrite L in X. cbn [r_out] in X. injection X as -> _ _ _. exact RM. }
  assert (PF : ts_failed p = false).
  { apply (test_verdict _ _ _ _ S P). split; [exact NE|]. split; [exact NA|]. exists (concat (map told ps) ++ media_of (rp_pay a) ++ [OState Answered]). split; [rewrite HF, <- !app_assoc; reflexivity|]. apply in_or_app. right. apply in_or_app. right. left. reflexivity. }
  assert (TI : In MTimer l).
  { destruct (test_hangs_up_for_a_reason _ _ _ _ S) as [X|X]; [|exact X|destruct (NE X)]. rewrite E. apply in_or_app. right. right. left. reflexivity. }
  repeat (split; [assumption|]). split; [rewrite L; reflexivity|]. split; [exact HF|]. rewrite PE, HF. rewrite app_assoc. unfold last_peer. rewrite (fold_left_app _ (_ ++ _)). reflexivity.
Qed.
(** ** Example: a machine that talks to itself; the server's media address is 10.0.0.1 port 4000 *)
Definition loop_cfg : config := mkconfig false 1 (fun n => mkworld (mkdns (fun h => bseq h (B "127.0.0.1")) (fun _ => None) (fun a => Some a)) (fun a => Some (mksock a (B "127.0.0.1") 5070)) (Some 5071) (fun _ => true) ex_rnd None []).
Example echo3_call_example : (forall n, faultless (c_world loop_cfg n)) /\ local_public loop_cfg /\ knows_loopback loop_cfg /\ port_ok 4000 /\
  Forall (fun p => reply_ok p /\ rp_status p < 200) [ex_reply 100 [] None; ex_reply 180 [] None; ex_reply 183 [] (Some (PSdp peer_sdp))] /\
  reply_ok (ex_reply 200 (at_ (B "10.0.0.2")) (Some (PSdp peer_sdp))) /\ reply_ok (ex_reply 200 [] None) /\
  last_peer (concat (map told [ex_reply 100 [] None; ex_reply 180 [] None; ex_reply 183 [] (Some (PSdp peer_sdp))]) ++ media_of (Some (PSdp peer_sdp))) = Some (B "10.0.0.1", 4000).
Proof.
  destruct call_example as (_ & _ & A3 & A4 & A5). split.
  { intros n. split; [discriminate|]. split; [intros a; eexists; split; [reflexivity|]; split; [reflexivity|]; split; [split; [discriminate|]; split; [reflexivity|]; split; reflexivity|]; split; [unfold port_ok; cbn; lia|discriminate]|].
    split; [eexists; split; [reflexivity|]; unfold port_ok; lia|]. split; [reflexivity|]. split; [discriminate|]. repeat (split; [reflexivity|]). discriminate. }
  split; [intros n a k E; cbn in E; injection E as <-; repeat split; discriminate|]. split; [intros n; reflexivity|]. split; [unfold port_ok; lia|]. repeat (split; [assumption|]). vm_compute. reflexivity.
Qed.
