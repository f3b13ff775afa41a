(** C90: what the callee reads in the INVITE: the caller's message, with the empty fields filled in. *)
From Verif Require Import Bytes BytesLemmas GoLib GoLibLemmas SdpModel SdpProofs SipText SipTypes SipAppend UtilModel P_Text P_Lists UriSpec UriModel P_Uri MsgModel MsgSpec MsgGrammar P_MsgText MsgWf MsgRound P_MsgRound
  DialogMsg P_DialogMsg DialogModel P_DialogEnd P_DialogRuns P_DialogTell AppModel P_App RtpCloseModel FoneModel P_Fone P_Written P_Call P_FoneCall.
Local Open Scope Z_scope.

(** * Specification *)
(** The callee reads [seen] where the application gave [m]. [host] and [port] are the local address of the dialog's socket, [contact_port] the
    port on which it also takes requests. The functions [written_...] put in the defaults of the serialiser: scheme sip, SIP/2.0/UDP, the
    session name, the time. *)
Definition here (host : bytes) : addr := mkaddr (Some (mkuri (B "sip") [] [] host 0 [] [])) [] [].
Definition reads_as (host : bytes) (port contact_port : Z) (m seen : msg) : Prop :=
  status seen = 0 /\ method seen = method m /\ request seen = option_map written_uri (request m) /\
  (callid m <> [] -> callid seen = callid m) /\ callid seen <> [] /\ (cseq m <> 0 -> cseq seen = cseq m) /\ 0 < cseq seen /\ cseqmethod seen = method m /\
  maxforwards seen = (if maxforwards m =? 0 then 70 else maxforwards m) - 1 /\ expires seen = expires m /\ minexpires seen = minexpires m /\
  (* To: the one given, or the address called *)
  addrs seen To = map written_addr (or_else (addrs m To) [mkaddr (request m) [] []]) /\
  (* From: the one given, or the Contact; with a tag *)
  (exists f l tag, or_else (addrs m From) (bare (addrs seen Contact)) = f :: l /\
     addrs seen From = map written_addr (mkaddr (a_uri f) (a_display f) (match value_of (B "tag") (a_param f) with None => (B "tag", tag) :: a_param f | Some _ => a_param f end) :: l)) /\
  (* Contact: the one given or the local address; in any case the port is the one where the dialog takes requests *)
  (exists c l u p, or_else (addrs m Contact) [here host] = c :: l /\ a_uri c = Some u /\
     addrs seen Contact = map written_addr (mkaddr (Some (mkuri (u_scheme u) (u_user u) (u_pass u) (u_host u) contact_port p (u_header u))) (a_display c) (a_param c) :: l) /\
     (p = u_param u \/ p = (B "transport", B "udp") :: u_param u) /\ value_of (B "transport") p <> None) /\
  (* Via: the host given or the local one, the port of the socket, a branch *)
  (exists v p branch, or_else (vias m) [mkvia [] [] [] host 0 []] = [v] /\
     vias seen = [written_via (mkvia (v_protocol v) (v_version v) (v_transport v) (v_host v) port p)] /\ value_of (B "branch") p = Some branch) /\
  (forall f, f <> Contact -> f <> To -> f <> From -> addrs seen f = map written_addr (addrs m f)) /\
  (forall f, f <> UserAgent -> f <> AcceptContact -> f <> RetryAfter -> strs seen f = strs m f) /\ strs seen UserAgent = or_else (strs m UserAgent) GosipUA /\
  (strs m RetryAfter = [] -> xheader seen = xheader m) /\
  (* the session description, with the local address and a number where these are missing *)
  (exists rid id, pay seen = match pay m with Some (PSdp d) => Some (PSdp (written_sdp rid (filled_sdp host id d))) | p => p end).

(** * C90: the INVITE as it arrives *)
Lemma bare_written l : bare (map written_addr l) = map written_addr (bare l).
Proof.
  destruct l as [|a l]; [reflexivity|]. unfold bare. cbn [map]. f_equal.
  - destruct a as [[[]|] ? ?]; reflexivity.
  - rewrite !map_map. apply map_ext. intros [[[]|] ? ?]; reflexivity.
Qed.
Lemma written_uri_twice u : written_uri (written_uri u) = written_uri u.
Proof. destruct u as [[|]]; reflexivity. Qed.
Lemma written_addr_twice l : map written_addr (map written_addr l) = map written_addr l.
Proof. rewrite map_map. apply map_ext. intros [[u|] ? ?]; [|reflexivity]. unfold written_addr. cbn. rewrite written_uri_twice. reflexivity. Qed.
Lemma invite_read cfg m : (forall n, faultless (c_world cfg n)) -> invite_given cfg m ->
  exists s k inv text seen, start cfg m = mkres s [OSend (so_remote k) inv text] Cont /\ so s = Some k /\ parse_msg text = MOk seen /\
    reads_as (so_lhost k) (so_lport k) (match cso s with Some p => p | None => so_lport k end) m seen.
Proof.
  intros NF (RG & MI & RR & LR & CB).
  destruct (sent_faultless cfg NF None (init m)) as (s0 & k & x & n & E0 & FX & (D1 & D2 & D3 & D4 & _ & D6 & _) & (CR & MF & _) & _ & K0 & SG0 & _); [split; discriminate|exact RG|change (method m <> B "REGISTER"); rewrite MI; discriminate|exact LR|].
  change (match None with Some b => b | None => invite (init m) end) with m in *. cbn [invite init] in D1, D2, D3, D4, D6. change (carries k (cso s0) m x) in CR. change (maxforwards x = (if maxforwards m =? 0 then 70 else maxforwards m) - 1) in MF.
  set (rid := w_rid (c_world cfg n)) in *. pose proof FX as (OK & SX & CM & _ & vf & bf & VF & NP & HB). specialize (OK n). fold rid in OK.
  destruct (msg_round_trip_partial rid (written rid x) OK) as (seen & PS & SV). rewrite written_text in PS.
  exists s0, k, x, (msg_append rid x), seen. split; [exact E0|]. split; [exact K0|]. split; [exact PS|].
  assert (IR : IsResponse (written rid x) = false) by (unfold IsResponse; cbn [written status]; rewrite SX; reflexivity).
  destruct SV as (S1 & _ & S3 & S4 & S5 & S6 & S7 & S8 & S9 & S10 & S11 & S12 & _). destruct (S1 IR) as (T1 & T2 & T3 & T4). clear S1.
  pose proof OK as (_ & _ & _ & _ & _ & _ & _ & CI & _).
  cbn [written method request maxforwards addrs vias callid cseq cseqmethod expires minexpires strs xheader pay] in T1, T2, T4, S3, S4, S5, S6, S7, S8, S9, S10, S11, S12, CI.
  destruct CR as (Q1 & Q2 & Q3 & Q4 & Q5 & Q6 & _ & _ & Q9 & (id & _ & Q10) & (c & l & u & u' & C1 & C2 & C3 & U1 & U2 & U3 & U4 & U5 & U6 & U7) & (f & fl & tg & F1 & F2) & (v & vl & p & V1 & V2)).
  pose proof RG as (_ & TM & (u0 & RQ & UO) & _ & _ & AD & VG & _ & CS0 & _ & MR & _ & _ & _ & _ & PG).
  unfold reads_as. split; [exact T3|]. split; [rewrite T1, D1; destruct (method m); [destruct TM; congruence|reflexivity]|]. split; [rewrite T2, D6, RQ; reflexivity|].
  split; [intros N; rewrite S5; auto|]. split; [rewrite S5; intros N; rewrite N in CI; destruct CI as ([|a0 a] & r & CI & NA & _); [congruence|discriminate CI]|]. split; [intros N; rewrite S6; auto|]. split; [lia|]. split; [rewrite S7, CM; exact D1|].
  split; [rewrite T4; destruct (Z.eqb_spec (maxforwards x) 0); [|exact MF]; revert MF; change (invite (init m)) with m; destruct (Z.eqb_spec (maxforwards m) 0); lia|]. split; [congruence|]. split; [congruence|].
  split; [rewrite S4, Q9; reflexivity|].
  split.
  { destruct (addrs m From) as [|a al] eqn:AF.
    - cbn [or_else] in F1. rewrite S4, bare_written, F1. cbn [map or_else]. exists (written_addr f), (map written_addr fl), tg. split; [reflexivity|]. rewrite S4, F2. cbn [map]. f_equal; [|symmetry; apply written_addr_twice].
      unfold written_addr, set_aparam, with_value. cbn [SipTypes.a_uri SipTypes.a_display SipTypes.a_param]. f_equal. destruct (a_uri f); [cbn [option_map]; rewrite written_uri_twice|]; reflexivity.
    - cbn [or_else] in F1 |- *. injection F1 as <- <-. exists a, al, tg. split; [reflexivity|]. rewrite S4, F2. reflexivity. }
  split.
  { exists c, l, u, (u_param u'). split; [exact C1|]. split; [exact C2|]. split; [rewrite S4, C3; unfold set_auri; rewrite <- U1, <- U2, <- U3, <- U4, <- U5, <- U6; destruct u'; reflexivity|]. rewrite U7.
    destruct (value_of (B "transport") (u_param u)) as [y|] eqn:VT; [split; [left; reflexivity|rewrite VT; discriminate]|]. split; [right; reflexivity|]. rewrite value_head by reflexivity. discriminate. }
  split.
  { rewrite V2 in VF. injection VF as <- ->. cbn [set_vparam v_param] in HB. exists v, p, bf. split; [exact V1|]. split; [|exact HB]. rewrite S3, V2. cbn [map]. unfold default_port_dropped, written_via. cbn [set_vparam set_vport v_protocol v_version v_transport v_host v_port v_param] in NP |- *.
    destruct (Z.eqb_spec (so_lport k) 5060); [congruence|reflexivity]. }
  split; [intros g N1 N2 N3; rewrite S4, Q1 by assumption; reflexivity|]. split; [intros g N1 N2 N3; rewrite S10, Q2 by assumption; reflexivity|]. split; [rewrite S10 by discriminate; exact Q3|].
  split; [intros N; rewrite S11, (Q2 RetryAfter) by discriminate; rewrite N, Q6; apply app_nil_r|].
  exists rid, id. rewrite S12, Q10, MI, bseq_refl. destruct (pay m) as [[]|]; reflexivity.
Qed.
Lemma run_more cfg r es r' : run cfg r es r' -> exists q, r_out r' = r_out r ++ q.
Proof. induction 1 as [r|r e es r' V E H (q & IH)]; [exists []; symmetry; apply app_nil_r|]. cbn [r_out] in IH. rewrite <- app_assoc in IH. eauto. Qed.
(** However the dialog goes on, the first thing it sends is this datagram. *)
Theorem invite_arrives : forall cfg m, (forall n, faultless (c_world cfg n)) -> invite_given cfg m ->
  exists k inv text seen, let s := r_state (start cfg m) in
    so s = Some k /\ parse_msg text = MOk seen /\ reads_as (so_lhost k) (so_lport k) (match cso s with Some p => p | None => so_lport k end) m seen /\
    forall es r, dialog cfg m es r -> exists later, r_out r = OSend (so_remote k) inv text :: later.
Proof.
  intros cfg m NF IG. destruct (invite_read cfg m NF IG) as (s & k & inv & t & seen & E & K & P & R). exists k, inv, t, seen. cbv zeta. rewrite E. cbn [r_state]. repeat (split; [assumption|]).
  intros es r D. unfold dialog in D. rewrite E in D. destruct (run_more _ _ _ _ D) as (q & Q). exists q. exact Q.
Qed.

Lemma phone_starts cfg m l p o : (forall es r, dialog cfg m es r -> exists later, r_out r = o :: later) -> psteps cfg (dialled cfg m) l p -> exists later, r_out (loop (ph_dl p)) = o :: later.
Proof. intros D S. destruct (phone_session _ _ _ _ S) as (acts & SS & _). destruct (steps_inv _ _ _ _ SS) as (_ & _ & _ & RN). exact (D (events acts) _ RN). Qed.
Lemma fone_reads lh lp cp text u h user d port seen : parse_uri text = POk u -> public_host h -> reads_as lh lp cp (fone_invite u h user (GenerateOriginID d) port) seen ->
  exists tag branch_params, method seen = B "INVITE" /\ request seen = Some u /\ addrs seen To = [mkaddr (Some u) [] []] /\
    addrs seen From = [mkaddr (Some (mkuri (B "sip") user [] h 0 [] [])) [] [(B "tag", tag)]] /\
    addrs seen Contact = [mkaddr (Some (mkuri (B "sip") [] [] h cp [(B "transport", B "udp")] [])) [] []] /\
    vias seen = [mkvia (B "SIP") (B "2.0") (B "UDP") h lp branch_params] /\ pay seen = Some (PSdp (fone_sdp h (GenerateOriginID d) port)).
Proof.
  intros PU H R.
  destruct R as (_ & R1 & R2 & _ & _ & _ & _ & _ & _ & _ & _ & R3 & (f & fl & tag & F1 & F2) & (c & cl & cu & q & C1 & C2 & C3 & C4 & C5) & (v & p & br & V1 & V2 & _) & _ & _ & _ & _ & rid & id & R4).
  assert (WU : written_uri u = u). { destruct (uri_parsed_is_wf _ _ PU) as ((c0 & s0 & E & _) & _). unfold written_uri. rewrite E. cbn [or_else]. rewrite <- E. destruct u; reflexivity. }
  injection F1 as <- <-. injection C1 as <- <-. injection C2 as <-. injection V1 as <-. cbn [map written_addr a_uri a_param value_of option_map] in *.
  exists tag, p. split; [exact R1|]. split; [rewrite R2; exact (f_equal Some WU)|]. split; [rewrite R3; exact (f_equal (fun z => [mkaddr (Some z) [] []]) WU)|].
  split; [exact F2|]. split; [rewrite C3; destruct C4 as [-> | ->]; [destruct (C5 eq_refl)|]; reflexivity|]. split; [exact V2|].
  rewrite R4. unfold fone_invite. cbn [pay set_pay set_method set_request set_vias set_addr]. apply f_equal, f_equal. unfold fone_sdp, written_sdp, written_origin, filled_sdp, with_origin, with_addr. cbn [s_origin s_addr s_audio s_video s_session s_time s_ptime s_sendonly s_recvonly s_attrs s_other o_user o_id o_version o_addr].
  destruct (origin_word d) as (NI & _). destruct H as (N & _).
  assert (OE : forall x e : bytes, x <> [] -> or_else x e = x) by (intros [|? ?] ? X; [congruence|reflexivity]). rewrite !(OE _ _ NI), !(OE _ _ N). reflexivity.
Qed.
(** The telephone: the callee reads who calls ($USER at the public host), whom, where to send requests and sound, and what sound. *)
Theorem phone_invite_arrives : forall cfg text u h user d port,
  parse_uri text = POk u -> Forall no_amp (u_header u) -> public_host h -> port_ok port -> (forall n, faultless (c_world cfg n)) ->
  exists k inv it seen tag contact_port branch_params,
    so (r_state (start cfg (fone_invite u h user (GenerateOriginID d) port))) = Some k /\
    contact_port = match cso (r_state (start cfg (fone_invite u h user (GenerateOriginID d) port))) with Some p => p | None => so_lport k end /\
    parse_msg it = MOk seen /\ method seen = B "INVITE" /\ request seen = Some u /\ addrs seen To = [mkaddr (Some u) [] []] /\
    addrs seen From = [mkaddr (Some (mkuri (B "sip") user [] h 0 [] [])) [] [(B "tag", tag)]] /\
    addrs seen Contact = [mkaddr (Some (mkuri (B "sip") [] [] h contact_port [(B "transport", B "udp")] [])) [] []] /\
    vias seen = [mkvia (B "SIP") (B "2.0") (B "UDP") h (so_lport k) branch_params] /\
    pay seen = Some (PSdp (fone_sdp h (GenerateOriginID d) port)) /\
    forall l p, psteps cfg (dialled cfg (fone_invite u h user (GenerateOriginID d) port)) l p ->
      exists later, r_out (loop (ph_dl p)) = OSend (so_remote k) inv it :: later.
Proof.
  intros cfg text u h user d port PU NA H PT NF.
  pose proof (fone_invite_given cfg text u h user d port PU NA H PT) as IG.
  destruct (invite_arrives cfg _ NF IG) as (k & inv & it & seen & K & P & R & D). cbv zeta in K, R.
  destruct (fone_reads _ _ _ _ _ _ _ _ _ _ PU H R) as (tag & p & Q1 & Q2 & Q3 & Q4 & Q5 & Q6 & Q7). clear R IG.
  exists k, inv, it, seen, tag. eexists. exists p. split; [exact K|]. split; [reflexivity|]. repeat (split; [assumption|]).
  intros l q S. exact (phone_starts _ _ _ _ _ D S).
Qed.

(** ** Example: the hypotheses hold for the call of P_Call and the phone of P_FoneCall; the callee of the former reads what it should *)
Example invite_example : exists u, parse_uri (B "sip:+12125650666@10.0.0.1") = POk u /\ Forall no_amp (u_header u) /\ public_host (B "10.0.0.9") /\ port_ok 4000 /\
  (forall n, faultless (c_world (ex_cfg 1) n)) /\ invite_given (ex_cfg 1) ex_call /\
  invite_given (ex_cfg 1) (fone_invite u (B "10.0.0.9") (B "alice") (GenerateOriginID (dr_origin ex_rnd)) 4000).
Proof.
  destruct phone_call_example as (u & A1 & A2 & A3 & A4 & A5 & _). destruct call_example as (_ & A6 & _). exists u. repeat (split; [assumption|]). exact (fone_invite_given _ _ u _ _ _ _ A1 A2 A3 A4).
Qed.
