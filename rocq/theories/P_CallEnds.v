(** C86: the requests of the peer, answered over the network. C87: how a call ends. *)
From Verif Require Import Bytes BytesLemmas GoLib GoLibLemmas SdpModel SdpProofs SipText SipTypes SipAppend UtilModel P_Text P_Lists UriSpec UriModel P_Uri MsgModel MsgSpec MsgGrammar P_MsgText MsgWf MsgRound P_MsgRound
  DialogMsg P_DialogMsg P_DialogWire TransportModel P_Transport P_TransportAt P_Received DialogModel P_Dialog P_DialogEnd P_DialogRuns P_DialogCount P_DialogSafe P_DialogTell P_DialogPeer P_Written P_Call P_Talk.
Local Open Scope Z_scope.

(** ** What a dialog does about a request of the peer's *)
(** [call] is the Call-ID of the dialog and [seen] the highest CSeq number of the peer's so far (0: none). The status of the answer, what
    the application is told before and after it is sent, and whether the dialog goes on. *)
Inductive reaction (call : bytes) (seen : Z) (q : msg) : Z -> list out -> list out -> verdict -> Prop :=
| re_stranger : callid q <> call -> reaction call seen q 481 [] [] Cont
| re_old : callid q = call -> 0 < seen -> cseq q < seen -> reaction call seen q 500 [] [] Cont
| re_bye : callid q = call -> (seen = 0 \/ seen <= cseq q) -> method q = B "BYE" -> reaction call seen q 200 [] [OState Hangup] Halt
| re_options : callid q = call -> (seen = 0 \/ seen <= cseq q) -> method q = B "OPTIONS" -> reaction call seen q 200 [] [] Cont
| re_invite : callid q = call -> (seen = 0 \/ seen <= cseq q) -> method q = B "INVITE" -> (forall d, pay q = Some (PSdp d) -> s_audio d <> None /\ s_addr d <> []) -> reaction call seen q 200 (media_of (pay q)) [] Cont
| re_other : callid q = call -> (seen = 0 \/ seen <= cseq q) -> ~ In (method q) [B "BYE"; B "OPTIONS"; B "INVITE"; B "ACK"] -> reaction call seen q 405 [] [] Cont.
(** The answer [text] is one the sender of [q] recognises, whenever and from wherever it gets it. *)
Definition recognised (q : msg) (code : Z) (text : bytes) : Prop :=
  forall lhost lport src stamp, exists y, delivers lhost lport text src stamp y /\ ResponseMatch q y = true /\ status y = code /\ callid y = callid q /\ cseq y = cseq q /\
    addrs y From = map written_addr (addrs q From) /\ addrs y To = map written_addr (addrs q To).

Lemma with_first_id l : with_first (fun a => set_aparam ([] ++ a_param a) a) l = l. Proof. destruct l as [|[u d p] l]; reflexivity. Qed.
Section Answer.
Variable cfg : config.
Hypothesis NF : forall n, faultless (c_world cfg n).
(** the answer is sent and can be read *)
Lemma answer_goes rid q v b src stamp r v' code k s keep : on_its_way rid q v b -> gets rid q r -> vias r = [v'] -> annotated false src stamp (written_via v) v' -> msg_ok rid (set_vias [v'] (written rid q)) -> survives (set_vias [v'] (written rid q)) r ->
  100 <= code <= 999 -> so s = Some k -> (forall x z, so (keep x z) = so z) ->
  exists s' a text, send cfg (NewResponse r code) keep s = mkres s' [OSend (so_remote k) a text] Cont /\ so s' = Some k /\ recognised q code text.
Proof.
  intros OW GT RV AN OK2 SV RC K KS. set (m := NewResponse r code). rewrite send_eq. cbv zeta. change (maxforwards m) with 0. rewrite (lowered_zero m eq_refl). cbn [Z.eqb].
  set (s1 := keep m s). set (w := c_world cfg (clock s1)). destruct (NF (clock s1)) as (_ & _ & _ & WR & TS & _). fold w in WR, TS.
  pose proof (response_ok_any rid (w_rid w) _ _ code OK2 SV RC) as RK. fold m in RK. pose proof (annotated_branch _ _ _ _ _ AN) as BV. pose proof OW as (_ & _ & _ & _ & _ & _ & BR & _). cbn [written_via v_param] in BV. rewrite BR in BV.
  destruct (answer_stamped v' m (w_stamp w) b (w_rid w) RV RK BV TS) as (p & ET & PB & PP). rewrite ET. set (rsp := set_vias _ m) in *.
  rewrite KS. cbn [so set_clock]. unfold s1. rewrite KS, K, WR. do 3 eexists. split; [reflexivity|]. split; [rewrite KS; cbn [so set_clock]; rewrite KS; exact K|].
  intros lhost lport psrc pst. pose (x := mkreply code [] [] [] (addrs r RecordRoute) None (w_rid w) psrc pst).
  destruct (answer_read _ _ _ _ _ _ _ _ x (w_rid w) m p OW GT RV AN) with (lhost := lhost) (lport := lport) as (y & DY & (Y1 & Y2 & Y3 & Y4 & Y5 & Y6 & _) & _); [cbn; lia| |exact RK|exact PB|exact PP|].
  { unfold answer_of. repeat (split; [reflexivity|]). cbn [x rp_to]. rewrite with_first_id. reflexivity. }
  exists y. split; [exact DY|]. repeat (split; [assumption|]). rewrite Y6. cbn [x rp_to]. apply with_first_id.
Qed.

(** * C86 *)
Theorem peer_request_answered : forall s k rid q v b src stamp code before after go,
  so s = Some k -> on_its_way rid q v b -> the_vmaj q = 2 -> the_vmin q = 0 -> source_ok src -> (forall t, stamp = Some t -> token t) ->
  reaction (callid (the_request s)) (rseq s) q code before after go ->
  exists r, delivers (so_lhost k) (so_lport k) (msg_append rid q) src stamp r /\ gets rid q r /\
  exists s' a text, handle cfg (EMsg r) s = mkres s' (before ++ [OSend (so_remote k) a text] ++ after) go /\ recognised q code text.
Proof.
  intros s k rid q v b src stamp code before after go K OW VJ VN SO TK RE.
  destruct (request_arrives rid q v b (so_lhost k) (so_lport k) src stamp OW SO TK) as (r & v' & DR & GT & RV & AN & OK2 & SV). exists r. split; [exact DR|]. split; [exact GT|].
  pose proof GT as (G1 & _ & G3 & G4 & G5 & G6 & _ & _ & _ & GP & GM). 
  assert (S2 : sip2 r) by (destruct SV as (_ & _ & _ & _ & _ & _ & _ & _ & _ & _ & _ & _ & J & N); split; [rewrite J; exact VJ|rewrite N; exact VN]).
  assert (MF : 0 < maxforwards r). { rewrite GM. destruct OW as (OK & _). destruct OK as (_ & _ & _ & _ & _ & _ & _ & _ & _ & _ & X & _). cbn [written maxforwards] in X. destruct (Z.eqb_spec (maxforwards q) 0); lia. }
  assert (GO : forall c z keep, 100 <= c <= 999 -> so z = Some k -> (forall x y, so (keep x y) = so y) -> exists s' a text, send cfg (NewResponse r c) keep z = mkres s' [OSend (so_remote k) a text] Cont /\ so s' = Some k /\ recognised q c text) by (intros c z keep RC KZ KK; exact (answer_goes _ _ _ _ _ _ _ _ c k z keep OW GT RV AN OK2 SV RC KZ KK)).
  assert (DR0 : forall x z, so (drop x z) = so z) by reflexivity.
  assert (CR : callid q = callid (the_request s) -> (rseq s = 0 \/ rseq s <= cseq q) -> current_request s r) by (intros C1 C2; split; [exact S2|]; split; [congruence|]; split; [lia|]; split; [exact MF|]; rewrite G5; exact C2).
  destruct RE as [NC|EC LT CL|EC CL M|EC CL M|EC CL M AU|EC CL M].
  - destruct (GO 481 s drop ltac:(lia) K DR0) as (s' & a & t & E & _ & RR). exists s', a, t. split; [|exact RR]. cbn [handle]. unfold handleMessage. destruct S2 as [-> ->]. cbn [Z.eqb negb orb Pos.eqb]. unfold look. destruct (bseq_reflect (callid r) (callid (the_request s))) as [X|_]; [congruence|]. exact E.
  - destruct (GO 500 s drop ltac:(lia) K DR0) as (s' & a & t & E & _ & RR). exists s', a, t. split; [|exact RR]. cbn [handle]. unfold handleMessage. destruct S2 as [-> ->]. cbn [Z.eqb negb orb Pos.eqb]. unfold look. destruct (bseq_reflect (callid r) (callid (the_request s))) as [_|X]; [|congruence]. cbn [negb]. unfold IsResponse. rewrite G3. cbn [Z.ltb Z.compare].
    unfold handleRequest. destruct (Z.leb_spec (maxforwards r) 0); [lia|]. unfold look. rewrite G5. destruct (Z.eqb_spec (rseq s) 0); [lia|]. destruct (Z.ltb_spec (cseq q) (rseq s)); [exact E|lia].
  - rewrite (current_split _ _ _ (CR EC CL)), G1, M. change (bseq (B "BYE") (B "BYE")) with true. cbv iota.
    destruct (GO 200 (set_rseq (cseq r) s) drop ltac:(lia) K DR0) as (s' & a & t & E & _ & RR). eexists _, a, t. split; [|exact RR]. rewrite seq_eq, E. reflexivity.
  - rewrite (current_split _ _ _ (CR EC CL)), G1, M. change (bseq (B "OPTIONS") (B "BYE")) with false. change (bseq (B "OPTIONS") (B "OPTIONS")) with true. cbv iota.
    destruct (GO 200 (set_rseq (cseq r) s) drop ltac:(lia) K DR0) as (s' & a & t & E & _ & RR). eexists _, a, t. split; [exact E|exact RR].
  - rewrite (current_split _ _ _ (CR EC CL)), G1, M. change (bseq (B "INVITE") (B "BYE")) with false. change (bseq (B "INVITE") (B "OPTIONS")) with false. change (bseq (B "INVITE") (B "INVITE")) with true. cbv iota. rewrite upd_seq.
    assert (AR : has_audio r). { intros d E. rewrite GP in E. destruct (pay q) as [[? ?|d0]|]; [discriminate| |discriminate]. injection E as <-. destruct (AU d0 eq_refl) as [A _]. cbn [written_sdp s_audio]. destruct (s_audio d0); [discriminate|congruence]. }
    assert (ME : media r = media_of (pay q)). { unfold media, media_of. rewrite GP. destruct (pay q) as [[? ?|d0]|]; [reflexivity| |reflexivity]. destruct (AU d0 eq_refl) as [_ A]. cbn [option_map written_payload written_sdp s_audio s_addr]. destruct (s_audio d0); [|reflexivity]. destruct (s_addr d0); [congruence|reflexivity]. }
    rewrite seq_eq, (sdp_reported _ _ AR). fold (media r). cbn [r_v r_state r_out]. unfold sendResponse. rewrite !upd_seq.
    match goal with |- context[send cfg _ keep_response ?z] => destruct (GO 200 z keep_response ltac:(lia) K) as (s' & a & t & E & _ & RR); [reflexivity|] end. rewrite E. cbn [r_v r_state r_out]. eexists _, a, t. split; [rewrite ME; reflexivity|exact RR].
  - rewrite (current_split _ _ _ (CR EC CL)), G1. do 4 (match goal with |- context[bseq (method q) ?x] => destruct (bseq_reflect (method q) x) as [X|_]; [contradiction M; rewrite X; cbn; auto|] end).
    destruct (GO 405 (set_rseq (cseq r) s) drop ltac:(lia) K DR0) as (s' & a & t & E & _ & RR). eexists _, a, t. split; [exact E|exact RR].
Qed.
End Answer.

(** * C87: how a call ends *)
(** ** Up to the answer *)
Lemma waiting cfg m ps : (forall n, faultless (c_world cfg n)) -> invite_given cfg m -> Forall (fun p => reply_ok p /\ rp_status p < 200) ps ->
  exists k x n rs s, fit cfg x /\ method x = B "INVITE" /\ request x = request m /\ (callid m <> [] -> callid x = callid m) /\ (cseq m <> 0 -> cseq x = cseq m) /\
    Forall2 (answered k (msg_append (w_rid (c_world cfg n)) x)) ps rs /\ calling cfg k x s /\
    dialog cfg m (map EMsg rs) (mkres s (OSend (so_remote k) x (msg_append (w_rid (c_world cfg n)) x) :: concat (map told ps)) Cont).
Proof.
  intros NF (RG & MI & RR & LR & CB) PS.
  destruct (sent_faultless cfg NF None (init m)) as (s0 & k & x & n & E0 & FX & (D1 & D2 & D3 & D4 & _ & D6 & _) & _ & _ & K0 & SG0 & _ & ST0 & RI & LS); [split; discriminate|exact RG|change (method m <> B "REGISTER"); rewrite MI; discriminate|exact LR|].
  destruct (RI eq_refl) as [R0 I0]. destruct LS as (RM0 & LS0 & RS0); [reflexivity|]. change (match None with Some b => b | None => invite (init m) end) with m in *. cbn [invite init] in D1, D2, D3, D4, D6.
  assert (C0 : calling cfg k x s0) by (unfold calling; repeat (split; [assumption|]); left; exact ST0).
  destruct (progress_run cfg NF k x n ps FX PS s0 [OSend (so_remote k) x (msg_append (w_rid (c_world cfg n)) x)] C0) as (rs & s1 & F & C1 & R1).
  exists k, x, n, rs, s1. split; [exact FX|]. split; [congruence|]. split; [exact D6|]. split; [exact D2|]. split; [exact D3|]. split; [exact F|]. split; [exact C1|]. unfold dialog, start. rewrite E0. exact R1.
Qed.
Lemma refusal_turn cfg s k x r c cs u v : (forall n, faultless (c_world cfg n)) -> so s = Some k -> the_request s = x -> fit cfg x -> method x = B "INVITE" -> sip2 r -> ResponseMatch x r = true -> callid r = callid x -> refusal r ->
  addrs r Contact = c :: cs -> a_uri c = Some u -> (forall f, Forall addr_ok (addrs r f)) -> addrs r To <> [] -> addrs r From = map written_addr (addrs x From) -> vias r = [v] -> via_ok v ->
  exists s' ack text, method ack = B "ACK" /\ acked x (Some u) text /\ handle cfg (EMsg r) s = mkres s' [OSend (so_remote k) ack text; OErr (DResponse r)] Halt.
Proof.
  intros NF K TR FX MI S2 MT EC RF ET CU AA NT EF VV VO. assert (MA : matching s r) by (split; [exact S2|]; rewrite TR; auto). pose proof MT as MQ. apply response_match_spec in MQ. destruct MQ as (_ & EQ & _).
  destruct (ack_made cfg x r c cs u v FX EC EQ ET CU AA NT EF VV VO) as (ack & EA & OKA & MF & A1 & A2 & A3 & A4 & A5 & A6 & A7).
  destruct (ack_sent cfg NF s k x ack u v K OKA MF A1 A2 A3 A4 A5 VO A6 A7) as (n1 & vs & text & AK & SND).
  do 3 eexists. split; [|split; [exact AK|]]; [|rewrite (matching_split _ _ _ MA) by (destruct RF; lia); rewrite TR, MI, bseq_refl, ET, EA; destruct (Z.leb_spec 200 (status r)); [|destruct RF; lia]; cbn [andb val]; rewrite SND; rewrite !upd_seq, (after_refusal _ _ _ RF); reflexivity]. exact A1.
Qed.
(** ** Refused *)
Theorem call_refused : forall cfg m ps a c cs,
  (forall n, faultless (c_world cfg n)) -> invite_given cfg m ->
  Forall (fun p => reply_ok p /\ rp_status p < 200) ps -> reply_ok a -> 200 < rp_status a -> ~ In (rp_status a) [301; 302; 503] -> rp_contact a = c :: cs ->
  exists k inv inv_text rs answer ack ack_text s,
    method inv = B "INVITE" /\ request inv = request m /\ (callid m <> [] -> callid inv = callid m) /\ (cseq m <> 0 -> cseq inv = cseq m) /\
    Forall2 (answered k inv_text) ps rs /\ answered k inv_text a answer /\ status answer = rp_status a /\ method ack = B "ACK" /\ acked inv (a_uri c) ack_text /\
    dialog cfg m (map EMsg rs ++ [EMsg answer])
      (mkres s (OSend (so_remote k) inv inv_text :: concat (map told ps) ++ [OSend (so_remote k) ack ack_text; OErr (DResponse answer)]) Halt).
Proof.
  intros cfg m ps a c cs NF IG PS AO GT NI AC. destruct (waiting cfg m ps NF IG PS) as (k & x & n & rs & s1 & FX & D1 & D6 & D2 & D3 & F & C1 & R1). set (t := msg_append _ x) in *.
  destruct (reply_comes cfg x k n a FX AO) as (r & AN & S2 & MT & EC & EQ & ES & EP & ET & ER & EF & AA & NT & v & VV & VO). fold t in AN.
  pose proof C1 as (K1 & SG1 & Q1 & I1 & RM1 & LS1 & RS1 & ST1). pose proof (calling_request _ _ _ _ C1) as TR.
  assert (MA : matching s1 r) by (split; [exact S2|]; rewrite TR; auto). rewrite AC in ET.
  assert (CU : exists u, a_uri c = Some u). { destruct AO as (_ & _ & _ & _ & CO & _). rewrite AC in CO. inversion CO as [|? ? ((u & U & _) & _) _]; subst. eauto. } destruct CU as [u CU].
  assert (RF : refusal r) by (unfold refusal; rewrite ES; cbn in NI; lia).
  destruct (refusal_turn cfg s1 k x r c cs u v NF K1 TR FX D1 S2 MT EC RF ET CU AA NT EF VV VO) as (s2 & ack & text & AM & AK & T).
  exists k, x, t, rs, r, ack, text, s2. repeat (split; [assumption|]). split; [rewrite CU; exact AK|].
  eapply run_app; [exact R1|]. apply run_step; [reflexivity|reflexivity|]. cbn [r_state r_out]. rewrite T. cbn [r_state r_out r_v]. rewrite <- app_comm_cons. apply run_nil.
Qed.
(** ** Given up before it is answered *)
(** What the peer can read of a CANCEL. *)
Definition cancelled (x : msg) (text : bytes) : Prop := exists a v b w, parse_msg text = MOk a /\ method a = B "CANCEL" /\ callid a = callid x /\ cseq a = cseq x /\ addrs a From = map written_addr (addrs x From) /\
  vias x = [v] /\ vias a = [w] /\ v_host w = v_host v /\ v_port w = v_port v /\ value_of (B "branch") (v_param v) = Some b /\ value_of (B "branch") (v_param w) = Some b.
Lemma cancel_fit cfg x : fit cfg x -> fit cfg (NewCancel x).
Proof.
  intros (OK & S & CM & TG & v & b & V & NP & HB). split; [|split; [reflexivity|]; split; [reflexivity|]; split; [exact TG|]; exists v, b; split; [exact V|]; split; assumption].
  intros n. destruct (OK n) as (ST & VA & VI & NFR & NTO & AD & VS & CI & CS & CMT & MF & EX & ME & SS & XH & PY). set (rid := w_rid (c_world cfg n)) in *. cbn [written method request status phrase vmaj vmin addrs vias callid cseq cseqmethod maxforwards expires minexpires strs xheader pay] in *.
  split; [left; split; [reflexivity|]; split; [split; [discriminate|reflexivity]|]|].
  { destruct ST as [(_ & _ & u & EU & UK)|(X & _)]; [|change (100 <= status x <= 999) in X; rewrite S in X; lia]. exists u. split; [exact EU|exact UK]. }
  split; [cbn; lia|]. split; [cbn; lia|]. split; [exact NFR|]. split; [exact NTO|].
  split; [intros f; destruct f; first [exact (Forall_nil _)|exact (AD From)|exact (AD To)|exact (AD Route)]|]. split; [exact VS|]. split; [exact CI|]. split; [exact CS|]. split; [split; [discriminate|reflexivity]|]. split; [cbn; lia|]. split; [cbn; lia|]. split; [cbn; lia|].
  split; [intros f; destruct f; exact header_val_nil|]. split; [constructor|]. intros p E. discriminate.
Qed.
Lemma cancel_turn cfg s k x : (forall n, faultless (c_world cfg n)) -> calling cfg k x s -> fit cfg x -> method x = B "INVITE" ->
  exists s' n c v', handle cfg EHangup s = mkres s' [OSend (so_remote k) c (msg_append (w_rid (c_world cfg n)) c)] Cont /\ so s' = Some k /\ the_request s' = set_vias [v'] x /\ fit cfg (set_vias [v'] x) /\ fit cfg c /\
    method c = B "CANCEL" /\ callid c = callid x /\ cseq c = cseq x /\ request c = request x /\ addrs c From = addrs x From /\ cancelled x (msg_append (w_rid (c_world cfg n)) c) /\
    (forall r, ResponseMatch x r = true -> ResponseMatch (set_vias [v'] x) r = true) /\ (forall r, ResponseMatch c r = true -> ResponseMatch (set_vias [v'] x) r = false).
Proof.
  intros NF (K & SG & Q & I & RM & LS & RS & ST) FX MI. cbn [handle]. unfold sendHangup, look. replace ((st s =? Proceeding) || (st s =? Ringing))%bool with true by (destruct ST as [-> | ->]; reflexivity). rewrite I.
  rewrite send_eq. cbv zeta. change (maxforwards (NewCancel x)) with 0. rewrite (lowered_zero (NewCancel x) eq_refl). cbn [Z.eqb].
  set (s1 := set_invite (set_vias (vias (NewCancel x)) (invite s)) s). destruct (NF (clock s1)) as (_ & _ & _ & WR & TS & _). set (w := c_world cfg (clock s1)) in *.
  destruct (fit_stamp cfg x (w_stamp w) FX TS) as (x' & EX & FX' & v0 & l0 & p0 & _ & E0). remember (set_vparam p0 v0 :: l0) as vs eqn:W0. subst x'. destruct (fit_stamp cfg _ (w_stamp w) (cancel_fit _ _ FX) TS) as (c & EC & FC & v3 & l3 & p3 & _ & E3). remember (set_vparam p3 v3 :: l3) as vc eqn:W3. subst c. clear W0 W3.
  pose proof FX as (_ & _ & CM & _ & v & b & V & NP & HB).
  assert (VV : exists v', vs = [v'] /\ vc = [v'] /\ v_host v' = v_host v /\ v_port v' = v_port v /\ value_of (B "branch") (v_param v') = Some b).
  { destruct FX' as (_ & _ & _ & _ & v1 & b1 & V1 & _ & HB1). cbn [vias set_vias] in V1. subst vs. exists v1. split; [reflexivity|].
    unfold addTimestamp in EX, EC. change (vias (NewCancel x)) with (vias x) in EC. destruct (w_stamp w) as [ts|].
    - rewrite V in EX, EC. apply (f_equal (fun z => match z with Ok q => vias q | Panic => [] end)) in EX, EC. cbn [vias set_vias] in EX, EC. rewrite <- EC, EX. injection EX as <-. split; [reflexivity|]. split; [reflexivity|]. split; [reflexivity|]. cbn [set_vparam v_param]. rewrite value_skip by reflexivity. exact HB.
    - apply (f_equal (fun z => match z with Ok q => vias q | Panic => [] end)) in EX, EC. cbn [vias set_vias] in EX, EC. change (vias (NewCancel x)) with (vias x) in EC. rewrite V in EX, EC. injection EX as <-. rewrite <- EC. repeat split; assumption. }
  destruct VV as (v' & -> & -> & VH & VP & VB). rewrite EC. cbn [so set_clock set_invite]. change (so s1) with (so s). rewrite K, WR.
  do 2 eexists. exists (set_vias [v'] (NewCancel x)), v'. split; [reflexivity|]. split; [exact K|]. split; [unfold the_request; cbn [req set_invite set_clock invite s1]; rewrite Q, I; destruct x; reflexivity|]. split; [exact FX'|]. split; [exact FC|]. do 5 (split; [reflexivity|]). split; [|split].
  - destruct FC as (OK & _). specialize (OK (clock s1)). fold w in OK. destruct (msg_round_trip_partial _ _ OK) as (a & P & SV). rewrite written_text in P. destruct SV as (RQ & _ & EV & EA & ECI & EQ & _). destruct (RQ eq_refl) as (M & _). clear RQ.
    exists a, v, b, (written_via v'). split; [exact P|]. split; [exact M|]. split; [exact ECI|]. split; [exact EQ|]. split; [apply EA|]. split; [exact V|]. split; [|split; [exact VH|]; split; [exact VP|]; split; [exact HB|exact VB]].
    rewrite EV. cbn [written vias set_vias map]. rewrite dropped_id; [reflexivity|]. cbn [written_via v_port]. rewrite VP. exact NP.
  - intros r M. apply response_match_spec in M. apply response_match_spec. destruct M as (M1 & M2 & M3 & pre & w1 & w2 & post & M4 & M5 & (A1 & A2 & z & A3 & A4)). split; [exact M1|]. split; [exact M2|]. split; [exact M3|]. rewrite V in M5. injection M5 as <- <-. exists pre, w1, v', []. split; [exact M4|]. split; [reflexivity|]. split; [congruence|]. split; [congruence|]. exists z. split; [exact A3|congruence].
  - intros r M. apply response_match_spec in M. destruct M as (_ & _ & M & _). apply not_true_is_false. intros N. apply response_match_spec in N. destruct N as (_ & _ & N & _). cbn [method set_vias] in *. rewrite N, MI in M. discriminate.
Qed.
Theorem call_cancelled : forall cfg m ps a b c cs,
  (forall n, faultless (c_world cfg n)) -> invite_given cfg m ->
  Forall (fun p => reply_ok p /\ rp_status p < 200) ps -> reply_ok b -> reply_ok a -> 200 < rp_status a -> ~ In (rp_status a) [301; 302; 503] -> rp_contact a = c :: cs ->
  exists k inv inv_text rs cancel cancel_text confirm answer ack ack_text s,
    method inv = B "INVITE" /\ request inv = request m /\ (callid m <> [] -> callid inv = callid m) /\ (cseq m <> 0 -> cseq inv = cseq m) /\
    Forall2 (answered k inv_text) ps rs /\
    method cancel = B "CANCEL" /\ request cancel = request inv /\ cancelled inv cancel_text /\ answered k cancel_text b confirm /\
    answered k inv_text a answer /\ status answer = rp_status a /\ method ack = B "ACK" /\ acked inv (a_uri c) ack_text /\
    dialog cfg m (map EMsg rs ++ [EHangup; EMsg confirm; EMsg answer])
      (mkres s (OSend (so_remote k) inv inv_text :: concat (map told ps) ++ [OSend (so_remote k) cancel cancel_text; OSend (so_remote k) ack ack_text; OErr (DResponse answer)]) Halt).
Proof.
  intros cfg m ps a b c cs NF IG PS BO AO GT NI AC. destruct (waiting cfg m ps NF IG PS) as (k & x & n & rs & s1 & FX & D1 & D6 & D2 & D3 & F & C1 & R1). set (t := msg_append _ x) in *.
  destruct (cancel_turn cfg s1 k x NF C1 FX D1) as (s2 & n2 & can & v' & T1 & K2 & TR2 & FX' & FC & CM & CC & CQ & CR & CF & CAN & MS & MN).
  destruct (reply_comes cfg x k n a FX AO) as (r & AN & S2 & MT & EC & EQ & ES & EP & ET & ER & EF & AA & NT & v & VV & VO). fold t in AN.
  set (ct := msg_append _ can) in *. destruct (reply_comes cfg can k n2 b FC BO) as (r2 & AN2 & S22 & MT2 & EC2 & EQ2 & ES2 & _). fold ct in AN2. rewrite AC in ET.
  assert (CU : exists u, a_uri c = Some u). { destruct AO as (_ & _ & _ & _ & CO & _). rewrite AC in CO. inversion CO as [|? ? ((u & U & _) & _) _]; subst. eauto. } destruct CU as [u CU].
  assert (RF : refusal r) by (unfold refusal; rewrite ES; cbn in NI; lia).
  assert (T2 : handle cfg (EMsg r2) s2 = mkres s2 [] Cont).
  { cbn [handle]. unfold handleMessage. destruct S22 as [-> ->]. cbn [Z.eqb negb orb Pos.eqb]. unfold look. rewrite TR2. change (callid (set_vias [v'] x)) with (callid x). rewrite EC2, CC, bseq_refl. cbn [negb]. unfold IsResponse. destruct (Z.ltb_spec 0 (status r2)); [|destruct BO; lia].
    unfold handleResponse, look. rewrite TR2, (MN _ MT2). reflexivity. }
  destruct (refusal_turn cfg s2 k _ r c cs u v NF K2 TR2 FX' D1 S2 (MS _ MT) EC RF ET CU AA NT EF VV VO) as (s3 & ack & text & AM & AK & T3).
  exists k, x, t, rs, can, ct, r2, r, ack, text, s3. repeat (split; [assumption|]). split; [rewrite CU; exact AK|].
  eapply run_app; [exact R1|]. apply run_step; [reflexivity|reflexivity|]. cbn [r_state r_out]. rewrite T1. cbn [r_state r_out r_v]. apply run_step; [reflexivity|reflexivity|]. cbn [r_state r_out]. rewrite T2. cbn [r_state r_out r_v].
  apply run_step; [reflexivity|reflexivity|]. cbn [r_state r_out]. rewrite T3. cbn [r_state r_out r_v]. repeat (rewrite <- ?app_assoc; cbn [app]). apply run_nil.
Qed.
(** ** The peer hangs up *)
Theorem peer_hangs_up : forall cfg m ps a c cs,
  (forall n, faultless (c_world cfg n)) -> invite_given cfg m ->
  Forall (fun p => reply_ok p /\ rp_status p < 200) ps -> reply_ok a -> rp_status a = 200 -> rp_contact a = c :: cs ->
  exists k inv inv_text rs answer ack ack_text,
    method inv = B "INVITE" /\ request inv = request m /\ (callid m <> [] -> callid inv = callid m) /\ (cseq m <> 0 -> cseq inv = cseq m) /\
    Forall2 (answered k inv_text) ps rs /\ answered k inv_text a answer /\ method ack = B "ACK" /\ acked inv (a_uri c) ack_text /\
    forall rid bye v b src stamp, on_its_way rid bye v b -> the_vmaj bye = 2 -> the_vmin bye = 0 -> source_ok src -> (forall t, stamp = Some t -> token t) ->
      method bye = B "BYE" -> callid bye = callid inv ->
      exists r rsp rsp_text s, delivers (so_lhost k) (so_lport k) (msg_append rid bye) src stamp r /\ gets rid bye r /\ recognised bye 200 rsp_text /\
      dialog cfg m (map EMsg rs ++ [EMsg answer; EMsg r])
        (mkres s (OSend (so_remote k) inv inv_text :: concat (map told ps) ++ [OSend (so_remote k) ack ack_text] ++ media_of (rp_pay a) ++ [OState Answered; OSend (so_remote k) rsp rsp_text; OState Hangup]) Halt).
Proof.
  intros cfg m ps a c cs NF IG PS AO A200 AC. destruct (waiting cfg m ps NF IG PS) as (k & x & n & rs & s1 & FX & D1 & D6 & D2 & D3 & F & C1 & R1). set (t := msg_append _ x) in *.
  destruct (reply_comes cfg x k n a FX AO) as (r & AN & S2 & MT & EC & EQ & ES & EP & ET & ER & EF & AA & NT & v & VV & VO). fold t in AN.
  pose proof C1 as (K1 & SG1 & Q1 & I1 & RM1 & LS1 & RS1 & ST1). pose proof (calling_request _ _ _ _ C1) as TR.
  assert (MA : matching s1 r) by (split; [exact S2|]; rewrite TR; auto). rewrite AC in ET.
  assert (CU : exists u, a_uri c = Some u). { destruct AO as (_ & _ & _ & _ & CO & _). rewrite AC in CO. inversion CO as [|? ? ((u & U & _) & _) _]; subst. eauto. } destruct CU as [u CU].
  destruct (answer_turn cfg NF s1 r k c cs u v K1 MA) as (n1 & ack & at_ & AM & AK & T1); [rewrite TR, D1; reflexivity|congruence|exact ET|exact CU|exact (has_audio_reply _ _ AO EP)|exact RM1|rewrite TR; exact FX|exact AA|exact NT|rewrite TR; exact EF|exact VV|exact VO|].
  rewrite TR in AK. set (s2 := set_remote _ _) in T1. assert (ME : media r = media_of (rp_pay a)) by (unfold media, media_of; rewrite EP; reflexivity). rewrite ME in T1.
  exists k, x, t, rs, r, ack, at_. repeat (split; [assumption|]). split; [rewrite CU; exact AK|].
  intros rid bye v0 b src stamp OW VJ VN SO TK BM BC.
  assert (TR2 : the_request s2 = x) by exact TR.
  destruct (peer_request_answered cfg NF s2 k rid bye v0 b src stamp 200 [] [OState Hangup] Halt K1 OW VJ VN SO TK) as (r2 & DL & GT & s3 & rsp & rt & T2 & RC).
  { apply re_bye; [rewrite TR2; exact BC|left; exact RS1|exact BM]. }
  exists r2, rsp, rt, s3. split; [exact DL|]. split; [exact GT|]. split; [exact RC|].
  eapply run_app; [exact R1|]. apply run_step; [reflexivity|reflexivity|]. cbn [r_state r_out]. rewrite T1. cbn [r_state r_out r_v]. apply run_step; [reflexivity|reflexivity|]. cbn [r_state r_out]. rewrite T2. cbn [r_state r_out r_v].
  repeat (rewrite <- ?app_assoc; cbn [app]). apply run_nil.
Qed.

(** ** Example: the BYE of a peer at 10.0.0.2 port 40001, for any call *)
Definition ex_peer_bye (call : bytes) : msg :=
  set_method (B "BYE") (set_request (Some (mkuri (B "sip") [] [] (B "10.0.0.9") 40000 [] [])) (set_addr From (at_ (B "10.0.0.2")) (set_addr To (at_ (B "10.0.0.9")) (set_callid call (set_cseq 1 (set_cseqmethod (B "BYE")
    (set_maxforwards 70 (set_vias [mkvia (B "SIP") (B "2.0") (B "UDP") (B "10.0.0.2") 40001 [(B "branch", B "z9hG4bK-b")]] msg0)))))))).
Example ends_example : (forall call, callid_text call -> exists v, on_its_way (B "1") (ex_peer_bye call) v (B "z9hG4bK-b") /\ the_vmaj (ex_peer_bye call) = 2 /\ the_vmin (ex_peer_bye call) = 0 /\
    method (ex_peer_bye call) = B "BYE" /\ callid (ex_peer_bye call) = call /\ reaction call 0 (ex_peer_bye call) 200 [] [OState Hangup] Halt /\ reaction (B "other@") 0 (ex_peer_bye (B "c")) 481 [] [] Cont) /\
  source_ok (B "10.0.0.2", 40001) /\ reply_ok (ex_reply 486 (at_ (B "10.0.0.2")) None) /\ reply_ok (ex_reply 487 (at_ (B "10.0.0.2")) None) /\ reply_ok (ex_reply 200 [] None).
Proof.
  assert (T : forall b, forallb token_class b = true -> b <> [] -> token b) by (split; assumption).
  assert (AT : forall h, h = B "10.0.0.2" \/ h = B "10.0.0.9" -> Forall addr_ok (at_ h)).
  { intros h H. constructor; [|constructor]. split; [eexists; split; [reflexivity|]|split; [left; reflexivity|constructor]]. destruct H as [-> | ->]; (split; [|constructor]; split; [eexists _, _; split; [reflexivity|]; repeat split|]; split; [discriminate|]; split; [split; [discriminate|]; split; reflexivity|]; split; [cbn; lia|]; split; constructor). }
  split.
  - intros call CT. eexists. split; [|split; [reflexivity|]; split; [reflexivity|]; split; [reflexivity|]; split; [reflexivity|]; split; [apply re_bye; auto|apply re_stranger; discriminate]].
    split; [|split; [reflexivity|]; split; [reflexivity|]; split; [reflexivity|]; split; [reflexivity|]; split; [|split; [reflexivity|]; split; [apply T; [reflexivity|discriminate]|discriminate]]].
    + split; [left; split; [reflexivity|]; split; [apply T; [reflexivity|discriminate]|]; eexists; split; [reflexivity|]|].
      { split; [|constructor]. split; [eexists _, _; split; [reflexivity|]; repeat split|]. split; [reflexivity|]. split; [split; [discriminate|]; split; reflexivity|]. split; [cbn; lia|]. split; constructor. }
      split; [cbn; lia|]. split; [cbn; lia|]. split; [discriminate|]. split; [discriminate|]. split; [intros []; try exact (Forall_nil _); apply AT; auto|].
      split; [constructor; [|constructor]; repeat split; try discriminate; try reflexivity; try (cbn; lia); constructor; [|constructor]; split; [apply T; [reflexivity|discriminate]|right; left; apply T; [reflexivity|discriminate]]|].
      split; [exact CT|]. split; [cbn; lia|]. split; [apply T; [reflexivity|discriminate]|]. split; [cbn; lia|]. split; [cbn; lia|]. split; [cbn; lia|]. split; [intros f; destruct f; exact header_val_nil|]. split; [constructor|]. intros p E. discriminate.
    + split; [|split; [unfold port_ok; cbn; lia|]; split; [discriminate|]; split; [reflexivity|left; reflexivity]]. split; [right; apply T; [reflexivity|discriminate]|]. split; [right; apply T; [reflexivity|discriminate]|]. split; [right; apply T; [reflexivity|discriminate]|]. split; [discriminate|]. split; [reflexivity|].
      constructor; [|constructor]. split; [apply T; [reflexivity|discriminate]|right; left; apply T; [reflexivity|discriminate]].
  - split; [split; [left; apply T; [reflexivity|discriminate]|cbn; lia]|]. destruct call_example as (_ & _ & _ & _ & X). pose proof X as (_ & X2 & X3 & X4 & _ & X6 & X7 & _ & _ & X10).
    assert (R : forall n c, 100 <= n <= 999 -> Forall addr_ok c -> reply_ok (ex_reply n c None)) by (intros n c N C; split; [exact N|]; split; [exact X2|]; split; [exact X3|]; split; [exact X4|]; split; [exact C|]; split; [exact X6|]; split; [exact X7|]; split; [discriminate|]; split; [discriminate|exact X10]).
    split; [apply R; [lia|apply AT; auto]|]. split; [apply R; [lia|apply AT; auto]|exact X].
Qed.
