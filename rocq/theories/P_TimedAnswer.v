(** C99: the peer of a call that was answered sends another INVITE and does not acknowledge the answer. *)
From Verif Require Import Bytes BytesLemmas GoLib GoLibLemmas SdpModel SdpProofs SipText SipTypes SipAppend UtilModel P_Text P_Lists UriSpec P_Uri MsgModel MsgSpec MsgGrammar P_MsgText MsgWf MsgRound P_MsgRound
  DialogMsg P_DialogMsg P_DialogWire TransportModel DialogModel P_DialogEnd P_Dialog P_DialogSafe P_DialogFail P_DialogPeer P_DialogRuns P_DialogCount P_DialogCall P_DialogTell P_DialogWhere P_Written P_Call P_Loss P_DialogFail P_DialogPeer P_Detour LiveModel P_Live P_LiveCall TimedModel P_Timed P_TimedCall.
Local Open Scope Z_scope.

(** ** What is sent *)
(** [w] answers the request [q] with 200. *)
Definition answer_to (q w : msg) : Prop :=
  status w = 200 /\ callid w = callid q /\ cseq w = cseq q /\ cseqmethod w = cseqmethod q /\ addrs w From = addrs q From /\ addrs w To = addrs q To /\ pay w = None.
(** the state of a dialog whose answer [w] is to be repeated *)
Definition answering (k : sock) (q : msg) (n : Z) (s : dstate) : Prop :=
  so s = Some k /\ routes s = [] /\ rsptimer s = true /\ rspresends s = n /\ exists w, response s = Some w /\ vias w <> [] /\ maxforwards w = 0 /\ answer_to q w.
Section Answer.
Variable cfg : config.
Hypothesis NF : forall n, faultless (c_world cfg n).
Lemma writes n t : w_write (c_world cfg n) t = true. Proof. destruct (NF n) as (_ & _ & _ & W & _). apply W. Qed.
Lemma answer_turn_again k q n s : answering k q n s -> n < c_max cfg -> exists s' w t, answer_to q w /\ answering k q (n + 1) s' /\ dest s' = dest s /\ handle cfg ERspTimer s = mkres s' [OSend (so_remote k) w t] Cont.
Proof.
  intros (K & RO & RT & RS & a & R & V & MF & A) L. cbn [handle]. rewrite upd_seq. unfold resendResponse, look. change (response (set_rsptimer false s)) with (response s). rewrite R. change (rspresends (set_rsptimer false s)) with (rspresends s).
  destruct (Z.ltb_spec (rspresends s) (c_max cfg)); [|lia]. rewrite seq_eq, send_eq. cbv zeta. rewrite MF, (lowered_zero _ MF). unfold keep_response. cbn [Z.eqb so set_clock set_response set_rsptimer clock]. rewrite K.
  destruct (stamp_vias a (w_stamp (c_world cfg (clock s))) V) as (v & VN & ->). rewrite writes. cbn [r_v r_state r_out]. rewrite upd_seq. cbn [r_v r_state r_out upd go app].
  match goal with |- exists s' w t, _ /\ _ /\ _ /\ mkres ?x _ _ = _ => exists x end. eexists (set_vias v a), _. split; [exact A|]. split; [|split; reflexivity]. split; [exact K|]. split; [exact RO|]. split; [reflexivity|]. split; [cbn [rspresends set_rsptimer set_rspresends set_clock set_response]; lia|].
  exists (set_vias v a). split; [reflexivity|]. split; [exact VN|]. split; [exact MF|]. exact A.
Qed.
Lemma answers_run k q j : forall n s out, answering k q n s -> n + Z.of_nat j <= c_max cfg ->
  exists l s', length l = j /\ Forall (fun c => answer_to q (fst c)) l /\ answering k q (n + Z.of_nat j) s' /\ dest s' = dest s /\ run cfg (mkres s out Cont) (repeat ERspTimer j) (mkres s' (out ++ sent_to k l) Cont).
Proof.
  induction j as [|j IH]; intros n s out A L.
  - exists [], s. split; [reflexivity|]. split; [constructor|]. split; [change (Z.of_nat 0) with 0; rewrite Z.add_0_r; exact A|]. split; [reflexivity|]. cbn. rewrite app_nil_r. constructor.
  - destruct (answer_turn_again k q n s A) as (s1 & w & t & AW & A1 & D1 & H); [lia|]. destruct (IH (n + 1) s1 (out ++ [OSend (so_remote k) w t]) A1) as (l & s' & LL & AL & A2 & D2 & R); [lia|].
    exists ((w, t) :: l), s'. split; [cbn; congruence|]. split; [constructor; assumption|]. split; [replace (n + Z.of_nat (S j)) with (n + 1 + Z.of_nat j) by lia; exact A2|]. split; [congruence|]. cbn [repeat]. pose proof A as (_ & _ & RT & _).
    apply run_step; [reflexivity|exact RT|]. cbn [r_state r_out]. rewrite H. cbn [r_state r_out r_v]. rewrite <- app_assoc in R. exact R.
Qed.
Lemma answer_given_up k q s out : answering k q 0 s -> 0 <= c_max cfg ->
  exists l, Z.of_nat (length l) = c_max cfg /\ Forall (fun c => answer_to q (fst c)) l /\
    (exists s', run cfg (mkres s out Cont) (repeat ERspTimer (S (length l))) (mkres s' (out ++ sent_to k l ++ [OErr (DContact (dest s))]) Halt)) /\
    forall j r, run cfg (mkres s out Cont) (repeat ERspTimer j) r -> (j <= S (length l))%nat /\ r_out r = out ++ firstn j (sent_to k l ++ [OErr (DContact (dest s))]) /\ r_v r = if (j =? S (length l))%nat then Halt else Cont.
Proof.
  intros A MX. destruct (answers_run k q (Z.to_nat (c_max cfg)) 0 s out A) as (l & s1 & LL & AL & A1 & DS & R); [lia|].
  assert (LZ : Z.of_nat (length l) = c_max cfg) by lia. rewrite <- LL in R. pose proof A1 as (K1 & RO1 & RT1 & RS1 & w & W & _).
  destruct (unacknowledged_refuted cfg s1 k w K1 W) as [H1 H2]; [lia|exact RO1|].
  assert (RF : run cfg (mkres s out Cont) (repeat ERspTimer (S (length l))) (mkres (r_state (handle cfg ERspTimer s1)) (out ++ sent_to k l ++ [OErr (DContact (dest s))]) Halt)).
  { change (repeat ERspTimer (S (length l))) with (ERspTimer :: repeat ERspTimer (length l)). rewrite repeat_cons. apply (run_app cfg _ _ _ _ _ R). apply run_step; [reflexivity|exact RT1|]. cbn [r_state r_out]. rewrite H1, H2, DS, <- app_assoc. constructor. }
  exists l. split; [exact LZ|]. split; [exact AL|]. split; [eexists; exact RF|]. intros j r Rj. assert (JL : (j <= S (length l))%nat).
  { destruct (Nat.le_gt_cases j (S (length l))) as [|G]; [assumption|exfalso]. replace (repeat ERspTimer j) with (repeat ERspTimer (S (length l)) ++ repeat ERspTimer (j - S (length l))) in Rj by (rewrite <- repeat_app; f_equal; lia). destruct (run_split _ _ _ _ _ Rj) as (r1 & R1 & R2).
    rewrite <- (run_one _ _ _ _ RF _ R1) in R2. apply run_halt in R2; [|discriminate]. replace (j - S (length l))%nat with (S (j - S (S (length l)))) in R2 by lia. discriminate. }
  split; [exact JL|]. destruct (Nat.eqb_spec j (S (length l))) as [->|NE].
  - rewrite <- (run_one _ _ _ _ RF _ Rj). cbn [r_out r_v]. split; [|reflexivity]. f_equal. symmetry. apply firstn_all2. rewrite app_length. unfold sent_to. rewrite map_length. cbn. lia.
  - destruct (answers_run k q j 0 s out A) as (l2 & s2 & LL2 & _ & _ & _ & R2); [lia|]. rewrite <- (run_one _ _ _ _ R2 _ Rj). cbn [r_out r_v]. split; [|reflexivity]. f_equal.
    replace (repeat ERspTimer (length l)) with (repeat ERspTimer j ++ repeat ERspTimer (length l - j)) in R by (rewrite <- repeat_app; f_equal; lia). destruct (run_split _ _ _ _ _ R) as (r1 & R3 & R4). rewrite <- (run_one _ _ _ _ R2 _ R3) in R4. destruct (run_out _ _ _ _ R4) as (o & O). cbn [r_out] in O.
    rewrite <- app_assoc in O. apply app_inv_head in O. rewrite firstn_app. assert (LS : forall q : list (msg * bytes), length (sent_to k q) = length q) by (intros z; unfold sent_to; apply map_length). rewrite LS. replace (j - length l)%nat with 0%nat by lia. cbn [firstn]. rewrite app_nil_r, O.
    rewrite firstn_app, LS, LL2, Nat.sub_diag. cbn [firstn]. rewrite app_nil_r. symmetry. apply firstn_all2. rewrite LS. lia.
Qed.
(** The other INVITE is answered. *)
Lemma reinvite_turn s k q : so s = Some k -> routes s = [] -> vias q <> [] -> current_request s q -> method q = B "INVITE" -> has_audio q ->
  exists s' w t, answer_to q w /\ answering k q 0 s' /\ dest s' = dest s /\ handle cfg (EMsg q) s = mkres s' (media q ++ [OSend (so_remote k) w t]) Cont.
Proof.
  intros K RO V C M AU. rewrite (reinvite_split _ _ _ C M), seq_eq, (sdp_reported _ _ AU). fold (media q). cbn [r_v r_state r_out]. unfold sendResponse. rewrite !upd_seq. rewrite send_eq. cbv zeta. change (maxforwards (NewResponse q 200)) with 0. rewrite (lowered_zero (NewResponse q 200) eq_refl).
  unfold keep_response. cbn [Z.eqb so set_clock set_response set_rsptimer set_rspresends set_remote set_rseq clock]. rewrite K. destruct (stamp_vias (NewResponse q 200) (w_stamp (c_world cfg (clock s))) V) as (v & VN & E). rewrite E. rewrite writes. cbn [r_v r_state r_out].
  assert (A : answer_to q (set_vias v (NewResponse q 200))) by (repeat split). match goal with |- exists s' w t, _ /\ _ /\ _ /\ mkres ?x _ _ = _ => exists x end. eexists (set_vias v (NewResponse q 200)), _. split; [exact A|]. split; [|split; reflexivity]. split; [exact K|]. split; [exact RO|]. do 2 (split; [reflexivity|]). exists (set_vias v (NewResponse q 200)). split; [reflexivity|]. split; [exact VN|]. split; [reflexivity|exact A].
Qed.
End Answer.
(** ** When *)
Definition only_response_timer (us : list turn) : Prop := Forall (fun u => u_event u = ERspTimer) us.
Lemma only_response_events us : only_response_timer us -> map u_event us = repeat ERspTimer (length us).
Proof. induction 1 as [|u us E _ IH]; [reflexivity|]. cbn. rewrite E, IH. reflexivity. Qed.
Lemma response_bound cfg ms us : forall x y t, only_response_timer us -> tsteps cfg ms x us y -> not_before_rsp ms t x -> forall i u, nth_error us i = Some u -> t + (Z.of_nat i + 1) * Z.max 0 (duration ms) <= u_at u.
Proof.
  induction us as [|v us IH]; intros x y t O S N i u I; [destruct i; discriminate|]. inversion S as [|? ? z ? ? S1 S2]; subst. inversion O as [|? ? O1 O2]; subst. destruct (later_rsp _ _ _ _ _ _ S1 N) as [_ N2]. destruct (N2 O1) as [N3 N4]. destruct i as [|i]; [injection I as ->; change (Z.of_nat 0) with 0; lia|].
  specialize (IH _ _ _ O2 S2 N4 i u I). rewrite Nat2Z.inj_succ. replace ((Z.succ (Z.of_nat i) + 1) * Z.max 0 (duration ms)) with ((Z.of_nat i + 1) * Z.max 0 (duration ms) + Z.max 0 (duration ms)) by ring. lia.
Qed.
(** Every execution of the event loop is one with times: it is enough to wait. *)
Theorem runs_timed : forall cfg ms x es r, run cfg (t_loop x) es r -> exists us y, tsteps cfg ms x us y /\ map u_event us = es /\ t_loop y = r.
Proof.
  intros cfg ms x es. revert x. induction es as [|e es IH]; intros x r R; inversion R as [|? ? ? ? V EN R2]; subst; [exists [], x; split; [constructor|auto]|].
  set (w := Z.max (t_now x) (Z.max (t_request x) (t_response x))). set (u := mkturn e w w w).
  assert (ST := t_turn cfg ms x u V EN ltac:(cbn; lia) (Z.le_refl _) (Z.le_refl _) ltac:(cbn; lia) ltac:(cbn; lia)). cbv zeta in ST. cbn [u_event u_arm u_end u] in ST. set (z := mktimed _ _ _ _) in ST. destruct (IH z r R2) as (us & y & S & E1 & E2). exists (u :: us), y. split; [econstructor; eassumption|]. cbn [map u_event u]. rewrite E1. auto.
Qed.
(** A request of the peer within the call [inv]: another INVITE, with a description that can be used if it has one. *)
Definition another_invite (inv q : msg) : Prop :=
  method q = B "INVITE" /\ sip2 q /\ status q <= 0 /\ callid q = callid inv /\ 0 < maxforwards q /\ vias q <> [] /\ has_audio q.
(** The call was answered, the peer sends another INVITE, and nothing more is heard, in particular no ACK. The answer is transmitted maxResends + 1 times in all, at
    intervals. Then the dialog reports that the destination cannot be contacted and ends, although the call is up. It sends no BYE. *)
Theorem unacknowledged_call_dropped_refuted : forall cfg m ps a c cs, (forall n, faultless (c_world cfg n)) -> invite_given cfg m -> 0 <= c_max cfg ->
  Forall (fun p => reply_ok p /\ rp_status p < 200) ps -> reply_ok a -> rp_status a = 200 -> rp_contact a = c :: cs ->
  exists k inv inv_text rs answer ack ack_text, method inv = B "INVITE" /\ request inv = request m /\ Forall2 (answered k inv_text) ps rs /\ answered k inv_text a answer /\ method ack = B "ACK" /\
    forall q, another_invite inv q -> exists answers host, Forall (fun w => answer_to q (fst w)) answers /\ Z.of_nat (length answers) = c_max cfg + 1 /\
    (forall ms arm end_ us h us' y, tsteps cfg ms (tbegin cfg ms m arm end_) (us ++ h :: us') y -> map u_event us = map EMsg rs ++ [EMsg answer] -> u_event h = EMsg q -> only_response_timer us' ->
      (length us' <= length answers)%nat /\
      r_out (t_loop y) = OSend (so_remote k) inv inv_text :: concat (map told ps) ++ OSend (so_remote k) ack ack_text :: media_of (rp_pay a) ++ OState Answered :: media_of (pay q) ++ firstn (S (length us')) (sent_to k answers ++ [OErr (DContact host)]) /\
      r_v (t_loop y) = (if (length us' =? length answers)%nat then Halt else Cont) /\ on_time ms (u_arm h) us') /\
    forall ms arm end_, exists us h us' y, tsteps cfg ms (tbegin cfg ms m arm end_) (us ++ h :: us') y /\ map u_event us = map EMsg rs ++ [EMsg answer] /\ u_event h = EMsg q /\ only_response_timer us' /\ length us' = length answers.
Proof.
  intros cfg m ps a c cs NF (RG & MI & RR & LR & CB) MX PS AO A200 AC.
  destruct (sent_faultless cfg NF None (init m)) as (s0 & k & x & n & E0 & FX & (D1 & D2 & D3 & D4 & _ & D6 & _) & (_ & _ & _ & _ & n0 & W0) & _ & K0 & SG0 & _ & ST0 & RI & LS); [split; discriminate|exact RG|change (method m <> B "REGISTER"); rewrite MI; discriminate|exact LR|].
  destruct (RI eq_refl) as [R0 I0]. destruct LS as (RM0 & LS0 & RS0); [reflexivity|]. change (match None with Some b => b | None => invite (init m) end) with m in *. cbn [invite init] in D1, D2, D3, D4, D6.
  assert (C0 : calling cfg k x s0) by (unfold calling; repeat (split; [assumption|]); left; exact ST0). set (t := msg_append (w_rid (c_world cfg n)) x) in *.
  destruct (progress_run cfg NF k x n ps FX PS s0 [OSend (so_remote k) x t] C0) as (rs & s1 & F & C1 & R1).
  destruct (reply_comes cfg x k n a FX AO) as (r & AN & S2 & MT & EC & EQ & ES & EP & ET & ER & EF & AA & NT & v & VV & VO).
  pose proof C1 as (K1 & SG1 & Q1 & I1 & RM1 & LS1 & RS1 & _). pose proof (calling_request _ _ _ _ C1) as TR.
  assert (MA : matching s1 r) by (split; [exact S2|]; rewrite TR; auto). rewrite AC in ET.
  assert (CU : exists u, a_uri c = Some u). { destruct AO as (_ & _ & _ & _ & CO & _). rewrite AC in CO. inversion CO as [|? ? ((u & U & _) & _) _]; subst. eauto. } destruct CU as [u CU].
  destruct (answer_turn cfg NF s1 r k c cs u v K1 MA) as (n1 & ack & at_ & AM & AK & T1); [rewrite TR, D1; exact MI|congruence|exact ET|exact CU|exact (has_audio_reply _ _ AO EP)|exact RM1|rewrite TR; exact FX|exact AA|exact NT|rewrite TR; exact EF|exact VV|exact VO|].
  set (s2 := set_remote _ _) in T1. assert (ME : media r = media_of (rp_pay a)) by (unfold media, media_of; rewrite EP; reflexivity).
  exists k, x, t, rs, r, ack, at_. split; [congruence|]. split; [exact D6|]. split; [exact F|]. split; [exact AN|]. split; [exact AM|].
  intros q (QM & QS & QZ & QC & QF & QV & QA). destruct (reinvite_turn cfg NF s2 k q K1 eq_refl QV) as (s3 & w & tw & AW & A3 & D3' & H); [|exact QM|exact QA|].
  { split; [exact QS|]. split; [|split; [exact QZ|split; [exact QF|left; exact RS1]]]. change (the_request s2) with (the_request s1). rewrite TR. exact QC. }
  set (o2 := OSend (so_remote k) x t :: concat (map told ps) ++ OSend (so_remote k) ack at_ :: media_of (rp_pay a) ++ [OState Answered]).
  destruct (answer_given_up cfg NF k q s3 (o2 ++ media q ++ [OSend (so_remote k) w tw]) A3 MX) as (l & LL & AL & (s5 & R5) & G).
  exists ((w, tw) :: l), (dest s3). split; [constructor; assumption|]. split; [cbn [length]; lia|].
  assert (RUN : run cfg (start cfg m) (map EMsg rs ++ [EMsg r]) (mkres s2 o2 Cont)).
  { unfold start. rewrite E0. eapply run_app; [exact R1|]. apply run_step; [reflexivity|reflexivity|]. cbn [r_state]. rewrite T1. cbn [r_state r_out r_v]. rewrite ME. unfold o2. repeat (rewrite <- ?app_assoc; cbn [app]). apply run_nil. }
  split; [|intros ms arm end_]. 2:{
    assert (RQ : run cfg (start cfg m) ((map EMsg rs ++ [EMsg r]) ++ EMsg q :: repeat ERspTimer (S (length l))) (mkres s5 ((o2 ++ media q ++ [OSend (so_remote k) w tw]) ++ sent_to k l ++ [OErr (DContact (dest s3))]) Halt)).
    { eapply run_app; [exact RUN|]. apply run_step; [reflexivity|reflexivity|]. cbn [r_state]. rewrite H. cbn [r_state r_out r_v]. exact R5. }
    change (start cfg m) with (t_loop (tbegin cfg ms m arm end_)) in RQ. destruct (runs_timed cfg ms _ _ _ RQ) as (vs & y & TS & E & _). apply map_eq_app in E. destruct E as (us & vs' & -> & E1 & E2). destruct vs' as [|h us']; [discriminate|]. injection E2 as E2 E3. change (ERspTimer :: repeat ERspTimer (length l)) with (repeat ERspTimer (S (length l))) in E3. exists us, h, us', y. split; [exact TS|]. split; [exact E1|]. split; [exact E2|].
    assert (LU : length us' = S (length l)) by (rewrite <- (map_length u_event us'); rewrite E3; apply repeat_length). split; [|exact LU]. clear -E3. apply Forall_forall. intros u I. apply (in_map u_event) in I. rewrite E3 in I. exact (repeat_spec _ _ _ I). }
  intros ms arm end_ us h us' z S EU EH OT. destruct (tsteps_app _ _ _ _ _ _ S) as (z1 & Z1 & Z2). assert (CN : exists z2, tstep cfg ms z1 h z2 /\ tsteps cfg ms z2 us' z) by (inversion Z2; eauto). destruct CN as (z2 & Z3 & Z4).
  assert (L1 : t_loop z1 = mkres s2 o2 Cont).
  { pose proof (timed_runs _ _ _ _ _ Z1) as R. rewrite EU in R. cbn [tbegin t_loop] in R. symmetry. exact (run_one _ _ _ _ RUN _ R). }
  assert (HH : t_loop z2 = mkres s3 (o2 ++ media q ++ [OSend (so_remote k) w tw]) Cont /\ not_before_rsp ms (u_arm h) z2).
  { destruct Z3 as [z1 h sz rz V EN N1 N2 N3 _ _]. subst rz sz. rewrite EH, L1 in *. cbn [r_state r_out r_v t_loop t_now t_response] in *. rewrite H. cbn [r_state r_out r_v]. split; [reflexivity|]. split; [exact N3|]. cbn [t_loop r_state t_response]. intros _.
    assert (AR : arms_response cfg (EMsg q) s2 = true). { unfold arms_response. destruct (reinvite_turn cfg NF (set_rsptimer false s2) k q K1 eq_refl QV) as (s4 & w4 & t4 & _ & (_ & _ & A4 & _) & _ & H4); [|exact QM|exact QA|rewrite H4; exact A4].
      split; [exact QS|]. split; [|split; [exact QZ|split; [exact QF|left; exact RS1]]]. change (the_request (set_rsptimer false s2)) with (the_request s1). rewrite TR. exact QC. }
    rewrite AR. unfold due. lia. }
  destruct HH as [L2 NB]. pose proof (timed_runs _ _ _ _ _ Z4) as R. rewrite (only_response_events _ OT), L2 in R. destruct (G _ _ R) as (H1 & H2 & H3). split; [exact H1|]. split; [|split; [exact H3|]].
  - rewrite H2. unfold o2. change (media q) with (media_of (pay q)). repeat (rewrite <- ?app_assoc; cbn [app]). reflexivity.
  - intros i w' I. split; [exact (response_bound cfg ms us' _ _ _ OT Z4 NB i w' I)|intros e EE P; exact (prompt_bound _ _ _ EE _ _ _ P I)].
Qed.
(** The hypotheses are met by the call of P_Call.v; with two retransmissions its answer is sent three times. *)
Definition other_invite (id : bytes) : msg :=
  mkmsg 2 0 (B "INVITE") (Some (mkuri (B "sip") (B "alice") [] (B "10.0.0.9") 5070 [] [])) 0 [] None None (addrs ex_call) [mkvia (B "SIP") (B "2.0") (B "UDP") (B "10.0.0.1") 5060 [(B "branch", B "z9hG4bKq")]] id 3 (B "INVITE") 70 0 0 (strs ex_call) (xheader ex_call).
Example dropped_example : (forall inv, another_invite inv (other_invite (callid inv))) /\
  exists us y to answer t, tsteps (ex_cfg 2) 400 (tbegin (ex_cfg 2) 400 ex_call 0 0) us y /\ length us = 5%nat /\ r_v (t_loop y) = Halt /\ In (OSend to answer t) (r_out (t_loop y)) /\ status answer = 200.
Proof.
  assert (OI : forall inv, another_invite inv (other_invite (callid inv))) by (intros inv; split; [reflexivity|]; split; [split; reflexivity|]; split; [cbn; lia|]; split; [reflexivity|]; split; [cbn; lia|]; split; [discriminate|intros d; discriminate]).
  split; [exact OI|]. destruct call_example as (C1 & C2 & _ & C4 & _).
  destruct (unacknowledged_call_dropped_refuted (ex_cfg 2) ex_call [] (ex_reply 200 (at_ (B "10.0.0.2")) (Some (PSdp peer_sdp))) (hd (mkaddr None [] []) (at_ (B "10.0.0.2"))) [] C1 C2 ltac:(cbn; lia) (Forall_nil _) C4 eq_refl eq_refl) as (k & inv & it & rs & answer & ack & ackt & _ & _ & F & _ & _ & H).
  destruct (H _ (OI inv)) as (ws & host & AW & LW & G & X). destruct (X 400 0 0) as (us & h & us' & y & S & E1 & E2 & O & L). inversion F; subst rs. destruct (G _ _ _ _ _ _ _ S E1 E2 O) as (_ & OUT & V & _).
  assert (LS : length ws = 3%nat) by (cbn in LW; lia). destruct ws as [|[w t] ws]; [discriminate|]. inversion AW as [|? ? (W1 & _) _]; subst. exists (us ++ h :: us'), y, (so_remote k), w, t. split; [exact S|]. split.
  { rewrite app_length. cbn [length]. rewrite <- (map_length u_event us), E1. cbn [map app length]. lia. }
  split; [rewrite V, L, Nat.eqb_refl; reflexivity|]. split; [|exact W1]. rewrite OUT. right. cbn [map concat app]. right. apply in_or_app. right. right. apply in_or_app. right. left. reflexivity.
Qed.
