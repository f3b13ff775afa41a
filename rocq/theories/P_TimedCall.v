(** C99: a call and the clock. When nobody answers; when the BYE is not confirmed; when the call rings and nothing more is heard. *)
From Verif Require Import Bytes BytesLemmas GoLib GoLibLemmas SdpModel SdpProofs SipText SipTypes SipAppend UtilModel P_Text P_Lists UriSpec P_Uri MsgModel MsgSpec MsgGrammar P_MsgText MsgWf MsgRound P_MsgRound
  DialogMsg P_DialogMsg P_DialogWire TransportModel DialogModel P_DialogEnd P_Dialog P_DialogSafe P_DialogFail P_DialogPeer P_DialogRuns P_DialogCount P_DialogCall P_DialogTell P_DialogWhere P_Written P_Call P_Loss P_DialogFail P_DialogPeer P_Detour LiveModel P_Live P_LiveCall TimedModel P_Timed.
Local Open Scope Z_scope.

(** * What stays *)
Section Frame.
Context {T : Type} (f : dstate -> T).
Definition frame (a : action) : Prop := forall s, f (r_state (a s)) = f s.
Lemma frame_seq a b : frame a -> frame b -> frame (a ;; b).
Proof. intros A B s. rewrite seq_eq. destruct (r_v (a s)); cbn [r_state]; rewrite ?B, A; reflexivity. Qed.
Lemma frame_look {A} (g : dstate -> A) k : (forall x, frame (k x)) -> frame (look g k). Proof. intros H s. apply H. Qed.
Lemma frame_val {A} (x : res A) k : (forall a, frame (k a)) -> frame (val x k). Proof. intros H. destruct x; [apply H|]. intros s. reflexivity. Qed.
Lemma frame_upd g : (forall s, f (g s) = f s) -> frame (upd g). Proof. intros H s. apply H. Qed.
Lemma frame_fail e : frame (fail e). Proof. intros s. reflexivity. Qed.
Lemma frame_crash : frame crash. Proof. intros s. reflexivity. Qed.
Lemma frame_ask cfg k : (forall n s, f (set_clock n s) = f s) -> (forall w, frame (k w)) -> frame (ask cfg k). Proof. intros C H s. unfold ask. rewrite H. apply C. Qed.
Lemma frame_send cfg m keep : (forall n s, f (set_clock n s) = f s) -> (forall x s, f (keep x s) = f s) -> frame (send cfg m keep).
Proof.
  intros C P. unfold send. apply frame_seq; [apply frame_upd, P|]. destruct (_ && _); [apply frame_fail|]. apply frame_ask; [exact C|]. intros w. apply frame_val. intros m2. apply frame_seq; [apply frame_upd, P|].
  apply frame_look. intros [k|]; [|apply frame_crash]. cbv zeta. destruct (w_write _ _); intros s; reflexivity.
Qed.
End Frame.
Lemma request_dest m s : dest (set_the_request m s) = dest s. Proof. unfold set_the_request. destruct (req s); reflexivity. Qed.
Lemma request_routes m s : routes (set_the_request m s) = routes s. Proof. unfold set_the_request. destruct (req s); reflexivity. Qed.
Lemma connect_frame cfg w s : dest (fst (connect cfg w s)) = dest s /\ routes (fst (connect cfg w s)) = routes s.
Proof.
  unfold connect. destruct (match so s with Some k => bseq (daddr s) (so_remote k) | None => false end); [split; reflexivity|]. cbv zeta. destruct (w_dial _ _) as [k|]; [|split; reflexivity]. destruct (cso _); [split; reflexivity|]. destruct (c_loose cfg); [|split; reflexivity]. destruct (w_listen w); split; reflexivity.
Qed.
Section FrameLoop.
Variable cfg : config.
Lemma pop_dest rs : frame dest (pop_route cfg rs).
Proof.
  induction rs as [|a rest IH]; cbn [pop_route].
  - apply frame_seq; [apply frame_upd; reflexivity|]. apply frame_look. intros d. apply frame_fail.
  - apply frame_seq; [apply frame_upd; reflexivity|]. apply frame_seq; [apply frame_upd; reflexivity|]. apply frame_ask; [reflexivity|]. intros w s. destruct (connect_frame cfg w s) as (R2 & _). destruct (connect cfg w s) as [s1 ok]. cbn [fst] in *. rewrite <- R2.
    destruct ok; cbn [negb]; [|apply IH]. destruct (so s1) as [k|]; [|reflexivity]. match goal with |- dest (r_state (?a s1)) = _ => cut (frame dest a); [intros X; apply X|] end. apply frame_val. intros m. apply frame_seq; [apply frame_upd, request_dest|]. apply frame_seq.
    { apply frame_look. intros n. destruct (n <? Answered); repeat (apply frame_seq; [apply frame_upd; reflexivity|]); apply frame_upd; reflexivity. }
    repeat (apply frame_seq; [apply frame_upd; reflexivity|]). apply frame_send; [reflexivity|]. apply request_dest.
Qed.
Lemma timer_dest s : dest (r_state (handle cfg EReqTimer s)) = dest s.
Proof.
  cut (frame dest (handle cfg EReqTimer)); [intros X; apply X|]. cbn [handle]. apply frame_seq; [apply frame_upd; reflexivity|]. unfold resendRequest. apply frame_look. intros n. destruct (n <? c_max cfg).
  - apply frame_seq; [|apply frame_seq; apply frame_upd; reflexivity]. apply frame_look. intros q. apply frame_send; [reflexivity|apply request_dest].
  - apply frame_look. intros [k|]; [|apply frame_crash]. apply frame_look. apply pop_dest.
Qed.
(** The name of the destination is the host of the next hop. *)
Lemma request_goes which s : let m := match which with Some b => b | None => invite s end in request_given cfg m -> method m <> B "REGISTER" -> (addrs m Route = [] \/ exists r l, addrs m Route = r :: l /\ loose r) -> r_v (sendRequest cfg which s) = Cont -> dest (r_state (sendRequest cfg which s)) = fst (next_hop m).
Proof.
  intros m RG NR LR V. unfold sendRequest, look at 1 in V. unfold sendRequest, look at 1. fold m in V. fold m.
  assert (R : exists host port, RouteMessage [] [] m = Ok (m, inl (host, port)) /\ next_hop m = (host, port)).
  { pose proof RG as (S & _ & (u & RQ & _) & _). unfold RouteMessage, IsResponse. rewrite S. cbn [Z.ltb Z.compare]. replace (addr_CompareHostPort [] (addrs m Route)) with false by reflexivity. cbv zeta iota. destruct LR as [E|(r & l & E & (u' & RU & LRU))]; unfold next_hop; rewrite E; [rewrite RQ; cbn [deref rbind]; eauto|].
    destruct (bseq_reflect (method m) (B "REGISTER")); [contradiction|]. rewrite RU. cbn [deref rbind]. rewrite value_get in LRU. destruct (param_get (u_param u') (B "lr")) as [[]|]; [eauto|congruence]. }
  destruct R as (host & port & RM & NH). rewrite RM in *. cbn [val] in *. rewrite upd_seq in *. unfold ask, look at 1 in V. unfold ask, look at 1. destruct (RouteAddress _ _ _ _) as [rs|]; [|discriminate V]. rewrite !upd_seq. unfold popRoute, look. rewrite pop_dest. rewrite NH. reflexivity.
Qed.
End FrameLoop.

(** * Retransmitting to one address until the dialog gives up *)
Lemma run_one cfg r es r1 : run cfg r es r1 -> forall r2, run cfg r es r2 -> r1 = r2.
Proof. induction 1 as [|r e es r' V E R IH]; intros r2 R2; inversion R2; subst; [reflexivity|]. apply IH. assumption. Qed.
Lemma run_split cfg es1 : forall es2 r r2, run cfg r (es1 ++ es2) r2 -> exists r1, run cfg r es1 r1 /\ run cfg r1 es2 r2.
Proof. induction es1 as [|e es1 IH]; intros es2 r r2 R; [exists r; split; [constructor|exact R]|]. cbn [app] in R. inversion R; subst. destruct (IH es2 _ _ H5) as (r1 & R1 & R2). exists r1. split; [apply run_step; assumption|exact R2]. Qed.
Lemma run_out cfg r es r' : run cfg r es r' -> exists o, r_out r' = r_out r ++ o.
Proof. induction 1 as [r|r e es r' V E R (o & IH)]; [exists []; rewrite app_nil_r; reflexivity|]. cbn [r_out] in IH. rewrite <- app_assoc in IH. eexists. exact IH. Qed.
Lemma run_halt cfg r es r' : run cfg r es r' -> r_v r <> Cont -> es = [].
Proof. intros R N. destruct R; [reflexivity|contradiction]. Qed.
Section GiveUp.
Variable cfg : config.
Hypothesis NF : forall n, faultless (c_world cfg n).
Lemma given_up s k out : so s = Some k -> fit cfg (the_request s) -> rtimer s = true -> resends s = 0 -> routes s = [] -> 0 <= c_max cfg -> c_max cfg + 1 <= maxforwards (the_request s) ->
  exists l, Z.of_nat (length l) = c_max cfg /\ (forall i c, nth_error l i = Some c -> copy_of (the_request s) (fst c) /\ maxforwards (fst c) = maxforwards (the_request s) - 1 - Z.of_nat i) /\
    (exists s', run cfg (mkres s out Cont) (repeat EReqTimer (S (length l))) (mkres s' (out ++ sent_to k l ++ [OErr (DContact (dest s))]) Halt)) /\
    forall j r, run cfg (mkres s out Cont) (repeat EReqTimer j) r -> (j <= S (length l))%nat /\ r_out r = out ++ firstn j (sent_to k l ++ [OErr (DContact (dest s))]) /\ r_v r = if (j =? S (length l))%nat then Halt else Cont.
Proof.
  intros K FX RT RS RO MX MF. destruct (resend_run cfg NF k (Z.to_nat (c_max cfg)) s out K FX RT) as (l & s1 & LL & R & _ & CL & _ & _ & RE & RT1 & RS1 & _); [lia|lia|]. pose proof RE as (K1 & _ & _ & _ & _ & _ & RO1 & _).
  assert (LZ : Z.of_nat (length l) = c_max cfg) by lia. rewrite <- LL in R.
  assert (DS : dest s1 = dest s). { clear -R. change s with (r_state (mkres s out Cont)). change s1 with (r_state (mkres s1 (out ++ sent_to k l) Cont)). revert R. generalize (mkres s out Cont) (mkres s1 (out ++ sent_to k l) Cont). generalize (length l). induction n as [|n IH]; intros r r' R; cbn [repeat] in R; inversion R; subst; [reflexivity|]. rewrite (IH _ _ H5). cbn [r_state]. apply timer_dest. }
  destruct (timeout_none_left cfg s1 k) as [H1 H2]; [congruence|lia|rewrite RO1, RO; intros i a E; destruct i; discriminate|rewrite RO1, RO; constructor|].
  assert (RF : run cfg (mkres s out Cont) (repeat EReqTimer (S (length l))) (mkres (r_state (handle cfg EReqTimer s1)) (out ++ sent_to k l ++ [OErr (DContact (dest s))]) Halt)).
  { change (repeat EReqTimer (S (length l))) with (EReqTimer :: repeat EReqTimer (length l)). rewrite repeat_cons. apply (run_app cfg _ _ _ _ _ R). apply run_step; [reflexivity|exact RT1|]. cbn [r_state r_out]. rewrite H1, H2, DS, <- app_assoc. constructor. }
  exists l. split; [exact LZ|]. split; [exact CL|]. split; [eexists; exact RF|]. intros j r Rj. assert (JL : (j <= S (length l))%nat).
  { destruct (Nat.le_gt_cases j (S (length l))) as [|G]; [assumption|exfalso]. replace (repeat EReqTimer j) with (repeat EReqTimer (S (length l)) ++ repeat EReqTimer (j - S (length l))) in Rj by (rewrite <- repeat_app; f_equal; lia). destruct (run_split _ _ _ _ _ Rj) as (r1 & R1 & R2).
    rewrite <- (run_one _ _ _ _ RF _ R1) in R2. apply run_halt in R2; [|discriminate]. replace (j - S (length l))%nat with (S (j - S (S (length l)))) in R2 by lia. discriminate. }
  split; [exact JL|]. destruct (Nat.eqb_spec j (S (length l))) as [->|NE].
  - rewrite <- (run_one _ _ _ _ RF _ Rj). cbn [r_out r_v]. split; [|reflexivity]. f_equal. symmetry. apply firstn_all2. rewrite app_length. unfold sent_to. rewrite map_length. cbn. lia.
  - destruct (resend_run cfg NF k j s out K FX RT) as (l2 & s2 & LL2 & R2 & _); [lia|lia|]. rewrite <- (run_one _ _ _ _ R2 _ Rj). cbn [r_out r_v]. split; [|reflexivity]. f_equal.
    replace (repeat EReqTimer (length l)) with (repeat EReqTimer j ++ repeat EReqTimer (length l - j)) in R by (rewrite <- repeat_app; f_equal; lia). destruct (run_split _ _ _ _ _ R) as (r1 & R3 & R4). rewrite <- (run_one _ _ _ _ R2 _ R3) in R4. destruct (run_out _ _ _ _ R4) as (o & O). cbn [r_out] in O.
    rewrite <- app_assoc in O. apply app_inv_head in O. rewrite firstn_app. assert (LS : forall q : list (msg * bytes), length (sent_to k q) = length q) by (intros q; unfold sent_to; apply map_length). rewrite LS. replace (j - length l)%nat with 0%nat by lia. cbn [firstn]. rewrite app_nil_r, O.
    rewrite firstn_app, LS, LL2, Nat.sub_diag. cbn [firstn]. rewrite app_nil_r. symmetry. apply firstn_all2. rewrite LS. lia.
Qed.
End GiveUp.
(** * When *)
(** Each timer is taken no later than [d] after it fires, and a turn sets the next one no later than [d] after it began. *)
Fixpoint prompt (d ms : Z) (armed : Z) (us : list turn) : Prop :=
  match us with [] => True | u :: us => u_at u <= due armed ms + d /\ u_arm u <= u_at u + d /\ prompt d ms (u_arm u) us end.
Lemma prompt_bound d ms us : 0 <= d -> forall a i u, prompt d ms a us -> nth_error us i = Some u -> u_at u <= a + (Z.of_nat i + 1) * (Z.max 0 (duration ms) + 2 * d).
Proof.
  intros D. induction us as [|v us IH]; intros a i u P I; [destruct i; discriminate|]. destruct P as (P1 & P2 & P3). unfold due in P1. destruct i as [|i]; [injection I as ->; change (Z.of_nat 0) with 0; lia|]. specialize (IH _ i u P3 I). rewrite Nat2Z.inj_succ. replace ((Z.succ (Z.of_nat i) + 1) * (Z.max 0 (duration ms) + 2 * d)) with ((Z.of_nat i + 1) * (Z.max 0 (duration ms) + 2 * d) + (Z.max 0 (duration ms) + 2 * d)) by ring. lia.
Qed.
Definition only_timer (us : list turn) : Prop := Forall (fun u => u_event u = EReqTimer) us.
Lemma only_timer_events us : only_timer us -> map u_event us = repeat EReqTimer (length us).
Proof. induction 1 as [|u us E _ IH]; [reflexivity|]. cbn. rewrite E, IH. reflexivity. Qed.
Lemma timer_bound cfg ms us : forall x y t, only_timer us -> tsteps cfg ms x us y -> not_before ms t x -> forall i u, nth_error us i = Some u -> t + (Z.of_nat i + 1) * Z.max 0 (duration ms) <= u_at u.
Proof.
  induction us as [|v us IH]; intros x y t O S N i u I; [destruct i; discriminate|]. inversion S as [|? ? z ? ? S1 S2]; subst. inversion O as [|? ? O1 O2]; subst. destruct (later _ _ _ _ _ _ S1 N) as [_ N2]. destruct (N2 O1) as [N3 N4]. destruct i as [|i]; [injection I as ->; change (Z.of_nat 0) with 0; lia|].
  specialize (IH _ _ _ O2 S2 N4 i u I). rewrite Nat2Z.inj_succ. replace ((Z.succ (Z.of_nat i) + 1) * Z.max 0 (duration ms)) with ((Z.of_nat i + 1) * Z.max 0 (duration ms) + Z.max 0 (duration ms)) by ring. lia.
Qed.
Lemma tsteps_app cfg ms us1 : forall us2 x z, tsteps cfg ms x (us1 ++ us2) z -> exists y, tsteps cfg ms x us1 y /\ tsteps cfg ms y us2 z.
Proof. induction us1 as [|u us1 IH]; intros us2 x z S; [exists x; split; [constructor|exact S]|]. cbn [app] in S. inversion S as [|? ? y ? ? S1 S2]; subst. destruct (IH _ _ _ S2) as (w & W1 & W2). exists w. split; [econstructor; eassumption|exact W2]. Qed.

(** The times of the turns [us], the first timer having been set at [armed]: the [i]-th comes [i] intervals later or more, and not much more. *)
Definition on_time (ms armed : Z) (us : list turn) : Prop :=
  forall i u, nth_error us i = Some u -> armed + (Z.of_nat i + 1) * Z.max 0 (duration ms) <= u_at u /\ forall d, 0 <= d -> prompt d ms armed us -> u_at u <= armed + (Z.of_nat i + 1) * (Z.max 0 (duration ms) + 2 * d).

(** ** Nobody answers *)
(** The next hop has one address, nothing is received and the application does nothing: then the only thing that happens is that the timer fires. The INVITE is
    transmitted maxResends times more, at intervals; when the timer has fired maxResends + 1 times, the failure is reported and the dialog ends. *)
Theorem unanswered_call_ends : forall cfg ms d m x arm end_ us y, (forall n, faultless (c_world cfg n)) -> (forall n, w_dns (c_world cfg n) = d) -> 0 <= c_max cfg -> invite_given cfg m -> c_max cfg + 2 <= hops m -> candidates d (next_hop m) = [x] ->
  arm <= end_ -> tsteps cfg ms (tbegin cfg ms m arm end_) us y -> only_timer us ->
  exists k inv invs, so_remote k = x /\ method inv = B "INVITE" /\ request inv = request m /\ copies inv invs /\ Z.of_nat (length invs) = c_max cfg + 1 /\ (length us <= length invs)%nat /\
    r_out (t_loop y) = firstn (S (length us)) (sent_to k invs ++ [OErr (DContact (fst (next_hop m)))]) /\ r_v (t_loop y) = (if (length us =? length invs)%nat then Halt else Cont) /\ on_time ms arm us.
Proof.
  intros cfg ms d m x arm end_ us y NF DN MX IG HM CD AE S O. destruct (first_try cfg d m NF DN IG) as (k & inv & t & s & left & M & RQ & CK & T & E0). rewrite CD in CK. injection CK as -> <-.
  pose proof T as (CA & FX & _ & RT & RS & RO & MF & _). pose proof (calling_request _ _ _ _ CA) as TR. pose proof CA as (K & _).
  assert (DS : dest s = fst (next_hop m)). { pose proof IG as (RG & MI & _ & LR & _). pose proof (request_goes cfg None (init m)) as H. cbv zeta in H. change (invite (init m)) with m in H. unfold start in E0. rewrite E0 in H. apply H; [exact RG|rewrite MI; discriminate|exact LR|reflexivity]. }
  destruct (given_up cfg NF s k [OSend (so_remote k) inv t] K) as (l & LL & CL & _ & G); [rewrite TR; exact FX|exact RT|exact RS|exact RO|exact MX|rewrite TR; lia|]. rewrite TR, DS in *.
  pose proof (timed_runs _ _ _ _ _ S) as R. rewrite (only_timer_events _ O) in R. cbn [tbegin t_loop] in R. rewrite E0 in R. destruct (G _ _ R) as (G1 & G2 & G3).
  exists k, inv, ((inv, t) :: l). split; [reflexivity|]. split; [exact M|]. split; [exact RQ|]. split; [split; [exists t, l; reflexivity|]|].
  { intros [|i] q Q; cbn in Q; [injection Q as <-; cbn [fst]; split; [exact (copy_fit _ _ FX)|lia]|]. destruct (CL i q Q) as [Q1 Q2]. split; [exact Q1|lia]. }
  split; [cbn [length]; lia|]. split; [exact G1|]. split; [exact G2|]. split; [exact G3|].
  intros i u I. split; [apply (timer_bound cfg ms us _ _ arm O S); [|exact I]|intros e E P; exact (prompt_bound _ _ _ E _ _ _ P I)]. split; [exact AE|]. intros _. cbn [tbegin t_request]. unfold due. lia.
Qed.
(** ** The BYE is not confirmed *)
(** The call was answered and the application hangs up; then nothing is heard. The BYE is transmitted maxResends + 1 times in all, at intervals; then the failure is
    reported and the dialog ends. *)
Theorem unconfirmed_bye_ends : forall cfg m ps a c cs, (forall n, faultless (c_world cfg n)) -> invite_given cfg m -> 0 <= c_max cfg <= 68 ->
  Forall (fun p => reply_ok p /\ rp_status p < 200) ps -> reply_ok a -> rp_status a = 200 -> rp_contact a = c :: cs ->
  exists k inv inv_text rs answer ack ack_text k' bye byes, method inv = B "INVITE" /\ request inv = request m /\ Forall2 (answered k inv_text) ps rs /\ answered k inv_text a answer /\ method ack = B "ACK" /\
    method bye = B "BYE" /\ request bye = a_uri c /\ callid bye = callid inv /\ copies bye byes /\ Z.of_nat (length byes) = c_max cfg + 1 /\ first_address cfg (way_back (rp_rr a) (rp_contact a)) false (so_remote k') /\
    forall ms arm end_ us h us' y, tsteps cfg ms (tbegin cfg ms m arm end_) (us ++ h :: us') y -> map u_event us = map EMsg rs ++ [EMsg answer] -> u_event h = EHangup -> only_timer us' ->
      (length us' <= length byes)%nat /\
      r_out (t_loop y) = OSend (so_remote k) inv inv_text :: concat (map told ps) ++ OSend (so_remote k) ack ack_text :: media_of (rp_pay a) ++ OState Answered :: firstn (S (length us')) (sent_to k' byes ++ [OErr (DContact (fst (way_back (rp_rr a) (rp_contact a))))]) /\
      r_v (t_loop y) = (if (length us' =? length byes)%nat then Halt else Cont) /\ on_time ms (u_arm h) us'.
Proof.
  intros cfg m ps a c cs NF (RG & MI & RR & LR & CB) MX PS AO A200 AC.
  destruct (sent_faultless cfg NF None (init m)) as (s0 & k & x & n & E0 & FX & (D1 & D2 & D3 & D4 & _ & D6 & _) & (_ & _ & _ & _ & n0 & W0) & _ & K0 & SG0 & _ & ST0 & RI & LS); [split; discriminate|exact RG|change (method m <> B "REGISTER"); rewrite MI; discriminate|exact LR|].
  destruct (RI eq_refl) as [R0 I0]. destruct LS as (RM0 & LS0 & RS0); [reflexivity|]. change (match None with Some b => b | None => invite (init m) end) with m in *. cbn [invite init] in D1, D2, D3, D4, D6.
  assert (C0 : calling cfg k x s0) by (unfold calling; repeat (split; [assumption|]); left; exact ST0). set (t := msg_append (w_rid (c_world cfg n)) x) in *.
  destruct (progress_run cfg NF k x n ps FX PS s0 [OSend (so_remote k) x t] C0) as (rs & s1 & F & C1 & R1).
  destruct (reply_comes cfg x k n a FX AO) as (r & AN & S2 & MT & EC & EQ & ES & EP & ET & ER & EF & AA & NT & v & VV & VO).
  pose proof C1 as (K1 & SG1 & Q1 & I1 & RM1 & LS1 & _). pose proof (calling_request _ _ _ _ C1) as TR.
  assert (MA : matching s1 r) by (split; [exact S2|]; rewrite TR; auto). rewrite AC in ET.
  assert (CU : exists u, a_uri c = Some u). { destruct AO as (_ & _ & _ & _ & CO & _). rewrite AC in CO. inversion CO as [|? ? ((u & U & _) & _) _]; subst. eauto. } destruct CU as [u CU].
  destruct (answer_turn cfg NF s1 r k c cs u v K1 MA) as (n1 & ack & at_ & AM & AK & T1); [rewrite TR, D1; exact MI|congruence|exact ET|exact CU|exact (has_audio_reply _ _ AO EP)|exact RM1|rewrite TR; exact FX|exact AA|exact NT|rewrite TR; exact EF|exact VV|exact VO|].
  set (s2 := set_remote _ _) in T1. assert (ME : media r = media_of (rp_pay a)) by (unfold media, media_of; rewrite EP; reflexivity).
  destruct (hangup_sends cfg s2 x r eq_refl I1 FX LS1) with (c := c) (cs := cs) (u := u) as (bye & HS & BG & B1 & B2 & B3 & NC & B4 & NQ & B5 & B6 & BM & BL & NH); [lia|reflexivity|exact AA|exact NT|rewrite ER; destruct AO as (_ & _ & _ & _ & _ & _ & L & _); exact L|exact ET|exact CU|].
  destruct (sent_faultless cfg NF (Some bye) (set_lseq (cseq bye) s2) SG1 BG) as (s3 & k' & y & n2 & E & FB & (G1 & G2 & G3 & _ & _ & G6 & _) & (_ & M' & T' & N' & n' & W') & _ & K' & _ & TR3 & _); [rewrite B1; discriminate|exact BL|].
  change (st (set_lseq (cseq bye) s2)) with Answered in W'. rewrite NH in W'. change (Answered <? Answered) with false in W'. pose proof (one_route _ _ _ _ _ W') as RO.
  assert (DS : dest s3 = fst (way_back (rp_rr a) (rp_contact a))). { pose proof (request_goes cfg (Some bye) (set_lseq (cseq bye) s2) BG) as H. cbv zeta in H. rewrite E, NH, ER, ET, <- AC in H. apply H; [rewrite B1; discriminate|exact BL|reflexivity]. }
  set (t2 := msg_append (w_rid (c_world cfg n2)) y) in *. set (o2 := OSend (so_remote k) x t :: concat (map told ps) ++ OSend (so_remote k) ack at_ :: media_of (rp_pay a) ++ [OState Answered]).
  destruct (given_up cfg NF s3 k' (o2 ++ [OSend (so_remote k') y t2]) K') as (l & LL & CL & _ & G); [rewrite TR3; exact FB|exact T'|exact N'|exact RO|lia|rewrite TR3, M', BM; cbn; lia|]. rewrite TR3, DS in *.
  exists k, x, t, rs, r, ack, at_, k', y, ((y, t2) :: l). split; [congruence|]. split; [exact D6|]. split; [exact F|]. split; [exact AN|]. split; [exact AM|]. split; [congruence|]. split; [congruence|]. split; [rewrite G2; [exact B3|congruence]|]. split.
  { split; [exists t2, l; reflexivity|]. intros [|i] q Q; cbn in Q; [injection Q as <-; cbn [fst]; split; [exact (copy_fit _ _ FB)|lia]|]. destruct (CL i q Q) as [Q1' Q2]. split; [exact Q1'|lia]. }
  split; [cbn [length]; lia|]. split; [rewrite AC, <- ET, <- ER; exists n', (routes s3); exact W'|].
  intros ms arm end_ us h us' z S EU EH OT. destruct (tsteps_app _ _ _ _ _ _ S) as (z1 & Z1 & Z2). assert (CN : exists z2, tstep cfg ms z1 h z2 /\ tsteps cfg ms z2 us' z) by (inversion Z2; eauto). destruct CN as (z2 & Z3 & Z4).
  assert (L1 : t_loop z1 = mkres s2 o2 Cont).
  { pose proof (timed_runs _ _ _ _ _ Z1) as R. rewrite EU in R. cbn [tbegin t_loop] in R. unfold start in R. rewrite E0 in R. symmetry. refine (run_one _ _ _ _ _ _ R). eapply run_app; [exact R1|]. apply run_step; [reflexivity|reflexivity|]. cbn [r_state]. rewrite T1. cbn [r_state r_out r_v]. rewrite ME. unfold o2. repeat (rewrite <- ?app_assoc; cbn [app]). apply run_nil. }
  assert (HH : t_loop z2 = mkres s3 (o2 ++ [OSend (so_remote k') y t2]) Cont /\ not_before ms (u_arm h) z2).
  { destruct Z3 as [z1 h sz rz V EN N1 N2 N3 _ _]. subst rz sz. rewrite EH, L1 in *. cbn [r_state r_out r_v t_loop t_now t_request] in *. rewrite HS, E. cbn [r_state r_out r_v]. split; [reflexivity|]. split; [exact N3|]. cbn [t_loop r_state t_request]. intros _.
    destruct (armed_request cfg EHangup s2) as [A|A]; [rewrite HS, E; exact T'|rewrite A; unfold due; lia|discriminate A]. }
  destruct HH as [L2 NB]. pose proof (timed_runs _ _ _ _ _ Z4) as R. rewrite (only_timer_events _ OT), L2 in R. destruct (G _ _ R) as (H1 & H2 & H3). split; [exact H1|]. split; [|split; [exact H3|]].
  - rewrite H2. unfold o2. repeat (rewrite <- ?app_assoc; cbn [app]). reflexivity.
  - intros i w I. split; [exact (timer_bound cfg ms us' _ _ _ OT Z4 NB i w I)|intros e EE P; exact (prompt_bound _ _ _ EE _ _ _ P I)].
Qed.
(** ** The executions exist *)
Lemma punctual cfg ms j : forall x r, run cfg (t_loop x) (repeat EReqTimer j) r -> t_now x <= t_request x ->
  exists us y, tsteps cfg ms x us y /\ only_timer us /\ length us = j /\ t_loop y = r /\ (forall a, due a ms = t_request x -> prompt 0 ms a us) /\ (j <> 0%nat -> t_now y = t_request x + (Z.of_nat j - 1) * Z.max 0 (duration ms)).
Proof.
  induction j as [|j IH]; intros x r R N; cbn [repeat] in R; inversion R as [|? ? ? ? V EN R2]; subst.
  - exists [], x. split; [constructor|]. split; [constructor|]. do 2 (split; [reflexivity|]). split; [intros; exact I|congruence].
  - set (u := mkturn EReqTimer (t_request x) (t_request x) (t_request x)).
    assert (ST := t_turn cfg ms x u V EN N (Z.le_refl _) (Z.le_refl _) (fun _ => Z.le_refl _) ltac:(discriminate)). cbv zeta in ST. cbn [u_event u_arm u_end u] in ST. set (z := mktimed _ _ _ _) in ST.
    destruct j as [|j].
    + exists [u], z. split; [econstructor; [exact ST|constructor]|]. split; [repeat constructor|]. split; [reflexivity|]. split; [inversion R2; reflexivity|]. split; [intros a A; cbn; lia|intros _; cbn [t_now z]; lia].
    + assert (A : arms_request cfg EReqTimer (r_state (t_loop x)) = true) by (cbn [repeat] in R2; inversion R2; subst; assumption).
      assert (ZR : t_request z = due (t_request x) ms) by (cbn [t_request z]; rewrite A; reflexivity).
      destruct (IH z r R2) as (us & y & S2 & O & L & E & P & T); [rewrite ZR; cbn [t_now z]; unfold due; lia|]. exists (u :: us), y. split; [econstructor; eassumption|]. split; [constructor; [reflexivity|exact O]|]. split; [cbn; congruence|]. split; [exact E|]. split.
      * intros a A2. cbn [prompt u_at u_arm u]. split; [lia|]. split; [lia|]. apply P. symmetry. exact ZR.
      * intros _. rewrite T, ZR by discriminate. unfold due. rewrite (Nat2Z.inj_succ (S j)). ring.
Qed.
(** If nothing else happens, and the turns take no time, a call which is not answered ends maxResends + 1 intervals after its INVITE was sent. *)
Theorem unanswered_call_on_time : forall cfg ms d m x t, (forall n, faultless (c_world cfg n)) -> (forall n, w_dns (c_world cfg n) = d) -> 0 <= c_max cfg -> invite_given cfg m -> c_max cfg + 2 <= hops m -> candidates d (next_hop m) = [x] ->
  exists us y, tsteps cfg ms (tbegin cfg ms m t t) us y /\ only_timer us /\ Z.of_nat (length us) = c_max cfg + 1 /\ prompt 0 ms t us /\ r_v (t_loop y) = Halt /\ t_now y = t + (c_max cfg + 1) * Z.max 0 (duration ms).
Proof.
  intros cfg ms d m x t NF DN MX IG HM CD. destruct (first_try cfg d m NF DN IG) as (k & inv & tx & s & left & M & RQ & CK & T & E0). rewrite CD in CK. injection CK as -> <-.
  pose proof T as (CA & FX & _ & RT & RS & RO & MF & _). pose proof (calling_request _ _ _ _ CA) as TR. pose proof CA as (K & _).
  destruct (given_up cfg NF s k [OSend (so_remote k) inv tx] K) as (l & LL & _ & (s' & R) & _); [rewrite TR; exact FX|exact RT|exact RS|exact RO|exact MX|rewrite TR; lia|]. rewrite <- E0 in R.
  destruct (punctual cfg ms (S (length l)) (tbegin cfg ms m t t) _ R) as (us & y & S & O & L & E & P & TM); [cbn [tbegin t_now t_request]; unfold due; lia|]. exists us, y. split; [exact S|]. split; [exact O|]. split; [lia|]. split; [apply P; reflexivity|]. split; [rewrite E; reflexivity|].
  rewrite TM by discriminate. cbn [tbegin t_request]. unfold due. rewrite Nat2Z.inj_succ, LL. ring.
Qed.

(** ** Ringing, and nothing more is heard *)
(** Nothing will happen by itself. *)
Definition asleep (s : dstate) : Prop := enabled EReqTimer s = false /\ enabled ERspTimer s = false.
Section Cancel.
Variable cfg : config.
Hypothesis NF : forall n, faultless (c_world cfg n).
Lemma cancel_turn s k : so s = Some k -> vias (invite s) <> [] -> st s = Proceeding \/ st s = Ringing ->
  exists s' c t, handle cfg EHangup s = mkres s' [OSend (so_remote k) c t] Cont /\ so s' = Some k /\ vias (invite s') <> [] /\ st s' = st s /\ rtimer s' = rtimer s /\ rsptimer s' = rsptimer s /\ callid (invite s') = callid (invite s) /\ cseq (invite s') = cseq (invite s) /\
    method c = B "CANCEL" /\ callid c = callid (invite s) /\ cseq c = cseq (invite s).
Proof.
  intros K V ST. cbn [handle]. unfold sendHangup, look. replace ((st s =? Proceeding) || (st s =? Ringing)) with true by (destruct ST as [->| ->]; reflexivity).
  rewrite send_eq. cbv zeta. change (maxforwards (NewCancel (invite s))) with 0. rewrite (lowered_zero (NewCancel (invite s)) eq_refl). cbn [Z.eqb so set_clock set_invite clock]. rewrite K.
  destruct (NF (clock s)) as (_ & _ & _ & WR & _). destruct (stamp_vias (NewCancel (invite s)) (w_stamp (c_world cfg (clock s))) V) as (v & NV & ->). rewrite WR. do 3 eexists. split; [reflexivity|]. cbn [so invite st rtimer rsptimer set_invite set_clock]. split; [exact K|]. split; [exact NV|]. repeat split.
Qed.
Lemma cancel_run k n : forall s out, so s = Some k -> vias (invite s) <> [] -> st s = Proceeding \/ st s = Ringing ->
  exists s' cs, run cfg (mkres s out Cont) (repeat EHangup n) (mkres s' (out ++ sent_to k cs) Cont) /\ length cs = n /\ rtimer s' = rtimer s /\ rsptimer s' = rsptimer s /\ Forall (fun c => method (fst c) = B "CANCEL" /\ callid (fst c) = callid (invite s) /\ cseq (fst c) = cseq (invite s)) cs.
Proof.
  induction n as [|n IH]; intros s out K V ST; [exists s, []; cbn; rewrite app_nil_r; split; [constructor|]; repeat split; constructor|].
  destruct (cancel_turn s k K V ST) as (s1 & c & t & E & K1 & V1 & S1 & R1 & R2 & C1 & C2 & M1 & M2 & M3). rewrite <- S1 in ST. destruct (IH s1 (out ++ [OSend (so_remote k) c t]) K1 V1 ST) as (s' & cs & R & L & Q1 & Q2 & F). exists s', ((c, t) :: cs). split.
  - cbn [repeat]. apply run_step; [reflexivity|reflexivity|]. cbn [r_state r_out]. rewrite E. cbn [r_state r_out r_v]. rewrite <- app_assoc in R. exact R.
  - split; [cbn; congruence|]. split; [congruence|]. split; [congruence|]. constructor; [cbn [fst]; auto|]. rewrite C1, C2 in F. exact F.
Qed.
Lemma progress_quiet k x n ps : fit cfg x -> Forall (fun p => reply_ok p /\ rp_status p < 200) ps -> forall s out, calling cfg k x s ->
  exists rs s', Forall2 (answered k (msg_append (w_rid (c_world cfg n)) x)) ps rs /\ calling cfg k x s' /\ run cfg (mkres s out Cont) (map EMsg rs) (mkres s' (out ++ concat (map told ps)) Cont) /\ rsptimer s' = rsptimer s /\ (ps <> [] -> rtimer s' = false).
Proof.
  intros FX. induction 1 as [|p ps [RO LT] _ IH]; intros s out C.
  - exists [], s. split; [constructor|]. split; [exact C|]. cbn. rewrite app_nil_r. split; [constructor|]. split; [reflexivity|congruence].
  - destruct (reply_comes cfg x k n p FX RO) as (r & AN & S2 & MT & EC & EQ & ES & EP & _). pose proof (calling_request _ _ _ _ C) as TR.
    assert (MA : matching s r) by (split; [exact S2|]; rewrite TR; auto). assert (RP : 100 <= status r < 200) by (destruct RO as (R & _); lia).
    pose proof (progress_turn cfg s r MA RP (has_audio_reply _ _ RO EP)) as T. set (s1 := set_st _ _) in T.
    assert (C1 : calling cfg k x s1). { destruct C as (C1 & C2 & C3 & C4 & C5 & C6 & C7 & C8). repeat (split; [assumption|]). change (st s1) with (last_state (progress (status r)) (st s)). unfold progress. destruct (_ =? 100); [left; reflexivity|]. destruct (_ || _)%bool; [right; reflexivity|exact C8]. }
    destruct (IH s1 (out ++ media r ++ progress (status r)) C1) as (rs & s' & F & C' & R & Q1 & Q2). exists (r :: rs), s'. split; [constructor; assumption|]. split; [exact C'|]. split; [|split; [exact Q1|]].
    + cbn [map concat]. apply run_step; [reflexivity|reflexivity|]. cbn [r_state r_out]. rewrite T. cbn [r_state r_out r_v].
      assert (TE : told p = media r ++ progress (status r)) by (unfold told, media_of, media; rewrite EP, ES; reflexivity). rewrite TE, (app_assoc out _ (concat _)). exact R.
    + intros _. destruct ps as [|p' ps]; [|apply Q2; discriminate]. inversion F; subst. cbn [map] in R. inversion R; subst. reflexivity.
Qed.
End Cancel.
(** The INVITE got provisional replies, at least one; nothing more is heard. Then no timer is running: the dialog waits for ever, and if the application asks it to
    hang up, as often as it likes, a CANCEL is sent each time, just once, and the dialog goes on waiting for ever. *)
Theorem ringing_for_ever_refuted : forall cfg m ps n, (forall n, faultless (c_world cfg n)) -> invite_given cfg m -> ps <> [] -> Forall (fun p => reply_ok p /\ rp_status p < 200) ps ->
  exists k inv inv_text rs cancels s, method inv = B "INVITE" /\ request inv = request m /\ Forall2 (answered k inv_text) ps rs /\ length cancels = n /\ Forall (fun c => method (fst c) = B "CANCEL" /\ callid (fst c) = callid inv /\ cseq (fst c) = cseq inv) cancels /\
    dialog cfg m (map EMsg rs ++ repeat EHangup n) (mkres s (OSend (so_remote k) inv inv_text :: concat (map told ps) ++ sent_to k cancels) Cont) /\ asleep s.
Proof.
  intros cfg m ps n0 NF (RG & MI & RR & LR & CB) NE PS.
  destruct (sent_faultless cfg NF None (init m)) as (s0 & k & x & n & E0 & FX & (D1 & D2 & D3 & D4 & _ & D6 & _) & (_ & _ & _ & _ & n1 & W0) & _ & K0 & SG0 & _ & ST0 & RI & LS); [split; discriminate|exact RG|change (method m <> B "REGISTER"); rewrite MI; discriminate|exact LR|].
  destruct (RI eq_refl) as [R0 I0]. destruct LS as (RM0 & LS0 & RS0); [reflexivity|]. change (match None with Some b => b | None => invite (init m) end) with m in *. cbn [invite init] in D1, D2, D3, D4, D6.
  assert (C0 : calling cfg k x s0) by (unfold calling; repeat (split; [assumption|]); left; exact ST0). set (t := msg_append (w_rid (c_world cfg n)) x) in *.
  destruct (progress_quiet cfg NF k x n ps FX PS s0 [OSend (so_remote k) x t] C0) as (rs & s1 & F & C1 & R1 & Q1 & Q2). pose proof C1 as (K1 & _ & _ & I1 & _ & _ & _ & ST1).
  assert (V2 : vias (invite s1) <> []). { rewrite I1. pose proof FX as (_ & _ & _ & _ & v & b & V & _). rewrite V. discriminate. }
  assert (X : rsptimer s0 = false) by (pose proof (leaves_start cfg m) as X; unfold start in X; rewrite E0 in X; exact X).
  destruct (cancel_run cfg NF k n0 s1 ([OSend (so_remote k) x t] ++ concat (map told ps)) K1 V2 ST1) as (s3 & cs & R3 & L3 & Q3 & Q4 & F3). rewrite I1 in F3.
  exists k, x, t, rs, cs, s3. split; [congruence|]. split; [exact D6|]. split; [exact F|]. split; [exact L3|]. split; [exact F3|]. split.
  - unfold dialog, start. rewrite E0. eapply run_app; [exact R1|]. rewrite <- app_assoc in R3. exact R3.
  - split; cbn [enabled]; [rewrite Q3; exact (Q2 NE)|congruence].
Qed.

(** ** Examples *)
Definition direct_call : msg := set_request (Some (mkuri (B "sip") (B "bob") [] (B "10.0.0.1") 0 [] [])) ex_call.
Lemma direct_given : invite_given (ex_cfg 2) direct_call.
Proof.
  destruct call_example as (_ & C2 & _). pose proof C2 as ((S & M & _ & G) & R). split; [|exact R]. split; [exact S|]. split; [exact M|]. split; [|exact G].
  eexists. split; [reflexivity|]. split; [|constructor]. split; [eexists _, _; split; [reflexivity|]; repeat split|]. split; [reflexivity|]. split; [split; [discriminate|]; split; reflexivity|]. split; [cbn; lia|]. split; constructor.
Qed.
(** With the defaults, two retransmissions and 400 milliseconds: a call placed at 0 ends after 1.2 seconds if there is no word. *)
Example unanswered_example : exists us y, tsteps (ex_cfg 2) 400 (tbegin (ex_cfg 2) 400 direct_call 0 0) us y /\ only_timer us /\ length us = 3%nat /\ r_v (t_loop y) = Halt /\ t_now y = 1200000000 /\ length (r_out (t_loop y)) = 4%nat.
Proof.
  destruct call_example as (C1 & _). destruct (unanswered_call_on_time (ex_cfg 2) 400 ex_dns direct_call (B "10.0.0.1:5060") 0 C1 (fun _ => eq_refl) ltac:(cbn; lia) direct_given ltac:(cbn; lia) eq_refl) as (us & y & S & O & L & _ & V & T).
  exists us, y. assert (L3 : length us = 3%nat) by (cbn in L; lia). split; [exact S|]. split; [exact O|]. split; [exact L3|]. split; [exact V|]. split; [exact T|].
  destruct (unanswered_call_ends (ex_cfg 2) 400 ex_dns direct_call (B "10.0.0.1:5060") 0 0 us y C1 (fun _ => eq_refl) ltac:(cbn; lia) direct_given ltac:(cbn; lia) eq_refl (Z.le_refl _) S O) as (k & inv & invs & _ & _ & _ & _ & LI & _ & OUT & _). rewrite OUT, L3. assert (LL : length invs = 3%nat) by (cbn in LI; lia).
  rewrite firstn_length, app_length. unfold sent_to. rewrite map_length, LL. reflexivity.
Qed.
(** The hypotheses about the answered call and about the ringing call are met by the replies of P_Call.v. *)
Example waiting_example : 0 <= c_max (ex_cfg 2) <= 68 /\ exists k inv inv_text rs cancels s, length cancels = 2%nat /\ dialog (ex_cfg 1) ex_call (map EMsg rs ++ repeat EHangup 2) (mkres s (OSend (so_remote k) inv inv_text :: concat (map told [ex_reply 180 [] None]) ++ sent_to k cancels) Cont) /\ asleep s.
Proof.
  split; [cbn; lia|]. destruct call_example as (C1 & C2 & C3 & _). inversion C3 as [|? ? _ C6]; subst. inversion C6 as [|? ? C7 _]; subst.
  destruct (ringing_for_ever_refuted (ex_cfg 1) ex_call [ex_reply 180 [] None] 2 C1 C2 ltac:(discriminate) (Forall_cons _ C7 (Forall_nil _))) as (k & inv & it & rs & cs & s & _ & _ & _ & L & _ & D & A). exists k, inv, it, rs, cs, s. auto.
Qed.
