(** C94: the program of example/echo2. It succeeds with a callee that answers, and it reports success only after a call that was answered and
    hung up; but it crashes when the callee hangs up or declines, and it can give up a call that was answered. *)
From Verif Require Import Bytes BytesLemmas GoLib GoLibLemmas SdpModel SdpProofs SipText SipTypes SipAppend UtilModel P_Text P_Lists UriSpec P_Uri MsgModel MsgSpec MsgGrammar P_MsgText MsgWf MsgRound P_MsgRound
  DialogMsg P_DialogMsg P_DialogWire TransportModel P_Transport P_TransportAt P_Received DialogModel P_DialogCount P_Written P_Call P_Talk P_FoneCall P_PeerCall EchoModel.
Local Open Scope Z_scope.

(** ** The Via of the INVITE is the program's own, whatever happens *)
Definition own_via (tp : transport) (h : held) : Prop := h_shared h = false /\ status (h_msg h) = 0 /\ exists v, vias (h_msg h) = [v] /\ sent_by [v] = sent_by [tp_via tp].
Definition home (e : echo) : Prop := own_via (e_tp e) (e_invite e) /\ forall h, e_resend e = Some h -> e_cancel e = true -> own_via (e_tp e) h.
Lemma sent_one v vl k : sent_by (v :: vl) = sent_by k -> sent_by [v] = sent_by k.
Proof. auto. Qed.
Lemma send_tp tp h w s : Send tp h w = Ok s -> sent_by [tp_via (sd_tp s)] = sent_by [tp_via tp].
Proof. intros S. destruct (used_at tp (sd_tp s) (used_once_more _ _ _ _ _ S (unused _))) as [A _]. exact A. Qed.
Lemma send_own tp h w s : own_via tp h -> Send tp h w = Ok s -> own_via (sd_tp s) (sd_held s).
Proof.
  intros (SH & ST & v & V & VS) S. pose proof (send_tp _ _ _ _ S) as TV. assert (EV : view tp h = h_msg h) by (unfold view; rewrite SH; reflexivity). assert (IR : IsResponse (view tp h) = false) by (rewrite EV; unfold IsResponse; rewrite ST; reflexivity).
  destruct (send_at _ _ _ _ IR S) as ((_ & K & _ & _ & KS) & _). rewrite EV in K, KS. unfold own_via. rewrite TV. specialize (K ltac:(rewrite V; discriminate)).
  revert S. unfold Send. rewrite IR, SH, EV, V. cbv zeta. cbn [negb andb orb]. intros S. apply rbind_ok in S. destruct S as (m1 & P & S). assert (IR' : IsResponse (h_msg h) = false) by (rewrite <- EV; exact IR). destruct (populate_vias _ _ _ _ IR' _ P) as (v0 & vl & EQ & V1). rewrite V in EQ. cbn in EQ. injection EQ as <- <-.
  destruct (populate_at _ _ _ _ IR' _ P) as (_ & _ & _ & _ & ST1). apply rbind_ok in S. destruct S as ([m2 r] & R & S). assert (IR1 : IsResponse m1 = false) by (unfold IsResponse in *; rewrite ST1; exact IR'). destruct (route_at _ _ _ _ _ IR1 R) as (V2 & _). rewrite V1 in V2.
  assert (L : forall m3 wire ok, length (vias m3) = 1%nat -> s = left_behind tp false m3 wire ok -> h_shared (sd_held s) = false /\ status (h_msg (sd_held s)) = 0 /\ exists v, vias (h_msg (sd_held s)) = [v] /\ sent_by [v] = sent_by [tp_via tp]).
  { intros m3 wire ok L E. subst s. cbn [left_behind sd_held h_shared h_msg] in *. split; [reflexivity|]. split; [congruence|]. destruct (vias m3) as [|z [|z' l]]; [discriminate| |discriminate]. exists z. split; [reflexivity|]. rewrite K, V. exact VS. }
  destruct r as [[host port]|x]; [|injection S as <-; eapply L; [|reflexivity]; rewrite V2; reflexivity]. destruct (n_resolve w _) as [a|]; [|injection S as <-; eapply L; [|reflexivity]; rewrite V2; reflexivity].
  set (m3 := if 0 <? maxforwards m2 then _ else _) in *. assert (E3 : vias m3 = vias m2) by (unfold m3; destruct (0 <? maxforwards m2); reflexivity). clearbody m3.
  apply rbind_ok in S. destruct S as (m4 & T & S). injection S as <-. eapply L; [|reflexivity]. destruct (stamp_branch _ _ _ T) as (_ & _ & SL). rewrite SL, E3, V2. reflexivity.
Qed.
Lemma own_moved tp tp' h : sent_by [tp_via tp'] = sent_by [tp_via tp] -> own_via tp h -> own_via tp' h.
Proof. intros E (A & B' & v & V & S). split; [exact A|]. split; [exact B'|]. exists v. split; [exact V|congruence]. Qed.
Lemma home_moved e e' : home e -> sent_by [tp_via (e_tp e')] = sent_by [tp_via (e_tp e)] -> e_invite e' = e_invite e -> e_resend e' = e_resend e -> e_cancel e' = e_cancel e -> home e'.
Proof. intros (A & C) E1 E2 E3 E4. unfold home. rewrite E2, E3, E4. split; [exact (own_moved _ _ _ E1 A)|]. intros h R K. exact (own_moved _ _ _ E1 (C h R K)). Qed.
Lemma payload_going m e e' : take_payload m e = Going e' -> e' = e \/ exists p, e' = with_peer p e.
Proof. unfold take_payload. destruct (pay m) as [[|d]|]; try (intros H; injection H as <-; auto). destruct (s_audio d); [|discriminate]. intros H. injection H as <-. eauto. Qed.
Definition settled (e e' : echo) : Prop := e_tp e' = e_tp e /\ e_invite e' = e_invite e /\ e_resend e' = e_resend e /\ e_cancel e' = e_cancel e /\ e_resends e' = e_resends e /\ e_death e' = e_death e /\ e_failed e' = e_failed e /\ e_msg e' = e_msg e.
Lemma status_going m e e' : take_status m e = Going e' -> settled e e' /\ (status m <> 100 -> e_timer e' = e_timer e) /\ (e_answered e' = true <-> e_answered e = true \/ (status m = 200 /\ cseqmethod m = B "INVITE")).
Proof.
  unfold take_status. intros H. assert (ST : forall b, (status m =? 200) = b -> (b = false -> ~ status m = 200)) by (intros b E ->; apply Z.eqb_neq in E; exact E).
  destruct (Z.ltb_spec (status m) 200).
  - destruct (payload_going _ _ _ H) as [-> |(p & ->)]; destruct (Z.eqb_spec (status m) 100); (split; [repeat split|]); (split; [intros N; first [congruence|reflexivity]|]); cbn; (split; [auto|]); intros [K|[K _]]; solve [exact K|lia].
  - destruct (Z.eqb_spec (status m) 200) as [E|N]; [|discriminate]. destruct (bseq_reflect (cseqmethod m) (B "INVITE")) as [I|I].
    + destruct (payload_going _ _ _ H) as [-> |(p & ->)]; (split; [repeat split|]); (split; [reflexivity|]); cbn; (split; auto).
    + destruct (bseq (cseqmethod m) (B "BYE")); [discriminate|]. destruct (bseq (cseqmethod m) (B "CANCEL")); [discriminate|].
      destruct (payload_going _ _ _ H) as [-> |(p & ->)]; (split; [repeat split|]); (split; [reflexivity|]); cbn; (split; [auto|]); intros [K|[_ K]]; solve [exact K|destruct (I K)].
Qed.
Lemma home_kept h w e e' out : home e -> echo_turn h w e = (Going e', out) -> home e'.
Proof.
  intros HO. pose proof HO as (OI & OC). destruct h as [| | |ok|m| |]; cbn [echo_turn]; try discriminate; [intros H; injection H as <- <-; exact HO|destruct ok; [intros H; injection H as <- <-; exact HO|discriminate]| | |].
  - unfold take_message. destruct (IsResponse m).
    + destruct (_ && _).
      * destruct (NewAck _ _) as [ack|]; [|discriminate]. destruct (Send _ _ w) as [s|] eqn:ES; [|discriminate]. destruct (sd_ok s); [|discriminate]. intros H. injection H as H _. destruct (status_going _ _ _ H) as ((S1 & S2 & S3 & S4 & _) & _).
        apply (home_moved e e' HO); [rewrite S1; exact (send_tp _ _ _ _ ES)|exact S2|exact S3|exact S4].
      * intros H. injection H as H _. destruct (status_going _ _ _ H) as ((S1 & S2 & S3 & S4 & _) & _). apply (home_moved e e' HO); [rewrite S1; reflexivity|exact S2|exact S3|exact S4].
    + destruct (bseq (method m) (B "BYE")); [destruct (Send _ _ w) as [s|]; [destruct (sd_ok s); discriminate|discriminate]|]. intros H. injection H as <- _. apply (home_moved e _ HO); reflexivity.
  - destruct (e_timer e); [|intros H; injection H as <- <-; exact HO]. unfold take_timer. destruct (_ =? 2); [discriminate|]. destruct (Send _ _ w) as [s|] eqn:ES; [|discriminate]. destruct (sd_ok s); [|discriminate]. intros H. injection H as <- _. unfold home. cbn [e_tp e_invite e_resend e_cancel].
    unfold sent_again. destruct (e_resend e) as [h|] eqn:ER; cbn [e_tp e_invite e_resend e_cancel].
    + destruct (e_cancel e) eqn:EC.
      * specialize (OC h eq_refl eq_refl). destruct (send_own _ _ _ _ OC ES) as (O1 & O2 & O3). split; [split; [apply OI|]; split; [apply OI|exact O3]|]. intros h' E _. injection E as <-. split; [exact O1|]. split; assumption.
      * split; [exact (own_moved _ _ _ (send_tp _ _ _ _ ES) OI)|discriminate].
    + split; [exact (send_own _ _ _ _ OI ES)|discriminate].
  - destruct (e_death e); [|intros H; injection H as <- <-; exact HO]. unfold take_death. destruct (e_answered e) eqn:EA.
    + destruct (e_msg e) as [m|]; [|discriminate]. destruct (NewBye _ m None) as [[b n]|]; [|discriminate]. destruct (Send _ _ w) as [s|] eqn:ES; [|discriminate]. intros H. injection H as <- _. unfold home. cbn [e_tp e_invite e_resend e_cancel sent_again negb].
      split; [exact (own_moved _ _ _ (send_tp _ _ _ _ ES) OI)|discriminate].
    + destruct (Send _ _ w) as [s|] eqn:ES; [|discriminate]. intros H. injection H as <- _. unfold home. cbn [e_tp e_invite e_resend e_cancel sent_again negb].
      assert (OW : own_via (e_tp e) (mkheld (NewCancel (view (e_tp e) (e_invite e))) (h_shared (e_invite e)))). { destruct OI as (O1 & O2 & O3). unfold own_via. cbn [h_shared h_msg]. unfold view. rewrite O1. split; [reflexivity|]. split; [reflexivity|]. exact O3. }
      destruct (send_own _ _ _ _ OW ES) as (O1 & O2 & O3). split; [split; [apply OI|]; split; [apply OI|exact O3]|]. intros h' E _. injection E as <-. split; [exact O1|]. split; assumption.
Qed.
Lemma run_cons h w hs e : echo_run ((h, w) :: hs) (Going e) = (let (v, out) := echo_turn h w e in let (v, more) := echo_run hs v in (v, out ++ more)).
Proof. reflexivity. Qed.
Lemma run_over hs v : (forall e, v <> Going e) -> echo_run hs v = (v, []).
Proof. destruct hs as [|[h w] hs]; [reflexivity|]. destruct v; try reflexivity. intros N. contradiction (N e eq_refl). Qed.
Lemma home_run hs : forall e e' out, home e -> echo_run hs (Going e) = (Going e', out) -> home e'.
Proof.
  induction hs as [|[h w] hs IH]; intros e e' out HO; [intros H; injection H as <- _; exact HO|]. rewrite run_cons. destruct (echo_turn h w e) as [v o] eqn:ET. destruct v as [e1| | |]; [|rewrite run_over by discriminate; discriminate..].
  destruct (echo_run hs (Going e1)) as [v2 o2] eqn:ER. intros H. injection H as -> _. exact (IH _ _ _ (home_kept _ _ _ _ _ HO ET) ER).
Qed.
Lemma home_start tp to from ip port oid d w e out : echo_start tp to from ip port oid d w = (Going e, out) -> home e.
Proof.
  unfold echo_start. destruct (NewRequest _ _ _ to from d) as [m|] eqn:EN; [|discriminate]. destruct (Send _ _ w) as [s|] eqn:ES; [|discriminate]. destruct (sd_ok s); [|discriminate]. intros H. injection H as <- _. split; [|discriminate]. cbn [e_tp e_invite].
  apply (send_own _ _ _ _) in ES; [exact ES|]. clear ES. revert EN. unfold NewRequest. intros H. apply rbind_ok in H. destruct H as (u & _ & H). cbn [via_Copy] in H. destruct (addr_Copy _) as [|f fs]; [discriminate|]. apply rbind_ok in H. destruct H as (cid & _ & H). injection H as <-.
  split; [reflexivity|]. split; [reflexivity|]. eexists. split; reflexivity.
Qed.

(** * C94 *)
(** Whatever happened before: if the callee hangs up, the program crashes. *)
Theorem echo_remote_bye_refuted : forall tp to from ip port oid d w0 v0 out0 hs e out m w,
  echo_start tp to from ip port oid d w0 = (v0, out0) -> echo_run hs v0 = (Going e, out) -> status m = 0 -> method m = B "BYE" -> echo_turn (Message m) w e = (Crash, []).
Proof.
  intros tp to from ip port oid d w0 v0 out0 hs e out m w ES ER SM MM. assert (HO : home e). { destruct v0 as [e0| | |]; [exact (home_run _ _ _ _ (home_start _ _ _ _ _ _ _ _ _ _ ES) ER)|rewrite run_over in ER by discriminate; discriminate..]. }
  destruct HO as ((SH & _ & v & V & VS) & _). cbn [echo_turn]. unfold take_message, IsResponse. rewrite SM, MM. change (0 <? 0) with false. cbv iota. replace (bseq (B "BYE") (B "BYE")) with true by reflexivity.
  cbn [EchoModel.with_msg e_tp e_invite]. unfold view. rewrite SH. unfold Send, view. cbn [h_shared h_msg]. set (r := NewResponse _ 200). assert (IR : IsResponse r = true) by reflexivity. assert (RV : vias r = [v]) by exact V.
  unfold PopulateMessage, RouteMessage. rewrite IR. cbn [rbind]. rewrite IR, RV. replace (via_CompareHostPort [tp_via (e_tp e)] [v]) with true; [reflexivity|]. symmetry. apply via_compare_spec. unfold sent_by in VS. injection VS as E1 E2. exists (tp_via (e_tp e)), [], v, []. repeat split; congruence.
Qed.
(** A final answer to the INVITE without a Contact, as to a callee who is busy, crashes it as well. *)
Theorem echo_declined_refuted : forall e m w, 200 <= status m -> cseq m = cseq (h_msg (e_invite e)) -> addrs m Contact = [] -> echo_turn (Message m) w e = (Crash, []).
Proof.
  intros e m w S C N. cbn [echo_turn]. unfold take_message, IsResponse. destruct (Z.ltb_spec 0 (status m)); [|lia]. cbn [EchoModel.with_msg e_tp e_invite]. rewrite (proj2 (Z.leb_le _ _) S), C, Z.eqb_refl. cbn [andb]. unfold NewAck. rewrite N. reflexivity.
Qed.
(** Only a 100 stops the timer for retransmissions: an answer does not ... *)
Theorem echo_answer_keeps_timer : forall e e' m w out, status m <> 100 -> echo_turn (Message m) w e = (Going e', out) -> e_timer e' = e_timer e /\ e_resends e' = e_resends e /\ e_resend e' = e_resend e.
Proof.
  intros e e' m w out N. cbn [echo_turn]. unfold take_message. destruct (IsResponse m).
  - destruct (_ && _).
    + destruct (NewAck _ _) as [ack|]; [|discriminate]. destruct (Send _ _ w) as [s|] eqn:ES; [|discriminate]. destruct (sd_ok s); [|discriminate]. intros H. injection H as H _. destruct (status_going _ _ _ H) as ((_ & _ & S3 & _ & S5 & _) & T & _). rewrite (T N), S3, S5. repeat split.
    + intros H. injection H as H _. destruct (status_going _ _ _ H) as ((_ & _ & S3 & _ & S5 & _) & T & _). rewrite (T N), S3, S5. repeat split.
  - destruct (bseq (method m) (B "BYE")); [destruct (Send _ _ w) as [s|]; [destruct (sd_ok s); discriminate|discriminate]|]. intros H. injection H as <- _. repeat split.
Qed.
(** ... and when it has fired three times the program gives up, answered or not. *)
Theorem echo_gives_up_refuted : forall e w1 w2 w3, e_timer e = true -> 0 <= e_resends e <= 2 ->
  let v := fst (echo_run [(ResendTimer, w1); (ResendTimer, w2); (ResendTimer, w3)] (Going e)) in v = Fatal \/ v = Crash.
Proof.
  assert (ST : forall e w, e_timer e = true -> 0 <= e_resends e <= 2 -> (e_resends e = 2 /\ echo_turn ResendTimer w e = (Fatal, [])) \/ (exists e' o, e_resends e < 2 /\ echo_turn ResendTimer w e = (Going e', o) /\ e_timer e' = true /\ e_resends e' = e_resends e + 1) \/ (exists v o, echo_turn ResendTimer w e = (v, o) /\ (v = Fatal \/ v = Crash))).
  { intros e w T R. cbn [echo_turn]. rewrite T. unfold take_timer. destruct (Z.eqb_spec (e_resends e) 2); [left; auto|]. right. destruct (Send _ _ w) as [s|]; [|right; eexists _, _; split; [reflexivity|auto]].
    destruct (sd_ok s); [left|right; eexists _, _; split; [reflexivity|auto]]. eexists _, _. split; [lia|]. split; [reflexivity|]. split; [reflexivity|]. cbn [e_resends]. unfold sent_again. destruct (e_resend e); reflexivity. }
  assert (END : forall hs v, v = Fatal \/ v = Crash -> echo_run hs v = (v, [])) by (intros hs v [-> | ->]; apply run_over; discriminate).
  intros e w1 w2 w3 T R. cbv zeta. rewrite run_cons. destruct (ST e w1 T R) as [[_ ->]|[(e1 & o1 & L1 & -> & T1 & R1)|(v & o & -> & V)]]; [rewrite END by auto; cbn; auto| |rewrite END by exact V; exact V].
  rewrite run_cons. destruct (ST e1 w2 T1 ltac:(lia)) as [[_ ->]|[(e2 & o2 & L2 & -> & T2 & R2)|(v & o & -> & V)]]; [rewrite END by auto; cbn; auto| |rewrite END by exact V; exact V].
  rewrite run_cons. destruct (ST e2 w3 T2 ltac:(lia)) as [[_ ->]|[(e3 & o3 & L3 & -> & T3 & R3)|(v & o & -> & V)]]; [cbn; auto|lia|cbn; exact V].
Qed.

(** ** It reports success only after an answered call that was hung up *)
(** how a message ends the loop *)
Lemma message_over m w e a f out : echo_turn (Message m) w e = (Over a f, out) -> home e ->
  status m = 200 /\ (cseqmethod m = B "BYE" \/ cseqmethod m = B "CANCEL") /\ a = e_answered e /\ f = e_failed e.
Proof.
  intros H HO. assert (K : forall e, take_status m e = Over a f -> status m = 200 /\ (cseqmethod m = B "BYE" \/ cseqmethod m = B "CANCEL") /\ a = e_answered e /\ f = e_failed e).
  { clear. intros e. unfold take_status. assert (TP : forall e, take_payload m e <> Over a f) by (intros x; unfold take_payload; destruct (pay m) as [[|d]|]; try discriminate; destruct (s_audio d); discriminate).
    destruct (status m <? 200); [intros H; destruct (TP _ H)|]. destruct (Z.eqb_spec (status m) 200); [|discriminate]. destruct (bseq (cseqmethod m) (B "INVITE")); [intros H; destruct (TP _ H)|].
    destruct (bseq_reflect (cseqmethod m) (B "BYE")); [intros H; injection H as <- <-; auto|]. destruct (bseq_reflect (cseqmethod m) (B "CANCEL")); [intros H; injection H as <- <-; auto|]. intros H; destruct (TP _ H). }
  cbn [echo_turn] in H. unfold take_message in H. destruct (IsResponse m) eqn:IR.
  - destruct (_ && _); [|injection H as H _; exact (K _ H)]. destruct (NewAck _ _) as [ack|]; [|discriminate]. destruct (Send _ _ w) as [s|]; [|discriminate]. destruct (sd_ok s); [|discriminate]. injection H as H _. exact (K _ H).
  - destruct (bseq (method m) (B "BYE")); [|discriminate]. exfalso. destruct HO as ((SH & _ & v & V & VS) & _). cbn [EchoModel.with_msg e_tp e_invite] in H. unfold view in H. rewrite SH in H. unfold Send, view in H. cbn [h_shared h_msg] in H.
    set (r := NewResponse _ 200) in H. assert (IR2 : IsResponse r = true) by reflexivity. assert (RV : vias r = [v]) by exact V. cbv zeta in H. unfold PopulateMessage, RouteMessage in H. rewrite IR2 in H. cbn [rbind] in H. rewrite IR2, RV in H.
    replace (via_CompareHostPort [tp_via (e_tp e)] [v]) with true in H; [discriminate|]. symmetry. apply via_compare_spec. unfold sent_by in VS. injection VS as E1 E2. exists (tp_via (e_tp e)), [], v, []. repeat split; congruence.
Qed.
Lemma turn_over h w e a f out : echo_turn h w e = (Over a f, out) -> exists m, h = Message m.
Proof.
  destruct h as [| | |ok|m| |]; cbn [echo_turn]; try discriminate; [destruct ok; discriminate|eauto| |].
  - destruct (e_timer e); [|discriminate]. unfold take_timer. destruct (_ =? 2); [discriminate|]. destruct (Send _ _ w) as [s|]; [|discriminate]. destruct (sd_ok s); discriminate.
  - destruct (e_death e); [|discriminate]. unfold take_death. destruct (if e_answered e then _ else _) as [x|]; [|discriminate]. destruct (Send _ _ w); discriminate.
Qed.
(** the flag says whether a 200 to an INVITE has arrived *)
Definition answer_in (hs : list (happening * net)) : Prop := exists m w, In (Message m, w) hs /\ status m = 200 /\ cseqmethod m = B "INVITE".
Lemma answered_turn h w e e' out : echo_turn h w e = (Going e', out) -> (e_answered e' = true <-> e_answered e = true \/ answer_in [(h, w)]).
Proof.
  assert (NO : forall h, (forall m, h <> Message m) -> ~ answer_in [(h, w)]) by (intros h0 N (m & w' & [E|[]] & _); injection E as E _; exact (N m E)).
  assert (SAME : forall h b b' : bool, b' = b -> forall P : Prop, ~ P -> (b' = true <-> b = true \/ P)) by (intros _ b b' -> P N; split; [auto|]; intros [K|K]; [exact K|contradiction]).
  destruct h as [| | |ok|m| |]; cbn [echo_turn]; try discriminate.
  - intros H. injection H as <- _. apply (SAME true); [reflexivity|apply NO; discriminate].
  - destruct ok; [|discriminate]. intros H. injection H as <- _. apply (SAME true); [reflexivity|apply NO; discriminate].
  - assert (IN : answer_in [(Message m, w)] <-> status m = 200 /\ cseqmethod m = B "INVITE"). { split; [intros (m' & w' & [E|[]] & K); injection E as <- _; exact K|]. intros K. exists m, w. split; [left; reflexivity|exact K]. }
    rewrite IN. unfold take_message. destruct (IsResponse m) eqn:IR.
    + destruct (_ && _); [destruct (NewAck _ _) as [ack|]; [|discriminate]; destruct (Send _ _ w) as [s|]; [|discriminate]; destruct (sd_ok s); [|discriminate]|]; intros H; injection H as H _; destruct (status_going _ _ _ H) as (_ & _ & A); exact A.
    + destruct (bseq (method m) (B "BYE")); [destruct (Send _ _ w) as [s|]; [destruct (sd_ok s); discriminate|discriminate]|]. intros H. injection H as <- _. apply (SAME true); [reflexivity|]. intros [E _]. unfold IsResponse in IR. rewrite E in IR. discriminate.
  - destruct (e_timer e); [|intros H; injection H as <- _; apply (SAME true); [reflexivity|apply NO; discriminate]]. unfold take_timer. destruct (_ =? 2); [discriminate|]. destruct (Send _ _ w) as [s|]; [|discriminate]. destruct (sd_ok s); [|discriminate]. intros H. injection H as <- _.
    apply (SAME true); [|apply NO; discriminate]. cbn [e_answered]. unfold sent_again. destruct (e_resend e); reflexivity.
  - destruct (e_death e); [|intros H; injection H as <- _; apply (SAME true); [reflexivity|apply NO; discriminate]]. unfold take_death. destruct (if e_answered e then _ else _) as [x|]; [|discriminate]. destruct (Send _ _ w) as [s|]; [|discriminate]. intros H. injection H as <- _.
    apply (SAME true); [reflexivity|apply NO; discriminate].
Qed.
Lemma ends_from hs : forall e a f out, home e -> echo_run hs (Going e) = (Over a f, out) ->
  exists hs1 m w hs2, hs = hs1 ++ (Message m, w) :: hs2 /\ status m = 200 /\ (cseqmethod m = B "BYE" \/ cseqmethod m = B "CANCEL") /\ (a = true <-> e_answered e = true \/ answer_in hs1).
Proof.
  induction hs as [|[h w] hs IH]; intros e a f out HO; [discriminate|]. rewrite run_cons. destruct (echo_turn h w e) as [v o] eqn:ET. destruct v as [e1|a1 f1| |]; [|rewrite run_over by discriminate|rewrite run_over by discriminate; discriminate..].
  - destruct (echo_run hs (Going e1)) as [v2 o2] eqn:ER. intros H. injection H as -> _. destruct (IH _ _ _ _ (home_kept _ _ _ _ _ HO ET) ER) as (hs1 & m & w' & hs2 & -> & S & C & A). exists ((h, w) :: hs1), m, w', hs2. split; [reflexivity|]. split; [exact S|]. split; [exact C|].
    rewrite A, (answered_turn _ _ _ _ _ ET). unfold answer_in. split.
    + intros [[K|(m' & x & [E|[]] & K)]|(m' & x & I & K)]; [auto|right; exists m', x; split; [left; exact E|exact K]|right; exists m', x; split; [right; exact I|exact K]].
    + intros [K|(m' & x & [E|I] & K)]; [auto|left; right; exists m', x; split; [left; exact E|exact K]|right; exists m', x; auto].
  - intros H. injection H as <- <- _. destruct (turn_over _ _ _ _ _ _ ET) as (m & ->). destruct (message_over _ _ _ _ _ _ ET HO) as (S & C & -> & _). exists [], m, w, hs. split; [reflexivity|]. split; [exact S|]. split; [exact C|]. split; [auto|]. intros [K|(m' & x & [] & _)]. exact K.
Qed.
(** Whatever happens: if the loop ends in good order, a 200 to a BYE or to a CANCEL has arrived, and the call counts as answered exactly if a 200 to an INVITE had arrived before. *)
Theorem echo_ends : forall tp to from ip port oid d w0 v0 out0 hs answered failed out,
  echo_start tp to from ip port oid d w0 = (v0, out0) -> echo_run hs v0 = (Over answered failed, out) ->
  exists hs1 m w hs2, hs = hs1 ++ (Message m, w) :: hs2 /\ status m = 200 /\ (cseqmethod m = B "BYE" \/ cseqmethod m = B "CANCEL") /\ (answered = true <-> answer_in hs1).
Proof.
  intros tp to from ip port oid d w0 v0 out0 hs a f out ES ER. destruct v0 as [e0|a0 f0| |]; [| |rewrite run_over in ER by discriminate; discriminate..].
  - destruct (ends_from _ _ _ _ _ (home_start _ _ _ _ _ _ _ _ _ _ ES) ER) as (hs1 & m & w & hs2 & E & S & C & A). exists hs1, m, w, hs2. split; [exact E|]. split; [exact S|]. split; [exact C|]. rewrite A.
    assert (N : e_answered e0 = false). { revert ES. unfold echo_start. destruct (NewRequest _ _ _ to from d) as [m0|]; [|discriminate]. destruct (Send _ _ w0) as [s|]; [|discriminate]. destruct (sd_ok s); [|discriminate]. intros H. injection H as <- _. reflexivity. }
    rewrite N. split; [intros [K|K]; [discriminate|exact K]|auto].
  - exfalso. revert ES. unfold echo_start. destruct (NewRequest _ _ _ to from d) as [m0|]; [|discriminate]. destruct (Send _ _ w0) as [s|]; [|discriminate]. destruct (sd_ok s); discriminate.
Qed.

(** ** A call *)
(** what may happen meanwhile: audio in both directions, and provisional answers *)
Definition calm (h : happening) : Prop := h = Audio \/ h = Tick true.
Definition quiet (h : happening) : Prop := calm h \/ exists m, h = Message m /\ 0 < status m < 200 /\ forall d, pay m = Some (PSdp d) -> s_audio d <> None.
Lemma calm_run hs e : Forall (fun h => calm (fst h)) hs -> forall rest, echo_run (hs ++ rest) (Going e) = echo_run rest (Going e).
Proof.
  induction 1 as [|[h w] hs C F IH]; intros rest; [reflexivity|]. cbn [app]. rewrite run_cons. cbn [fst] in C. destruct C as [-> | ->]; cbn [echo_turn]; rewrite IH; destruct (echo_run rest (Going e)) as [v o]; reflexivity.
Qed.
Definition like (e e' : echo) : Prop := e_tp e' = e_tp e /\ e_invite e' = e_invite e /\ e_death e' = e_death e /\ e_failed e' = e_failed e /\ e_answered e' = e_answered e.
Lemma quiet_run hs : Forall (fun h => quiet (fst h)) hs -> forall e, exists e', like e e' /\ forall rest, echo_run (hs ++ rest) (Going e) = echo_run rest (Going e').
Proof.
  induction 1 as [|[h w] hs C F IH]; intros e; [exists e; split; [repeat split|reflexivity]|]. cbn [fst] in C. destruct C as [C|(m & -> & S & A)].
  - destruct (IH e) as (e' & L & R). exists e'. split; [exact L|]. intros rest. cbn [app]. rewrite run_cons. destruct C as [-> | ->]; cbn [echo_turn]; rewrite R; destruct (echo_run rest (Going e')) as [v o]; reflexivity.
  - assert (T : exists e1, echo_turn (Message m) w e = (Going e1, []) /\ like e e1).
    { cbn [echo_turn]. unfold take_message, IsResponse. destruct (Z.ltb_spec 0 (status m)); [|lia]. destruct (Z.leb_spec 200 (status m)); [lia|]. cbn [andb]. unfold take_status. destruct (Z.ltb_spec (status m) 200); [|lia]. unfold take_payload.
      destruct (pay m) as [[t x|d]|]; [| |]; try (eexists; split; [reflexivity|]; destruct (status m =? 100); repeat split). specialize (A d eq_refl). destruct (s_audio d) as [a|]; [|congruence]. eexists. split; [reflexivity|]. destruct (status m =? 100); repeat split. }
    destruct T as (e1 & T & (L1 & L2 & L3 & L4 & L5)). destruct (IH e1) as (e' & (K1 & K2 & K3 & K4 & K5) & R). exists e'. split; [repeat split; congruence|]. intros rest. cbn [app]. rewrite run_cons, T, R. destruct (echo_run rest (Going e')) as [v o]. reflexivity.
Qed.
Lemma next_differs z : (z + 1 =? z) = false. Proof. apply Z.eqb_neq. lia. Qed.
(** where the audio goes after an answer *)
Definition peer_of (p : option payload) (before : option (bytes * Z)) : option (bytes * Z) :=
  match p with Some (PSdp d) => match s_audio d with Some a => Some (s_addr d, m_port a) | None => before end | _ => before end.
Lemma echo_sdp_ok rid ip d port : public_host ip -> port_ok port -> written_payload rid (PSdp (sdp_new ip port (GenerateOriginID d) [ULAWCodec; DTMFCodec])) = PSdp (fone_sdp ip (GenerateOriginID d) port).
Proof.
  intros (N & _) P. destruct (origin_word d) as (NI & _). unfold sdp_new, fone_sdp. cbn [written_payload]. rewrite u16_id by (unfold port_ok in P; lia). unfold written_sdp, written_origin, written_media.
  cbn [s_origin s_addr s_audio s_video s_session s_time s_ptime s_sendonly s_recvonly s_attrs s_other o_user o_id o_version o_addr option_map m_proto m_port m_codecs].
  assert (OE : forall x e : bytes, x <> [] -> or_else x e = x) by (intros [|? ?] ? X; [congruence|reflexivity]). rewrite !(OE _ _ NI), !(OE _ _ N). reflexivity.
Qed.
(** The program calls [t], with audio at [ip]:[port]. The callee gets the INVITE [r] with that session description and answers it with [x], a 200 with a
    Contact; provisional answers and audio may come before ([qs1]), audio may come after ([qs2]), then the time is over. The program has sent the ACK and the BYE, and the
    callee gets both. Its 200 to the BYE, perhaps after further provisional answers and audio ([qs3]), ends the program with success. *)
Theorem echo_call : forall ca la ta0 ta cb lb tb0 ha pa hb pb wa t tl from d ip port od,
  NewTransport (ca :: la) ha pa = Ok ta0 -> addr_ok ca -> ha <> [] -> forallb viahost_class ha = true -> port_ok pa -> pa <> 5060 -> used_ok ta0 ta ->
  NewTransport (cb :: lb) hb pb = Ok tb0 -> (hb, pb) <> (ha, pa) ->
  Forall addr_given (t :: tl) -> Forall addr_given from -> draws_ok d -> net_ok wa -> public_host ip -> port_ok port ->
  exists u a e0 req text, a_uri t = Some u /\ n_resolve wa (host_port (u_host u) (Portstr (u_port u))) = Some a /\
    echo_start ta (t :: tl) from ip port (GenerateOriginID od) d wa = (Going e0, [(a, req, text)]) /\
  forall lhost lport src stb, source_ok src -> (forall t, stb = Some t -> token t) ->
  exists r, delivers lhost lport text src stb r /\ method r = B "INVITE" /\ request r = Some (written_uri u) /\ pay r = Some (PSdp (fone_sdp ip (GenerateOriginID od) port)) /\
  forall tb wb x c cl, used tb0 tb -> net_ok wb -> reply_ok x -> rp_via x = [] -> rp_rid x = n_rid wb -> rp_status x = 200 -> rp_contact x = c :: cl -> rp_rr x = [] ->
  exists s2 a2 rsp text2, Send tb (mkheld (reply_msg r x) false) wb = Ok s2 /\ sd_ok s2 = true /\ sd_wire s2 = [(a2, rsp, text2)] /\ n_resolve wb (host_port (fst src) (Portstr (snd src))) = Some a2 /\
  forall lhost' lport', exists y, delivers lhost' lport' text2 (rp_src x) (rp_stamp x) y /\
  forall qs1 qs2 wk wy, Forall (fun h => quiet (fst h)) qs1 -> Forall (fun h => calm (fst h)) qs2 -> net_ok wk -> net_ok wy ->
  exists uc ak ack tk ay bye ty e, a_uri c = Some uc /\ n_resolve wk (host_port (u_host uc) (Portstr (u_port uc))) = Some ak /\ n_resolve wy (host_port (u_host uc) (Portstr (u_port uc))) = Some ay /\
    echo_run (qs1 ++ (Message y, wk) :: qs2 ++ [(DeathTimer, wy)]) (Going e0) = (Going e, [(ak, ack, tk); (ay, bye, ty)]) /\ e_answered e = true /\ (exists before, e_peer e = peer_of (rp_pay x) before) /\
    (forall lhost lport src stamp, source_ok src -> (forall t, stamp = Some t -> token t) -> exists k, delivers lhost lport tk src stamp k /\ AckMatch r k = true /\ in_dialog r x k /\ request k = Some uc) /\
    forall lhost lport src stamp, source_ok src -> (forall t, stamp = Some t -> token t) -> exists k, delivers lhost lport ty src stamp k /\ method k = B "BYE" /\ cseq k = cseq r + 1 /\ in_dialog r x k /\ request k = Some uc /\
    forall tb' wb x2, used tb0 tb' -> net_ok wb -> reply_ok x2 -> rp_via x2 = [] -> rp_rid x2 = n_rid wb -> rp_status x2 = 200 ->
    exists s3 a3 rsp2 text3, Send tb' (mkheld (reply_msg k x2) false) wb = Ok s3 /\ sd_ok s3 = true /\ sd_wire s3 = [(a3, rsp2, text3)] /\ n_resolve wb (host_port (fst src) (Portstr (snd src))) = Some a3 /\
    forall lhost' lport', exists z, delivers lhost' lport' text3 (rp_src x2) (rp_stamp x2) z /\
    forall qs3 wz, Forall (fun h => quiet (fst h)) qs3 -> echo_run (qs3 ++ [(Message z, wz)]) (Going e) = (Over true false, []).
Proof.
  intros ca la ta0 ta cb lb tb0 ha pa hb pb wa t tl from d ip port od MA CA H1 H2 PA N5 UA MB NE FT FF DO WA PI PP.
  set (p := PSdp (sdp_new ip port (GenerateOriginID od) [ULAWCodec; DTMFCodec])). pose proof (echo_sdp_ok (n_rid wa) ip od port PI PP) as WP.
  destruct (call_over_transports ca la ta0 ta cb lb tb0 ha pa hb pb wa t tl from d p MA CA H1 H2 PA N5 UA MB NE FT FF DO WA) as (u & inv & s & req & text & TU & EN & (ES & EO & a & EW & ER) & EH & MQ & _ & _ & QP & _ & REST).
  { unfold p. rewrite WP. apply fone_sdp_ok; assumption. }
  set (e0 := mkecho (sd_tp s) (sd_held s) false None None false 0 true true None false).
  exists u, a, e0, req, text. split; [exact TU|]. split; [exact ER|]. split; [unfold echo_start; rewrite EN; fold p; rewrite ES, EO, EW; reflexivity|].
  intros lhost lport src stb SO TK. destruct (REST lhost lport src stb SO TK) as (r & DR & MR & RR & CR & QR & PR & REST2). clear REST. exists r. split; [exact DR|]. split; [exact MR|]. split; [exact RR|]. split; [rewrite PR; unfold p; rewrite WP; reflexivity|].
  intros tb wb x c cl UB NB RO NV RID S200 RC RRR. destruct (REST2 tb wb x UB NB RO NV RID) as (s2 & a2 & rsp & text2 & T1 & T2 & T3 & T4 & REST3). clear REST2. exists s2, a2, rsp, text2. split; [exact T1|]. split; [exact T2|]. split; [exact T3|]. split; [exact T4|].
  intros lhost' lport'. destruct (REST3 lhost' lport') as (y & DY & AY & REST4). clear REST3. exists y. split; [exact DY|]. intros qs1 qs2 wk wy Q1 Q2 NK NY. destruct (REST4 c cl RC RRR) as (uc & UC & ACK & BYE). clear REST4.
  destruct (ACK (sd_tp s) wk (unused_ok _) NK) as (ack & sk & qk & tk & AK & (SK1 & SK2 & ak & SK3 & SK4) & _ & _ & DK). destruct (BYE (sd_tp sk) wy (once_more_ok _ _ _ _ _ NK SK1 (unused_ok _)) NY) as (bye & sy & qy & ty & BY & (SY1 & SY2 & ay & SY3 & SY4) & MB2 & QB & DB). clear ACK BYE.
  destruct (quiet_run _ Q1 e0) as (e1 & (L1 & L2 & L3 & L4 & L5) & R1). cbn [e0 e_tp e_invite e_death e_failed e_answered] in L1, L2, L3, L4, L5.
  pose proof AY as (MY & SY & CY & QY & _ & _ & _ & _ & PY). apply response_match_spec in MY. destruct MY as (_ & _ & CM & _).
  rewrite MQ in CM. assert (VQ : view (e_tp e1) (e_invite e1) = req) by (rewrite L1, L2, EH; reflexivity).
  set (e2 := with_answered (with_tp (sd_tp sk) (EchoModel.with_msg y e1))).
  assert (TP : exists e3, take_payload y e2 = Going e3 /\ settled e2 e3 /\ e_answered e3 = true /\ e_peer e3 = peer_of (rp_pay x) (e_peer e2)).
  { unfold take_payload, peer_of. rewrite <- PY. destruct (pay y) as [[tt dd|sd]|] eqn:EP; try (eexists; split; [reflexivity|]; split; [repeat split|]; split; reflexivity).
    destruct RO as (_ & _ & _ & _ & _ & _ & _ & _ & AU & _). specialize (AU sd ltac:(congruence)). destruct (s_audio sd) as [m|]; [|congruence]. eexists. split; [reflexivity|]. split; [repeat split|]. split; reflexivity. }
  destruct TP as (e3 & TP & (K1 & K2 & K3 & K4 & K5 & K6 & K7 & K8) & KA & KP). cbn [e2 with_answered with_tp EchoModel.with_msg e_tp e_invite e_resend e_cancel e_resends e_death e_failed e_msg] in K1, K2, K3, K4, K5, K6, K7, K8.
  assert (T5 : echo_turn (Message y) wk e1 = (Going e3, [(ak, qk, tk)])).
  { cbn [echo_turn]. unfold take_message, IsResponse. rewrite SY, S200. change (0 <? 200) with true. change (200 <=? 200) with true. cbv iota. cbn [EchoModel.with_msg e_tp e_invite]. rewrite VQ. rewrite L1, L2, EH. cbn [h_msg]. rewrite QY, Z.eqb_refl. cbn [andb]. rewrite AK, SK1, SK2, SK3.
    unfold take_status. rewrite SY, S200. change (200 <? 200) with false. change (200 =? 200) with true. cbv iota. rewrite CM. replace (bseq (B "INVITE") (B "INVITE")) with true by reflexivity. cbv iota.
    f_equal. rewrite <- TP. reflexivity. }
  assert (VQ3 : view (e_tp e3) (e_invite e3) = req) by (rewrite K1, K2, L2, EH; reflexivity).
  set (e := mkecho (sd_tp sy) (e_invite e3) true (Some y) (Some (sd_held sy)) false 0 true false (e_peer e3) false).
  assert (T6 : echo_turn DeathTimer wy e3 = (Going e, [(ay, qy, ty)])).
  { cbn [echo_turn]. rewrite K6, L3. unfold take_death. rewrite KA, K8, VQ3. rewrite BY. rewrite K1. rewrite SY1, SY3, SY2. unfold sent_again. cbn [e_resend e_tp e_invite e_answered e_msg e_cancel e_resends e_timer e_death e_peer e_failed negb]. rewrite K7, L4. reflexivity. }
  exists uc, ak, qk, tk, ay, qy, ty, e. split; [exact UC|]. split; [exact SK4|]. split; [exact SY4|]. split.
  { rewrite R1. rewrite run_cons, T5, (calm_run _ _ Q2). rewrite run_cons, T6. reflexivity. }
  split; [reflexivity|]. split; [exists (e_peer e2); exact KP|]. split; [exact DK|]. intros lh lp src' st' SO' TK'. destruct (DB lh lp src' st' SO' TK') as (k & B4 & B5 & B6 & B7 & B8 & B9). exists k. repeat (split; [assumption|]).
  intros tb' wb' x2 U' NB' RO2 NV2 RID2 S2. destruct (B9 tb' wb' x2 U' NB' RO2 NV2 RID2) as (s3 & a3 & rsp2 & text3 & C1 & C2 & C3 & C4 & C5). exists s3, a3, rsp2, text3. split; [exact C1|]. split; [exact C2|]. split; [exact C3|]. split; [exact C4|].
  intros lh' lp'. destruct (C5 lh' lp') as (z & DZ & AZ). exists z. split; [exact DZ|]. intros qs3 wz Q3. destruct (quiet_run _ Q3 e) as (e4 & (M1 & M2 & M3 & M4 & M5) & R4). rewrite R4, run_cons.
  pose proof AZ as (MZ & SZ & _ & CZ & _). apply response_match_spec in MZ. destruct MZ as (_ & _ & CMZ & _). rewrite MB2 in CMZ. cbn [echo_turn]. unfold take_message, IsResponse. rewrite SZ, S2. change (0 <? 200) with true. change (200 <=? 200) with true. cbv iota. cbn [EchoModel.with_msg e_tp e_invite].
  rewrite M2. change (e_invite e) with (e_invite e3). rewrite K2, L2, EH. cbn [h_msg]. rewrite CZ, QB. rewrite next_differs. cbn [andb]. unfold take_status. rewrite SZ, S2. change (200 <? 200) with false. change (200 =? 200) with true. cbv iota. rewrite CMZ.
  replace (bseq (B "BYE") (B "INVITE")) with false by reflexivity. replace (bseq (B "BYE") (B "BYE")) with true by reflexivity. cbv iota. cbn [EchoModel.with_msg e_answered e_failed echo_run app]. rewrite M4, M5. reflexivity.
Qed.

(** ** Examples: the program meets these cases *)
Definition ex_echo_start : verdict * wire := echo_start ex_made [ex_bob] [ex_alice] (B "1.2.3.4") 5004 (B "77") ex_draws (ex_wnet "a").
Definition ex_sent : msg := match snd ex_echo_start with (_, q, _) :: _ => q | [] => msg0 end.
(** bob's answer, and his answer that he is busy *)
Definition ex_yes : msg := reply_msg ex_sent ex_taken.
Definition ex_busy : msg := reply_msg ex_sent (mkreply 486 [] [(B "tag", B "xyz")] [] [] None (B "1") (B "5.6.7.8", 40001) None).
Definition ex_done : msg := set_cseq (cseq ex_sent + 1) (set_cseqmethod (B "BYE") (reply_msg ex_sent ex_confirm)).
Definition ex_w : net := ex_wnet "b".
Example echo_example :
  (exists e, fst ex_echo_start = Going e) /\
  fst (echo_run [(Message ex_yes, ex_w); (DeathTimer, ex_w); (Message ex_done, ex_w)] (fst ex_echo_start)) = Over true false /\
  map (fun x => method (snd (fst x))) (snd (echo_run [(Message ex_yes, ex_w); (DeathTimer, ex_w); (Message ex_done, ex_w)] (fst ex_echo_start))) = [B "ACK"; B "BYE"] /\
  fst (echo_run [(Message ex_busy, ex_w)] (fst ex_echo_start)) = Crash /\
  fst (echo_run [(Message ex_yes, ex_w); (Message (set_method (B "BYE") msg0), ex_w)] (fst ex_echo_start)) = Crash /\
  fst (echo_run [(Message ex_yes, ex_w); (ResendTimer, ex_w); (ResendTimer, ex_w); (ResendTimer, ex_w)] (fst ex_echo_start)) = Fatal /\
  map (fun x => method (snd (fst x))) (snd (echo_run [(Message ex_yes, ex_w); (ResendTimer, ex_w); (ResendTimer, ex_w); (ResendTimer, ex_w)] (fst ex_echo_start))) = [B "ACK"; B "INVITE"; B "INVITE"].
Proof. split; [vm_compute; eexists; reflexivity|]. repeat split; vm_compute; reflexivity. Qed.
Example echo_call_example : Forall addr_given [ex_bob] /\ public_host (B "1.2.3.4") /\ port_ok 5004 /\ reply_ok ex_taken /\ rp_status ex_taken = 200.
Proof.
  split; [apply peer_call_example|]. split; [split; [discriminate|]; split; [reflexivity|]; split; [repeat (constructor; [reflexivity|]); constructor || reflexivity|reflexivity]|]. split; [unfold port_ok; lia|]. split; [apply peer_call_example|reflexivity].
Qed.
Print Assumptions echo_call.
Print Assumptions echo_ends.
