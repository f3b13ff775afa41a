(** C99: the dialog and the clock: how often it transmits, when it gives up, and when it waits for ever. *)
From Verif Require Import Bytes BytesLemmas GoLib GoLibLemmas SdpModel SipText SipTypes SipAppend UtilModel P_Text P_Lists DialogMsg P_DialogMsg DialogModel P_DialogEnd P_Dialog P_DialogSafe P_DialogFail P_DialogRuns P_DialogPeer TimedModel.
Local Open Scope Z_scope.

(** * Nothing but taking a timer depends on whether it is armed *)
Definition stamp (b c : bool) (s : dstate) : dstate := set_rtimer b (set_rsptimer c s).
Lemma stamp_self s : stamp (rtimer s) (rsptimer s) s = s. Proof. destruct s. reflexivity. Qed.
Definition kept_or_set (b before after b' : bool) : Prop := b' = after \/ b' = b /\ after = before.
Definition blind (a : action) : Prop := forall b c s, exists b' c',
  a (stamp b c s) = mkres (stamp b' c' (r_state (a s))) (r_out (a s)) (r_v (a s)) /\
  kept_or_set b (rtimer s) (rtimer (r_state (a s))) b' /\ kept_or_set c (rsptimer s) (rsptimer (r_state (a s))) c'.
Lemma blind_same a : (forall b c s, a (stamp b c s) = mkres (stamp b c (r_state (a s))) (r_out (a s)) (r_v (a s)) /\ rtimer (r_state (a s)) = rtimer s /\ rsptimer (r_state (a s)) = rsptimer s) -> blind a.
Proof. intros H b c s. destruct (H b c s) as (E & R1 & R2). exists b, c. split; [exact E|]. split; right; auto. Qed.
Lemma blind_upd f : (forall b c s, f (stamp b c s) = stamp b c (f s)) -> (forall s, rtimer (f s) = rtimer s) -> (forall s, rsptimer (f s) = rsptimer s) -> blind (upd f).
Proof. intros H H1 H2. apply blind_same. intros b c s. unfold upd, go. cbn [r_state r_out r_v]. rewrite H. auto. Qed.
Lemma blind_req x : blind (upd (set_rtimer x)).
Proof. intros b c s. exists x, c. split; [reflexivity|]. split; [left; reflexivity|right; split; reflexivity]. Qed.
Lemma blind_rsp x : blind (upd (set_rsptimer x)).
Proof. intros b c s. exists b, x. split; [reflexivity|]. split; [right; split; reflexivity|left; reflexivity]. Qed.
Lemma kept_trans b s0 s1 s2 b1 b2 : kept_or_set b s0 s1 b1 -> kept_or_set b1 s1 s2 b2 -> kept_or_set b s0 s2 b2.
Proof. unfold kept_or_set. intros [->|[-> ->]] [->|[-> ->]]; auto. Qed.
Lemma blind_seq a a' : blind a -> blind a' -> blind (a ;; a').
Proof.
  intros H1 H2 b c s. destruct (H1 b c s) as (b1 & c1 & E1 & K1 & L1). rewrite !seq_eq, E1. cbn [r_v r_state r_out].
  destruct (r_v (a s)) eqn:V; [|exists b1, c1; split; [rewrite V; reflexivity|split; assumption]|exists b1, c1; split; [rewrite V; reflexivity|split; assumption]].
  destruct (H2 b1 c1 (r_state (a s))) as (b2 & c2 & E2 & K2 & L2). rewrite E2. cbn [r_v r_state r_out]. exists b2, c2. split; [reflexivity|]. split; eapply kept_trans; eassumption.
Qed.
Lemma blind_look {A} (f : dstate -> A) k : (forall b c s, f (stamp b c s) = f s) -> (forall x, blind (k x)) -> blind (look f k).
Proof. intros H K b c s. unfold look. rewrite H. apply K. Qed.
Lemma blind_emit o : blind (emit o). Proof. apply blind_same. intros. repeat split. Qed.
Lemma blind_halt : blind halt. Proof. apply blind_same. intros. repeat split. Qed.
Lemma blind_crash : blind crash. Proof. apply blind_same. intros. repeat split. Qed.
Lemma blind_fail e : blind (fail e). Proof. apply blind_seq; [apply blind_emit|apply blind_halt]. Qed.
Lemma blind_val {A} (x : res A) k : (forall a, blind (k a)) -> blind (val x k). Proof. intros H. destruct x; [apply H|apply blind_crash]. Qed.
Lemma blind_ext a a' : (forall s, a s = a' s) -> blind a -> blind a'. Proof. intros E H b c s. rewrite <- !E. apply H. Qed.
Lemma blind_id : blind (upd (fun s => s)). Proof. apply blind_upd; reflexivity. Qed.
Section Blind.
Variable cfg : config.
Lemma blind_ask k : (forall w, blind (k w)) -> blind (ask cfg k).
Proof. intros H b c s. unfold ask. exact (H (c_world cfg (clock s)) b c (set_clock (S (clock s)) s)). Qed.
Definition plain (f : dstate -> dstate) : Prop := (forall b c s, f (stamp b c s) = stamp b c (f s)) /\ (forall s, rtimer (f s) = rtimer s) /\ (forall s, rsptimer (f s) = rsptimer s).
Lemma blind_plain f : plain f -> blind (upd f). Proof. intros (A & B & C). apply blind_upd; assumption. Qed.
Lemma plain_request m : plain (set_the_request m).
Proof. split; [|split]; intros; unfold set_the_request; cbn [stamp set_rtimer set_rsptimer req]; destruct (req s); reflexivity. Qed.
Lemma blind_send m keep : (forall x, plain (keep x)) -> blind (send cfg m keep).
Proof.
  intros P. unfold send. apply blind_seq; [apply blind_plain, P|]. destruct (_ && _); [apply blind_fail|]. apply blind_ask. intros w. apply blind_val. intros m2. apply blind_seq; [apply blind_plain, P|].
  apply blind_look; [reflexivity|]. intros [k|]; [|apply blind_crash]. cbv zeta. destruct (w_write _ _); [apply blind_emit|apply blind_fail].
Qed.
Lemma connect_stamp w b c s : connect cfg w (stamp b c s) = (stamp b c (fst (connect cfg w s)), snd (connect cfg w s)) /\ rtimer (fst (connect cfg w s)) = rtimer s /\ rsptimer (fst (connect cfg w s)) = rsptimer s.
Proof.
  unfold connect. change (so (stamp b c s)) with (so s). change (daddr (stamp b c s)) with (daddr s). destruct (match so s with Some k => bseq (daddr s) (so_remote k) | None => false end); [repeat split|]. cbv zeta.
  change (daddr (set_so None (stamp b c s))) with (daddr s). change (daddr (set_so None s)) with (daddr s). destruct (w_dial w (daddr s)) as [k|]; [|repeat split].
  change (cso (set_so (Some k) (set_so None (stamp b c s)))) with (cso s). change (cso (set_so (Some k) (set_so None s))) with (cso s). destruct (cso s); [repeat split|]. destruct (c_loose cfg); [|repeat split]. destruct (w_listen w); repeat split.
Qed.
Lemma blind_pop rs : blind (pop_route cfg rs).
Proof.
  induction rs as [|a rest IH]; cbn [pop_route].
  - apply blind_seq; [apply blind_upd; reflexivity|]. apply blind_look; [reflexivity|]. intros d. apply blind_fail.
  - apply blind_seq; [apply blind_upd; reflexivity|]. apply blind_seq; [apply blind_upd; reflexivity|]. apply blind_ask. intros w b c s. destruct (connect_stamp w b c s) as (E & R1 & R2). rewrite E. destruct (connect cfg w s) as [s1 ok]. cbn [fst snd] in *. rewrite <- R1, <- R2.
    destruct ok; cbn [negb]; [|apply IH]. change (so (stamp b c s1)) with (so s1). destruct (so s1) as [k|]; [|apply blind_crash]. change (cso (stamp b c s1)) with (cso s1). change (the_request (stamp b c s1)) with (the_request s1).
    revert b c s1 E R1 R2. intros b c s1 _ _ _. cut (blind (val (populate k (cso s1) w (the_request s1)) (fun m => upd (set_the_request m) ;; look st (fun n => if n <? Answered then upd (set_rseq 0) ;; upd (set_remote None) ;; upd (set_lseq (cseq m)) else upd (fun s => s)) ;; upd (set_resends 0) ;; upd (set_rtimer true) ;; send cfg m set_the_request))); [intros X; apply X|].
    apply blind_val. intros m. apply blind_seq; [apply blind_plain, plain_request|]. apply blind_seq.
    { apply blind_look; [reflexivity|]. intros n. destruct (n <? Answered); [|apply blind_id]. repeat (apply blind_seq; [apply blind_upd; reflexivity|]). apply blind_upd; reflexivity. }
    apply blind_seq; [apply blind_upd; reflexivity|]. apply blind_seq; [apply blind_req|]. apply blind_send. intros. apply plain_request.
Qed.
Lemma blind_popRoute : blind (popRoute cfg). Proof. apply blind_look; [reflexivity|]. apply blind_pop. Qed.
Lemma blind_sendRequest w : blind (sendRequest cfg w).
Proof.
  unfold sendRequest. apply blind_look; [destruct w; reflexivity|]. intros m. apply blind_val. intros [m1 r]. apply blind_seq; [apply blind_upd; destruct w; reflexivity|]. destruct r as [[h p]|]; [|apply blind_fail]. apply blind_ask. intros w0. apply blind_look; [reflexivity|]. intros n.
  destruct (RouteAddress _ _ _ _); [|apply blind_fail]. repeat (apply blind_seq; [apply blind_upd; reflexivity|]). apply blind_popRoute.
Qed.
Lemma blind_drop m : blind (send cfg m drop). Proof. apply blind_send. intros x. repeat split. Qed.
Lemma blind_keep m : blind (send cfg m keep_response). Proof. apply blind_send. intros x. repeat split. Qed.
Lemma blind_checkSDP m : blind (checkSDP m).
Proof. unfold checkSDP. destruct (pay m) as [[]|]; try apply blind_id. destruct (s_audio _); [apply blind_emit|apply blind_crash]. Qed.
Lemma blind_transition n : blind (transition n). Proof. apply blind_seq; [apply blind_upd; reflexivity|apply blind_emit]. Qed.
Ltac step := first [apply blind_id|apply blind_fail|apply blind_crash|apply blind_halt|apply blind_emit|apply blind_transition|apply blind_drop|apply blind_keep|apply blind_checkSDP|apply blind_popRoute|apply blind_sendRequest|apply blind_req|apply blind_rsp|apply blind_upd; reflexivity|apply blind_seq|apply blind_look; [reflexivity|intros]|apply blind_val; intros].
Lemma blind_response m : blind (handleResponse cfg m).
Proof.
  unfold handleResponse. step. destruct (negb _); [step|]. step.
  - destruct (_ && _); [|step]. destruct (addrs m Contact); repeat step.
  - repeat step. { destruct (status m <=? 200); step. } destruct (status m =? 100); [repeat step|]. destruct (_ || _); [repeat step|]. destruct (status m =? 200).
    + destruct (bseq _ _); [repeat step; destruct x0; step|]. destruct (_ || _); repeat step.
    + destruct (status m =? 503); [step; destruct x0; [step|step; destruct x0; step]|]. destruct (_ || _); [repeat step|]. destruct (200 <? status m); step.
Qed.
Lemma blind_request m : blind (handleRequest cfg m).
Proof.
  unfold handleRequest. destruct (maxforwards m <=? 0); [repeat step|]. step. destruct (_ && _); [step|]. step; [step|]. repeat (destruct (bseq _ _); [unfold sendResponse; repeat step|]). step.
Qed.
Lemma blind_message m : blind (handleMessage cfg m).
Proof. unfold handleMessage. destruct (_ || _); [repeat step|]. step. destruct (negb _); [step|]. destruct (IsResponse m); [apply blind_response|apply blind_request]. Qed.
Lemma blind_handle e : blind (handle cfg e).
Proof.
  destruct e as [[]| | | | |]; cbn [handle].
  - step; [step|]. step. destruct x; step.
  - repeat step.
  - repeat step.
  - step; [step|]. unfold resendRequest. step. destruct (x <? c_max cfg); [|step; destruct x0; step]. step; [|repeat step]. step. apply blind_send. intros. apply plain_request.
  - step; [step|]. unfold resendResponse. step. destruct x; [|step]. step. destruct (x <? c_max cfg); [|step; destruct x0; step]. repeat step.
  - apply blind_message.
  - unfold sendHangup. step. destruct (_ || _).
    + step. apply blind_send. intros y. repeat split.
    + destruct (x =? Answered); [|destruct (x =? Hangup); repeat step]. apply (blind_ext (look (fun s => (remote s, (invite s, lseq s))) (fun q => match fst q with None => crash | Some rm => val (NewBye (fst (snd q)) rm (Some (snd (snd q)))) (fun '(bye, n) => upd (set_lseq n) ;; sendRequest cfg (Some bye)) end))); [reflexivity|].
      step. destruct (fst x0); [|step]. step. destruct a as [bye n]. repeat step.
Qed.
End Blind.
(** Whether a timer is armed changes nothing about a turn, except for that timer itself, if the turn leaves it alone. *)
Theorem timers_unseen : forall cfg e s b c, exists b' c', handle cfg e (stamp b c s) = mkres (stamp b' c' (r_state (handle cfg e s))) (r_out (handle cfg e s)) (r_v (handle cfg e s)) /\
  kept_or_set b (rtimer s) (rtimer (r_state (handle cfg e s))) b' /\ kept_or_set c (rsptimer s) (rsptimer (r_state (handle cfg e s))) c'.
Proof. intros cfg e s b c. apply blind_handle. Qed.
Lemma armed_request cfg e s : rtimer (r_state (handle cfg e s)) = true -> arms_request cfg e s = true \/ rtimer s = true.
Proof.
  intros H. unfold arms_request. destruct (timers_unseen cfg e s false (rsptimer s)) as (b & c & E & K & _). replace (stamp false (rsptimer s) s) with (set_rtimer false s) in E by (destruct s; reflexivity). rewrite E. cbn [r_state]. change (rtimer (stamp b c (r_state (handle cfg e s)))) with b.
  destruct K as [->|[-> X]]; [left; exact H|right; congruence].
Qed.
Lemma armed_response cfg e s : rsptimer (r_state (handle cfg e s)) = true -> arms_response cfg e s = true \/ rsptimer s = true.
Proof.
  intros H. unfold arms_response. destruct (timers_unseen cfg e s (rtimer s) false) as (b & c & E & _ & K). replace (stamp (rtimer s) false s) with (set_rsptimer false s) in E by (destruct s; reflexivity). rewrite E. cbn [r_state]. change (rsptimer (stamp b c (r_state (handle cfg e s)))) with c.
  destruct K as [->|[-> X]]; [left; exact H|right; congruence].
Qed.

(** * C99: how often *)
Section Rate.
Variable cfg : config.
Variable ms : Z.
Let interval := Z.max 0 (duration ms).
(** the timers will not be taken before [t] and an interval *)
Definition not_before (t : Z) (x : timed) : Prop := t <= t_now x /\ (rtimer (r_state (t_loop x)) = true -> t + interval <= t_request x).
Definition not_before_rsp (t : Z) (x : timed) : Prop := t <= t_now x /\ (rsptimer (r_state (t_loop x)) = true -> t + interval <= t_response x).
Lemma later x u y t : tstep cfg ms x u y -> not_before t x -> not_before t y /\ (u_event u = EReqTimer -> t + interval <= u_at u /\ not_before (u_at u) y).
Proof.
  intros [x0 u0 s r V E N1 N2 N3 T1 T2] [L H]. assert (W : due (u_arm u0) ms >= u_at u0 + interval) by (unfold due, interval; lia). split.
  - split; [cbn [t_now]; lia|]. cbn [t_loop t_request r_state]. fold s r. intros R. destruct (armed_request _ _ _ R) as [A|A]; [rewrite A; lia|]. fold s in H. specialize (H A). destruct (arms_request cfg (u_event u0) s); lia.
  - intros Q. specialize (T1 Q). rewrite Q in E. cbn [enabled] in E. fold s in H. specialize (H E). split; [lia|]. split; [cbn [t_now]; lia|]. cbn [t_loop t_request r_state]. intros R. replace (arms_request cfg (u_event u0) s) with true; [lia|].
    symmetry. unfold r in R. rewrite Q in *. unfold arms_request. exact R.
Qed.
Lemma later_rsp x u y t : tstep cfg ms x u y -> not_before_rsp t x -> not_before_rsp t y /\ (u_event u = ERspTimer -> t + interval <= u_at u /\ not_before_rsp (u_at u) y).
Proof.
  intros [x0 u0 s r V E N1 N2 N3 T1 T2] [L H]. assert (W : due (u_arm u0) ms >= u_at u0 + interval) by (unfold due, interval; lia). split.
  - split; [cbn [t_now]; lia|]. cbn [t_loop t_response r_state]. fold s r. intros R. destruct (armed_response _ _ _ R) as [A|A]; [rewrite A; lia|]. fold s in H. specialize (H A). destruct (arms_response cfg (u_event u0) s); lia.
  - intros Q. specialize (T2 Q). rewrite Q in E. cbn [enabled] in E. fold s in H. specialize (H E). split; [lia|]. split; [cbn [t_now]; lia|]. cbn [t_loop t_response r_state]. intros R. replace (arms_response cfg (u_event u0) s) with true; [lia|].
    symmetry. unfold r in R. rewrite Q in *. unfold arms_response. exact R.
Qed.
Lemma all_later us : forall x y t, tsteps cfg ms x us y -> not_before t x -> forall i u, nth_error us i = Some u -> u_event u = EReqTimer -> t + interval <= u_at u.
Proof.
  induction us as [|v us IH]; intros x y t S N i u I Q; [destruct i; discriminate|]. inversion S as [|? ? z ? ? S1 S2]; subst. destruct (later _ _ _ _ S1 N) as [N1 N2]. destruct i as [|i]; [injection I as ->; apply N2; exact Q|]. eapply IH; eassumption.
Qed.
Lemma all_later_rsp us : forall x y t, tsteps cfg ms x us y -> not_before_rsp t x -> forall i u, nth_error us i = Some u -> u_event u = ERspTimer -> t + interval <= u_at u.
Proof.
  induction us as [|v us IH]; intros x y t S N i u I Q; [destruct i; discriminate|]. inversion S as [|? ? z ? ? S1 S2]; subst. destruct (later_rsp _ _ _ _ S1 N) as [N1 N2]. destruct i as [|i]; [injection I as ->; apply N2; exact Q|]. eapply IH; eassumption.
Qed.
Definition requests (us : list turn) : nat := length (filter (fun u => match u_event u with EReqTimer => true | _ => false end) us).
Lemma counted us : forall x y t, tsteps cfg ms x us y -> not_before t x -> t + Z.of_nat (requests us) * interval <= t_now y.
Proof.
  assert (P : 0 <= interval) by (unfold interval; lia). induction us as [|v us IH]; intros x y t S N; inversion S as [|? ? z ? ? S1 S2]; subst; [destruct N; cbn; lia|].
  destruct (later _ _ _ _ S1 N) as [N1 N2]. unfold requests in *. cbn [filter]. destruct (u_event v) eqn:Q; try (apply (IH _ _ _ S2 N1)). destruct (N2 eq_refl) as [N3 N4]. pose proof (IH _ _ _ S2 N4). cbn [length]. lia.
Qed.
End Rate.
(** * Turns which leave the timer of the response alone *)
Definition leaves (a : action) : Prop := forall s, rsptimer (r_state (a s)) = rsptimer s.
Lemma leaves_seq a b : leaves a -> leaves b -> leaves (a ;; b).
Proof. intros A B s. rewrite seq_eq. destruct (r_v (a s)); cbn [r_state]; rewrite ?B, A; reflexivity. Qed.
Lemma leaves_look {A} (f : dstate -> A) k : (forall x, leaves (k x)) -> leaves (look f k). Proof. intros H s. apply H. Qed.
Lemma leaves_val {A} (x : res A) k : (forall a, leaves (k a)) -> leaves (val x k). Proof. intros H. destruct x; [apply H|]. intros s. reflexivity. Qed.
Lemma leaves_upd f : (forall s, rsptimer (f s) = rsptimer s) -> leaves (upd f). Proof. intros H s. apply H. Qed.
Lemma leaves_fail e : leaves (fail e). Proof. intros s. reflexivity. Qed.
Lemma leaves_crash : leaves crash. Proof. intros s. reflexivity. Qed.
Lemma leaves_emit o : leaves (emit o). Proof. intros s. reflexivity. Qed.
Lemma leaves_halt : leaves halt. Proof. intros s. reflexivity. Qed.
Section Leaves.
Variable cfg : config.
Lemma leaves_ask k : (forall w, leaves (k w)) -> leaves (ask cfg k). Proof. intros H s. unfold ask. rewrite H. reflexivity. Qed.
Lemma leaves_send m keep : (forall x s, rsptimer (keep x s) = rsptimer s) -> leaves (send cfg m keep).
Proof.
  intros P. unfold send. apply leaves_seq; [apply leaves_upd, P|]. destruct (_ && _); [apply leaves_fail|]. apply leaves_ask. intros w. apply leaves_val. intros m2. apply leaves_seq; [apply leaves_upd, P|].
  apply leaves_look. intros [k|]; [|apply leaves_crash]. cbv zeta. destruct (w_write _ _); [apply leaves_emit|apply leaves_fail].
Qed.
Lemma request_leaves m s : rsptimer (set_the_request m s) = rsptimer s. Proof. unfold set_the_request. destruct (req s); reflexivity. Qed.
Lemma leaves_pop rs : leaves (pop_route cfg rs).
Proof.
  induction rs as [|a rest IH]; cbn [pop_route].
  - apply leaves_seq; [apply leaves_upd; reflexivity|]. apply leaves_look. intros d. apply leaves_fail.
  - apply leaves_seq; [apply leaves_upd; reflexivity|]. apply leaves_seq; [apply leaves_upd; reflexivity|]. apply leaves_ask. intros w s. destruct (connect_stamp cfg w false false s) as (_ & _ & R2). destruct (connect cfg w s) as [s1 ok]. cbn [fst snd] in *. rewrite <- R2.
    destruct ok; cbn [negb]; [|apply IH]. destruct (so s1) as [k|]; [|reflexivity].
    match goal with |- rsptimer (r_state (?a s1)) = _ => cut (leaves a); [intros X; apply X|] end. apply leaves_val. intros m. apply leaves_seq; [apply leaves_upd, request_leaves|]. apply leaves_seq.
    { apply leaves_look. intros n. destruct (n <? Answered); repeat (apply leaves_seq; [apply leaves_upd; reflexivity|]); apply leaves_upd; reflexivity. }
    repeat (apply leaves_seq; [apply leaves_upd; reflexivity|]). apply leaves_send. apply request_leaves.
Qed.
Lemma leaves_sendRequest w : leaves (sendRequest cfg w).
Proof.
  unfold sendRequest. apply leaves_look. intros m. apply leaves_val. intros [m1 r]. apply leaves_seq; [apply leaves_upd; destruct w; reflexivity|]. destruct r as [[h p]|]; [|apply leaves_fail]. apply leaves_ask. intros w0. apply leaves_look. intros n.
  destruct (RouteAddress _ _ _ _); [|apply leaves_fail]. repeat (apply leaves_seq; [apply leaves_upd; reflexivity|]). apply leaves_look. apply leaves_pop.
Qed.
Lemma leaves_start m : rsptimer (r_state (start cfg m)) = false. Proof. unfold start. rewrite leaves_sendRequest. reflexivity. Qed.
End Leaves.
(** However the messages, the timers and the application are interleaved: the timer of the request is taken first when an interval has passed since the first
    transmission, and there is an interval between any two times it is taken; likewise for the response to a re-INVITE. So within any time the dialog retransmits its
    request no more often than intervals fit into it. *)
Theorem retransmissions_spaced : forall cfg ms m arm end_ us y, arm <= end_ -> tsteps cfg ms (tbegin cfg ms m arm end_) us y -> let interval := Z.max 0 (duration ms) in
  (forall i u, nth_error us i = Some u -> u_event u = EReqTimer -> arm + interval <= u_at u) /\
  (forall i j u v, (i < j)%nat -> nth_error us i = Some u -> nth_error us j = Some v -> u_event u = u_event v -> u_event u = EReqTimer \/ u_event u = ERspTimer -> u_at u + interval <= u_at v) /\
  arm + Z.of_nat (requests us) * interval <= t_now y.
Proof.
  intros cfg ms m arm end_ us y L S interval. assert (N : not_before ms arm (tbegin cfg ms m arm end_)) by (split; [exact L|intros _; cbn [tbegin t_request]; unfold due; lia]).
  assert (NR : forall t, t <= end_ -> not_before_rsp ms t (tbegin cfg ms m arm end_)) by (intros t T; split; [exact T|cbn [tbegin t_loop]; rewrite leaves_start; discriminate]).
  split; [exact (all_later cfg ms us _ _ _ S N)|]. split; [|exact (counted cfg ms us _ _ _ S N)]. specialize (NR _ L).
  generalize dependent (tbegin cfg ms m arm end_). induction us as [|w us IH]; intros x S N NR i j u v IJ I J E T; [destruct i; discriminate|]. inversion S as [|? ? z ? ? S1 S2]; subst. destruct j as [|j]; [lia|]. cbn [nth_error] in J.
  destruct (later _ _ _ _ _ _ S1 N) as [N1 N2]. destruct (later_rsp _ _ _ _ _ _ S1 NR) as [N3 N4]. destruct i as [|i]; [|apply (IH z S2 N1 N3 i j u v ltac:(lia) I J E T)]. injection I as ->.
  destruct T as [T|T]; rewrite T in E; symmetry in E; [destruct (N2 T) as [_ N5]; exact (all_later cfg ms us _ _ _ S2 N5 j v J E)|destruct (N4 T) as [_ N5]; exact (all_later_rsp cfg ms us _ _ _ S2 N5 j v J E)].
Qed.
(** A timed execution is an execution of the event loop. *)
Theorem timed_runs : forall cfg ms x us y, tsteps cfg ms x us y -> run cfg (t_loop x) (map u_event us) (t_loop y).
Proof. intros cfg ms x us y. induction 1 as [|x u y us z S _ IH]; [constructor|]. destruct S as [x u s r V E _ _ _ _ _]. cbn [map]. apply run_step; [exact V|exact E|exact IH]. Qed.
(** The interval is resendInterval milliseconds, in nanoseconds, unless the setting is negative or that number does not fit 64 bits. *)
Theorem interval_ms : forall ms, 0 <= ms <= 9223372036854 -> Z.max 0 (duration ms) = ms * 1000000.
Proof. intros ms H. unfold duration. rewrite i64_id by lia. lia. Qed.
(** The interval which the default of the flag gives: 400 milliseconds. *)
Example default_interval : Z.max 0 (duration 400) = 400000000. Proof. reflexivity. Qed.
(** The product is computed with 64 bits: with a very large setting the dialog retransmits at once. *)
Example huge_interval : Z.max 0 (duration 9223372036855) = 0. Proof. reflexivity. Qed.
