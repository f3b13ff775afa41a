(** C51: how a dialog ends. And what actions leave unchanged. *)
From Verif Require Import Bytes BytesLemmas GoLib GoLibLemmas SdpModel SipText SipTypes SipAppend UtilModel P_Text P_Lists DialogMsg P_DialogMsg DialogModel.
Local Open Scope Z_scope.

(** * C51 *)
(** the notifications after which there must be nothing: an error, and the state Hangup *)
Definition final (o : out) : bool := match o with OErr _ => true | OState n => n =? Hangup | _ => false end.
Definition calm (l : list out) : Prop := forall o, In o l -> final o = false.
Definition tidy (a : action) : Prop := forall s, let r := a s in
  match r_v r with Halt => exists l o, r_out r = l ++ [o] /\ calm l /\ final o = true | _ => calm (r_out r) end.
Lemma calm_app l k : calm l -> calm k -> calm (l ++ k).
Proof. intros A C o I. apply in_app_or in I. destruct I; auto. Qed.
Lemma calm_nil : calm []. Proof. intros o []. Qed.
Lemma calm_one o : final o = false -> calm [o]. Proof. intros F x [<-|[]]. exact F. Qed.
Lemma tidy_seq a b : tidy a -> tidy b -> tidy (a ;; b).
Proof.
  intros A C s. unfold seq. specialize (A s). cbv zeta in *. destruct (r_v (a s)) eqn:E; cbn [r_v r_out]; [|rewrite E; exact A|rewrite E; exact A].
  specialize (C (r_state (a s))). cbv zeta in C. destruct (r_v (b (r_state (a s)))); [apply calm_app; assumption| |apply calm_app; assumption].
  destruct C as (l & o & -> & D & F). exists (r_out (a s) ++ l), o. rewrite app_assoc. split; [reflexivity|]. split; [apply calm_app; assumption|exact F].
Qed.
Lemma tidy_upd f : tidy (upd f). Proof. intros s. exact calm_nil. Qed.
Lemma tidy_crash : tidy crash. Proof. intros s. exact calm_nil. Qed.
Lemma tidy_emit o : final o = false -> tidy (emit o). Proof. intros F s. apply calm_one. exact F. Qed.
Lemma tidy_end o : final o = true -> tidy (emit o ;; halt). Proof. intros F s. exists [], o. auto using calm_nil. Qed.
Lemma tidy_fail e : tidy (fail e). Proof. apply tidy_end. reflexivity. Qed.
Lemma tidy_look {A} (f : dstate -> A) k : (forall x, tidy (k x)) -> tidy (look f k). Proof. intros H s. apply H. Qed.
Lemma tidy_val {A} (x : res A) k : (forall a, tidy (k a)) -> tidy (val x k). Proof. intros H. destruct x; [apply H|apply tidy_crash]. Qed.
Lemma tidy_ask cfg k : (forall w, tidy (k w)) -> tidy (ask cfg k). Proof. intros H s. apply H. Qed.
Lemma tidy_transition n : n <> Hangup -> tidy (transition n). Proof. intros N. apply tidy_seq; [apply tidy_upd|]. apply tidy_emit. apply Z.eqb_neq. exact N. Qed.
Lemma tidy_hangup : tidy (transition Hangup ;; halt).
Proof. intros s. exists [], (OState Hangup). cbn. auto using calm_nil. Qed.
Lemma tidy_send cfg m keep : tidy (send cfg m keep).
Proof.
  unfold send. apply tidy_seq; [apply tidy_upd|]. destruct (_ && _); [apply tidy_fail|]. apply tidy_ask. intros w. apply tidy_val. intros m2. apply tidy_seq; [apply tidy_upd|]. apply tidy_look. intros [k|]; [|apply tidy_crash].
  destruct (w_write w _); [apply tidy_emit; reflexivity|apply tidy_fail].
Qed.
Lemma tidy_pop cfg rs : tidy (pop_route cfg rs).
Proof.
  induction rs as [|a rest IH]; cbn [pop_route]; [apply tidy_seq; [apply tidy_upd|apply tidy_look; intros; apply tidy_fail]|].
  apply tidy_seq; [apply tidy_upd|]. apply tidy_seq; [apply tidy_upd|]. apply tidy_ask. intros w s. destruct (connect cfg w s) as [s1 ok]. destruct ok; [|exact (IH s1)]. cbn [negb]. destruct (so s1) as [k|]; [|exact (tidy_crash s1)].
  cbv zeta. match goal with |- context[r_v (val ?x ?k0 s1)] => enough (T : tidy (val x k0)) by exact (T s1) end. apply tidy_val. intros m.
  apply tidy_seq; [apply tidy_upd|]. apply tidy_seq; [apply tidy_look; intros n; destruct (n <? Answered); repeat (apply tidy_seq; [apply tidy_upd|]); apply tidy_upd|]. do 2 (apply tidy_seq; [apply tidy_upd|]). apply tidy_send.
Qed.
Lemma tidy_popRoute cfg : tidy (popRoute cfg). Proof. apply tidy_look. apply tidy_pop. Qed.
Lemma tidy_sendRequest cfg w : tidy (sendRequest cfg w).
Proof.
  apply tidy_look. intros m. apply tidy_val. intros [m' r]. apply tidy_seq; [apply tidy_upd|]. destruct r as [[host port]|e]; [|apply tidy_fail]. apply tidy_ask. intros x. apply tidy_look. intros n.
  destruct (RouteAddress _ _ _ _); [|apply tidy_fail]. repeat (apply tidy_seq; [apply tidy_upd|]). apply tidy_popRoute.
Qed.
Lemma tidy_sdp m : tidy (checkSDP m).
Proof. unfold checkSDP. destruct (pay m) as [[|d]|]; try apply tidy_upd. destruct (s_audio d); [apply tidy_emit; reflexivity|apply tidy_crash]. Qed.
Ltac tidy1 := match goal with
  | |- tidy (upd _) => apply tidy_upd
  | |- tidy crash => apply tidy_crash
  | |- tidy (fail _) => apply tidy_fail
  | |- tidy (send _ _ _) => apply tidy_send
  | |- tidy (popRoute _) => apply tidy_popRoute
  | |- tidy (sendRequest _ _) => apply tidy_sendRequest
  | |- tidy (checkSDP _) => apply tidy_sdp
  | |- tidy (transition Hangup ;; halt) => apply tidy_hangup
  | |- tidy (transition _) => apply tidy_transition; discriminate
  | |- tidy (look _ _) => apply tidy_look; intros
  | |- tidy (val _ _) => apply tidy_val; intros
  | |- tidy (_ ;; _) => apply tidy_seq
  | |- tidy (if ?b then _ else _) => destruct b
  | |- tidy (match ?x with _ => _ end) => destruct x end.
Lemma tidy_response cfg m : tidy (handleResponse cfg m). Proof. unfold handleResponse. repeat tidy1. Qed.
Lemma tidy_request cfg m : tidy (handleRequest cfg m). Proof. unfold handleRequest, sendResponse. repeat tidy1. Qed.
Lemma tidy_handle cfg e : tidy (handle cfg e).
Proof.
  destruct e as [[|]| | | |m|]; cbn [handle]; unfold resendRequest, resendResponse, handleMessage, sendHangup; repeat first [apply tidy_response|apply tidy_request|tidy1].
Qed.
Lemma tidy_run cfg r es r' : run cfg r es r' -> match r_v r with Halt => exists l o, r_out r = l ++ [o] /\ calm l /\ final o = true | _ => calm (r_out r) end ->
  match r_v r' with Halt => exists l o, r_out r' = l ++ [o] /\ calm l /\ final o = true | _ => calm (r_out r') end.
Proof.
  induction 1 as [r|r e es r' V E R IH]; [auto|]. intros T. apply IH. clear IH R. rewrite V in T. cbn [r_v r_out]. pose proof (tidy_handle cfg e (r_state r)) as H. cbv zeta in H. destruct (r_v (handle cfg e (r_state r))); [apply calm_app; assumption| |apply calm_app; assumption].
  destruct H as (l & o & -> & C & F). exists (r_out r ++ l), o. rewrite app_assoc. split; [reflexivity|]. split; [apply calm_app; assumption|exact F].
Qed.
(** After an error or Hangup nothing is sent or reported, and the loop has ended. In particular there is at most one of them. *)
Theorem dialog_ends_once : forall cfg m es r l o k, dialog cfg m es r -> r_out r = l ++ o :: k -> final o = true -> k = [] /\ r_v r = Halt.
Proof.
  intros cfg m es r l o k D E F. pose proof (tidy_run _ _ _ _ D (tidy_sendRequest cfg None (init m))) as T. destruct (r_v r).
  - rewrite (T o) in F; [discriminate|]. rewrite E. apply in_or_app. right. left. reflexivity.
  - destruct T as (l' & o' & E' & C & _). split; [|reflexivity]. rewrite E in E'. destruct k as [|x k] using rev_ind; [reflexivity|]. exfalso.
    change (l ++ o :: k ++ [x]) with (l ++ (o :: k) ++ [x]) in E'. rewrite app_assoc in E'. apply app_inj_tail in E'. destruct E' as [<- _]. rewrite (C o) in F; [discriminate|]. apply in_or_app. right. left. reflexivity.
  - rewrite (T o) in F; [discriminate|]. rewrite E. apply in_or_app. right. left. reflexivity.
Qed.
(** The loop ends only with an error or Hangup reported. *)
Theorem dialog_end_reported : forall cfg m es r, dialog cfg m es r -> r_v r = Halt -> exists l o, r_out r = l ++ [o] /\ final o = true.
Proof. intros cfg m es r D V. pose proof (tidy_run _ _ _ _ D (tidy_sendRequest cfg None (init m))) as T. rewrite V in T. destruct T as (l & o & E & _ & F). eauto. Qed.

(** * What actions do not change *)
Definition does (R : dstate -> dstate -> Prop) (a : action) : Prop := forall s, R s (r_state (a s)).
Section Frame.
Variable R : dstate -> dstate -> Prop.
Hypothesis Rrefl : forall s, R s s.
Hypothesis Rtrans : forall a b c, R a b -> R b c -> R a c.
Hypothesis Rclock : forall n s, R s (set_clock n s).
Lemma does_seq a b : does R a -> does R b -> does R (a ;; b).
Proof. intros A C s. unfold seq. cbv zeta. destruct (r_v (a s)); [|apply A|apply A]. cbn [r_state]. eapply Rtrans; [apply A|apply C]. Qed.
Lemma does_upd f : (forall s, R s (f s)) -> does R (upd f). Proof. intros H s. apply H. Qed.
Lemma does_crash : does R crash. Proof. intros s. apply Rrefl. Qed.
Lemma does_halt : does R halt. Proof. intros s. apply Rrefl. Qed.
Lemma does_emit o : does R (emit o). Proof. intros s. apply Rrefl. Qed.
Lemma does_fail e : does R (fail e). Proof. intros s. apply Rrefl. Qed.
Lemma does_look {A} (f : dstate -> A) k : (forall x, does R (k x)) -> does R (look f k). Proof. intros H s. apply H. Qed.
Lemma does_val {A} (x : res A) k : (forall a, does R (k a)) -> does R (val x k). Proof. intros H. destruct x; [apply H|apply does_crash]. Qed.
Lemma does_ask cfg k : (forall w, does R (k w)) -> does R (ask cfg k). Proof. intros H s. eapply Rtrans; [apply Rclock|apply H]. Qed.
Lemma does_send cfg m keep : (forall m s, R s (keep m s)) -> does R (send cfg m keep).
Proof.
  intros K. unfold send. apply does_seq; [apply does_upd; apply K|]. destruct (_ && _); [apply does_fail|]. apply does_ask. intros w. apply does_val. intros m2. apply does_seq; [apply does_upd; apply K|].
  apply does_look. intros [k|]; [|apply does_crash]. destruct (w_write w _); [apply does_emit|apply does_fail].
Qed.
Lemma does_checkSDP m : does R (checkSDP m).
Proof. unfold checkSDP. destruct (pay m) as [[|d]|]; try (apply does_upd; apply Rrefl). destruct (s_audio d); [apply does_emit|apply does_crash]. Qed.
Lemma does_drop m keep : keep = drop -> forall s, R s (keep m s). Proof. intros -> s. apply Rrefl. Qed.
End Frame.
