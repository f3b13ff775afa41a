(** C74-C76: the application's side of the channels of a dialog. *)
From Verif Require Import Bytes BytesLemmas GoLib SdpModel SipText SipTypes SipAppend DialogMsg P_DialogMsg DialogModel P_Dialog P_DialogPeer P_DialogRuns AppModel.
Local Open Scope nat_scope.

(** what happened: the notifications taken, the requests to hang up made, and those the loop has dealt with *)
Definition taken (l : list act) : list out := flat_map (fun a => match a with ATake o => [o] | _ => [] end) l.
Definition count (p : act -> bool) (l : list act) : nat := length (filter p l).
Definition is_ask (a : act) : bool := match a with AAsk => true | _ => false end.
Definition is_served (a : act) : bool := match a with AEvent EHangup => true | _ => false end.
Definition events (l : list act) : list event := flat_map (fun a => match a with AEvent e => [e] | _ => [] end) l.

Lemma notes_app a b : notes (a ++ b) = notes a ++ notes b.
Proof. apply filter_app. Qed.
(** the invariant *)
Lemma steps_inv cfg s l t : ssteps cfg s l t ->
  (exists q, r_out (loop t) = r_out (loop s) ++ q /\ waiting s ++ notes q = taken l ++ waiting t) /\
  asked s + count is_ask l = asked t + count is_served l /\
  (asked s <= hangup_room -> asked t <= hangup_room) /\
  run cfg (loop s) (events l) (loop t).
Proof.
  induction 1 as [s|s a t l u S SS ((q & Q1 & Q2) & N & R & RN)].
  - split; [exists []; rewrite !app_nil_r; auto|]. split; [reflexivity|]. split; [auto|]. constructor.
  - destruct S as [r w n V L|r o w n|r e n V E NE|r n V]; cbn [loop waiting asked] in *; unfold count in *; cbn [filter is_ask is_served length taken events flat_map app].
    + split; [eauto|]. split; [lia|]. split; [intros; apply R; lia|]. exact RN.
    + split; [exists q; split; [exact Q1|cbn; f_equal; exact Q2]|]. split; [lia|]. split; [exact R|]. exact RN.
    + replace (match e with EHangup => true | _ => false end) with false by (destruct e; try reflexivity; congruence).
      split; [|split; [exact N|split; [exact R|constructor; assumption]]]. exists (r_out (handle cfg e (r_state r)) ++ q). cbn [turn r_out] in Q1. split; [rewrite Q1, app_assoc; reflexivity|].
      cbn [app]. rewrite notes_app. exact Q2.
    + split; [|split; [cbn [length]; lia|split; [intros; apply R; lia|constructor; [exact V|reflexivity|exact RN]]]]. exists (r_out (handle cfg EHangup (r_state r)) ++ q). cbn [turn r_out] in Q1. split; [rewrite Q1, app_assoc; reflexivity|].
      cbn [app]. rewrite notes_app. exact Q2.
Qed.

(** * C76: what the application takes is what the event loop reports, in that order: nothing is lost, repeated or invented. When the
    dialog is not waiting for the application it has everything. The schedule of the application does not matter for what the loop
    does: it is an execution of the event loop alone. *)
Theorem notifications_in_order : forall cfg m l s, ssteps cfg (begin cfg m) l s ->
  notes (r_out (loop s)) = taken l ++ waiting s /\ dialog cfg m (events l) (loop s).
Proof.
  intros cfg m l s SS. destruct (steps_inv _ _ _ _ SS) as ((q & Q1 & Q2) & _ & _ & R). cbn [begin loop waiting] in *. split; [|exact R].
  rewrite Q1, notes_app. exact Q2.
Qed.

(** * C74: asking to hang up *)
(** The channel takes a request unless four are waiting in it; in particular the first four requests never block, whatever the
    dialog is doing. *)
Theorem ask_accepted : forall cfg m l s, ssteps cfg (begin cfg m) l s -> r_v (loop s) <> Crash ->
  ((exists t, sstep cfg s AAsk t) <-> count is_ask l < count is_served l + hangup_room).
Proof.
  intros cfg m l s SS V. destruct (steps_inv _ _ _ _ SS) as (_ & N & R & _). cbn [begin asked] in *. specialize (R ltac:(unfold hangup_room; lia)). split.
  - intros (t & T). inversion T; subst; cbn [asked] in *. lia.
  - intros L. destruct s as [r w n]. cbn [asked loop] in *. exists (mksys r w (S n)). constructor; [exact V|lia].
Qed.
Theorem four_asks_never_block_partial : forall cfg m l s, ssteps cfg (begin cfg m) l s -> r_v (loop s) <> Crash -> count is_ask l < 4 -> exists t, sstep cfg s AAsk t.
Proof. intros cfg m l s SS V C. apply (ask_accepted cfg m l s SS V). unfold hangup_room. lia. Qed.
(** No request is lost: while the dialog lives, as many are waiting as were made and not dealt with, and when the loop is idle it can
    take one. *)
Theorem asks_not_lost : forall cfg m l s, ssteps cfg (begin cfg m) l s -> count is_served l < count is_ask l -> r_v (loop s) = Cont -> waiting s = [] ->
  exists t, sstep cfg s (AEvent EHangup) t.
Proof.
  intros cfg m l s SS C V W. destruct (steps_inv _ _ _ _ SS) as (_ & N & _ & _). cbn [begin asked] in N. destruct s as [r w n]. cbn [asked loop waiting] in *. subst w.
  destruct n as [|n]; [lia|]. eexists. apply s_hangup. exact V.
Qed.
(** And the loop deals with no request that was not made. *)
Theorem served_were_asked : forall cfg m l s, ssteps cfg (begin cfg m) l s -> count is_served l <= count is_ask l.
Proof. intros cfg m l s SS. destruct (steps_inv _ _ _ _ SS) as (_ & N & _ & _). cbn [begin asked] in N. lia. Qed.
(** Refuted: once the dialog has ended nobody empties the channel; with four requests in it the next one blocks for ever. *)
Lemma ended_stays cfg s l t : ssteps cfg s l t -> r_v (loop s) = Halt -> asked s = hangup_room -> r_v (loop t) = Halt /\ asked t = hangup_room /\ count is_ask l = 0.
Proof.
  induction 1 as [s|s a t l u S SS IH]; intros V N; [auto|]. unfold count in *. destruct S; cbn [loop asked] in *; try congruence; [lia|]. cbn [filter is_ask]. apply IH; assumption.
Qed.
Theorem fifth_ask_blocks_refuted : exists cfg m l s, ssteps cfg (begin cfg m) l s /\ r_v (loop s) = Halt /\ waiting s = [] /\
  forall l' t, ssteps cfg s l' t -> ~ exists u, sstep cfg t AAsk u.
Proof.
  set (cfg := mkconfig false 2 (fun n => mkworld ex_dns (fun a => None) None (fun _ => true) ex_rnd None [])).
  exists cfg, ex_invite, [ATake (OErr (DContact (B "example.org"))); AAsk; AAsk; AAsk; AAsk], (mksys (start cfg ex_invite) [] 4). split; [|split; [|split]].
  - unfold begin. set (r := start cfg ex_invite). assert (E : notes (r_out r) = [OErr (DContact (B "example.org"))]) by (vm_compute; reflexivity). rewrite E.
    assert (V : r_v r <> Crash) by (vm_compute; discriminate). clearbody r.
    econstructor; [apply s_take|]. do 4 (econstructor; [apply s_ask; [exact V|unfold hangup_room; lia]|]). constructor.
  - vm_compute. reflexivity.
  - reflexivity.
  - intros l' t S (u & U). destruct (ended_stays _ _ _ _ S) as (V & N & _); [vm_compute; reflexivity|reflexivity|]. inversion U; subst. cbn [asked] in N. lia.
Qed.
(** The hypotheses are met: an application that asks twice before the answer, and takes what it is told late. *)
Example a_session : exists l s, ssteps (ex_cfg 2) (begin (ex_cfg 2) ex_invite) l s /\ count is_ask l = 2 /\ count is_served l = 1 /\ r_v (loop s) = Cont /\ waiting s = [].
Proof.
  set (c := ex_cfg 2). set (i := begin c ex_invite).
  assert (E : i = mksys (start c ex_invite) [] 0) by (vm_compute; reflexivity). rewrite E.
  exists [AAsk; AAsk; AEvent EHangup], (mksys (turn c (start c ex_invite) EHangup) [] 1). split; [|split; [reflexivity|split; [reflexivity|split; [vm_compute; reflexivity|reflexivity]]]].
  assert (V : r_v (start c ex_invite) = Cont) by (vm_compute; reflexivity).
  assert (N : fresh_notes c (start c ex_invite) EHangup = []) by (vm_compute; reflexivity).
  econstructor; [apply s_ask; [congruence|unfold hangup_room; lia]|]. econstructor; [apply s_ask; [congruence|unfold hangup_room; lia]|].
  econstructor; [apply s_hangup; exact V|]. rewrite N. constructor.
Qed.

(** * C75: hanging up again *)
Local Open Scope Z_scope.
(** Before the answer: the CANCEL is sent again, and the dialog is as before except for the time stamp of the Via and the count of
    what it got from outside. *)
Definition but_stamp (s : dstate) (t : dstate) : Prop := exists v c, t = set_clock c (set_invite (set_vias v (invite s)) s) /\ length v = length (vias (invite s)).
Lemma stamp_len m t : vias m <> [] -> exists v, length v = length (vias m) /\ addTimestamp m t = Ok (set_vias v m).
Proof.
  intros V. unfold addTimestamp. destruct t as [t|]; [|exists (vias m); split; [reflexivity|destruct m; reflexivity]]. destruct (vias m) as [|v l]; [congruence|]. eexists. split; [|reflexivity]. reflexivity.
Qed.
Theorem cancelled_again : forall cfg s k, so s = Some k -> vias (invite s) <> [] -> st s = Proceeding \/ st s = Ringing ->
  r_v (handle cfg EHangup s) = Cont -> let t := r_state (handle cfg EHangup s) in
  but_stamp s t /\
  forall c x, r_out (handle cfg EHangup s) = [OSend (so_remote k) c x] -> r_v (handle cfg EHangup t) = Cont ->
  exists c' x', r_out (handle cfg EHangup t) = [OSend (so_remote k) c' x'] /\ method c' = method c /\ request c' = request c /\ callid c' = callid c /\ cseq c' = cseq c /\
    addrs c' From = addrs c From /\ addrs c' To = addrs c To /\ addrs c' Route = addrs c Route.
Proof.
  intros cfg s k K V ST R t.
  assert (B : but_stamp s t).
  { subst t. revert R. cbn [handle]. unfold sendHangup, look. replace ((st s =? Proceeding) || (st s =? Ringing)) with true by (destruct ST as [->| ->]; reflexivity).
    rewrite send_eq. cbv zeta. change (maxforwards (NewCancel (invite s))) with 0. rewrite (lowered_zero (NewCancel (invite s)) eq_refl). cbn [Z.eqb so set_clock set_invite clock]. rewrite K.
    destruct (stamp_len (NewCancel (invite s)) (w_stamp (c_world cfg (clock s))) V) as (v & L & ->). destruct (w_write _ _); [|intros X; discriminate X]. intros _. cbn [r_state].
    exists v. eexists. split; [reflexivity|exact L]. }
  split; [exact B|]. intros c x E R2. destruct B as (v & n & T & L). clearbody t. subst t.
  destruct (hangup_cancels cfg s k K V ST) as [[X _]|(_ & _ & c1 & x1 & E1 & M1 & _ & Q1 & C1 & N1 & _ & F1 & T1 & O1)]; [congruence|]. rewrite E1 in E. injection E as -> _.
  assert (V2 : v <> []) by (intros ->; destruct (vias (invite s)); [congruence|discriminate L]).
  destruct (hangup_cancels cfg (set_clock n (set_invite (set_vias v (invite s)) s)) k K V2 ST) as [[X _]|(_ & _ & c2 & x2 & E2 & M2 & _ & Q2 & C2 & N2 & _ & F2 & T2 & O2)]; [congruence|].
  exists c2, x2. split; [exact E2|]. cbn [invite set_clock set_invite] in *. repeat split; etransitivity; try eassumption; symmetry; eassumption.
Qed.
Theorem hung_up_twice_refuted : happens (ex_cfg 1) ex_invite [inv; ack; State Answered; Sent a1 (B "BYE"); Sent a1 (B "BYE"); Failed (B "response 481")] Halt.
Proof.
  apply outcome_happens with (l := [reply 200 (at_ (B "10.0.0.1")); SEvent EHangup; SEvent EHangup;
    SPeer (fun s => answer 200 [] (set_cseq (cseq (the_request s) - 1) (the_request s))); reply 481 (at_ (B "10.0.0.1"))]). vm_compute. reflexivity.
Qed.
