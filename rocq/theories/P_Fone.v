(** C81, C82: the repository's telephone. *)
From Verif Require Import Bytes BytesLemmas GoLib SdpModel SipText SipTypes SipAppend DialogMsg P_DialogMsg DialogModel P_DialogEnd P_DialogRuns AppModel P_App RtpCloseModel P_RtpClose FoneModel.
Local Open Scope nat_scope.

(** ** What happened, seen from the dialog and from the RTP session *)
Definition heard (l : list happening) : list out := flat_map (fun h => match h with HTake o => [o] | _ => [] end) l.
Definition dialled_events (l : list happening) : list event := flat_map (fun h => match h with HDialog e => [e] | _ => [] end) l.
Definition asks (l : list happening) : nat := length (filter (fun h => match h with HAsked => true | _ => false end) l).
Definition last_peer (l : list out) : option (bytes * Z) := fold_left (fun a o => match o with OPeer ip port => Some (ip, port) | _ => a end) l None.
Definition answers_heard (l : list out) : nat := length (filter (fun o => match o with OState n => Z.eqb n Answered | _ => false end) l).

Lemma heard_snoc l h : heard (l ++ [h]) = heard l ++ match h with HTake o => [o] | _ => [] end.
Proof. unfold heard. rewrite flat_map_app. cbn [flat_map]. rewrite app_nil_r. reflexivity. Qed.
Lemma events_snoc l h : dialled_events (l ++ [h]) = dialled_events l ++ match h with HDialog e => [e] | _ => [] end.
Proof. unfold dialled_events. rewrite flat_map_app. cbn [flat_map]. rewrite app_nil_r. reflexivity. Qed.
Lemma asks_snoc l h : asks (l ++ [h]) = asks l + match h with HAsked => 1 | _ => 0 end.
Proof. unfold asks. rewrite filter_app, app_length. destruct h; reflexivity. Qed.
Lemma ssteps_snoc cfg s l t a u : ssteps cfg s l t -> sstep cfg t a u -> ssteps cfg s (l ++ [a]) u.
Proof. induction 1; intros S; cbn [app]; [econstructor; [exact S|constructor]|econstructor; eauto]. Qed.
Lemma taken_snoc l a : taken (l ++ [a]) = taken l ++ match a with ATake o => [o] | _ => [] end.
Proof. unfold taken. rewrite flat_map_app. cbn [flat_map]. rewrite app_nil_r. reflexivity. Qed.
Lemma aevents_snoc l a : events (l ++ [a]) = events l ++ match a with AEvent e => [e] | _ => [] end.
Proof. unfold events. rewrite flat_map_app. cbn [flat_map]. rewrite app_nil_r. reflexivity. Qed.
Lemma count_snoc p l a : count p (l ++ [a]) = count p l + (if p a then 1 else 0).
Proof. unfold count. rewrite filter_app, app_length. cbn [filter]. destruct (p a); reflexivity. Qed.

Lemma hears_dl o p : ph_dl (hears o p) = ph_dl p.
Proof. destruct o as [e|n|ip port|t m x]; cbn [hears]; try reflexivity. destruct (Z.eqb n Answered); [reflexivity|]. destruct (Z.eqb n Hangup); [|reflexivity]. destruct (ph_answered p); [|reflexivity]. destruct (al (ph_rtp p)); reflexivity. Qed.

(** the dialog of a phone is a dialog with an application *)
Lemma phone_session cfg m l p : psteps cfg (dialled cfg m) l p ->
  exists acts, ssteps cfg (begin cfg m) acts (ph_dl p) /\ taken acts = heard l /\ events acts = dialled_events l /\ count is_ask acts = asks l.
Proof.
  remember (dialled cfg m) as i eqn:I. induction 1 as [p|p l q h u S IH A P]; [subst p; exists []; repeat split; constructor|].
  destruct (IH I) as (acts & SS & T & E & N). clear IH. rewrite heard_snoc, events_snoc, asks_snoc.
  assert (K : ph_dl u = ph_dl q /\ match h with HTake _ | HDialog _ | HAsked => False | _ => True end \/
    exists a, sstep cfg (ph_dl q) a (ph_dl u) /\ match h, a with HTake o, ATake o' => o = o' | HDialog e, AEvent e' => e = e' | HAsked, AAsk => True | _, _ => False end).
  { destruct P; cbn [ph_dl]; try (left; split; [reflexivity|exact Logic.I]); right; [exists (AEvent e)|rewrite hears_dl; exists (ATake o)|exists AAsk]; (split; [assumption|reflexivity || exact Logic.I]). }
  destruct K as [[-> K]|(a & SA & K)].
  - exists acts. split; [exact SS|]. destruct h; try contradiction; rewrite ?app_nil_r, ?Nat.add_0_r; auto.
  - exists (acts ++ [a]). split; [eapply ssteps_snoc; eassumption|]. rewrite taken_snoc, aevents_snoc, count_snoc.
    destruct h, a; try contradiction; try subst; cbn [is_ask]; rewrite ?app_nil_r, ?Nat.add_0_r, ?T, ?E, ?N; auto.
Qed.

(** ** The invariant *)
Definition at_ok (p : phone) : Prop :=
  match ph_at p with
  | PLoop | PAsk => al (ph_rtp p) = AIdle false \/ al (ph_rtp p) = ADone
  | PHold => al (ph_rtp p) = AIdle true
  | PFail => (al (ph_rtp p) = AAfter1 \/ al (ph_rtp p) = AAfter2 \/ al (ph_rtp p) = ADone) /\ (rl (ph_rtp p) = RCloseE \/ rl (ph_rtp p) = RDone)
  | PLeave => al (ph_rtp p) <> AAfter1 /\ al (ph_rtp p) <> AAfter2 /\ (forall h, al (ph_rtp p) <> AIdle h) /\ (al (ph_rtp p) = AClose1 -> rl (ph_rtp p) <> RWaitR)
  | _ => True
  end.
Definition broken (r : cstate) : Prop := c_closed r = true \/ match rl r with RErr | RSendE | RCloseE | RDone => True | _ => False end.
Lemma rtp_inv cfg m l p : psteps cfg (dialled cfg m) l p -> reachable (ph_rtp p) /\ at_ok p.
Proof.
  remember (dialled cfg m) as i eqn:I. induction 1 as [p|p l q h u S IH A P]; [subst p; split; [constructor|left; reflexivity]|].
  destruct (IH I) as [R OK]. clear IH. destruct P; cbn [ph_rtp ph_at] in *; unfold at_ok in OK |- *; cbn [ph_rtp ph_at] in OK |- *;
    try (split; [try exact R; eapply reach_step; eassumption|]); try exact OK; try exact Logic.I; try (rewrite H1; exact OK).
  - rewrite H1. destruct l0; try exact OK; try (destruct OK as (OK1 & OK2 & OK3 & OK4); split; [exact OK1|]; split; [exact OK2|]; split; [exact OK3|]; rewrite H3; discriminate); try (destruct OK as [OK1 OK2]; destruct OK2 as [OK2|OK2]; rewrite OK2 in H2; discriminate).
  - destruct l0; rewrite ?H1; try exact OK.
    + destruct OK as [OK1 OK2]. split; [exact OK1|]. destruct OK2 as [OK2|OK2]; destruct H0; cbn [rl al] in *; try discriminate; auto.
    + destruct OK as (OK1 & OK2 & OK3 & OK4). split; [exact OK1|]. split; [exact OK2|]. split; [exact OK3|]. intros X. specialize (OK4 X). destruct H0; cbn [rl al] in *; congruence.
  - assumption.
  - left; assumption.
  - destruct o as [e|n|ip port|t x y]; cbn [hears]; [split; [exact R|exact Logic.I]| |split; [exact R|exact OK]|split; [exact R|exact OK]].
    destruct (Z.eqb n Answered); [split; [exact R|exact OK]|]. destruct (Z.eqb n Hangup); [|split; [exact R|exact OK]]. cbn [ph_answered ph_rtp]. destruct a; [|split; [exact R|exact Logic.I]].
    destruct OK as [OK|OK]; rewrite OK; cbn [ph_at ph_rtp al]; [|split; [exact R|exact Logic.I]]. split; [|split; [discriminate|]; split; [discriminate|]; split; [intros; discriminate|]; intros _ X; cbn [rl] in X; apply inv_reachable in R; unfold inv in R; rewrite OK, X, !Bool.andb_false_r in R; discriminate R].
    eapply reach_step; [exact R|]. destruct r as [rl0 al0 so0 cc ec rc fn]. cbn [al rl c_closed e_closed r_closed frame_nil] in *. subst al0. constructor.
  - split; [|split; [left; reflexivity|cbn [rl]]].
    + eapply reach_step; [eapply reach_step; [exact R|exact H]|]. destruct r' as [rl0 al0 so0 cc ec rc fn]. cbn [al rl c_closed e_closed r_closed frame_nil] in *. subst al0. constructor.
    + destruct H; cbn [rl al] in *; try discriminate; auto.
  - destruct OK as [[OK|[OK|OK]] OK2]; destruct H; cbn [rl al] in *; try discriminate; try congruence; try (destruct OK2; discriminate); auto.
  - right; assumption.
  - destruct OK as (OK1 & OK2 & OK3 & OK4). destruct H; cbn [rl al] in *; try congruence; repeat split; intros; congruence.
Qed.
Lemma broken_step r r' : cstep r r' -> broken r' -> (rl r = RRead -> rl r' <> RErr) -> broken r.
Proof. unfold broken. destruct 1; cbn [c_closed rl]; intros X N; try (exfalso; apply (N eq_refl eq_refl)); intuition congruence. Qed.
Lemma hears_broken o p : broken (ph_rtp (hears o p)) -> broken (ph_rtp p).
Proof. destruct o as [e|n|ip port|t m x]; cbn [hears]; try (intros H; exact H). destruct (Z.eqb n Answered); [intros H; exact H|]. destruct (Z.eqb n Hangup); [|intros H; exact H]. destruct (ph_answered p); [|intros H; exact H]. destruct (al (ph_rtp p)); intros H; exact H. Qed.
Lemma failed_socket cfg m l p : psteps cfg (dialled cfg m) l p -> broken (ph_rtp p) -> In HReadFail l.
Proof.
  remember (dialled cfg m) as i eqn:I. induction 1 as [p|p l q h u S IH A P]; [subst p; intros [X|[]]; discriminate|].
  intros BR. apply in_or_app. specialize (IH I).
  assert (K : h = HReadFail \/ broken (ph_rtp q)).
  { destruct P; cbn [ph_rtp] in *; auto; right; try exact BR; try (apply hears_broken in BR; exact BR).
    all: try (apply (broken_step _ _ H BR); intros X Y; destruct H; cbn [rl al] in *; congruence).
    all: try (apply (broken_step _ _ H0 BR); intros _; exact H2).
  }
  destruct K as [->|K]; [right; left; reflexivity|left; auto].
Qed.

(** what the phone remembers is what it heard *)
Lemma hears_memory o p : ph_answered (hears o p) = (match o with OState n => Z.eqb n Answered | _ => false end || ph_answered p)%bool /\
  ph_readers (hears o p) = (match o with OState n => if Z.eqb n Answered then 1 else 0 | _ => 0 end) + ph_readers p /\
  ph_peer (hears o p) = match o with OPeer ip port => Some (ip, port) | _ => ph_peer p end.
Proof.
  destruct o as [e|n|ip port|t m x]; cbn [hears]; try (repeat split; reflexivity). destruct (Z.eqb n Answered); [repeat split; reflexivity|]. destruct (Z.eqb n Hangup); [|repeat split; reflexivity].
  destruct (ph_answered p) eqn:E; cbn [orb]; [destruct (al (ph_rtp p)); cbn; rewrite ?E; repeat split; reflexivity|cbn; rewrite ?E; repeat split; reflexivity].
Qed.
Lemma memory cfg m l p : psteps cfg (dialled cfg m) l p ->
  ph_answered p = negb (Nat.eqb (answers_heard (heard l)) 0) /\ ph_readers p = answers_heard (heard l) /\ ph_peer p = last_peer (heard l).
Proof.
  remember (dialled cfg m) as i eqn:I. induction 1 as [p|p l q h u S IH A P]; [subst p; repeat split; reflexivity|].
  destruct (IH I) as (H1 & H2 & H3). clear IH. rewrite heard_snoc.
  assert (K : (exists o q', h = HTake o /\ u = hears o q' /\ ph_answered q' = ph_answered q /\ ph_readers q' = ph_readers q /\ ph_peer q' = ph_peer q) \/
    ph_answered u = ph_answered q /\ ph_readers u = ph_readers q /\ ph_peer u = ph_peer q /\ match h with HTake _ => False | _ => True end).
  { destruct P; try (right; repeat split; reflexivity). left. eexists _, _. repeat split; reflexivity. }
  destruct K as [(o & q' & -> & -> & Q1 & Q2 & Q3)|(Q1 & Q2 & Q3 & Q4)].
  - destruct (hears_memory o q') as (M1 & M2 & M3). rewrite M1, M2, M3, Q1, Q2, Q3, H1, H2, H3. unfold answers_heard, last_peer. rewrite filter_app, app_length, fold_left_app. cbn [fold_left filter].
    destruct o as [e|n|ip port|t x y]; cbn [length orb]; rewrite ?Nat.add_0_r; try (repeat split; reflexivity). destruct (Z.eqb n Answered); cbn [length orb]; rewrite ?Nat.add_0_r; [|repeat split; reflexivity].
    split; [|split; [lia|reflexivity]]. symmetry. apply Bool.negb_true_iff, Nat.eqb_neq. lia.
  - replace (match h with HTake o => [o] | _ => [] end) with (@nil out) by (destruct h; [reflexivity|reflexivity|contradiction|reflexivity..]). rewrite app_nil_r, Q1, Q2, Q3. auto.
Qed.
Lemma heard_answer l : answers_heard l <> 0 <-> In (OState Answered) l.
Proof.
  unfold answers_heard. induction l as [|o l IH]; [cbn; split; [congruence|contradiction]|]. cbn [filter]. destruct o as [e|n|ip port|t m x]; try (rewrite IH; cbn [In]; split; [auto|intros [X|X]; [discriminate|exact X]]).
  destruct (Z.eqb_spec n Answered) as [->|N]; [split; [left; reflexivity|discriminate]|]. rewrite IH. cbn [In]. split; [auto|intros [X|X]; [congruence|exact X]].
Qed.

(** ** C81: how the phone ends *)
(** while it runs it has heard nothing final; when it has ended, the last thing it heard was final *)
Definition heard_so_far (p : phone) (l : list out) : Prop :=
  match ph_at p with
  | PLeave => exists k, l = k ++ [OState Hangup] /\ calm k /\ In (OState Answered) k
  | PExit n t => exists k o, l = k ++ [o] /\ calm k /\
      (n = 0 /\ t = true /\ o = OState Hangup /\ In (OState Answered) k \/ n = 1 /\ t = false /\ o = OState Hangup /\ ~ In (OState Answered) k \/ n = 1 /\ t = false /\ exists e, o = OErr e)
  | _ => calm l
  end.
Lemma hears_at l o p : ph_at p = PLoop -> calm l -> ph_answered p = negb (Nat.eqb (answers_heard l) 0) -> heard_so_far (hears o p) (l ++ [o]).
Proof.
  intros P C A. assert (K : final o = false -> calm (l ++ [o])) by (intros F; apply calm_app; [exact C|apply calm_one; exact F]). unfold heard_so_far.
  destruct o as [e|n|ip port|t m x]; cbn [hears ph_at final] in *.
  - exists l, (OErr e). split; [reflexivity|]. split; [exact C|]. right. right. eauto.
  - destruct (Z.eqb_spec n Answered) as [->|NA]; [apply K; reflexivity|]. destruct (Z.eqb_spec n Hangup) as [->|NH]; [|apply K; reflexivity]. pose proof (heard_answer l) as HA.
    destruct (ph_answered p).
    + assert (I : In (OState Answered) l) by (apply HA; intros E; rewrite E in A; discriminate).
      destruct (al (ph_rtp p)); cbn [ph_at]; try (exists l; split; [reflexivity|]; split; [exact C|exact I]). exists l, (OState Hangup). split; [reflexivity|]. split; [exact C|]. left. auto.
    + exists l, (OState Hangup). split; [reflexivity|]. split; [exact C|]. right. left. split; [reflexivity|]. split; [reflexivity|]. split; [reflexivity|]. intros I. apply HA in I. apply I. destruct (answers_heard l); [reflexivity|discriminate].
  - apply K; reflexivity.
  - rewrite P. apply K. reflexivity.
Qed.
Lemma quiet cfg m l p : psteps cfg (dialled cfg m) l p -> heard_so_far p (heard l).
Proof.
  remember (dialled cfg m) as i eqn:I. induction 1 as [p|p l q h u S IH A P]; [subst p; exact calm_nil|].
  specialize (IH I). subst p. pose proof (memory _ _ _ _ S) as (M & _). rewrite heard_snoc.
  destruct P; rewrite ?app_nil_r; unfold heard_so_far in *; cbn [ph_at] in *; try exact IH.
  - apply (hears_at (heard l) o); [reflexivity|exact IH|exact M].
  - destruct IH as (k0 & E & C & IN). exists k0, (OState Hangup). auto 10.
Qed.
(** The exit status is 0 if and only if the call was answered and then hung up, 1 if it was hung up before or an error was reported; in the
    first case, and only then, the deferred calls were made. What the phone has heard by then is everything the dialog has reported, and the dialog has ended. *)
Theorem exit_status : forall cfg m l p n t, psteps cfg (dialled cfg m) l p -> ph_at p = PExit n t ->
  notes (r_out (loop (ph_dl p))) = heard l /\ dialog cfg m (dialled_events l) (loop (ph_dl p)) /\ r_v (loop (ph_dl p)) = Halt /\
  exists k o, heard l = k ++ [o] /\
   (n = 0 /\ t = true /\ o = OState Hangup /\ In (OState Answered) k \/ n = 1 /\ t = false /\ o = OState Hangup /\ ~ In (OState Answered) k \/ n = 1 /\ t = false /\ exists e, o = OErr e).
Proof.
  intros cfg m l p n t S P. destruct (phone_session _ _ _ _ S) as (acts & SS & T & E & _). destruct (notifications_in_order _ _ _ _ SS) as [N D]. rewrite T in N. rewrite E in D.
  pose proof (quiet _ _ _ _ S) as Q. unfold heard_so_far in Q. rewrite P in Q. destruct Q as (k & o & H & C & K).
  assert (F : final o = true) by (destruct K as [(_ & _ & -> & _)|[(_ & _ & -> & _)|(_ & _ & e & ->)]]; reflexivity).
  assert (IN : In o (r_out (loop (ph_dl p)))). { assert (X : In o (notes (r_out (loop (ph_dl p))))) by (rewrite N, H; apply in_or_app; left; apply in_or_app; right; left; reflexivity). apply filter_In in X. apply X. }
  apply in_split in IN. destruct IN as (a & b & IN). destruct (dialog_ends_once _ _ _ _ _ _ _ D IN F) as [-> V].
  assert (W : waiting (ph_dl p) = []).
  { rewrite H, IN, notes_app in N. assert (NO : notes [o] = [o]) by (destruct o; try reflexivity; discriminate F). rewrite NO in N. destruct (waiting (ph_dl p)) as [|w ws] using rev_ind; [reflexivity|exfalso]. clear IHws.
    rewrite app_assoc in N. apply app_inj_tail in N. destruct N as [N _].
    (* o occurs in what was reported before the end *)
    assert (X : In o (notes a)) by (rewrite N; apply in_or_app; left; apply in_or_app; right; left; reflexivity). apply filter_In in X. destruct X as [X _]. apply in_split in X. destruct X as (a1 & a2 & X).
    assert (Y : r_out (loop (ph_dl p)) = a1 ++ o :: (a2 ++ [o])) by (rewrite IN, X, <- app_assoc; reflexivity). destruct (dialog_ends_once _ _ _ _ _ _ _ D Y F) as [Z _]. destruct a2; discriminate Z. }
  rewrite W, app_nil_r in N. split; [exact N|]. split; [exact D|]. split; [exact V|]. exists k, o. split; [exact H|exact K].
Qed.

(** ** C81: the phone does not crash while its RTP socket works *)
Theorem no_crash_partial : forall cfg m l p, psteps cfg (dialled cfg m) l p -> ~ In HReadFail l -> ph_at p <> PPanic.
Proof.
  intros cfg m l p S N E. revert N E. remember (dialled cfg m) as i eqn:I. destruct S as [p|p l q h u S A P]; [subst p; discriminate|]. subst p. intros N E.
  assert (NQ : ~ broken (ph_rtp q)) by (intros K; apply N, in_or_app; left; exact (failed_socket _ _ _ _ S K)). assert (R := proj1 (rtp_inv _ _ _ _ S)). apply inv_reachable in R.
  destruct P; cbn [ph_at ph_rtp] in *; try discriminate E; try (subst l0; discriminate H).
  - apply NQ. left. exact H.
  - destruct o as [e|n|ip port|t x y]; cbn [hears ph_at] in E; try discriminate E. destruct (Z.eqb n Answered); [discriminate E|]. destruct (Z.eqb n Hangup); [|discriminate E]. cbn [ph_answered ph_rtp] in E. destruct a; [|discriminate E]. destruct (al r); discriminate E.
  - apply NQ. destruct r as [rl0 al0 so0 cc ec rc fn]. cbn [e_closed] in H. subst ec. unfold broken. cbn [c_closed rl]. destruct rl0; auto; exfalso; revert R; unfold inv; cbn; rewrite ?Bool.andb_false_r; discriminate.
Qed.
(** Refuted in general: once the socket has failed the closed channel of frames can be chosen at any time, and the nil frame is used. *)
Theorem crash_after_socket_error_refuted : forall cfg m l p, psteps cfg (dialled cfg m) l p -> alive p -> ph_at p = PLoop -> c_closed (ph_rtp p) = true ->
  exists q, psteps cfg (dialled cfg m) (l ++ [HInside]) q /\ ph_at q = PPanic.
Proof.
  intros cfg m l p S A P C. destruct p as [at0 s r a d c k]. cbn [ph_at ph_rtp] in *. subst at0. eexists. split; [eapply ps_snoc; [exact S|exact A|apply p_noframe; exact C]|reflexivity].
Qed.
Example socket_error_example : exists l p, psteps (ex_cfg 1) (dialled (ex_cfg 1) ex_invite) l p /\ alive p /\ ph_at p = PLoop /\ c_closed (ph_rtp p) = true /\ l = [HReadFail; HInside].
Proof.
  set (c := ex_cfg 1). set (i := begin c ex_invite). assert (V : r_v (loop i) <> Crash) by (vm_compute; discriminate).
  exists [HReadFail; HInside]. eexists. split; [|split; [|split; [|split; [|reflexivity]]]].
  - change [HReadFail; HInside] with (([] ++ [HReadFail]) ++ [HInside]). eapply ps_snoc; [eapply ps_snoc; [apply ps_nil|exact V|unfold dialled; eapply p_readfail; [reflexivity|apply s_readerr|reflexivity|reflexivity|reflexivity]]|exact V|].
    eapply p_receiver; [reflexivity|apply s_closec|reflexivity|discriminate|discriminate].
  - exact V.
  - reflexivity.
  - reflexivity.
Qed.

Lemma psteps_trans cfg p l q k u : psteps cfg p l q -> psteps cfg q k u -> psteps cfg p (l ++ k) u.
Proof. intros S T. induction T as [q|q k v h w T IH A P]; [rewrite app_nil_r; exact S|]. rewrite app_assoc. eapply ps_snoc; [exact (IH S)|exact A|exact P]. Qed.
Lemma psteps_one cfg p h q : alive p -> pstep cfg p h q -> psteps cfg p [h] q.
Proof. intros A P. change [h] with ([] ++ [h]). eapply ps_snoc; [apply ps_nil|exact A|exact P]. Qed.
Lemma psteps_cons cfg p h q l u : alive p -> pstep cfg p h q -> psteps cfg q l u -> psteps cfg p (h :: l) u.
Proof. intros A P S. change (h :: l) with ([h] ++ l). eapply psteps_trans; [apply psteps_one; eassumption|exact S]. Qed.

(** ** C82: the phone comes back to its loop *)
(** Holding a frame it can always return it; closing the RTP session returns, whatever the receive goroutine does; and as long as it has
    asked to hang up fewer than four times, asking does not block. *)
Theorem comes_back_partial : forall cfg m l p, psteps cfg (dialled cfg m) l p -> alive p ->
  (ph_at p = PHold -> exists q, pstep cfg p HInside q /\ ph_at q = PLoop) /\
  (ph_at p = PFail \/ ph_at p = PLeave -> must_close (ph_rtp p)) /\
  (ph_at p = PAsk -> asks l < 4 -> exists q, pstep cfg p HAsked q /\ ph_at q = PLoop).
Proof.
  intros cfg m l p S A. destruct (rtp_inv _ _ _ _ S) as [R OK]. pose proof (inv_reachable _ R) as IV. destruct p as [at0 s r a d c k]. unfold at_ok in OK. cbn [ph_at ph_rtp] in *. split; [|split].
  - intros ->. destruct r as [rl0 al0 so0 cc ec rc fn]. cbn [al] in OK. subst al0. unfold inv in IV. cbn [rl al sock_open c_closed e_closed r_closed frame_nil] in IV.
    assert (E : rl0 = RWaitR /\ rc = false) by (destruct rl0, rc; cbn in IV; rewrite ?Bool.andb_false_r in IV; try discriminate IV; auto). destruct E as [-> ->].
    eexists. split; [eapply p_return; [apply s_return|reflexivity|reflexivity]|reflexivity].
  - intros P. destruct r as [rl0 al0 so0 cc ec rc fn]. cbn [al rl] in OK.
    assert (K : must_close (mkc rl0 al0 so0 cc ec rc fn)).
    { destruct P as [-> | ->].
      - destruct OK as [[-> |[-> | ->]] [-> | ->]]; destruct so0, cc, ec, rc, fn; vm_compute in IV; try discriminate IV; clear; repeat run.
      - destruct OK as (N1 & N2 & N3 & N4). destruct al0 as [h| | | | | | |]; try congruence; try (exfalso; exact (N3 h eq_refl)); destruct rl0, so0, cc, ec, rc, fn; vm_compute in IV; try discriminate IV; try (exfalso; exact (N4 eq_refl eq_refl)); clear; repeat run. }
    exact K.
  - intros -> L. destruct (phone_session _ _ _ _ S) as (acts & SS & _ & _ & N). cbn [ph_dl] in SS. destruct (four_asks_never_block_partial _ _ _ _ SS A ltac:(lia)) as (s' & SA).
    eexists. split; [apply p_ask; exact SA|reflexivity].
Qed.
(** Refuted in general: a fifth interrupt while the dialog waits to be heard stops both of them for ever. *)
Lemma stuck_for_ever cfg p : ph_at p = PAsk -> asked (ph_dl p) = hangup_room -> waiting (ph_dl p) <> [] -> forall l q, psteps cfg p l q -> ph_at q = PAsk /\ ph_dl q = ph_dl p.
Proof.
  intros P N W l q S. induction S as [p|p l q h u S IH A T]; [auto|]. destruct (IH P N W) as [Q D].
  assert (NT : forall a s', sstep cfg (ph_dl q) a s' -> exists o, a = ATake o).
  { rewrite D. intros a0 s' X. destruct X; cbn [asked waiting] in *; try congruence; [lia|eauto]. }
  destruct T; cbn [ph_at ph_dl] in *; try discriminate Q; subst; auto; try (destruct (NT _ _ H0) as (o & O); discriminate O). destruct (NT _ _ H) as (o & O); discriminate O.
Qed.
Theorem five_interrupts_refuted : exists cfg m l p, psteps cfg (dialled cfg m) l p /\ alive p /\ ph_at p = PAsk /\ asks l = 4 /\
  forall k q, psteps cfg p k q -> ph_at q = PAsk.
Proof.
  set (cfg := mkconfig false 2 (fun n => mkworld ex_dns (fun a => None) None (fun _ => true) ex_rnd None [])).
  set (r := start cfg ex_invite). assert (V : r_v r <> Crash) by (vm_compute; discriminate). assert (W : notes (r_out r) <> []) by (vm_compute; discriminate).
  assert (B : dialled cfg ex_invite = mkphone PLoop (mksys r (notes (r_out r)) 0) cstart false false None 0) by reflexivity. clearbody r.
  exists cfg, ex_invite, (concat (repeat [HSignal; HInterrupt; HAsked] 4) ++ [HSignal; HInterrupt]), (mkphone PAsk (mksys r (notes (r_out r)) 4) cstart false false None 0).
  split; [|split; [exact V|split; [reflexivity|split; [reflexivity|]]]].
  - rewrite B. cbn [concat repeat app].
    assert (A : forall l n d, alive (mkphone l (mksys r (notes (r_out r)) n) cstart false d None 0)) by (intros; exact V).
    assert (T : forall n l u, n < 4 -> psteps cfg (mkphone PLoop (mksys r (notes (r_out r)) (S n)) cstart false false None 0) l u -> psteps cfg (mkphone PLoop (mksys r (notes (r_out r)) n) cstart false false None 0) (HSignal :: HInterrupt :: HAsked :: l) u).
    { intros n l u L T. eapply psteps_cons; [apply A|apply p_signal; reflexivity|]. eapply psteps_cons; [apply A|apply p_death|]. eapply psteps_cons; [apply A|apply p_ask; apply s_ask; [exact V|exact L]|exact T]. }
    do 4 (apply T; [lia|]). eapply psteps_cons; [apply A|apply p_signal; reflexivity|]. eapply psteps_cons; [apply A|apply p_death|]. apply ps_nil.
  - intros k q S. eapply stuck_for_ever; [| | |exact S]; [reflexivity|reflexivity|exact W].
Qed.

(** ** C81: when the dialog has ended, the phone ends as soon as it has heard the rest *)
Lemma hears_calm o p : final o = false -> ph_at p = PLoop -> ph_at (hears o p) = PLoop.
Proof. intros F P. destruct o as [e|n|ip port|t m x]; cbn [hears] in *; [discriminate F| |reflexivity|exact P]. destruct (Z.eqb n Answered); [reflexivity|]. cbn [final] in F. rewrite F. reflexivity. Qed.
Lemma hear_all cfg w : forall p, ph_at p = PLoop -> alive p -> (exists rest, waiting (ph_dl p) = w ++ rest) -> calm w ->
  exists q, psteps cfg p (map HTake w) q /\ ph_at q = PLoop /\ loop (ph_dl q) = loop (ph_dl p) /\ asked (ph_dl q) = asked (ph_dl p) /\ ph_rtp q = ph_rtp p /\ ph_death q = ph_death p /\
    waiting (ph_dl q) = skipn (length w) (waiting (ph_dl p)).
Proof.
  induction w as [|o w IH]; intros p P A (rest & E) C; [exists p; repeat split; auto; constructor|].
  destruct p as [at0 [r ws n] rt a d c k]. cbn [ph_at ph_dl loop waiting asked ph_rtp ph_death] in *. subst at0. subst ws. set (p1 := mkphone PLoop (mksys r (w ++ rest) n) rt a d c k).
  assert (F : final o = false) by (apply C; left; reflexivity).
  assert (K : ph_at (hears o p1) = PLoop /\ ph_dl (hears o p1) = mksys r (w ++ rest) n /\ ph_rtp (hears o p1) = rt /\ ph_death (hears o p1) = d).
  { split; [apply hears_calm; [exact F|reflexivity]|]. split; [rewrite hears_dl; reflexivity|]. destruct o as [e|z|ip port|t m x]; cbn [hears]; try (split; reflexivity). destruct (Z.eqb z Answered); [split; reflexivity|]. cbn [final] in F. rewrite F. split; reflexivity. }
  destruct K as (K1 & K2 & K3 & K4).
  destruct (IH (hears o p1)) as (q & S & Q1 & Q2 & Q3 & Q4 & Q5 & Q6); [exact K1|unfold alive; rewrite K2; exact A|exists rest; rewrite K2; reflexivity|intros x X; apply C; right; exact X|].
  exists q. split; [cbn [map]; eapply psteps_cons; [exact A|apply p_take; apply AppModel.s_take|exact S]|]. rewrite Q2, Q3, Q4, Q5, Q6, K2, K3, K4. cbn [loop asked waiting length skipn app]. auto 10.
Qed.
Theorem ends_with_dialog : forall cfg m l p, psteps cfg (dialled cfg m) l p -> r_v (loop (ph_dl p)) = Halt -> ph_at p = PLoop ->
  exists q, psteps cfg p (map HTake (waiting (ph_dl p))) q /\ (ph_at q = PLeave \/ exists n t, ph_at q = PExit n t).
Proof.
  intros cfg m l p S V P. destruct (phone_session _ _ _ _ S) as (acts & SS & T & E & _). destruct (notifications_in_order _ _ _ _ SS) as [N D]. rewrite T in N.
  pose proof (quiet _ _ _ _ S) as Q. unfold heard_so_far in Q. rewrite P in Q. destruct (dialog_end_reported _ _ _ _ D V) as (a & o & O & F).
  assert (NO : notes [o] = [o]) by (destruct o; try reflexivity; discriminate F). rewrite O, notes_app, NO in N.
  destruct (waiting (ph_dl p)) as [|x ws] eqn:W using rev_ind.
  { rewrite app_nil_r in N. exfalso. assert (I : In o (heard l)) by (rewrite <- N; apply in_or_app; right; left; reflexivity). rewrite (Q o I) in F. discriminate F. }
  clear IHws. rewrite app_assoc in N. apply app_inj_tail in N. destruct N as [N <-].
  assert (C : calm ws). { intros y Y. destruct (final y) eqn:FY; [exfalso|reflexivity]. assert (X : In y (notes a)) by (rewrite N; apply in_or_app; right; exact Y). apply filter_In in X. destruct X as [X _]. apply in_split in X. destruct X as (a1 & a2 & X).
    rewrite X, <- app_assoc in O. destruct (dialog_ends_once _ _ _ _ _ _ _ D O FY) as [Z _]. destruct a2; discriminate Z. }
  assert (A : alive p) by (unfold alive; rewrite V; discriminate).
  destruct (hear_all cfg ws p P A) as (q & S1 & Q1 & Q2 & Q3 & Q4 & Q5 & Q6); [exists [o]; exact W|exact C|]. rewrite W, skipn_app, skipn_all, Nat.sub_diag in Q6. cbn [skipn app] in Q6.
  destruct q as [at0 [r ws' n] rt b d c k]. cbn [ph_at ph_dl loop waiting] in *. subst at0 ws'. rewrite map_app. cbn [map].
  exists (hears o (mkphone PLoop (mksys r [] n) rt b d c k)). split; [eapply ps_snoc; [exact S1|unfold alive; cbn [ph_dl loop]; rewrite Q2, V; discriminate|apply p_take; apply AppModel.s_take]|].
  destruct o as [e|z|ip port|t y x]; try discriminate F; cbn [hears]; [right; exists 1, false; reflexivity|]. cbn [final] in F. destruct (Z.eqb_spec z Answered) as [->|_]; [discriminate F|]. rewrite F. cbn [ph_answered ph_rtp].
  destruct b; [|right; exists 1, false; reflexivity]. destruct (al rt); cbn [ph_at]; auto. right. exists 0, true. reflexivity.
Qed.
(** and when it leaves, it does so *)
Lemma leave_step cfg s r t a d c k : cstep r t -> (forall h, al r <> AIdle h) -> (exists h, pstep cfg (mkphone PLeave s r a d c k) h (mkphone PLeave s t a d c k)) /\ forall h, al t <> AIdle h.
Proof.
  intros T N. assert (X : al t = al r \/ al t <> al r) by (destruct T; cbn [al]; solve [left; reflexivity|right; discriminate]). split.
  - destruct X as [X|X]; [|exists HInside; apply p_leaving; assumption].
    assert (Y : rl r = RRead /\ rl t = RErr \/ rl t <> RErr /\ rl r <> RSendE) by (destruct T; cbn [rl al] in *; try congruence; first [left; split; reflexivity|right; split; discriminate|exfalso; eapply N; reflexivity|exfalso; congruence]).
    destruct Y as [[Y1 Y2]|[Y1 Y2]]; [exists HReadFail; apply p_readfail; auto|exists HInside; apply p_receiver; auto].
  - destruct T; cbn [al] in *; try exact N; intros h0 Z; try discriminate Z; exact (N _ eq_refl).
Qed.
Lemma must_exit cfg r : must_close r -> (forall h, al r <> AIdle h) -> forall s a d c k, r_v (loop s) <> Crash ->
  exists l q, psteps cfg (mkphone PLeave s r a d c k) l q /\ ph_at q = PExit 0 true /\ ph_dl q = s /\ ph_peer q = c.
Proof.
  induction 1 as [r (A & R)|r (t & T) H IH]; intros N s a d c k V.
  - exists [HInside]. eexists. split; [apply psteps_one; [exact V|apply p_left; exact A]|repeat split; reflexivity].
  - destruct (leave_step cfg s r t a d c k T N) as ((h & P) & N'). destruct (IH t T N' s a d c k V) as (l & q & S & Q).
    exists (h :: l), q. split; [eapply psteps_cons; [exact V|exact P|exact S]|exact Q].
Qed.
Theorem leaves : forall cfg m l p, psteps cfg (dialled cfg m) l p -> alive p -> ph_at p = PLeave -> exists k q, psteps cfg p k q /\ ph_at q = PExit 0 true.
Proof.
  intros cfg m l p S A P. destruct (rtp_inv _ _ _ _ S) as [R OK]. destruct (comes_back_partial _ _ _ _ S A) as (_ & MC & _). specialize (MC (or_intror P)). unfold at_ok in OK. rewrite P in OK.
  destruct p as [at0 s r a d c k]. cbn [ph_at ph_rtp] in *. subst at0. destruct OK as (_ & _ & N & _). destruct (must_exit cfg r MC N s a d c k A) as (l0 & q & T & Q & _). eauto.
Qed.

(** ** C81: the phone can follow every dialog *)
(** For every execution of the dialog there is an execution of the phone in which the dialog does exactly that, the user interrupts when the
    dialog is to hang up, and the phone ends as the dialog does. *)
Definition idle_at (r : result) (p : phone) : Prop := ph_at p = PLoop /\ ph_dl p = mksys r [] 0 /\ ph_rtp p = cstart /\ ph_death p = false.
Lemma follow_notes cfg r w p : r_v r <> Crash -> ph_at p = PLoop -> ph_dl p = mksys r w 0 -> ph_rtp p = cstart -> ph_death p = false -> calm w ->
  exists q, psteps cfg p (map HTake w) q /\ idle_at r q.
Proof.
  intros V P D R X C. destruct (hear_all cfg w p P) as (q & S & Q1 & Q2 & Q3 & Q4 & Q5 & Q6); [unfold alive; rewrite D; exact V|exists []; rewrite D, app_nil_r; reflexivity|exact C|].
  exists q. split; [exact S|]. rewrite D in Q2, Q3, Q6. cbn [loop waiting asked] in *. rewrite skipn_all in Q6. split; [exact Q1|]. split; [destruct (ph_dl q); cbn in *; congruence|]. split; congruence.
Qed.
Lemma follow_event cfg r e p : r_v r = Cont -> enabled e (r_state r) = true -> idle_at r p ->
  exists l q, psteps cfg p l q /\ heard l = [] /\ dialled_events l = [e] /\ ph_at q = PLoop /\ ph_dl q = mksys (turn cfg r e) (fresh_notes cfg r e) 0 /\ ph_rtp q = cstart /\ ph_death q = false.
Proof.
  intros V E (P & D & R & X). destruct p as [at0 s rt a d c k]. cbn [ph_at ph_dl ph_rtp ph_death] in *. subst.
  assert (A : forall l n b, alive (mkphone l (mksys r [] n) cstart a b c k)) by (intros; unfold alive; cbn [ph_dl loop]; rewrite V; discriminate).
  assert (K : e = EHangup \/ e <> EHangup) by (destruct e; try (right; discriminate); left; reflexivity). destruct K as [->|NE].
  - exists [HSignal; HInterrupt; HAsked; HDialog EHangup]. exists (mkphone PLoop (mksys (turn cfg r EHangup) (fresh_notes cfg r EHangup) 0) cstart a false c k). split; [|repeat split; reflexivity].
    eapply psteps_cons; [apply A|apply p_signal; reflexivity|]. eapply psteps_cons; [apply A|apply p_death|]. eapply psteps_cons; [apply A|apply p_ask; apply s_ask; [rewrite V; discriminate|unfold hangup_room; lia]|].
    apply psteps_one; [apply A|]. apply p_dialog; [reflexivity|]. apply s_hangup. exact V.
  - exists [HDialog e], (mkphone PLoop (mksys (turn cfg r e) (fresh_notes cfg r e) 0) cstart a false c k). split; [apply psteps_one; [apply A|apply p_dialog; [reflexivity|apply s_event; assumption]]|repeat split; reflexivity].
Qed.
Lemma notes_calm l : calm l -> calm (notes l).
Proof. intros C o I. apply filter_In in I. apply C, I. Qed.
Lemma heard_app a b : heard (a ++ b) = heard a ++ heard b. Proof. apply flat_map_app. Qed.
Lemma devents_app a b : dialled_events (a ++ b) = dialled_events a ++ dialled_events b. Proof. apply flat_map_app. Qed.
Lemma heard_takes w : heard (map HTake w) = w. Proof. induction w as [|o w IH]; [reflexivity|]. cbn [map heard flat_map app]. f_equal. exact IH. Qed.
Lemma devents_takes w : dialled_events (map HTake w) = []. Proof. induction w as [|o w IH]; [reflexivity|exact IH]. Qed.
Lemma follow_run cfg r es r' : run cfg r es r' -> r_v r' = Cont -> forall p, idle_at r p ->
  exists l q, psteps cfg p l q /\ dialled_events l = es /\ idle_at r' q.
Proof.
  induction 1 as [r|r e es r' V E R IH]; intros VR p I; [exists [], p; split; [constructor|split; [reflexivity|exact I]]|].
  destruct (follow_event cfg r e p V E I) as (l1 & q1 & S1 & _ & D1 & Q1 & Q2 & Q3 & Q4).
  assert (VC : r_v (handle cfg e (r_state r)) = Cont) by (inversion R; subst; [exact VR|assumption]).
  assert (C : calm (fresh_notes cfg r e)) by (apply notes_calm; pose proof (tidy_handle cfg e (r_state r)) as T; cbv zeta in T; rewrite VC in T; exact T).
  destruct (follow_notes cfg (turn cfg r e) (fresh_notes cfg r e) q1) as (q2 & S2 & I2); [cbn [turn r_v]; rewrite VC; discriminate|assumption..|].
  destruct (IH VR q2 I2) as (l3 & q3 & S3 & D3 & I3). exists (l1 ++ map HTake (fresh_notes cfg r e) ++ l3), q3.
  split; [eapply psteps_trans; [exact S1|eapply psteps_trans; [exact S2|exact S3]]|]. split; [|exact I3]. rewrite !devents_app, D1, devents_takes, D3. reflexivity.
Qed.
Lemma run_snoc cfg r es r' : run cfg r es r' -> r_v r' <> Cont -> r_v r = Cont -> exists es1 e r1, es = es1 ++ [e] /\ run cfg r es1 r1 /\ r_v r1 = Cont /\ enabled e (r_state r1) = true /\ r' = turn cfg r1 e.
Proof.
  induction 1 as [r|r e es r' V E R IH]; intros N C; [congruence|]. assert (H : r_v (handle cfg e (r_state r)) = Cont \/ r_v (handle cfg e (r_state r)) <> Cont) by (destruct (r_v (handle cfg e (r_state r))); [left; reflexivity|right; discriminate..]). destruct H as [H|H].
  - destruct (IH N H) as (es1 & e1 & r1 & -> & R1 & V1 & E1 & T1). exists (e :: es1), e1, r1. split; [reflexivity|]. split; [constructor; assumption|]. auto.
  - inversion R; subst; [|cbn [r_v] in *; congruence]. exists [], e, r. split; [reflexivity|]. split; [constructor|]. auto.
Qed.
Lemma event_runs cfg s e s' : sstep cfg s (AEvent e) s' -> r_v (loop s) = Cont.
Proof. intros X. remember (AEvent e) as a eqn:E. destruct X; try discriminate E; assumption. Qed.
Lemma take_keeps cfg p o q : pstep cfg p (HTake o) q -> loop (ph_dl q) = loop (ph_dl p).
Proof. intros T. remember (HTake o) as h eqn:E. destruct T as [| | | | | | | |s s' o' r a d c k X| | | | | | | |]; try discriminate E. rewrite hears_dl. cbn [ph_dl]. inversion X; subst. reflexivity. Qed.
Theorem phone_follows : forall cfg m es r, dialog cfg m es r -> r_v r = Halt ->
  exists l p n t, psteps cfg (dialled cfg m) l p /\ dialled_events l = es /\ loop (ph_dl p) = r /\ ph_at p = PExit n t /\ heard l = notes (r_out r).
Proof.
  intros cfg m es r D V.
  assert (K : exists l p, psteps cfg (dialled cfg m) l p /\ dialled_events l = es /\ loop (ph_dl p) = r /\ ph_at p = PLoop).
  { destruct (r_v (start cfg m)) eqn:V0.
    - destruct (run_snoc _ _ _ _ D) as (es1 & e & r1 & -> & R1 & V1 & E1 & ->); [congruence|exact V0|].
      pose proof (tidy_sendRequest cfg None (init m)) as T. change (sendRequest cfg None (init m)) with (start cfg m) in T. cbv zeta in T. rewrite V0 in T.
      destruct (follow_notes cfg (start cfg m) (notes (r_out (start cfg m))) (dialled cfg m)) as (q0 & S0 & I0); try reflexivity; [rewrite V0; discriminate|apply notes_calm; exact T|].
      destruct (follow_run _ _ _ _ R1 V1 _ I0) as (l1 & q1 & S1 & D1 & I1). destruct (follow_event cfg _ _ _ V1 E1 I1) as (l2 & q2 & S2 & _ & D2 & Q1 & Q2 & _ & _).
      exists ((map HTake (notes (r_out (start cfg m))) ++ l1) ++ l2), q2. split; [eapply psteps_trans; [eapply psteps_trans; eassumption|exact S2]|]. split; [rewrite !devents_app, devents_takes, D1, D2; reflexivity|]. split; [rewrite Q2; reflexivity|exact Q1].
    - inversion D; subst; [|congruence]. exists [], (dialled cfg m). split; [constructor|]. auto.
    - inversion D; subst; congruence. }
  destruct K as (l & p & S & DE & LP & P). rewrite <- LP in V. destruct (ends_with_dialog _ _ _ _ S V P) as (q & S2 & Q). assert (S3 := psteps_trans _ _ _ _ _ _ S S2).
  assert (D2 : dialled_events (l ++ map HTake (waiting (ph_dl p))) = es) by (rewrite devents_app, devents_takes, app_nil_r; exact DE).
  assert (LQ : loop (ph_dl q) = r).
  { destruct (phone_session _ _ _ _ S3) as (acts & SS & _ & EV & _). destruct (phone_session _ _ _ _ S) as (acts0 & SS0 & _). clear - S2 LP. rewrite <- LP. clear LP.
    remember (map HTake (waiting (ph_dl p))) as l eqn:E. assert (F : Forall (fun h => exists o, h = HTake o) l) by (subst l; apply Forall_forall; intros h I; apply in_map_iff in I; destruct I as (o & <- & _); eauto). clear E.
    induction S2 as [p|p l q h u S IH A T]; [reflexivity|]. apply Forall_app in F. destruct F as [F1 F2]. rewrite <- (IH F1). apply Forall_inv in F2. destruct F2 as (o & ->). exact (take_keeps _ _ _ _ T). }
  destruct Q as [Q|(n & t & Q)].
  - assert (A : alive q) by (unfold alive; rewrite LQ, <- LP, V; discriminate). destruct (rtp_inv _ _ _ _ S3) as [R OK]. destruct (comes_back_partial _ _ _ _ S3 A) as (_ & MC & _). specialize (MC (or_intror Q)). unfold at_ok in OK. rewrite Q in OK.
    destruct q as [at0 s rt a d c k]. cbn [ph_at ph_rtp ph_dl] in *. subst at0. destruct OK as (_ & _ & N & _). destruct (must_exit cfg rt MC N s a d c k A) as (l0 & u & T & U & UD & _).
    assert (S4 := psteps_trans _ _ _ _ _ _ S3 T). exists ((l ++ map HTake (waiting (ph_dl p))) ++ l0), u, 0, true. destruct (exit_status _ _ _ _ _ _ S4 U) as (N4 & D4 & _ & _).
    split; [exact S4|]. rewrite UD, LQ in *. split; [|split; [reflexivity|split; [exact U|symmetry; exact N4]]].
    assert (NE : dialled_events l0 = []).
    { clear - T LQ LP V. assert (VH : r_v (loop s) = Halt) by congruence. clear LQ LP V. remember (mkphone PLeave s rt a d c k) as i eqn:I. assert (G : ph_dl i = s) by (subst; reflexivity). assert (PL : ph_at i = PLeave) by (subst; reflexivity). clear I.
      assert (H : dialled_events l0 = [] /\ ph_dl u = s /\ (ph_at u = PLeave \/ ph_at u = PExit 0 true)); [|apply H].
      induction T as [i|i l q h u S IH A P]; [auto|]. destruct (IH G PL) as (I1 & I2 & I3). rewrite events_snoc, I1. cbn [app]. clear IH.
      destruct P; cbn [ph_dl ph_at] in *; try (destruct I3 as [I3|I3]; discriminate I3); subst; auto. apply event_runs in H0. congruence. }
    rewrite devents_app, D2, NE, app_nil_r. reflexivity.
  - exists (l ++ map HTake (waiting (ph_dl p))), q, n, t. destruct (exit_status _ _ _ _ _ _ S3 Q) as (N4 & _). rewrite LQ in *. split; [exact S3|]. split; [exact D2|]. split; [reflexivity|]. split; [exact Q|symmetry; exact N4].
Qed.
