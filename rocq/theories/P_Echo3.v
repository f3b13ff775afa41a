(** C97: the caller of example/echo3. *)
From Verif Require Import Bytes BytesLemmas GoLib SdpModel SipText SipTypes SipAppend DialogMsg P_DialogMsg DialogModel P_DialogEnd P_DialogRuns AppModel P_App RtpCloseModel P_RtpClose FoneModel P_Fone Echo3Model.
Local Open Scope nat_scope.

(** ** What happened *)
(** what the test heard from the dialog, what the dialog dealt with, and how often the test asked it to hang up *)
Definition t_heard (l : list moment) : list out := flat_map (fun h => match h with MTake o => [o] | _ => [] end) l.
Definition t_events (l : list moment) : list event := flat_map (fun h => match h with MDialog e => [e] | _ => [] end) l.
Definition t_asks (l : list moment) : nat := length (filter (fun h => match h with MAsked => true | _ => false end) l).

Lemma t_heard_snoc l h : t_heard (l ++ [h]) = t_heard l ++ match h with MTake o => [o] | _ => [] end.
Proof. unfold t_heard. rewrite flat_map_app. cbn [flat_map]. rewrite app_nil_r. reflexivity. Qed.
Lemma t_events_snoc l h : t_events (l ++ [h]) = t_events l ++ match h with MDialog e => [e] | _ => [] end.
Proof. unfold t_events. rewrite flat_map_app. cbn [flat_map]. rewrite app_nil_r. reflexivity. Qed.
Lemma t_asks_snoc l h : t_asks (l ++ [h]) = t_asks l + match h with MAsked => 1 | _ => 0 end.
Proof. unfold t_asks. rewrite filter_app, app_length. destruct h; reflexivity. Qed.

Lemma leave_dl f p : ts_dl (leave f p) = ts_dl p. Proof. unfold leave. destruct (al (ts_rtp p)); reflexivity. Qed.
Lemma leave_peer f p : ts_peer (leave f p) = ts_peer p. Proof. unfold leave. destruct (al (ts_rtp p)); reflexivity. Qed.
Lemma leave_failed f p : ts_failed (leave f p) = f. Proof. unfold leave. destruct (al (ts_rtp p)); reflexivity. Qed.
Lemma leave_answered f p : ts_answered (leave f p) = ts_answered p. Proof. unfold leave. destruct (al (ts_rtp p)); reflexivity. Qed.
Lemma leave_timer f p : ts_timer (leave f p) = ts_timer p. Proof. unfold leave. destruct (al (ts_rtp p)); reflexivity. Qed.
Lemma leave_at f p : ts_at (leave f p) = TLeave \/ ts_at (leave f p) = TEnd. Proof. unfold leave. destruct (al (ts_rtp p)); auto. Qed.
Lemma t_hears_dl o p : ts_dl (Echo3Model.hears o p) = ts_dl p.
Proof. destruct o as [e|n|ip port|t m x]; cbn [Echo3Model.hears]; try apply leave_dl; try reflexivity. destruct (Z.eqb n Answered); [reflexivity|]. destruct (Z.eqb n Hangup); [apply leave_dl|reflexivity]. Qed.
Lemma t_hears_timer o p : ts_timer (Echo3Model.hears o p) = ts_timer p.
Proof. destruct o as [e|n|ip port|t m x]; cbn [Echo3Model.hears]; try apply leave_timer; try reflexivity. destruct (Z.eqb n Answered); [reflexivity|]. destruct (Z.eqb n Hangup); [apply leave_timer|reflexivity]. Qed.
Lemma close_dl p : ts_dl (close_after_error p) = ts_dl p. Proof. unfold close_after_error. destruct (al (ts_rtp p)); reflexivity. Qed.
Lemma close_mem p : ts_answered (close_after_error p) = ts_answered p /\ ts_failed (close_after_error p) = true /\ ts_peer (close_after_error p) = ts_peer p /\ ts_timer (close_after_error p) = ts_timer p.
Proof. unfold close_after_error. destruct (al (ts_rtp p)); repeat split; reflexivity. Qed.
Lemma close_at p : ts_at (close_after_error p) = TAsk /\ al (ts_rtp p) = ADone \/ ts_at (close_after_error p) = TFail /\ al (ts_rtp p) <> ADone.
Proof. unfold close_after_error. destruct (al (ts_rtp p)); cbn [ts_at]; auto; right; split; auto; discriminate. Qed.

(** the dialog of the test is a dialog with an application *)
Lemma test_session cfg m l p : tsteps cfg (begun cfg m) l p ->
  exists acts, ssteps cfg (begin cfg m) acts (ts_dl p) /\ taken acts = t_heard l /\ events acts = t_events l /\ count is_ask acts = t_asks l.
Proof.
  remember (begun cfg m) as i eqn:I. induction 1 as [p|p l q h u S IH A P]; [subst p; exists []; repeat split; constructor|].
  destruct (IH I) as (acts & SS & T & E & N). clear IH. rewrite t_heard_snoc, t_events_snoc, t_asks_snoc.
  assert (K : ts_dl u = ts_dl q /\ match h with MTake _ | MDialog _ | MAsked => False | _ => True end \/
    exists a, sstep cfg (ts_dl q) a (ts_dl u) /\ match h, a with MTake o, ATake o' => o = o' | MDialog e, AEvent e' => e = e' | MAsked, AAsk => True | _, _ => False end).
  { destruct P; rewrite ?leave_dl, ?close_dl; cbn [ts_dl]; try (left; split; [reflexivity|exact Logic.I]); right; [exists (AEvent e)|rewrite t_hears_dl; exists (ATake o)|exists AAsk]; (split; [assumption|reflexivity || exact Logic.I]). }
  destruct K as [[-> K]|(a & SA & K)].
  - exists acts. split; [exact SS|]. destruct h; try contradiction; rewrite ?app_nil_r, ?Nat.add_0_r; auto.
  - exists (acts ++ [a]). split; [eapply ssteps_snoc; eassumption|]. rewrite taken_snoc, aevents_snoc, count_snoc.
    destruct h, a; try contradiction; try subst; cbn [is_ask]; rewrite ?app_nil_r, ?Nat.add_0_r, ?T, ?E, ?N; auto.
Qed.

(** ** The invariant of the RTP session *)
Definition t_ok (p : test) : Prop :=
  match ts_at p with
  | TLoop | TAsk => al (ts_rtp p) = AIdle false /\ rl (ts_rtp p) <> RCloseE /\ rl (ts_rtp p) <> RDone \/ al (ts_rtp p) = ADone
  | THold false => al (ts_rtp p) = AIdle true
  | THold true => (al (ts_rtp p) = AIdle false \/ al (ts_rtp p) = ADone) /\ c_closed (ts_rtp p) = true
  | TFail => (al (ts_rtp p) = AAfter1 \/ al (ts_rtp p) = AAfter2 \/ al (ts_rtp p) = ADone) /\ (rl (ts_rtp p) = RCloseE \/ rl (ts_rtp p) = RDone)
  | TLeave => al (ts_rtp p) <> AAfter1 /\ al (ts_rtp p) <> AAfter2 /\ (forall h, al (ts_rtp p) <> AIdle h) /\ (al (ts_rtp p) = AClose1 -> rl (ts_rtp p) <> RWaitR)
  | TEnd => al (ts_rtp p) = ADone
  | TPanic => True
  end.
Lemma wait_holds r : reachable r -> al r = AIdle false -> rl r <> RWaitR.
Proof. intros R A X. apply inv_reachable in R. unfold inv in R. rewrite A, X, !Bool.andb_false_r in R. discriminate R. Qed.
Lemma leave_ok f s r a g t c : reachable r -> t_ok (mktest TLoop s r a g t c) -> reachable (ts_rtp (leave f (mktest TLoop s r a g t c))) /\ t_ok (leave f (mktest TLoop s r a g t c)).
Proof.
  intros R [(OK & _)|OK]; cbn [ts_at ts_rtp] in OK; unfold leave, t_ok; cbn [ts_rtp]; rewrite OK; cbn [ts_at ts_rtp al rl]; [|split; [exact R|exact OK]]. split.
  - eapply reach_step; [exact R|]. destruct r as [rl0 al0 so0 cc ec rc fn]. cbn [al rl c_closed e_closed r_closed frame_nil] in *. subst al0. constructor.
  - split; [discriminate|]. split; [discriminate|]. split; [intros; discriminate|]. intros _. apply wait_holds; assumption.
Qed.
Lemma t_inv cfg m l p : tsteps cfg (begun cfg m) l p -> reachable (ts_rtp p) /\ t_ok p.
Proof.
  remember (begun cfg m) as i eqn:I. induction 1 as [p|p l q h u S IH A P]; [subst p; split; [constructor|left; split; [reflexivity|split; discriminate]]|].
  destruct (IH I) as [R OK]. clear IH. destruct P; try (apply leave_ok; assumption); cbn [ts_rtp] in R.
  - split; [exact R|exact OK].
  - split; [eapply reach_step; eassumption|]. unfold t_ok in *. cbn [ts_at ts_rtp] in *. rewrite H1, H4. rewrite H3 in OK.
    assert (CE : c_closed r' = c_closed r) by (destruct H0; cbn [rl c_closed] in *; congruence). rewrite ?CE. destruct l0 as [|[]| | | | |]; try exact OK.
    + destruct OK as [(X & _)|X]; [left; split; [exact X|split; discriminate]|right; exact X].
    + destruct OK as [_ [X|X]]; discriminate X.
    + destruct OK as [(X & _)|X]; [left; split; [exact X|split; discriminate]|right; exact X].
    + destruct OK as (O1 & O2 & O3 & O4). repeat (split; [assumption|]). intros; discriminate.
  - split; [eapply reach_step; eassumption|]. unfold t_ok in *. cbn [ts_at ts_rtp] in *. rewrite H1. pose proof (inv_reachable _ R) as IV.
    assert (RN : rl r <> RCloseE -> rl r <> RDone -> rl r' <> RCloseE /\ rl r' <> RDone) by (intros X Y; destruct H0; cbn [rl al] in *; try congruence; split; discriminate).
    assert (RF : rl r = RCloseE \/ rl r = RDone -> rl r' = RCloseE \/ rl r' = RDone) by (intros [X|X]; destruct H0; cbn [rl al] in *; try discriminate; auto).
    assert (CC : c_closed r = true -> c_closed r' = true) by (intros X; destruct H0; cbn [c_closed] in *; congruence).
    destruct l0 as [|[]| | | | |]; try exact OK.
    + destruct OK as [(X & Y & Z)|X]; [left; split; [exact X|auto]|right; exact X].
    + destruct OK as [X Y]. auto.
    + destruct OK as [X Y]. auto.
    + destruct OK as [(X & Y & Z)|X]; [left; split; [exact X|auto]|right; exact X].
    + destruct OK as (O1 & O2 & O3 & O4). repeat (split; [assumption|]). intros X. specialize (O4 X). destruct H0; cbn [rl al] in *; congruence.
  - split; assumption.
  - assert (OK' : t_ok (mktest TLoop s' r a f t c)) by exact OK.
    destruct o as [e|n|ip port|x y z]; cbn [Echo3Model.hears]; try (apply leave_ok; assumption); try (split; [exact R|exact OK]). destruct (Z.eqb n Answered); [split; [exact R|exact OK]|]. destruct (Z.eqb n Hangup); [apply leave_ok; assumption|split; [exact R|exact OK]].
  - split; [eapply reach_step; eassumption|exact H2].
  - split; [exact R|]. unfold t_ok in *. cbn [ts_at ts_rtp] in *. split; [destruct OK as [(X & _)|X]; auto|exact H].
  - split; [eapply reach_step; eassumption|]. left. cbn [ts_rtp]. split; [exact H1|]. destruct H; cbn [al rl] in *; try discriminate; try congruence; split; discriminate.
  - exfalso. destruct OK as [_ C]. cbn [ts_rtp] in C. apply inv_reachable in R. unfold inv in R. rewrite H, C in R. discriminate R.
  - split; [exact R|exact Logic.I].
  - assert (R' : reachable r') by (eapply reach_step; eassumption). unfold close_after_error, t_ok. cbn [ts_rtp]. rewrite H2. cbn [ts_at ts_rtp al rl]. split.
    + eapply reach_step; [exact R'|]. destruct r' as [rl0 al0 so0 cc ec rc fn]. cbn [al rl c_closed e_closed r_closed frame_nil] in *. subst al0. constructor.
    + split; [left; reflexivity|]. destruct H; cbn [rl al] in *; try discriminate; auto.
  - pose proof (inv_reachable _ R) as IV. unfold t_ok in OK. cbn [ts_at ts_rtp] in OK. unfold close_after_error, t_ok. cbn [ts_rtp]. destruct OK as [(X & Y & Z)|X].
    + exfalso. unfold inv in IV. rewrite H in IV. destruct (rl r); try congruence; rewrite ?Bool.andb_false_r in IV; discriminate IV.
    + rewrite X. cbn [ts_at ts_rtp]. split; [exact R|right; exact X].
  - split; [eapply reach_step; eassumption|]. unfold t_ok in *. cbn [ts_at ts_rtp] in *. destruct OK as [[OK|[OK|OK]] OK2]; destruct H; cbn [rl al] in *; try discriminate; try congruence; try (destruct OK2; discriminate); auto.
  - split; [exact R|]. right. exact H.
  - split; [exact R|exact OK].
  - split; [exact R|exact OK].
  - split; [eapply reach_step; eassumption|]. unfold t_ok in *. cbn [ts_at ts_rtp] in *. destruct OK as (OK1 & OK2 & OK3 & OK4). destruct H; cbn [rl al] in *; try congruence; repeat split; intros; congruence.
  - split; [exact R|exact H].
Qed.
(** ** Nothing goes wrong with the RTP session unless its socket fails *)
Lemma sound_or_open p : reachable (ts_rtp p) -> t_ok p -> match ts_at p with TLeave | TEnd | TPanic => False | _ => True end -> broken (ts_rtp p) \/ sock_open (ts_rtp p) = true.
Proof.
  destruct p as [l0 s [rl0 al0 so0 cc ec rc fn] a f t c]. intros R OK AT. apply inv_reachable in R. unfold t_ok in OK. unfold inv in R. unfold broken. cbn [ts_at ts_rtp rl al sock_open c_closed e_closed r_closed frame_nil] in *. clear s a f t c. destruct so0; [auto|]. left.
  assert (K1 : al0 = ADone -> match rl0 with RErr | RSendE | RCloseE | RDone => True | _ => False end) by (intros ->; destruct rl0; cbn in R; rewrite ?Bool.andb_false_r in R; try discriminate R; exact Logic.I).
  assert (K2 : forall h, al0 = AIdle h -> False) by (intros h ->; cbn in R; rewrite ?Bool.andb_false_r in R; discriminate R).
  destruct l0 as [|[]| | | | |]; try contradiction.
  - destruct OK as [(X & _)|X]; [destruct (K2 _ X)|right; exact (K1 X)].
  - destruct OK as [_ X]; auto.
  - destruct (K2 _ OK).
  - destruct OK as [_ [-> | ->]]; auto.
  - destruct OK as [(X & _)|X]; [destruct (K2 _ X)|right; exact (K1 X)].
Qed.
Lemma t_broken cfg m l p : tsteps cfg (begun cfg m) l p -> match ts_at p with TLeave | TEnd => True | _ => broken (ts_rtp p) -> In MReadFail l end.
Proof.
  remember (begun cfg m) as i eqn:I. induction 1 as [p|p l q h u S IH A P]; [subst p; intros [X|[]]; discriminate|]. specialize (IH I). subst p. destruct (t_inv _ _ _ _ S) as [R OK].
  assert (K : forall b, (match ts_at q with TLeave | TEnd | TPanic => False | _ => True end) -> (b = ts_rtp q \/ cstep (ts_rtp q) b /\ (rl (ts_rtp q) = RRead -> rl b = RErr -> sock_open (ts_rtp q) = false)) -> broken b -> In MReadFail (l ++ [h])).
  { intros b AT HB BR. apply in_or_app. left. assert (BQ : broken (ts_rtp q)).
    { destruct HB as [-> |[ST SO]]; [exact BR|]. destruct (sound_or_open q R OK AT) as [D|D]; [exact D|]. apply (broken_step _ _ ST BR). intros X Y. rewrite (SO X Y) in D. discriminate D. }
    destruct (ts_at q); try contradiction; auto. }
  destruct P; cbn [ts_at ts_rtp] in *.
  - destruct l0; try discriminate; try exact Logic.I; apply (K r Logic.I); auto.
  - destruct l0; try exact Logic.I; intros _; apply in_or_app; right; left; reflexivity.
  - destruct l0; try discriminate; try exact Logic.I; apply (K r' Logic.I); auto.
  - apply (K r Logic.I); auto.
  - destruct (leave_at true (mktest TLoop s r a f t c)) as [-> | ->]; exact Logic.I.
  - assert (LV : forall g, match ts_at (leave g (mktest TLoop s' r a f t c)) with TLeave | TEnd => True | _ => broken (ts_rtp (leave g (mktest TLoop s' r a f t c))) -> In MReadFail (l ++ [MTake o]) end) by (intros g; destruct (leave_at g (mktest TLoop s' r a f t c)) as [-> | ->]; exact Logic.I).
    destruct o as [e|n|ip port|x y z]; cbn [Echo3Model.hears]; try apply LV; try (cbn [ts_at ts_rtp]; apply (K r Logic.I); auto). destruct (Z.eqb n Answered); [cbn [ts_at ts_rtp]; apply (K r Logic.I); auto|]. destruct (Z.eqb n Hangup); [apply LV|cbn [ts_at ts_rtp]; apply (K r Logic.I); auto].
  - apply (K r' Logic.I). right. split; [exact H|]. rewrite H0. discriminate.
  - apply (K r Logic.I); auto.
  - apply (K r' Logic.I). right. split; [exact H|]. intros X Y. destruct H; cbn [rl al] in *; congruence.
  - exfalso. destruct OK as [_ C]. cbn [ts_rtp] in C. apply inv_reachable in R. unfold inv in R. rewrite H, C in R. discriminate R.
  - apply (K r Logic.I); auto.
  - assert (BR : broken r) by (right; rewrite H0; exact Logic.I). assert (IN : In MReadFail (l ++ [MError])) by (apply (K r Logic.I); auto). destruct (close_at (mktest TLoop s r' a f t c)) as [[-> _]|[-> _]]; intros _; exact IN.
  - assert (BR : broken r) by (apply inv_reachable in R; unfold inv in R; rewrite H in R; right; destruct (rl r); try exact Logic.I; rewrite ?Bool.andb_false_r in R; discriminate R).
    assert (IN : In MReadFail (l ++ [MError])) by (apply (K r Logic.I); auto). destruct (close_at (mktest TLoop s r a f t c)) as [[-> _]|[-> _]]; intros _; exact IN.
  - apply (K r' Logic.I). right. split; [exact H|]. intros X Y. destruct OK as [_ [O|O]]; cbn [ts_rtp] in O; rewrite O in X; discriminate X.
  - apply (K r Logic.I); auto.
  - apply (K r Logic.I); auto.
  - apply (K r Logic.I); auto.
  - exact Logic.I.
  - exact Logic.I.
Qed.
Lemma errors_fail cfg m l p : tsteps cfg (begun cfg m) l p -> In MError l -> In MReadFail l.
Proof.
  remember (begun cfg m) as i eqn:I. induction 1 as [p|p l q h u S IH A P]; [intros []|]. intros IN. apply in_app_or in IN. apply in_or_app. destruct IN as [IN|[IN|[]]]; [left; exact (IH I IN)|]. left. subst p. subst h.
  destruct (t_inv _ _ _ _ S) as [R OK]. pose proof (t_broken _ _ _ _ S) as B. remember MError as h eqn:EH. destruct P; try discriminate EH; cbn [ts_at ts_rtp] in *; apply B.
  - right. rewrite H0. exact Logic.I.
  - apply inv_reachable in R; unfold inv in R; rewrite H in R; right; destruct (rl r); try exact Logic.I; rewrite ?Bool.andb_false_r in R; discriminate R.
Qed.

(** ** What the test remembers *)
Definition t_memory (l : list moment) (p : test) : Prop :=
  ts_answered p = negb (Nat.eqb (answers_heard (t_heard l)) 0) /\ ts_peer p = last_peer (t_heard l) /\ (ts_timer p = false <-> In MTimer l).
Lemma t_remembers cfg m l p : tsteps cfg (begun cfg m) l p -> t_memory l p.
Proof.
  remember (begun cfg m) as i eqn:I. induction 1 as [p|p l q h u S IH A P]; [subst p; repeat split; try reflexivity; [discriminate|intros []]|].
  destruct (IH I) as (H1 & H2 & H3). clear IH. unfold t_memory. rewrite t_heard_snoc, in_app_iff.
  assert (K : (exists o, h = MTake o /\ ts_timer u = ts_timer q /\ ts_answered u = (match o with OState n => Z.eqb n Answered | _ => false end || ts_answered q)%bool /\ ts_peer u = match o with OPeer ip port => Some (ip, port) | _ => ts_peer q end) \/
    (ts_answered u = ts_answered q /\ ts_peer u = ts_peer q /\ match h with MTake _ => False | MTimer => ts_timer u = false | _ => ts_timer u = ts_timer q end)).
  { destruct P; cbn [ts_answered ts_peer ts_timer]; try (right; repeat split; reflexivity).
    - right. rewrite leave_answered, leave_peer, leave_timer. repeat split.
    - left. exists o. split; [reflexivity|]. rewrite t_hears_timer. split; [reflexivity|]. destruct o as [e|n|ip port|x y z]; cbn [Echo3Model.hears]; rewrite ?leave_answered, ?leave_peer; try (split; reflexivity). destruct (Z.eqb n Answered); [split; reflexivity|]. destruct (Z.eqb n Hangup); rewrite ?leave_answered, ?leave_peer; split; reflexivity.
    - right. destruct (close_mem (mktest TLoop s r' a f t c)) as (-> & _ & -> & ->). repeat split.
    - right. destruct (close_mem (mktest TLoop s r a f t c)) as (-> & _ & -> & ->). repeat split. }
  destruct K as [(o & -> & K1 & K2 & K3)|(K1 & K2 & K3)].
  - rewrite K1, K2, K3, H1, H2. unfold answers_heard, last_peer. rewrite filter_app, app_length, fold_left_app. cbn [fold_left filter]. split; [|split; [destruct o; reflexivity|rewrite H3; cbn [In]; intuition discriminate]].
    destruct o as [e|n|ip port|x y z]; cbn [length orb]; rewrite ?Nat.add_0_r; try reflexivity. destruct (Z.eqb n Answered); cbn [length orb]; rewrite ?Nat.add_0_r; [|reflexivity]. symmetry. apply Bool.negb_true_iff, Nat.eqb_neq. lia.
  - replace (match h with MTake o => [o] | _ => [] end) with (@nil out) by (destruct h; try reflexivity; contradiction). rewrite app_nil_r, K1, K2. split; [exact H1|]. split; [exact H2|].
    destruct h; try contradiction; rewrite K3, ?H3; cbn [In]; intuition discriminate.
Qed.

(** ** How it ends *)
Definition bad_news (l : list out) : Prop := (exists e, In (OErr e) l) \/ exists k, l = k ++ [OState Hangup] /\ ~ In (OState Answered) k.
Definition ended (l : list moment) : Prop := In (MAudio false) l /\ calm (t_heard l) \/ ~ In (MAudio false) l /\ exists k o, t_heard l = k ++ [o] /\ calm k /\ final o = true.
Definition t_story (l : list moment) (p : test) : Prop :=
  match ts_at p with TLeave | TEnd => ended l | _ => calm (t_heard l) /\ ~ In (MAudio false) l end /\
  (ts_failed p = true <-> In MError l \/ In (MAudio false) l \/ bad_news (t_heard l)).
Lemma calm_good l : calm l -> ~ bad_news l.
Proof. intros C [(e & I)|(k & E & _)]; [pose proof (C _ I) as X; discriminate X|]. assert (I : In (OState Hangup) l) by (rewrite E; apply in_or_app; right; left; reflexivity). pose proof (C _ I) as X. discriminate X. Qed.
Lemma error_news l e : calm l -> bad_news (l ++ [OErr e]).
Proof. intros _. left. exists e. apply in_or_app. right. left. reflexivity. Qed.
Lemma hangup_news l : calm l -> (bad_news (l ++ [OState Hangup]) <-> ~ In (OState Answered) l).
Proof.
  intros C. split.
  - intros [(e & I)|(k & E & N)]; [apply in_app_or in I; destruct I as [I|[I|[]]]; [pose proof (C _ I) as X; discriminate X|discriminate I]|]. apply app_inj_tail in E. destruct E as [-> _]. exact N.
  - intros N. right. exists l. auto.
Qed.
Lemma same_story l h p q : t_story l q -> ts_at p = ts_at q \/ (match ts_at q, ts_at p with TLeave, TEnd => True | (TLeave | TEnd), _ | _, (TLeave | TEnd) => False | _, _ => True end) -> ts_failed p = ts_failed q ->
  match h with MTake _ | MError | MAudio false => False | _ => True end -> t_story (l ++ [h]) p.
Proof.
  intros [S1 S2] AT F H. unfold t_story, ended. rewrite t_heard_snoc, F, S2, (in_app_iff l [h] MError), (in_app_iff l [h] (MAudio false)). replace (match h with MTake o => [o] | _ => [] end) with (@nil out) by (destruct h; try reflexivity; contradiction). rewrite app_nil_r.
  assert (NE : ~ In MError [h]) by (intros [E|[]]; subst h; contradiction). assert (NA : ~ In (MAudio false) [h]) by (intros [E|[]]; subst h; contradiction). split; [|tauto].
  assert (IA := in_app_iff l [h] (MAudio false)). unfold ended in S1. destruct AT as [-> |AT]; [destruct (ts_at q); tauto|]. destruct (ts_at q), (ts_at p); try contradiction; tauto.
Qed.
Lemma t_tells cfg m l p : tsteps cfg (begun cfg m) l p -> t_story l p.
Proof.
  remember (begun cfg m) as i eqn:I. induction 1 as [p|p l q h u S IH A P]; [subst p; split; [split; [exact calm_nil|intros []]|split; [discriminate|intros [[]|[[]|B]]; exfalso; exact (calm_good [] calm_nil B)]]|].
  specialize (IH I). subst p. pose proof (t_remembers _ _ _ _ S) as (M & _).
  destruct P; try (eapply same_story; [exact IH|cbn [ts_at]; auto; try (right; exact Logic.I)|reflexivity|exact Logic.I]).
  - destruct IH as [[C N] F]. cbn [ts_at ts_failed] in *. unfold t_story. rewrite leave_failed, t_heard_snoc, app_nil_r, (in_app_iff l _ MError), (in_app_iff l _ (MAudio false)). split; [|cbn [In]; intuition].
    assert (E : ended (l ++ [MAudio false])) by (left; rewrite t_heard_snoc, app_nil_r, in_app_iff; cbn [In]; auto). destruct (leave_at true (mktest TLoop s r a f t c)) as [-> | ->]; exact E.
  - destruct IH as [[C N] F]. cbn [ts_at ts_failed ts_answered] in *. assert (HA := heard_answer (t_heard l)). assert (NM : ~ In (MAudio false) (l ++ [MTake o])) by (rewrite in_app_iff; cbn [In]; intuition discriminate).
    assert (KE : In MError (l ++ [MTake o]) <-> In MError l) by (rewrite in_app_iff; cbn [In]; intuition discriminate).
    assert (EN : final o = true -> ended (l ++ [MTake o])) by (intros FO; right; split; [exact NM|]; exists (t_heard l), o; rewrite t_heard_snoc; auto).
    assert (LV : forall g, final o = true -> (g = true <-> In MError l \/ bad_news (t_heard l ++ [o])) -> t_story (l ++ [MTake o]) (leave g (mktest TLoop s' r a f t c))).
    { intros g FO G. unfold t_story. rewrite leave_failed, t_heard_snoc, KE, G. split; [destruct (leave_at g (mktest TLoop s' r a f t c)) as [-> | ->]; exact (EN FO)|tauto]. }
    assert (GO : forall v, final o = false -> ts_at v = TLoop -> ts_failed v = f -> t_story (l ++ [MTake o]) v).
    { intros v FO AT FF. assert (CL : calm (t_heard l ++ [o])) by (apply calm_app; [exact C|apply calm_one; exact FO]). unfold t_story. rewrite AT, FF, t_heard_snoc, KE, F. split; [auto|]. pose proof (calm_good _ CL). pose proof (calm_good _ C). tauto. }
    destruct o as [e|n|ip port|x y z]; cbn [Echo3Model.hears].
    + apply LV; [reflexivity|]. split; [intros _; right; apply error_news; exact C|reflexivity].
    + destruct (Z.eqb_spec n Answered) as [->|NA]; [apply GO; reflexivity|]. destruct (Z.eqb_spec n Hangup) as [->|NH]; [|apply GO; [cbn; apply Z.eqb_neq; exact NH|reflexivity|reflexivity]]. apply LV; [reflexivity|]. cbn [ts_failed ts_answered].
      rewrite (hangup_news _ C), <- HA, Bool.orb_true_iff, F, Bool.negb_true_iff. pose proof (calm_good _ C) as G. rewrite M. destruct (Nat.eqb_spec (answers_heard (t_heard l)) 0); cbn [negb]; intuition congruence.
    + apply GO; reflexivity.
    + apply GO; reflexivity.
  - destruct IH as [IH F]. cbn [ts_at ts_failed] in *. unfold t_story. destruct (close_mem (mktest TLoop s r' a f t c)) as (_ & -> & _). rewrite t_heard_snoc, app_nil_r. split; [|rewrite in_app_iff; cbn [In]; intuition]. destruct (close_at (mktest TLoop s r' a f t c)) as [[-> _]|[-> _]]; (split; [apply IH|rewrite in_app_iff; cbn [In]; intuition discriminate]).
  - destruct IH as [IH F]. cbn [ts_at ts_failed] in *. unfold t_story. destruct (close_mem (mktest TLoop s r a f t c)) as (_ & -> & _). rewrite t_heard_snoc, app_nil_r. split; [|rewrite in_app_iff; cbn [In]; intuition]. destruct (close_at (mktest TLoop s r a f t c)) as [[-> _]|[-> _]]; (split; [apply IH|rewrite in_app_iff; cbn [In]; intuition discriminate]).
Qed.

(** * C97: what the test says *)
Lemma answered_or_not l : In (OState Answered) l \/ ~ In (OState Answered) l.
Proof. rewrite <- heard_answer. destruct (answers_heard l); [right; intros X; exact (X eq_refl)|left; discriminate]. Qed.
(** The test passes if and only if the RTP socket and the sending of sound did not fail and the call was answered and then hung up, without an
    error reported. Unless sound could not be sent it has heard everything the dialog had to report, and the dialog is over. In any case the
    RTP session is closed. *)
Theorem test_verdict : forall cfg m l p, tsteps cfg (begun cfg m) l p -> ts_at p = TEnd ->
  (ts_failed p = false <-> ~ In MError l /\ ~ In (MAudio false) l /\ exists k, t_heard l = k ++ [OState Hangup] /\ In (OState Answered) k) /\
  (~ In (MAudio false) l -> notes (r_out (loop (ts_dl p))) = t_heard l /\ dialog cfg m (t_events l) (loop (ts_dl p)) /\ r_v (loop (ts_dl p)) = Halt) /\
  al (ts_rtp p) = ADone /\ sock_open (ts_rtp p) = false.
Proof.
  intros cfg m l p S P. destruct (t_tells _ _ _ _ S) as [EN F]. rewrite P in EN. split; [|split].
  - split.
    + intros NF. assert (N : ~ (In MError l \/ In (MAudio false) l \/ bad_news (t_heard l))) by (rewrite <- F, NF; discriminate). split; [tauto|]. split; [tauto|]. destruct EN as [[X _]|(_ & k & o & H & C & FO)]; [tauto|].
      assert (NB : ~ bad_news (k ++ [o])) by (rewrite <- H; tauto). destruct o as [e|n|ip port|x y z]; try discriminate FO; [destruct (NB (error_news k e C))|]. cbn [final] in FO. apply Z.eqb_eq in FO. subst n. exists k. split; [exact H|].
      destruct (answered_or_not k) as [A|A]; [exact A|]. destruct NB. apply hangup_news; assumption.
    + intros (N1 & N2 & k & H & A). destruct (ts_failed p) eqn:FF; [|reflexivity]. destruct (proj1 F eq_refl) as [X|[X|X]]; [destruct (N1 X)|destruct (N2 X)|]. exfalso. destruct EN as [[Y _]|(_ & k' & o & H' & C & FO)]; [exact (N2 Y)|].
      rewrite H in H'. apply app_inj_tail in H'. destruct H' as [<- <-]. rewrite H in X. apply (proj1 (hangup_news k C)) in X. exact (X A).
  - intros NA. destruct EN as [[X _]|(_ & k & o & H & C & FO)]; [destruct (NA X)|]. destruct (test_session _ _ _ _ S) as (acts & SS & T & E & _). destruct (notifications_in_order _ _ _ _ SS) as [N D]. rewrite T in N. rewrite E in D.
    assert (IN : In o (r_out (loop (ts_dl p)))). { assert (X : In o (notes (r_out (loop (ts_dl p))))) by (rewrite N, H; apply in_or_app; left; apply in_or_app; right; left; reflexivity). apply filter_In in X. apply X. }
    apply in_split in IN. destruct IN as (a & b & IN). destruct (dialog_ends_once _ _ _ _ _ _ _ D IN FO) as [-> V].
    assert (W : waiting (ts_dl p) = []).
    { rewrite H, IN, notes_app in N. assert (NO : notes [o] = [o]) by (destruct o; try reflexivity; discriminate FO). rewrite NO in N. destruct (waiting (ts_dl p)) as [|w ws] using rev_ind; [reflexivity|exfalso]. clear IHws.
      rewrite app_assoc in N. apply app_inj_tail in N. destruct N as [N _].
      assert (X : In o (notes a)) by (rewrite N; apply in_or_app; left; apply in_or_app; right; left; reflexivity). apply filter_In in X. destruct X as [X _]. apply in_split in X. destruct X as (a1 & a2 & X).
      assert (Y : r_out (loop (ts_dl p)) = a1 ++ o :: (a2 ++ [o])) by (rewrite IN, X, <- app_assoc; reflexivity). destruct (dialog_ends_once _ _ _ _ _ _ _ D Y FO) as [Z _]. destruct a2; discriminate Z. }
    rewrite W, app_nil_r in N. auto.
  - destruct (t_inv _ _ _ _ S) as [R OK]. unfold t_ok in OK. rewrite P in OK. split; [exact OK|]. apply inv_reachable in R. unfold inv in R. rewrite OK in R. destruct (sock_open (ts_rtp p)); [|reflexivity]. cbn in R. rewrite Bool.andb_false_r in R. discriminate R.
Qed.

(** * C97: while the RTP socket works the test is never in trouble *)
Lemma t_one_ask cfg m l p : tsteps cfg (begun cfg m) l p -> ~ In MReadFail l -> t_asks l + (match ts_at p with TAsk => 1 | _ => 0 end) <= (if ts_timer p then 0 else 1).
Proof.
  remember (begun cfg m) as i eqn:I. induction 1 as [p|p l q h u S IH A P]; [subst p; cbn; lia|]. intros N. assert (NL : ~ In MReadFail l) by (intros X; apply N, in_or_app; left; exact X). specialize (IH I NL). subst p. rewrite t_asks_snoc.
  assert (NE : ~ In MError (l ++ [h])) by (intros X; apply N; eapply errors_fail; [eapply ts_snoc; eassumption|exact X]).
  assert (NS : match ts_at q with TFail => broken (ts_rtp q) | _ => True end -> match ts_at q with TFail => False | _ => True end) by (pose proof (t_broken _ _ _ _ S) as B; destruct (ts_at q); auto).
  destruct P; cbn [ts_at ts_timer] in *; rewrite ?leave_timer; try lia.
  - destruct (leave_at true (mktest TLoop s r a f t c)) as [-> | ->]; cbn [ts_timer]; lia.
  - rewrite t_hears_timer. cbn [ts_timer]. assert (X : ts_at (Echo3Model.hears o (mktest TLoop s' r a f t c)) <> TAsk).
    { assert (LV : forall g, ts_at (leave g (mktest TLoop s' r a f t c)) <> TAsk) by (intros g; destruct (leave_at g (mktest TLoop s' r a f t c)) as [-> | ->]; discriminate). destruct o as [e|n|ip port|x y z]; cbn [Echo3Model.hears]; try discriminate; [apply LV|]. destruct (Z.eqb n Answered); [discriminate|]. destruct (Z.eqb n Hangup); [apply LV|discriminate]. }
    destruct (ts_at _); try congruence; lia.
  - destruct NE. apply in_or_app. right. left. reflexivity.
  - destruct NE. apply in_or_app. right. left. reflexivity.
  - exfalso. apply NS. destruct (t_inv _ _ _ _ S) as [_ [_ [X|X]]]; cbn [ts_rtp] in X |- *; right; rewrite X; exact Logic.I.
Qed.
Lemma t_held cfg m l p : tsteps cfg (begun cfg m) l p -> ~ In MReadFail l -> ts_at p <> THold true /\ ts_at p <> TFail /\ ts_at p <> TPanic.
Proof.
  intros S N. assert (K : forall l p, tsteps cfg (begun cfg m) l p -> ~ In MReadFail l -> ts_at p <> THold true /\ ts_at p <> TFail).
  { clear. intros l p S N. pose proof (t_broken _ _ _ _ S) as B. destruct (t_inv _ _ _ _ S) as [R OK]. unfold t_ok in OK. split; intros E; rewrite E in *.
    - destruct OK as [_ C]. apply N, B. left. exact C.
    - destruct OK as [_ [X|X]]; apply N, B; right; rewrite X; exact Logic.I. }
  split; [apply (K _ _ S N)|]. split; [apply (K _ _ S N)|]. intros E. remember (begun cfg m) as i eqn:I. destruct S as [p|p l q h u S A P]; [subst p; discriminate E|]. subst p.
  assert (NL : ~ In MReadFail l) by (intros X; apply N, in_or_app; left; exact X). destruct (K _ _ S NL) as [K1 K2]. destruct (t_inv _ _ _ _ S) as [R OK]. apply inv_reachable in R.
  assert (LV : forall g x, ts_at (leave g x) <> TPanic) by (intros g x; destruct (leave_at g x) as [-> | ->]; discriminate).
  destruct P; cbn [ts_at ts_rtp] in *; try discriminate E; try (subst l0; discriminate H); try (destruct (LV _ _ E)).
  - destruct o as [e|n|ip port|x y z]; cbn [Echo3Model.hears ts_at] in E; try discriminate E; try (destruct (LV _ _ E)). destruct (Z.eqb n Answered); [discriminate E|]. destruct (Z.eqb n Hangup); [destruct (LV _ _ E)|discriminate E].
  - destruct b; [destruct (K1 eq_refl)|]. unfold t_ok in OK. cbn [ts_at ts_rtp] in OK. unfold inv in R. rewrite OK, H, ?Bool.andb_false_r in R. cbn in R. rewrite ?Bool.andb_false_r in R. discriminate R.
  - destruct (close_at (mktest TLoop s r' a f t c)) as [[X _]|[X _]]; rewrite X in E; discriminate E.
  - destruct (close_at (mktest TLoop s r a f t c)) as [[X _]|[X _]]; rewrite X in E; discriminate E.
Qed.
(** As long as the RTP socket works the test does not crash; it asks to hang up at most once; holding a frame it can return it; asking never
    blocks; and leaving ends whatever the receive goroutine does. *)
Theorem test_steady_partial : forall cfg m l p, tsteps cfg (begun cfg m) l p -> ~ In MReadFail l ->
  ts_at p <> TPanic /\ ~ In MError l /\ t_asks l <= 1 /\
  (alive p -> forall b, ts_at p = THold b -> exists q, tstep cfg p MInside q /\ ts_at q = TLoop) /\
  (alive p -> ts_at p = TAsk -> exists q, tstep cfg p MAsked q /\ ts_at q = TLoop) /\
  (ts_at p = TLeave -> must_close (ts_rtp p)).
Proof.
  intros cfg m l p S N. destruct (t_held _ _ _ _ S N) as (H1 & H2 & H3). split; [exact H3|]. split; [intros X; exact (N (errors_fail _ _ _ _ S X))|]. pose proof (t_one_ask _ _ _ _ S N) as AS.
  split; [destruct (ts_timer p); lia|]. destruct (t_inv _ _ _ _ S) as [R OK]. pose proof (inv_reachable _ R) as IV. destruct (test_session _ _ _ _ S) as (acts & SS & _ & _ & NA). destruct p as [at0 s r a f t c]. unfold t_ok in OK. cbn [ts_at ts_rtp ts_dl] in *. split; [|split].
  - intros _ b ->. destruct b; [congruence|]. destruct r as [rl0 al0 so0 cc ec rc fn]. cbn [al] in OK. subst al0. unfold inv in IV. cbn [rl al sock_open c_closed e_closed r_closed frame_nil] in IV.
    assert (E : rl0 = RWaitR /\ rc = false) by (destruct rl0, rc; cbn in IV; rewrite ?Bool.andb_false_r in IV; try discriminate IV; auto). destruct E as [-> ->].
    eexists. split; [eapply t_return; [apply s_return|reflexivity|reflexivity]|reflexivity].
  - intros A ->. destruct (four_asks_never_block_partial _ _ _ _ SS A) as (s' & SA); [cbn [ts_timer] in AS; destruct t; lia|]. eexists. split; [apply t_ask; exact SA|reflexivity].
  - intros ->. destruct r as [rl0 al0 so0 cc ec rc fn]. cbn [al rl] in OK. destruct OK as (N1 & N2 & N3 & N4). destruct al0 as [h| | | | | | |]; try congruence; try (exfalso; exact (N3 h eq_refl)); destruct rl0, so0, cc, ec, rc, fn; vm_compute in IV; try discriminate IV; try (exfalso; exact (N4 eq_refl eq_refl)); clear; repeat run.
Qed.

Lemma tsteps_trans cfg p l q k u : tsteps cfg p l q -> tsteps cfg q k u -> tsteps cfg p (l ++ k) u.
Proof. intros S T. induction T as [q|q k v h w T IH A P]; [rewrite app_nil_r; exact S|]. rewrite app_assoc. eapply ts_snoc; [exact (IH S)|exact A|exact P]. Qed.
Lemma tsteps_one cfg p h q : alive p -> tstep cfg p h q -> tsteps cfg p [h] q.
Proof. intros A P. change [h] with ([] ++ [h]). eapply ts_snoc; [apply ts_nil|exact A|exact P]. Qed.
Lemma tsteps_cons cfg p h q l u : alive p -> tstep cfg p h q -> tsteps cfg q l u -> tsteps cfg p (h :: l) u.
Proof. intros A P S. change (h :: l) with ([h] ++ l). eapply tsteps_trans; [apply tsteps_one; eassumption|exact S]. Qed.

(** ** When the RTP socket fails *)
(** Refuted: the closed channel of frames can be chosen before the error is read. Then the test tries to return a frame nobody takes, for ever. *)
Lemma held_for_ever cfg p l q : tsteps cfg p l q -> reachable (ts_rtp p) -> ts_at p = THold true -> c_closed (ts_rtp p) = true -> r_closed (ts_rtp p) = false ->
  ts_at q = THold true /\ c_closed (ts_rtp q) = true /\ r_closed (ts_rtp q) = false /\ reachable (ts_rtp q).
Proof.
  intros S R P C RC. induction S as [p|p l q h u S IH A T]; [auto|]. destruct (IH R P C RC) as (Q1 & Q2 & Q3 & Q4).
  destruct T; cbn [ts_at ts_rtp] in *; try discriminate Q1; try (subst l0); auto.
  - split; [reflexivity|]. split; [|split; [|eapply reach_step; eassumption]]; destruct H0; cbn [rl c_closed r_closed] in *; congruence.
  - split; [reflexivity|]. split; [|split; [|eapply reach_step; eassumption]]; destruct H0; cbn [rl al c_closed r_closed] in *; congruence.
  - exfalso. apply inv_reachable in Q4. unfold inv in Q4. rewrite H, Q2 in Q4. discriminate Q4.
  - congruence.
Qed.
Theorem socket_error_hangs_refuted : forall cfg m l p, tsteps cfg (begun cfg m) l p -> alive p -> ts_at p = TLoop -> c_closed (ts_rtp p) = true -> r_closed (ts_rtp p) = false ->
  exists q, tsteps cfg (begun cfg m) (l ++ [MInside]) q /\ forall k u, tsteps cfg q k u -> ts_at u = THold true.
Proof.
  intros cfg m l p S A P C RC. destruct (t_inv _ _ _ _ S) as [R _]. destruct p as [at0 s r a f t c]. cbn [ts_at ts_rtp] in *. subst at0. exists (mktest (THold true) s r a f t c). split; [eapply ts_snoc; [exact S|exact A|apply t_noframe; exact C]|].
  intros k u T. apply (held_for_ever _ _ _ _ T); auto.
Qed.
(** Refuted: when the test has closed the session after the error, it still selects on the closed channel of frames, and returns the nil frame on a closed channel. *)
Theorem socket_error_crash_refuted : forall cfg m l p, tsteps cfg (begun cfg m) l p -> alive p -> ts_at p = TLoop -> c_closed (ts_rtp p) = true -> r_closed (ts_rtp p) = true ->
  exists q, tsteps cfg (begun cfg m) ((l ++ [MInside]) ++ [MInside]) q /\ ts_at q = TPanic.
Proof.
  intros cfg m l p S A P C RC. destruct p as [at0 s r a f t c]. cbn [ts_at ts_rtp] in *. subst at0. eexists. split; [eapply ts_snoc; [eapply ts_snoc; [exact S|exact A|apply t_noframe; exact C]|exact A|apply t_sendclosed; exact RC]|reflexivity].
Qed.
(** Refuted: the closed channel of errors can be chosen again and again, and each time the test asks to hang up. The fifth time, with a dialog waiting to be heard, neither goes on. *)
Lemma t_stuck cfg p : ts_at p = TAsk -> asked (ts_dl p) = hangup_room -> waiting (ts_dl p) <> [] -> forall l q, tsteps cfg p l q -> ts_at q = TAsk /\ ts_dl q = ts_dl p.
Proof.
  intros P N W l q S. induction S as [p|p l q h u S IH A T]; [auto|]. destruct (IH P N W) as [Q D].
  assert (NT : forall a s', sstep cfg (ts_dl q) a s' -> exists o, a = ATake o).
  { rewrite D. intros a0 s' X. destruct X; cbn [asked waiting] in *; try congruence; [lia|eauto]. }
  destruct T; cbn [ts_at ts_dl] in *; try discriminate Q; subst; auto; try (destruct (NT _ _ H0) as (o & O); discriminate O). destruct (NT _ _ H) as (o & O); discriminate O.
Qed.
Definition over_rtp : cstate := mkc RDone ADone false true true true false.
Lemma fails_and_closes cfg s : r_v (loop s) <> Crash -> tsteps cfg (mktest TLoop s cstart false false true None) [MReadFail; MInside; MError; MInside; MInside; MInside; MInside] (mktest TAsk s over_rtp false true true None).
Proof.
  intros V. assert (A : forall l r f, alive (mktest l s r false f true None)) by (intros; exact V).
  eapply tsteps_cons; [apply A|eapply t_readfail; [reflexivity|apply s_readerr|reflexivity|reflexivity|reflexivity|reflexivity]|].
  eapply tsteps_cons; [apply A|eapply t_receiver; [reflexivity|apply s_closec|reflexivity|discriminate|discriminate]|].
  eapply tsteps_cons; [apply A|eapply t_error; [apply s_error|reflexivity|reflexivity|reflexivity]|]. unfold close_after_error. cbn [ts_rtp al rl ts_dl ts_answered ts_timer ts_peer c_closed e_closed r_closed frame_nil].
  eapply tsteps_cons; [apply A|eapply t_receiver; [reflexivity|apply s_closee|reflexivity|discriminate|discriminate]|].
  eapply tsteps_cons; [apply A|apply t_closing; [apply s_after1|discriminate]|].
  eapply tsteps_cons; [apply A|apply t_closing; [apply s_after2_closed|discriminate]|].
  apply tsteps_one; [apply A|]. apply t_closed. reflexivity.
Qed.
Example socket_error_hangs_example : exists l p, tsteps (ex_cfg 1) (begun (ex_cfg 1) ex_invite) l p /\ alive p /\ ts_at p = TLoop /\ c_closed (ts_rtp p) = true /\ r_closed (ts_rtp p) = false /\ l = [MReadFail; MInside].
Proof.
  set (c := ex_cfg 1). set (i := begin c ex_invite). assert (V : r_v (loop i) <> Crash) by (vm_compute; discriminate).
  exists [MReadFail; MInside]. eexists. split; [|split; [|split; [|split; [|split; [|reflexivity]]]]].
  - eapply tsteps_cons; [exact V|unfold begun; eapply t_readfail; [reflexivity|apply s_readerr|reflexivity|reflexivity|reflexivity|reflexivity]|]. apply tsteps_one; [exact V|]. eapply t_receiver; [reflexivity|apply s_closec|reflexivity|discriminate|discriminate].
  - exact V.
  - reflexivity.
  - reflexivity.
  - reflexivity.
Qed.
Example socket_error_crash_example : exists l p, tsteps (ex_cfg 1) (begun (ex_cfg 1) ex_invite) l p /\ alive p /\ ts_at p = TLoop /\ c_closed (ts_rtp p) = true /\ r_closed (ts_rtp p) = true /\ t_asks l = 1.
Proof.
  set (c := ex_cfg 1). set (r := start c ex_invite). assert (V : r_v r <> Crash) by (vm_compute; discriminate).
  exists ([MReadFail; MInside; MError; MInside; MInside; MInside; MInside] ++ [MAsked]), (mktest TLoop (mksys r (notes (r_out r)) 1) over_rtp false true true None). split; [|repeat split; exact V].
  eapply tsteps_trans; [unfold begun; apply fails_and_closes; exact V|]. apply tsteps_one; [exact V|]. apply t_ask. apply s_ask; [exact V|unfold hangup_room; lia].
Qed.
Theorem socket_error_flood_refuted : exists cfg m l p, tsteps cfg (begun cfg m) l p /\ alive p /\ ts_at p = TAsk /\ t_asks l = 4 /\ ~ In MTimer l /\
  forall k q, tsteps cfg p k q -> ts_at q = TAsk.
Proof.
  set (cfg := mkconfig false 2 (fun n => mkworld ex_dns (fun a => None) None (fun _ => true) ex_rnd None [])).
  set (r := start cfg ex_invite). assert (V : r_v r <> Crash) by (vm_compute; discriminate). assert (W : notes (r_out r) <> []) by (vm_compute; discriminate).
  assert (B : begun cfg ex_invite = mktest TLoop (mksys r (notes (r_out r)) 0) cstart false false true None) by reflexivity. clearbody r.
  exists cfg, ex_invite, ([MReadFail; MInside; MError; MInside; MInside; MInside; MInside] ++ concat (repeat [MAsked; MError] 4)), (mktest TAsk (mksys r (notes (r_out r)) 4) over_rtp false true true None).
  split; [|split; [exact V|split; [reflexivity|split; [reflexivity|split; [cbn; intuition discriminate|]]]]].
  - rewrite B. eapply tsteps_trans; [apply fails_and_closes; exact V|]. cbn [concat repeat app].
    assert (T : forall n l u, n < 4 -> tsteps cfg (mktest TAsk (mksys r (notes (r_out r)) (S n)) over_rtp false true true None) l u -> tsteps cfg (mktest TAsk (mksys r (notes (r_out r)) n) over_rtp false true true None) (MAsked :: MError :: l) u).
    { intros n l u L T. eapply tsteps_cons; [exact V|apply t_ask; apply s_ask; [exact V|exact L]|]. eapply tsteps_cons; [exact V|apply t_noerror; reflexivity|exact T]. }
    do 4 (apply T; [lia|]). apply ts_nil.
  - intros k q S. eapply t_stuck; [| | |exact S]; [reflexivity|reflexivity|exact W].
Qed.

(** * C97: when the dialog has ended, the test ends as soon as it has heard the rest *)
Lemma t_hears_calm o p : final o = false -> ts_at p = TLoop -> ts_at (Echo3Model.hears o p) = TLoop /\ ts_rtp (Echo3Model.hears o p) = ts_rtp p.
Proof. intros F P. destruct o as [e|n|ip port|t m x]; cbn [Echo3Model.hears] in *; [discriminate F| |split; reflexivity|split; [exact P|reflexivity]]. destruct (Z.eqb n Answered); [split; reflexivity|]. cbn [final] in F. rewrite F. split; [exact P|reflexivity]. Qed.
Lemma t_hear_all cfg w : forall p, ts_at p = TLoop -> alive p -> (exists rest, waiting (ts_dl p) = w ++ rest) -> calm w ->
  exists q, tsteps cfg p (map MTake w) q /\ ts_at q = TLoop /\ loop (ts_dl q) = loop (ts_dl p) /\ asked (ts_dl q) = asked (ts_dl p) /\ ts_rtp q = ts_rtp p /\ ts_timer q = ts_timer p /\
    waiting (ts_dl q) = skipn (length w) (waiting (ts_dl p)).
Proof.
  induction w as [|o w IH]; intros p P A (rest & E) C; [exists p; repeat split; auto; constructor|].
  destruct p as [at0 [r ws n] rt a f t c]. cbn [ts_at ts_dl loop waiting asked ts_rtp ts_timer] in *. subst at0. subst ws. set (p1 := mktest TLoop (mksys r (w ++ rest) n) rt a f t c).
  assert (F : final o = false) by (apply C; left; reflexivity). destruct (t_hears_calm o p1 F eq_refl) as [K1 K3]. assert (K2 : ts_dl (Echo3Model.hears o p1) = mksys r (w ++ rest) n) by (rewrite t_hears_dl; reflexivity). assert (K4 : ts_timer (Echo3Model.hears o p1) = t) by (rewrite t_hears_timer; reflexivity).
  destruct (IH (Echo3Model.hears o p1)) as (q & S & Q1 & Q2 & Q3 & Q4 & Q5 & Q6); [exact K1|unfold alive; rewrite K2; exact A|exists rest; rewrite K2; reflexivity|intros x X; apply C; right; exact X|].
  exists q. split; [cbn [map]; eapply tsteps_cons; [exact A|apply t_take; apply AppModel.s_take|exact S]|]. rewrite Q2, Q3, Q4, Q5, Q6, K2, K3, K4. cbn [loop asked waiting length skipn app]. auto 10.
Qed.
Lemma t_leave_step cfg s r u a f t c : cstep r u -> (forall h, al r <> AIdle h) -> (exists h, (h = MInside \/ h = MReadFail) /\ tstep cfg (mktest TLeave s r a f t c) h (mktest TLeave s u a f t c)) /\ forall h, al u <> AIdle h.
Proof.
  intros T N. assert (X : al u = al r \/ al u <> al r) by (destruct T; cbn [al]; solve [left; reflexivity|right; discriminate]). split.
  - destruct X as [X|X]; [|exists MInside; split; [left; reflexivity|]; apply t_leaving; assumption].
    assert (Y : rl r = RRead /\ rl u = RErr \/ rl u <> RErr /\ rl r <> RSendE) by (destruct T; cbn [rl al] in *; try congruence; first [left; split; reflexivity|right; split; discriminate|exfalso; eapply N; reflexivity|exfalso; congruence]).
    destruct Y as [[Y1 Y2]|[Y1 Y2]]; [|exists MInside; split; [left; reflexivity|]; apply t_receiver; auto; congruence]. destruct (sock_open r) eqn:SO; [exists MReadFail; split; [right; reflexivity|]; apply t_readfail; auto|exists MInside; split; [left; reflexivity|]; apply t_receiver; auto; congruence].
  - destruct T; cbn [al] in *; try exact N; intros h0 Z; try discriminate Z; exact (N _ eq_refl).
Qed.
Definition closing (l : list moment) : Prop := Forall (fun h => h = MInside \/ h = MReadFail) l.
Lemma t_must_end cfg r : must_close r -> (forall h, al r <> AIdle h) -> forall s a f t c, r_v (loop s) <> Crash ->
  exists l q, tsteps cfg (mktest TLeave s r a f t c) l q /\ closing l /\ ts_at q = TEnd /\ ts_dl q = s /\ ts_failed q = f.
Proof.
  induction 1 as [r (A & R)|r (u & T) H IH]; intros N s a f t c V.
  - exists [MInside]. eexists. split; [apply tsteps_one; [exact V|apply t_left; exact A]|repeat split; try reflexivity]. constructor; [left; reflexivity|constructor].
  - destruct (t_leave_step cfg s r u a f t c T N) as ((h & HI & P) & N'). destruct (IH u T N' s a f t c V) as (l & q & S & CL & Q).
    exists (h :: l), q. split; [eapply tsteps_cons; [exact V|exact P|exact S]|]. split; [|exact Q]. constructor; [exact HI|exact CL].
Qed.

Lemma closing_hears l : closing l -> t_heard l = [] /\ t_events l = [] /\ t_asks l = 0 /\ ~ In MError l /\ ~ In (MAudio false) l.
Proof.
  induction l as [|h l IH]; intros C; [repeat split; intros []|]. apply Forall_cons_iff in C. destruct C as [H C]. destruct (IH C) as (I1 & I2 & I3 & I4 & I5).
  unfold t_heard, t_events, t_asks in *. destruct H as [-> | ->]; cbn [flat_map app filter In]; repeat split; auto; intros [X|X]; try discriminate X; auto.
Qed.
Lemma t_heard_app a b : t_heard (a ++ b) = t_heard a ++ t_heard b. Proof. apply flat_map_app. Qed.
Lemma t_events_app a b : t_events (a ++ b) = t_events a ++ t_events b. Proof. apply flat_map_app. Qed.
Lemma t_heard_takes w : t_heard (map MTake w) = w. Proof. induction w as [|o w IH]; [reflexivity|]. cbn [map t_heard flat_map app]. f_equal. exact IH. Qed.
Lemma t_events_takes w : t_events (map MTake w) = []. Proof. induction w as [|o w IH]; [reflexivity|exact IH]. Qed.
(** Leaving always ends, whatever happened before. *)
Lemma t_leaves cfg m l p : tsteps cfg (begun cfg m) l p -> alive p -> ts_at p = TLeave \/ ts_at p = TEnd -> exists k q, tsteps cfg p k q /\ closing k /\ ts_at q = TEnd /\ ts_dl q = ts_dl p /\ ts_failed q = ts_failed p.
Proof.
  intros S A P. destruct P as [P|P]; [|exists [], p; repeat split; auto; constructor]. destruct (t_inv _ _ _ _ S) as [R OK]. pose proof (inv_reachable _ R) as IV. destruct p as [at0 s r a f t c]. unfold t_ok in OK. cbn [ts_at ts_rtp ts_dl ts_failed] in *. subst at0.
  destruct OK as (N1 & N2 & N3 & N4). apply t_must_end; [|exact N3|exact A]. destruct r as [rl0 al0 so0 cc ec rc fn]. cbn [al rl] in *.
  destruct al0 as [h| | | | | | |]; try congruence; try (exfalso; exact (N3 h eq_refl)); destruct rl0, so0, cc, ec, rc, fn; vm_compute in IV; try discriminate IV; try (exfalso; exact (N4 eq_refl eq_refl)); clear; repeat run.
Qed.
Theorem test_ends_with_dialog : forall cfg m l p, tsteps cfg (begun cfg m) l p -> r_v (loop (ts_dl p)) = Halt -> ts_at p = TLoop ->
  exists k q, tsteps cfg p k q /\ ts_at q = TEnd /\ loop (ts_dl q) = loop (ts_dl p) /\ t_heard (l ++ k) = notes (r_out (loop (ts_dl q))) /\ t_events k = [] /\ ~ In MError k /\ ~ In (MAudio false) k.
Proof.
  intros cfg m l p S V P. destruct (test_session _ _ _ _ S) as (acts & SS & T & E & _). destruct (notifications_in_order _ _ _ _ SS) as [N D]. rewrite T in N.
  destruct (t_tells _ _ _ _ S) as [Q _]. rewrite P in Q. destruct Q as [Q _]. destruct (dialog_end_reported _ _ _ _ D V) as (a & o & O & F).
  assert (NO : notes [o] = [o]) by (destruct o; try reflexivity; discriminate F). pose proof N as N0. rewrite O, notes_app, NO in N.
  destruct (waiting (ts_dl p)) as [|x ws] eqn:W using rev_ind.
  { rewrite app_nil_r in N. exfalso. assert (I : In o (t_heard l)) by (rewrite <- N; apply in_or_app; right; left; reflexivity). rewrite (Q o I) in F. discriminate F. }
  clear IHws. rewrite app_assoc in N. apply app_inj_tail in N. destruct N as [N <-].
  assert (C : calm ws). { intros y Y. destruct (final y) eqn:FY; [exfalso|reflexivity]. assert (X : In y (notes a)) by (rewrite N; apply in_or_app; right; exact Y). apply filter_In in X. destruct X as [X _]. apply in_split in X. destruct X as (a1 & a2 & X).
    rewrite X, <- app_assoc in O. destruct (dialog_ends_once _ _ _ _ _ _ _ D O FY) as [Z _]. destruct a2; discriminate Z. }
  assert (A : alive p) by (unfold alive; rewrite V; discriminate).
  destruct (t_hear_all cfg ws p P A) as (q & S1 & Q1 & Q2 & Q3 & Q4 & Q5 & Q6); [exists [o]; exact W|exact C|]. rewrite W, skipn_app, skipn_all, Nat.sub_diag in Q6. cbn [skipn app] in Q6.
  destruct q as [at0 [r ws' n] rt b f t c]. cbn [ts_at ts_dl loop waiting] in *. subst at0 ws'.
  set (q2 := Echo3Model.hears o (mktest TLoop (mksys r [] n) rt b f t c)).
  assert (S2 : tsteps cfg p (map MTake (ws ++ [o])) q2) by (rewrite map_app; eapply ts_snoc; [exact S1|unfold alive; cbn [ts_dl loop]; rewrite Q2, V; discriminate|apply t_take; apply AppModel.s_take]).
  assert (D2 : ts_dl q2 = mksys r [] n) by (unfold q2; rewrite t_hears_dl; reflexivity).
  assert (AT : ts_at q2 = TLeave \/ ts_at q2 = TEnd). { unfold q2. destruct o as [e|z|ip port|x y w]; try discriminate F; cbn [Echo3Model.hears]; [apply leave_at|]. cbn [final] in F. destruct (Z.eqb_spec z Answered) as [->|_]; [discriminate F|]. rewrite F. apply leave_at. }
  assert (S3 := tsteps_trans _ _ _ _ _ _ S S2). destruct (t_leaves _ _ _ _ S3) as (k & u & S4 & CL & U1 & U2 & _); [unfold alive; rewrite D2; cbn [loop]; rewrite Q2, V; discriminate|exact AT|].
  destruct (closing_hears k CL) as (C1 & C2 & _ & C4 & C5). exists (map MTake (ws ++ [o]) ++ k), u. split; [eapply tsteps_trans; eassumption|]. split; [exact U1|]. rewrite U2, D2. cbn [loop]. split; [exact Q2|].
  rewrite !t_heard_app, t_heard_takes, C1, app_nil_r, t_events_app, t_events_takes, C2, Q2. split; [rewrite N0; reflexivity|]. split; [reflexivity|]. rewrite !in_app_iff, !in_map_iff. split; intros [(z & X & _)|X]; try discriminate X; auto.
Qed.
