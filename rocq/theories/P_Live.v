(** C98: a dialog that goes over to another address. *)
From Verif Require Import Bytes BytesLemmas GoLib SdpModel SipText SipTypes SipAppend UtilModel DialogMsg DialogModel CleanupModel AppModel P_DialogEnd P_Dialog P_Cleanup LiveModel.
Local Open Scope Z_scope.

(** ** Both worlds *)
Section Deaf.
Variable cfg : config.
Lemma deaf_pop rs : forall s, so s = None -> exists s' d, pop_route (deaf cfg) rs s = mkres s' [OErr (DContact d)] Halt /\ so s' = None.
Proof.
  induction rs as [|a rs IH]; intros s K.
  - eexists _, (dest s). split; [reflexivity|exact K].
  - cbn [pop_route]. unfold seq, upd, go. cbn [r_v r_state r_out]. unfold ask. cbn [deaf c_world].
    set (s1 := set_clock _ _). assert (K1 : so s1 = None) by exact K. clearbody s1.
    unfold connect. rewrite K1. cbn [w_dial negb]. destruct (IH (set_so None s1) eq_refl) as (s' & d & E & N). rewrite E. cbn [r_state r_out r_v app]. exists s', d. auto.
Qed.

(** A world in which a socket can be opened to any address. *)
Definition opens : Prop := forall n, (forall a, exists k, w_dial (c_world cfg n) a = Some k /\ so_remote k = a) /\ w_listen (c_world cfg n) <> None.
(** The outcome shows that the dialog has left the address it was connected to. *)
Definition elsewhere (k : sock) (r : result) : Prop := r_v r = Crash \/ (exists e, In (OErr e) (r_out r)) \/ exists to x t, In (OSend to x t) (r_out r) /\ to <> so_remote k.
(** The two actions do the same and leave the socket alone, or they part where the socket is closed. *)
Definition parted (k : sock) (r r' : result) : Prop :=
  (r' = r /\ so (r_state r) = Some k) \/
  exists pre more d, r_out r' = pre ++ [OErr d] /\ r_out r = pre ++ more /\ so (r_state r') = None /\ r_v r' = Halt /\ (opens -> elsewhere k r).
Definition splits (a a' : action) : Prop := forall s k, so s = Some k -> parted k (a s) (a' s).
Definition quiet (a : action) : Prop := forall s, so (r_state (a s)) = so s.
Lemma splits_quiet a : quiet a -> splits a a. Proof. intros Q s k K. left. rewrite Q. auto. Qed.
Lemma elsewhere_after k o r : elsewhere k r -> elsewhere k (mkres (r_state r) (o ++ r_out r) (r_v r)).
Proof. intros [H|[(e & H)|(to & x & t & H & N)]]; [left; exact H|right; left; exists e|right; right; exists to, x, t; split; [|exact N]]; apply in_or_app; right; exact H. Qed.
Lemma elsewhere_before k r s o v : r_v r <> Crash -> elsewhere k r -> elsewhere k (mkres s (r_out r ++ o) v).
Proof. intros C [H|[(e & H)|(to & x & t & H & N)]]; [contradiction|right; left; exists e|right; right; exists to, x, t; split; [|exact N]]; apply in_or_app; left; exact H. Qed.
Lemma splits_seq a a' b b' : splits a a' -> splits b b' -> splits (a ;; b) (a' ;; b').
Proof.
  intros A C s k K. unfold seq. destruct (A s k K) as [[E1 E2]|(pre & more & d & E1 & E2 & E3 & E4 & E5)].
  - rewrite E1. destruct (r_v (a s)) eqn:V; [|left; auto..]. destruct (C (r_state (a s)) k E2) as [[F1 F2]|(pre & more & d & F1 & F2 & F3 & F4 & F5)].
    + left. rewrite F1. auto.
    + right. exists (r_out (a s) ++ pre), more, d. cbn [r_out r_state r_v]. rewrite F1, F2, <- !app_assoc. split; [reflexivity|]. split; [reflexivity|]. split; [exact F3|]. split; [exact F4|]. intros O. rewrite <- F2. apply elsewhere_after. exact (F5 O).
  - right. rewrite E4. destruct (r_v (a s)) eqn:V; [exists pre, (more ++ r_out (b (r_state (a s)))), d|exists pre, more, d..]; cbn [r_out]; rewrite ?E2, <- ?app_assoc; auto.
    split; [exact E1|]. split; [reflexivity|]. split; [exact E3|]. split; [exact E4|]. intros O. rewrite app_assoc, <- E2. apply elsewhere_before; [rewrite V; discriminate|exact (E5 O)].
Qed.
Lemma splits_look {A} (f : dstate -> A) g h : (forall x, splits (g x) (h x)) -> splits (look f g) (look f h). Proof. intros H s k K. apply H. exact K. Qed.
Lemma splits_val {A} (x : res A) g h : (forall y, splits (g y) (h y)) -> splits (val x g) (val x h). Proof. intros H. destruct x; [apply H|]. apply splits_quiet. intros s. reflexivity. Qed.
Lemma splits_ask g h : (forall n, splits (g (c_world cfg n)) (h (c_world (deaf cfg) n))) -> splits (ask cfg g) (ask (deaf cfg) h). Proof. intros H s k K. apply H. exact K. Qed.
Lemma quiet_upd f : (forall s, so (f s) = so s) -> quiet (upd f). Proof. intros H s. apply H. Qed.
Lemma quiet_seq a b : quiet a -> quiet b -> quiet (a ;; b). Proof. intros A C s. unfold seq. destruct (r_v (a s)); [|apply A..]. cbn [r_state]. rewrite C. apply A. Qed.
Lemma quiet_emit o : quiet (emit o). Proof. intros s. reflexivity. Qed.
Lemma quiet_crash : quiet crash. Proof. intros s. reflexivity. Qed.
Lemma quiet_halt : quiet halt. Proof. intros s. reflexivity. Qed.
Lemma quiet_fail e : quiet (fail e). Proof. intros s. reflexivity. Qed.
Lemma quiet_val {A} (x : res A) g : (forall y, quiet (g y)) -> quiet (val x g). Proof. intros H. destruct x; [apply H|apply quiet_crash]. Qed.
Lemma quiet_look {A} (f : dstate -> A) g : (forall y, quiet (g y)) -> quiet (look f g). Proof. intros H s. apply H. Qed.
Lemma quiet_ask g : (forall w, quiet (g w)) -> quiet (ask cfg g). Proof. intros H s. unfold ask. rewrite H. reflexivity. Qed.
Lemma quiet_send m keep : (forall m s, so (keep m s) = so s) -> quiet (send cfg m keep).
Proof.
  intros H. unfold send. cbv zeta. apply quiet_seq; [apply quiet_upd; intros; apply H|]. destruct (_ && _); [apply quiet_fail|]. apply quiet_ask. intros w. apply quiet_val. intros m2. apply quiet_seq; [apply quiet_upd; intros; apply H|].
  apply quiet_look. intros [k|]; [|apply quiet_crash]. destruct (w_write w _); [apply quiet_emit|apply quiet_fail].
Qed.
Lemma splits_send m keep : (forall m s, so (keep m s) = so s) -> splits (send cfg m keep) (send (deaf cfg) m keep).
Proof. intros H. change (send (deaf cfg) m keep) with (send cfg m keep). apply splits_quiet, quiet_send, H. Qed.
Definition tells (a : action) : Prop := forall s k k', so s = Some k' -> so_remote k' <> so_remote k -> elsewhere k (a s).
Lemma tells_send m keep : (forall m s, so (keep m s) = so s) -> tells (send cfg m keep).
Proof.
  intros H s k k' K N. unfold send. cbv zeta. unfold seq at 1, upd at 1, go. cbn [r_v r_state r_out]. destruct (_ && _); [right; left; eexists; left; reflexivity|]. unfold ask. destruct (addTimestamp _ _); [|left; reflexivity]. cbn [val]. unfold seq, upd, go, look. cbn [r_v r_state r_out].
  rewrite H. change (so (set_clock ?n ?x)) with (so x). rewrite H, K. destruct (w_write _ _); [right; right; eexists _, _, _; split; [left; reflexivity|exact N]|right; left; eexists; left; reflexivity].
Qed.
Lemma tells_still a b : quiet a -> (forall s, r_v (a s) = Cont /\ r_out (a s) = []) -> tells b -> tells (a ;; b).
Proof.
  intros Q S A s k k' K N. unfold seq. destruct (S s) as [S1 S2]. rewrite S1, S2. cbn [app]. pose proof (A (r_state (a s)) k k') as X. rewrite Q in X. destruct (X K N) as [Y|[(e & Y)|(to & x & t & Y & Z)]]; [left; exact Y|right; left; exists e; exact Y|right; right; exists to, x, t; split; assumption].
Qed.
Lemma so_request m s : so (set_the_request m s) = so s. Proof. unfold set_the_request. destruct (req s); reflexivity. Qed.

Lemma splits_pop rs : splits (pop_route cfg rs) (pop_route (deaf cfg) rs).
Proof.
  destruct rs as [|a rest]; [apply splits_quiet; intros s; reflexivity|]. cbn [pop_route].
  apply splits_seq; [apply splits_quiet; intros s; reflexivity|]. apply splits_seq; [apply splits_quiet; intros s; reflexivity|].
  intros s k K. unfold ask. set (s1 := set_clock _ _). assert (K1 : so s1 = Some k) by exact K. clearbody s1. set (n := clock s). clearbody n.
  unfold connect at 1 2. rewrite K1. destruct (bseq (daddr s1) (so_remote k)) eqn:E.
  - cbn [negb]. rewrite K1. change (populate k (cso s1) (c_world (deaf cfg) n)) with (populate k (cso s1) (c_world cfg n)). change (c_world (deaf cfg) n) with (c_world (deaf cfg) n).
    apply splits_val; [|exact K1]. intros m. apply splits_seq; [apply splits_quiet, quiet_upd, so_request|]. apply splits_seq; [apply splits_quiet, quiet_look; intros y; destruct (y <? Answered); [|intros x; reflexivity]; intros x; reflexivity|].
    apply splits_seq; [apply splits_quiet; intros x; reflexivity|]. apply splits_seq; [apply splits_quiet; intros x; reflexivity|]. apply splits_send, so_request.
  - right. cbv zeta. cbn [deaf c_world w_dial negb]. destruct (deaf_pop rest (set_so None s1) eq_refl) as (s' & d & E1 & N). rewrite E1. cbn [r_out r_state r_v]. match goal with |- exists _ _ _, _ /\ r_out ?x = _ /\ _ => exists [], (r_out x), (DContact d) end. split; [reflexivity|]. split; [reflexivity|]. split; [exact N|]. split; [reflexivity|]. intros O. destruct (O n) as [O1 O2]. destruct (O1 (daddr s1)) as (k' & D & R).
    change (daddr (set_so None s1)) with (daddr s1). rewrite D. assert (NK : so_remote k' <> so_remote k) by (rewrite R; intros X; rewrite X, bseq_refl in E; discriminate).
    set (s2 := set_so (Some k') (set_so None s1)). match goal with |- context[let (s, ok) := ?c in _] => assert (C : exists s3, c = (s3, true) /\ so s3 = Some k') end.
    { destruct (cso s2); [eauto|]. destruct (c_loose cfg); [|eauto]. destruct (w_listen _); [eauto|congruence]. }
    destruct C as (s3 & -> & K3). cbn [negb]. rewrite K3. destruct (populate _ _ _ _) as [m|]; [|left; reflexivity]. cbn [val].
    refine (tells_still _ _ (quiet_upd _ (so_request m)) (fun _ => conj eq_refl eq_refl) _ s3 k k' K3 NK).
    apply tells_still; [intros s4; unfold look; destruct (_ <? _); reflexivity|intros s4; unfold look; destruct (_ <? _); split; reflexivity|].
    apply tells_still; [intros s4; reflexivity|intros s4; split; reflexivity|]. apply tells_still; [intros s4; reflexivity|intros s4; split; reflexivity|]. apply tells_send, so_request.
Qed.
Lemma splits_popRoute : splits (popRoute cfg) (popRoute (deaf cfg)). Proof. apply splits_look. apply splits_pop. Qed.
Ltac qt := apply splits_quiet; intros ?; reflexivity.
Lemma splits_sendRequest which : splits (sendRequest cfg which) (sendRequest (deaf cfg) which).
Proof.
  unfold sendRequest. apply splits_look. intros m. apply splits_val. intros [m1 [[host port]|e]].
  - apply splits_seq; [destruct which; qt|]. apply splits_ask. intros n. apply splits_look. intros y. cbn [deaf c_world w_dns]. destruct (RouteAddress _ _ _ _); [|qt].
    apply splits_seq; [qt|]. apply splits_seq; [qt|]. apply splits_seq; [qt|]. apply splits_popRoute.
  - apply splits_seq; [destruct which; qt|]. qt.
Qed.
Lemma quiet_sdp m : quiet (checkSDP m). Proof. unfold checkSDP. destruct (pay m) as [[|d]|]; [intros s; reflexivity|destruct (s_audio d); intros s; reflexivity|intros s; reflexivity]. Qed.
Lemma splits_drop m : splits (send cfg m drop) (send (deaf cfg) m drop). Proof. apply splits_send. reflexivity. Qed.
Lemma splits_response m : splits (handleResponse cfg m) (handleResponse (deaf cfg) m).
Proof.
  unfold handleResponse. apply splits_look. intros q. destruct (negb (ResponseMatch q m)); [qt|]. apply splits_seq.
  { destruct (_ && _); [|qt]. destruct (addrs m Contact); [qt|]. apply splits_val. intros ack. apply splits_drop. }
  apply splits_seq; [qt|]. apply splits_seq; [qt|]. apply splits_seq; [destruct (_ <=? _); [apply splits_quiet, quiet_sdp|qt]|].
  destruct (_ =? _); [qt|]. destruct (_ || _); [qt|]. destruct (_ =? _).
  { destruct (bseq _ _); [apply splits_seq; [apply splits_look; intros [r|]; qt|qt]|]. destruct (_ || _); qt. }
  destruct (_ =? _); [apply splits_look; intros [r|]; [qt|apply splits_look; intros [k|]; [apply splits_popRoute|qt]]|].
  destruct (_ || _); [apply splits_val; intros u; apply splits_seq; [qt|apply splits_sendRequest]|]. destruct (_ <? _); qt.
Qed.
Lemma splits_request m : splits (handleRequest cfg m) (handleRequest (deaf cfg) m).
Proof.
  unfold handleRequest. destruct (_ <=? _); [apply splits_seq; [apply splits_drop|qt]|]. apply splits_look. intros r. destruct (_ && _); [apply splits_drop|]. apply splits_seq; [qt|].
  destruct (bseq _ _); [apply splits_seq; [apply splits_drop|qt]|]. destruct (bseq _ _); [apply splits_drop|].
  destruct (bseq _ _); [apply splits_seq; [qt|]; apply splits_seq; [apply splits_quiet, quiet_sdp|]; unfold sendResponse; do 3 (apply splits_seq; [qt|]); apply splits_send; reflexivity|]. destruct (bseq _ _); [qt|apply splits_drop].
Qed.
Lemma handle_splits e : (forall b, e <> ESockErr b) -> splits (handle cfg e) (handle (deaf cfg) e).
Proof.
  intros NE. destruct e as [b| | | |m|]; cbn [handle].
  - destruct (NE b eq_refl).
  - qt.
  - apply splits_seq; [qt|]. unfold resendRequest. apply splits_look. intros n. cbn [deaf c_max]. destruct (n <? c_max cfg); [|apply splits_look; intros [k|]; [apply splits_popRoute|qt]].
    apply splits_seq; [apply splits_look; intros q; apply splits_send, so_request|qt].
  - apply splits_seq; [qt|]. unfold resendResponse. apply splits_look. intros [r|]; [|qt]. apply splits_look. intros n. cbn [deaf c_max]. destruct (n <? c_max cfg); [|apply splits_look; intros [k|]; [apply splits_popRoute|qt]].
    apply splits_seq; [apply splits_send; reflexivity|qt].
  - unfold handleMessage. destruct (_ || _); [apply splits_seq; [apply splits_drop|qt]|]. apply splits_look. intros q. destruct (negb _); [apply splits_drop|]. destruct (IsResponse m); [apply splits_response|apply splits_request].
  - unfold sendHangup. apply splits_look. intros n. destruct (_ || _); [apply splits_look; intros c; apply splits_send; reflexivity|]. destruct (_ =? _).
    + apply splits_look. intros s. destruct (remote s); [|qt]. apply splits_val. intros [bye q]. apply splits_seq; [qt|apply splits_sendRequest].
    + destruct (_ =? _); qt.
Qed.
(** What [closes] says. *)
Lemma closes_not e s k : so s = Some k -> (forall b, e <> ESockErr b) -> closes cfg e s = false -> so (r_state (handle cfg e s)) = Some k.
Proof.
  intros K NE C. unfold closes in C. rewrite K in C. destruct (handle_splits e NE s k K) as [[E1 E2]|(pre & more & d & E1 & E2 & E3 & E4 & E5)]; [exact E2|].
  rewrite E3 in C. destruct e; try discriminate. destruct (NE refused eq_refl).
Qed.
Lemma closes_so e s : closes cfg e s = true -> exists k, so s = Some k. Proof. unfold closes. destruct e; try discriminate; destruct (so s) as [k|]; try discriminate; exists k; reflexivity. Qed.
Lemma closes_said e s : closes cfg e s = true -> exists more, r_out (handle cfg e s) = said cfg e s ++ more.
Proof.
  intros C. destruct (closes_so e s C) as (k & K). assert (NE : forall b, e <> ESockErr b) by (intros b ->; discriminate C).
  destruct (handle_splits e NE s k K) as [[E1 E2]|(pre & more & d & E1 & E2 & E3 & E4 & E5)].
  - unfold closes in C. rewrite K, E1, E2 in C. clear -C. exfalso. destruct e; discriminate C.
  - exists more. unfold said. rewrite E1, removelast_last. exact E2.
Qed.
Lemma closes_elsewhere e s k : so s = Some k -> closes cfg e s = true -> opens -> elsewhere k (handle cfg e s).
Proof.
  intros K C O. assert (NE : forall b, e <> ESockErr b) by (intros b ->; discriminate C).
  destruct (handle_splits e NE s k K) as [[E1 E2]|(pre & more & d & E1 & E2 & E3 & E4 & E5)]; [|exact (E5 O)]. unfold closes in C. rewrite K, E1, E2 in C. clear -C. exfalso. destruct e; discriminate C.
Qed.
End Deaf.


(** ** The dialog with its goroutines does what the event loop does *)
Lemma run_snoc_turn cfg r es r' e : run cfg r es r' -> r_v r' = Cont -> enabled e (r_state r') = true -> run cfg r (es ++ [e]) (turn cfg r' e).
Proof. induction 1 as [r|r e0 es r' V E R IH]; intros V' E'; cbn [app]; [apply run_step; [assumption..|apply run_nil]|]. apply run_step; auto. Qed.
(** the events that were handled to the end, and that which is being handled *)
Definition under_way (a : lloc) : list event := match a with LBusy e | LClose1 e | LClose2 e => [e] | _ => [] end.
Definition told_by (cfg : config) (m : msg) (es : list event) (l : live) : Prop :=
  exists es', dialog cfg m es' (lv l) /\ es = es' ++ under_way (lat l) /\ (lat l <> LOver -> r_v (lv l) = Cont) /\
    forall e, In e (under_way (lat l)) -> enabled e (r_state (lv l)) = true /\ closes cfg e (r_state (lv l)) = true.
Lemma place_cont r : place r <> LOver -> r_v r = Cont. Proof. unfold place. destruct (r_v r); [reflexivity|intros N; destruct (N eq_refl)..]. Qed.
Lemma place_none r : under_way (place r) = []. Proof. unfold place. destruct (r_v r); reflexivity. Qed.
Lemma told_begin cfg m : told_by cfg m [] (lbegin cfg m).
Proof. exists []. split; [apply run_nil|]. unfold lbegin. cbn [lv lat]. rewrite place_none. split; [reflexivity|]. split; [apply place_cont|intros e []]. Qed.
Lemma told_step cfg m es l o l' : lstep cfg l o l' -> told_by cfg m es l -> told_by cfg m (es ++ match o with Some e => [e] | None => [] end) l'.
Proof.
  intros S (es' & D & E & V & W). unfold told_by. destruct S; cbn [lv lat under_way] in *.
  - exists es'. rewrite app_nil_r. auto.
  - exists es'. rewrite app_nil_r. auto.
  - rewrite app_nil_r in E. subst es. exists (es' ++ [e]). rewrite place_none, app_nil_r. split; [apply run_snoc_turn; assumption|]. split; [reflexivity|]. split; [apply place_cont|intros x []].
  - rewrite app_nil_r in E. subst es. exists es'. split; [exact D|]. split; [reflexivity|]. split; [auto|]. intros x [<-|[]]. auto.
  - exists es'. rewrite app_nil_r. split; [exact D|]. split; [exact E|]. split; [intros _; apply V; discriminate|exact W].
  - exists es'. rewrite app_nil_r. split; [exact D|]. split; [exact E|]. split; [intros _; apply V; discriminate|exact W].
  - rewrite app_nil_r. exists (es' ++ [e]). rewrite place_none, app_nil_r. destruct (W e (or_introl eq_refl)) as [W1 W2]. split; [apply run_snoc_turn; [exact D|apply V; discriminate|exact W1]|]. split; [exact E|]. split; [apply place_cont|intros x []].
Qed.
Lemma told_steps cfg m l es l' : lsteps cfg l es l' -> forall es0, told_by cfg m es0 l -> told_by cfg m (es0 ++ es) l'.
Proof.
  induction 1 as [l|l l1 es l2 S _ IH|l e l1 es l2 S _ IH]; intros es0 T.
  - rewrite app_nil_r. exact T.
  - apply IH. pose proof (told_step _ _ _ _ _ _ S T) as X. rewrite app_nil_r in X. exact X.
  - pose proof (told_step _ _ _ _ _ _ S T) as X. specialize (IH _ X). rewrite <- app_assoc in IH. exact IH.
Qed.
(** Whatever the goroutines do, the dialog shows what an execution of the event loop shows, or the beginning of it. *)
Theorem live_is_dialog : forall cfg m es l, lsteps cfg (lbegin cfg m) es l ->
  exists r more, dialog cfg m es r /\ r_out r = shown cfg l ++ more /\ ((lat l = LLoop \/ lat l = LOver) -> r = lv l /\ more = []).
Proof.
  intros cfg m es l S. destruct (told_steps _ m _ _ _ S [] (told_begin cfg m)) as (es' & D & E & V & W). cbn [app] in E. subst es. unfold shown.
  destruct (lat l) as [|e|e|e|] eqn:A; cbn [under_way] in *; rewrite ?app_nil_r.
  1, 5: exists (lv l), []; rewrite app_nil_r; auto.
  all: destruct (W e (or_introl eq_refl)) as [W1 W2]; destruct (closes_said cfg e _ W2) as (more & M); exists (turn cfg (lv l) e), more; (split; [apply run_snoc_turn; [exact D|apply V; discriminate|exact W1]|]);
    (split; [unfold turn; cbn [r_out]; rewrite M, app_assoc; reflexivity|intros [X|X]; discriminate X]).
Qed.

(** ** The dialog that stays with one address *)
(** no event of the execution makes the dialog close its socket *)
Inductive steady (cfg : config) : result -> list event -> Prop :=
| steady_nil r : steady cfg r []
| steady_cons r e es : closes cfg e (r_state r) = false -> steady cfg (turn cfg r e) es -> steady cfg r (e :: es).
(** not an error of a socket *)
Definition regular (e : event) : Prop := match e with EMsg _ | EReqTimer | ERspTimer | EHangup => True | _ => False end.
Lemma steady_live_from cfg r es r' : run cfg r es r' -> steady cfg r es -> Forall regular es -> forall k q, so (r_state r) = Some k ->
  exists q', lsteps cfg (mklive r (place r) (Some fresh) q) es (mklive r' (place r') (Some fresh) q').
Proof.
  induction 1 as [r|r e es r' V E R IH]; intros S G k q K.
  - exists q. apply ls_nil.
  - inversion S as [|? ? ? C S']; subst. inversion G as [|? ? GE G']; subst. assert (NE : forall b, e <> ESockErr b) by (intros b ->; destruct GE).
    change (mkres (r_state (handle cfg e (r_state r))) (r_out r ++ r_out (handle cfg e (r_state r))) (r_v (handle cfg e (r_state r)))) with (turn cfg r e) in IH.
    pose proof (closes_not cfg e _ k K NE C) as K'. change (r_state (handle cfg e (r_state r))) with (r_state (turn cfg r e)) in K'.
    destruct (IH S' G' k (reader (has (cso (r_state r))) (has (cso (r_state (turn cfg r e)))) q) K') as (q' & X). exists q'.
    assert (T : forall p, taken e p q (Some fresh) q -> lsteps cfg (mklive r LLoop p q) (e :: es) (mklive r' (place r') (Some fresh) q')).
    { intros p T. eapply ls_event; [|exact X]. pose proof (l_turn cfg r e p q (Some fresh) q V E T C) as Y. rewrite K, K' in Y. cbn [has reader negb andb] in Y. exact Y. }
    replace (place r) with LLoop by (unfold place; rewrite V; reflexivity). destruct e; try destruct GE; try (apply T; constructor).
    eapply ls_quiet; [apply l_read1, r_datagram|]. eapply ls_quiet; [apply l_read1, r_deliver|]. apply T. constructor.
Qed.
Definition has_sent (r : result) : Prop := r_v r = Cont -> exists k x t, so (r_state r) = Some k /\ In (OSend (so_remote k) x t) (r_out r).
Lemma start_so cfg m : has_sent (start cfg m).
Proof.
  assert (SD : forall x keep s, (forall m s, so (keep m s) = so s) -> has_sent (send cfg x keep s)).
  { intros x keep s H. unfold has_sent. rewrite send_eq. cbv zeta. destruct (_ =? 1); [discriminate|]. destruct (addTimestamp _ _) as [m2|]; [|discriminate]. set (s3 := keep m2 _). destruct (so s3) as [k|] eqn:K; [|discriminate].
    destruct (w_write _ _); [|discriminate]. intros _. eexists k, _, _. split; [exact K|]. left. reflexivity. }
  assert (SQ : forall a b, (forall s, has_sent (b s)) -> forall s, has_sent ((a ;; b) s)).
  { intros a b H s. unfold has_sent, seq. destruct (r_v (a s)) eqn:V; [cbn [r_v r_state r_out]|rewrite V; discriminate..]. intros C. destruct (H _ C) as (k & x & t & K & I). exists k, x, t. split; [exact K|]. apply in_or_app. right. exact I. }
  assert (PP : forall rs s, has_sent (pop_route cfg rs s)).
  { induction rs as [|a rs IH]; [intros s; discriminate|]. cbn [pop_route]. apply SQ. apply SQ. unfold ask. intros s. destruct (connect _ _ _) as [s1 []]; cbn [negb]; [|apply IH]. destruct (so s1) as [k|]; [|discriminate].
    destruct (populate _ _ _ _) as [x|]; [|discriminate]. cbn [val]. revert s1. do 4 apply SQ. intros s1. apply SD. intros y z. unfold set_the_request. destruct (req z); reflexivity. }
  unfold start, sendRequest, look at 1. destruct (RouteMessage _ _ _) as [[m1 [[host port]|e]]|]; [| |discriminate]; cbn [val].
  - apply SQ. unfold ask, look at 1. intros s. destruct (RouteAddress _ _ _ _); [|discriminate]. match goal with |- has_sent (?a ?s0) => generalize s0 end. do 3 apply SQ. intros s0. apply PP.
  - discriminate.
Qed.
(** Every execution of the event loop in which it keeps its socket is one of the dialog with its goroutines. *)
Theorem steady_is_live : forall cfg m es r, dialog cfg m es r -> steady cfg (start cfg m) es -> Forall regular es -> exists l, lsteps cfg (lbegin cfg m) es l /\ lv l = r /\ lat l = place r /\ shown cfg l = r_out r.
Proof.
  intros cfg m es r D S G. unfold lbegin.
  assert (SH : forall p q, shown cfg (mklive r (place r) p q) = r_out r) by (intros p q; unfold shown, place; cbn [lv lat]; destruct (r_v r); apply app_nil_r).
  destruct es as [|e es]; [inversion D; subst; eexists; split; [apply ls_nil|]; cbn [lv lat]; auto|].
  assert (V : r_v (start cfg m) = Cont) by (inversion D; assumption). destruct (start_so cfg m V) as (k & x0 & t0 & K & _). rewrite K. cbn [has reader negb andb].
  destruct (steady_live_from cfg _ _ _ D S G k (reader false (has (cso (r_state (start cfg m)))) None) K) as (q & X). eexists. split; [exact X|]. cbn [lv lat]. auto.
Qed.
(** If sockets can be opened, an execution is of that kind when all that is sent goes to one address and no error is reported. *)
Theorem one_address_steady : forall cfg m es r a, opens cfg -> dialog cfg m es r -> r_v r <> Crash -> Forall regular es ->
  (forall e, ~ In (OErr e) (r_out r)) -> (forall to x t, In (OSend to x t) (r_out r) -> to = a) -> steady cfg (start cfg m) es.
Proof.
  intros cfg m es r a O D NC G NE ON.
  assert (H : forall r0 es r1, run cfg r0 es r1 -> (exists q, r_out r1 = r_out r0 ++ q)).
  { induction 1 as [x|x e l r1 V E R (q & IH)]; [exists []; rewrite app_nil_r; reflexivity|]. cbn [r_out] in IH. rewrite <- app_assoc in IH. eauto. }
  assert (X : forall r0, run cfg r0 es r -> (forall k, so (r_state r0) = Some k -> so_remote k = a) -> (es <> [] -> exists k, so (r_state r0) = Some k) -> steady cfg r0 es).
  { clear D. revert G. induction es as [|e es IH]; intros G r0 R A K; [constructor|]. inversion R as [|? ? ? ? V E R']; subst. inversion G as [|? ? GE G']; subst. destruct K as (k & K); [discriminate|].
    change (mkres (r_state (handle cfg e (r_state r0))) (r_out r0 ++ r_out (handle cfg e (r_state r0))) (r_v (handle cfg e (r_state r0)))) with (turn cfg r0 e) in R'. destruct (H _ _ _ R') as (q & Q).
    assert (IN : forall o, In o (r_out (handle cfg e (r_state r0))) -> In o (r_out r)) by (intros o I; rewrite Q; apply in_or_app; left; unfold turn; cbn [r_out]; apply in_or_app; right; exact I).
    destruct (closes cfg e (r_state r0)) eqn:C.
    - exfalso. destruct (closes_elsewhere cfg e _ k K C O) as [X|[(x & X)|(to & x & t & X & N)]].
      + inversion R' as [|? ? ? ? V' _ _]; subst; [exact (NC X)|]. unfold turn in V'. cbn [r_v] in V'. rewrite X in V'. discriminate.
      + exact (NE x (IN _ X)).
      + apply N. rewrite (ON _ _ _ (IN _ X)). symmetry. exact (A k K).
    - constructor; [exact C|]. assert (NS : forall b, e <> ESockErr b) by (intros b ->; destruct GE). pose proof (closes_not cfg e _ k K NS C) as K'. apply IH; [exact G'|exact R'| |intros _; exists k; exact K'].
      intros k1 K1. unfold turn in K1. cbn [r_state] in K1. rewrite K' in K1. injection K1 as <-. apply A. exact K. }
  destruct es as [|e es]; [constructor|]. assert (V : r_v (start cfg m) = Cont) by (inversion D; assumption). destruct (start_so cfg m V) as (k & x & t & K & I). destruct (H _ _ _ D) as (q & Q).
  apply X; [exact D| |intros _; exists k; exact K]. intros k' K'. rewrite K in K'. injection K' as <-. apply (ON _ x t). rewrite Q. apply in_or_app. left. exact I.
Qed.

(** ** What is sent before the socket is closed *)
Definition sends_to (a : bytes) (o : list out) : Prop := forall to x t, In (OSend to x t) o -> to = a.
Definition local (a : action) : Prop := forall s k, so s = Some k -> sends_to (so_remote k) (r_out (a s)) /\ (r_v (a s) = Cont -> so (r_state (a s)) = Some k).
Lemma local_still a : (forall s, so (r_state (a s)) = so s /\ forall to x t, ~ In (OSend to x t) (r_out (a s))) -> local a.
Proof. intros H s k K. destruct (H s) as [H1 H2]. split; [intros to x t I; destruct (H2 _ _ _ I)|intros _; rewrite H1; exact K]. Qed.
Lemma local_seq a b : local a -> local b -> local (a ;; b).
Proof.
  intros A C s k K. unfold seq. destruct (A s k K) as [A1 A2]. destruct (r_v (a s)) eqn:V; [|split; [exact A1|rewrite V; discriminate]..]. destruct (C _ k (A2 eq_refl)) as [C1 C2]. cbn [r_out r_v r_state]. split; [|exact C2].
  intros to x t I. apply in_app_or in I. destruct I as [I|I]; [exact (A1 _ _ _ I)|exact (C1 _ _ _ I)].
Qed.
Lemma local_look {A} (f : dstate -> A) g : (forall y, local (g y)) -> local (look f g). Proof. intros H s. apply H. Qed.
Lemma local_val {A} (x : res A) g : (forall y, local (g y)) -> local (val x g). Proof. intros H. destruct x; [apply H|]. apply local_still. intros s. split; [reflexivity|intros ? ? ? []]. Qed.
Ltac lt := apply local_still; let s := fresh in intros s; split; [reflexivity|intros ? ? ? X; cbn in X; repeat (destruct X as [X|X]; [discriminate X|]); exact X].
Lemma local_send cfg m keep : (forall m s, so (keep m s) = so s) -> local (send cfg m keep).
Proof.
  intros H s k K. rewrite send_eq. cbv zeta. destruct (_ =? 1); [split; [intros ? ? ? [X|[]]; discriminate X|discriminate]|]. destruct (addTimestamp _ _) as [m2|]; [|split; [intros ? ? ? []|discriminate]]. set (s3 := keep m2 _).
  assert (K3 : so s3 = Some k) by (unfold s3; rewrite H; change (so (set_clock ?n ?x)) with (so x); rewrite H; exact K). rewrite K3. destruct (w_write _ _).
  - split; [intros to x t [X|[]]; injection X as <- _ _; reflexivity|intros _; exact K3].
  - split; [intros ? ? ? [X|[]]; discriminate X|discriminate].
Qed.
Section Deaf2.
Variable cfg : config.
Lemma local_pop rs : local (pop_route (deaf cfg) rs).
Proof.
  destruct rs as [|a rest]; [intros s k K; split; [intros ? ? ? [X|[]]; discriminate X|discriminate]|]. cbn [pop_route]. apply local_seq; [lt|]. apply local_seq; [lt|].
  intros s k K. unfold ask. set (s1 := set_clock _ _). assert (K1 : so s1 = Some k) by exact K. clearbody s1. set (n := clock s). clearbody n. unfold connect. rewrite K1. destruct (bseq (daddr s1) (so_remote k)) eqn:E.
  - cbn [negb]. rewrite K1. revert s1 K1 E. generalize k. intros k0 s1 K1 _. revert s1 k0 K1. intros s1 k0 K1. refine (local_val _ _ _ s1 k0 K1). intros m. apply local_seq; [apply local_still; intros x; split; [apply so_request|intros ? ? ? []]|].
    apply local_seq; [apply local_look; intros y; destruct (y <? Answered); lt|]. apply local_seq; [lt|]. apply local_seq; [lt|]. apply local_send, so_request.
  - cbv zeta. cbn [deaf c_world w_dial negb]. destruct (deaf_pop cfg rest (set_so None s1) eq_refl) as (s' & d & E1 & N). rewrite E1. cbn [r_out r_state r_v]. split; [intros ? ? ? [X|[]]; discriminate X|discriminate].
Qed.
Lemma local_popRoute : local (popRoute (deaf cfg)). Proof. apply local_look, local_pop. Qed.
Lemma local_sendRequest which : local (sendRequest (deaf cfg) which).
Proof.
  unfold sendRequest. apply local_look. intros m. apply local_val. intros [m1 [[host port]|e]].
  - apply local_seq; [destruct which; lt|]. intros s k K. unfold ask. assert (K1 : so (set_clock (S (clock s)) s) = Some k) by exact K. revert K1. generalize (set_clock (S (clock s)) s). revert k K. intros k _ s1 K1.
    refine (local_look _ _ _ s1 k K1). intros y. destruct (RouteAddress _ _ _ _); [|lt]. apply local_seq; [lt|]. apply local_seq; [lt|]. apply local_seq; [lt|]. apply local_popRoute.
  - apply local_seq; [destruct which; lt|]. lt.
Qed.
Lemma local_sdp m : local (checkSDP m). Proof. unfold checkSDP. destruct (pay m) as [[|d]|]; [lt|destruct (s_audio d); lt|lt]. Qed.
Lemma local_drop m : local (send (deaf cfg) m drop). Proof. apply local_send. reflexivity. Qed.
Lemma local_response m : local (handleResponse (deaf cfg) m).
Proof.
  unfold handleResponse. apply local_look. intros q. destruct (negb (ResponseMatch q m)); [lt|]. apply local_seq.
  { destruct (_ && _); [|lt]. destruct (addrs m Contact); [lt|]. apply local_val. intros ack. apply local_drop. }
  apply local_seq; [lt|]. apply local_seq; [lt|]. apply local_seq; [destruct (_ <=? _); [apply local_sdp|lt]|].
  destruct (_ =? _); [lt|]. destruct (_ || _); [lt|]. destruct (_ =? _).
  { destruct (bseq _ _); [apply local_seq; [apply local_look; intros [r|]; lt|lt]|]. destruct (_ || _); lt. }
  destruct (_ =? _); [apply local_look; intros [r|]; [lt|apply local_look; intros [k|]; [apply local_popRoute|lt]]|].
  destruct (_ || _); [apply local_val; intros u; apply local_seq; [lt|apply local_sendRequest]|]. destruct (_ <? _); lt.
Qed.
Lemma local_request m : local (handleRequest (deaf cfg) m).
Proof.
  unfold handleRequest. destruct (_ <=? _); [apply local_seq; [apply local_drop|lt]|]. apply local_look. intros r. destruct (_ && _); [apply local_drop|]. apply local_seq; [lt|].
  destruct (bseq _ _); [apply local_seq; [apply local_drop|lt]|]. destruct (bseq _ _); [apply local_drop|].
  destruct (bseq _ _); [apply local_seq; [lt|]; apply local_seq; [apply local_sdp|]; unfold sendResponse; do 3 (apply local_seq; [lt|]); apply local_send; reflexivity|]. destruct (bseq _ _); [lt|apply local_drop].
Qed.
Lemma local_handle e : local (handle (deaf cfg) e).
Proof.
  destruct e as [b| | | |m|]; cbn [handle].
  - intros s k K. destruct b; split; try discriminate; intros ? ? ? X; cbn in X; repeat (destruct X as [X|X]; [discriminate X|]); destruct X.
  - lt.
  - apply local_seq; [lt|]. unfold resendRequest. apply local_look. intros n. destruct (n <? _); [|apply local_look; intros [k|]; [apply local_popRoute|lt]].
    apply local_seq; [apply local_look; intros q; apply local_send, so_request|lt].
  - apply local_seq; [lt|]. unfold resendResponse. apply local_look. intros [r|]; [|lt]. apply local_look. intros n. destruct (n <? _); [|apply local_look; intros [k|]; [apply local_popRoute|lt]].
    apply local_seq; [apply local_send; reflexivity|lt].
  - unfold handleMessage. destruct (_ || _); [apply local_seq; [apply local_drop|lt]|]. apply local_look. intros q. destruct (negb _); [apply local_drop|]. destruct (IsResponse m); [apply local_response|apply local_request].
  - unfold sendHangup. apply local_look. intros n. destruct (_ || _); [apply local_look; intros c; apply local_send; reflexivity|]. destruct (_ =? _).
    + apply local_look. intros s. destruct (remote s); [|lt]. apply local_val. intros [bye q]. apply local_seq; [lt|apply local_sendRequest].
    + destruct (_ =? _); lt.
Qed.
Lemma said_here e s k : so s = Some k -> sends_to (so_remote k) (said cfg e s).
Proof. intros K to x t I. unfold said in I. destruct (local_handle e s k K) as [L _]. apply (L to x t). destruct (r_out (handle (deaf cfg) e s)) as [|y l] eqn:O; [destruct I|]. rewrite (app_removelast_last y) by discriminate. apply in_or_app. left. exact I. Qed.
Lemma kept_here e s k : so s = Some k -> closes cfg e s = false -> sends_to (so_remote k) (r_out (handle cfg e s)) /\ (r_v (handle cfg e s) = Cont -> so (r_state (handle cfg e s)) = Some k).
Proof.
  intros K C. destruct (match e with ESockErr _ => true | _ => false end) eqn:SE.
  - destruct e; try discriminate SE. exact (local_handle (ESockErr refused) s k K).
  - assert (NE : forall b, e <> ESockErr b) by (intros b ->; discriminate SE). destruct (handle_splits cfg e NE s k K) as [[E1 E2]|(pre & more & d & E1 & E2 & E3 & E4 & E5)].
    + rewrite <- E1. exact (local_handle e s k K).
    + exfalso. unfold closes in C. rewrite K, E3 in C. clear -C SE. destruct e; discriminate.
Qed.
End Deaf2.

(** All that the beginning sends goes to the address it ends up connected to. *)
Definition sent_over (r : result) : Prop := forall to x t, In (OSend to x t) (r_out r) -> exists k, so (r_state r) = Some k /\ to = so_remote k.
Lemma start_sends cfg m : sent_over (start cfg m).
Proof.
  assert (SD : forall x keep s, (forall m s, so (keep m s) = so s) -> sent_over (send cfg x keep s)).
  { intros x keep s H. unfold sent_over. rewrite send_eq. cbv zeta. destruct (_ =? 1); [intros ? ? ? [X|[]]; discriminate X|]. destruct (addTimestamp _ _) as [m2|]; [|intros ? ? ? []]. set (s3 := keep m2 _). destruct (so s3) as [k|] eqn:K; [|intros ? ? ? []].
    destruct (w_write _ _); [|intros ? ? ? [X|[]]; discriminate X]. intros to y t [X|[]]. injection X as <- _ _. exists k. split; [exact K|reflexivity]. }
  assert (SQ : forall a b, (forall s to x t, ~ In (OSend to x t) (r_out (a s))) -> (forall s, sent_over (b s)) -> forall s, sent_over ((a ;; b) s)).
  { intros a b Q H s. unfold sent_over, seq. destruct (r_v (a s)) eqn:V; [cbn [r_state r_out]; intros to x t I; apply in_app_or in I; destruct I as [I|I]; [destruct (Q _ _ _ _ I)|exact (H _ _ _ _ I)]|intros to x t I; destruct (Q _ _ _ _ I)..]. }
  assert (UP : forall f s to x t, ~ In (OSend to x t) (r_out (upd f s))) by (intros; intros []).
  assert (PP : forall rs s, sent_over (pop_route cfg rs s)).
  { induction rs as [|a rs IH]; [intros s ? ? ? [X|[]]; discriminate X|]. cbn [pop_route]. apply SQ; [apply UP|]. apply SQ; [apply UP|]. unfold ask. intros s. destruct (connect _ _ _) as [s1 []]; cbn [negb]; [|apply IH]. destruct (so s1) as [k|]; [|intros ? ? ? []].
    destruct (populate _ _ _ _) as [x|]; [|intros ? ? ? []]. cbn [val]. revert s1. apply SQ; [apply UP|]. apply SQ; [intros s1; unfold look; destruct (_ <? _); intros ? ? ? []|]. apply SQ; [apply UP|]. apply SQ; [apply UP|]. intros s1. apply SD. intros y z. unfold set_the_request. destruct (req z); reflexivity. }
  unfold start, sendRequest, look at 1. destruct (RouteMessage _ _ _) as [[m1 [[host port]|e]]|]; [| |intros ? ? ? []]; cbn [val].
  - apply SQ; [apply UP|]. unfold ask, look at 1. intros s. destruct (RouteAddress _ _ _ _); [|intros ? ? ? [X|[]]; discriminate X]. match goal with |- sent_over (?a ?s0) => generalize s0 end. apply SQ; [apply UP|]. apply SQ; [apply UP|]. apply SQ; [apply UP|]. intros s0. apply PP.
  - apply SQ; [apply UP|]. intros s ? ? ? [X|[]]. discriminate X.
Qed.

(** ** Waiting for a goroutine which has nothing to say *)
(** nothing is ever sent, reported or handled again *)
Definition stuck (cfg : config) (l : live) : Prop := forall es l', lsteps cfg l es l' -> es = [] /\ lat l' = lat l /\ shown cfg l' = shown cfg l.
(** The goroutine has no message in hand: it waits for a datagram, or reports that reading failed. *)
Definition idle (r : rcv) : Prop := (rl r = RRead \/ rl r = RSendE) /\ cc r = false.
(** A dialog that has closed its socket while the goroutine that reads it has no message in hand does nothing any more. *)
Theorem moving_hangs_refuted : forall cfg r e p q, idle p -> stuck cfg (mklive r (LClose1 e) (Some (close p)) q).
Proof.
  intros cfg r e p q [ID CC]. assert (G : forall l es l', lsteps cfg l es l' -> lv l = r -> lat l = LClose1 e -> (exists p, lr1 l = Some p /\ opened p = false /\ idle p) -> es = [] /\ lv l' = r /\ lat l' = LClose1 e).
  { induction 1 as [l|l l1 es l2 S _ IH|l x l1 es l2 S _ IH]; intros V A (p1 & P & O & I); [auto| |]; inversion S; subst; cbn [lv lat lr1] in *; subst; try discriminate.
    - injection P as ->. apply IH; [reflexivity|reflexivity|]. eexists. split; [reflexivity|]. destruct I as [I C]. destruct H; cbn [rl opened cc] in *; subst; try discriminate; try (destruct I; discriminate). split; [reflexivity|]. split; [right; reflexivity|reflexivity].
    - apply IH; [reflexivity|reflexivity|]. exists p1. split; [reflexivity|]. split; [exact O|exact I].
    - injection A as ->. injection P as ->. destruct I as [I C]. destruct H; cbn [rl opened cc] in *; [destruct I; discriminate|discriminate]. }
  intros es l' S. destruct (G _ _ _ S eq_refl eq_refl) as (E & V & A); [exists (close p); repeat split; assumption|]. split; [exact E|]. split; [exact A|]. unfold shown. rewrite V, A. reflexivity.
Qed.
(** With a message in the goroutine's hand it goes on, and the message is lost. *)
Theorem moving_goes_on : forall cfg r e o c x q, exists l, lsteps cfg (mklive r (LBusy e) (Some (mkr RSendC o c x)) q) [] l /\ lv l = turn cfg r e /\ lat l = place (turn cfg r e).
Proof.
  intros cfg r e o c x q. eexists. split; [|split].
  - eapply ls_quiet; [apply l_close|]. eapply ls_quiet; [apply l_wait1, take_msg|]. eapply ls_quiet; [apply l_read1, r_fail|]. eapply ls_quiet; [apply l_wait2, take_err|]. apply ls_nil.
  - reflexivity.
  - reflexivity.
Qed.

(** ** A silent server *)
(** the execution, in which nothing is received on the connected socket *)
Definition nothing_in (l : live) : Prop := forall r, lr1 l = Some r -> rl r <> RGot /\ rl r <> RSendC.
Inductive unheard (cfg : config) : live -> list event -> live -> Prop :=
| uh_nil l : nothing_in l -> unheard cfg l [] l
| uh_quiet l l1 es l2 : nothing_in l -> lstep cfg l None l1 -> unheard cfg l1 es l2 -> unheard cfg l es l2
| uh_event l e l1 es l2 : nothing_in l -> lstep cfg l (Some e) l1 -> unheard cfg l1 es l2 -> unheard cfg l (e :: es) l2.
Definition at_first (k : sock) (cfg : config) (l : live) : Prop :=
  sends_to (so_remote k) (shown cfg l) /\ (lat l <> LOver -> so (r_state (lv l)) = Some k /\ (exists p, lr1 l = Some p /\ idle p) /\ forall e, lat l <> LClose2 e).
Lemma place_loop r : r_v r = Cont -> place r = LLoop. Proof. unfold place. intros ->. reflexivity. Qed.
Lemma at_first_step k cfg l o l' : lstep cfg l o l' -> at_first k cfg l -> nothing_in l' -> at_first k cfg l'.
Proof.
  intros S (T & H) N. destruct S; cbn [lat lv lr1] in *.
  - split; [exact T|]. pose proof (N p' eq_refl) as N'. clear N. cbn [lat lv lr1]. intros NO. destruct (H NO) as (K & (x & X & I & C) & L). split; [exact K|]. split; [|exact L]. injection X as <-.
    exists p'. split; [reflexivity|]. destruct H0; cbn [rl cc] in *; try (destruct I; discriminate); destruct N' as [N1 N2]; [congruence|]. split; [right; reflexivity|exact C].
  - split; [exact T|]. exact H.
  - destruct (H ltac:(discriminate)) as (K & (x & X & ID) & L). destruct (kept_here cfg e _ k K H3) as [S1 S2]. split.
    + unfold shown in *. cbn [lv lat] in *. rewrite app_nil_r in T. intros to y t I. apply in_app_or in I. destruct I as [I|I]; [|unfold place in I; destruct (r_v (turn cfg r e)); destruct I].
      unfold turn in I. cbn [r_out] in I. apply in_app_or in I. destruct I as [I|I]; [exact (T _ _ _ I)|exact (S1 _ _ _ I)].
    + cbn [lat lv lr1]. intros NO. pose proof (place_cont _ NO) as V. specialize (S2 V). change (r_state (handle cfg e (r_state r))) with (r_state (turn cfg r e)) in S2. rewrite K, S2. cbn [has reader negb andb]. split; [reflexivity|]. rewrite (place_loop _ V). split; [|discriminate].
      destruct H2; try (exists x; split; [exact X|exact ID]).
      * injection X as <-. destruct ID as [[I|I] _]; discriminate I.
      * exfalso. clear -V. destruct b; discriminate V.
  - destruct (H ltac:(discriminate)) as (K & (x & X & ID) & L). split.
    + unfold shown in *. cbn [lv lat] in *. rewrite app_nil_r in T. intros to y t I. apply in_app_or in I. destruct I as [I|I]; [exact (T _ _ _ I)|exact (said_here cfg e _ k K _ _ _ I)].
    + cbn [lat lv lr1]. intros _. split; [exact K|]. split; [|discriminate]. destruct H2; try (exists x; split; [exact X|exact ID]).
      * injection X as <-. destruct ID as [[I|I] _]; discriminate I.
      * discriminate H3.
  - destruct (H ltac:(discriminate)) as (K & (x & X & ID) & L). split; [exact T|]. cbn [lat lv lr1]. intros _. split; [exact K|]. split; [|discriminate]. injection X as <-. exists (close p). split; [reflexivity|exact ID].
  - destruct (H ltac:(discriminate)) as (K & (x & X & I & C) & L). injection X as <-. exfalso. destruct H0; cbn [rl cc] in *; [destruct I; discriminate|discriminate].
  - destruct (H ltac:(discriminate)) as (K & _ & L). destruct (L e eq_refl).
Qed.
(** Nothing but the first address is ever written to if nothing comes from it: no other candidate is tried. *)
Theorem silent_one_address_refuted : forall cfg m es l, unheard cfg (lbegin cfg m) es l ->
  forall to x t to' x' t', In (OSend to x t) (shown cfg l) -> In (OSend to' x' t') (shown cfg l) -> to = to'.
Proof.
  intros cfg m es l U.
  assert (SH : shown cfg (lbegin cfg m) = r_out (start cfg m)) by (unfold shown, lbegin, place; cbn [lv lat]; destruct (r_v (start cfg m)); apply app_nil_r).
  assert (A : exists k, at_first k cfg (lbegin cfg m)).
  { destruct (so (r_state (start cfg m))) as [k|] eqn:K.
    - exists k. split; [rewrite SH; intros to x t I; destruct (start_sends cfg m _ _ _ I) as (k' & K' & ->); congruence|]. unfold lbegin. cbn [lat lv lr1]. rewrite K. cbn [has reader negb andb]. intros NO. split; [reflexivity|]. split; [exists fresh; repeat split; left; reflexivity|]. intros e. rewrite (place_loop _ (place_cont _ NO)). discriminate.
    - exists (mksock [] [] 0). split; [rewrite SH; intros to x t I; destruct (start_sends cfg m _ _ _ I) as (k' & K' & _); congruence|]. unfold lbegin. cbn [lat lv lr1]. intros NO. destruct (start_so cfg m (place_cont _ NO)) as (k & _ & _ & K' & _). congruence. }
  destruct A as (k & A).
  assert (G : at_first k cfg l). { clear SH. induction U as [l N|l l1 es l2 N S U IH|l e l1 es l2 N S U IH]; [exact A| |]; apply IH; (eapply at_first_step; [exact S|exact A|inversion U; assumption]). }
  destruct G as [G _]. intros to x t to' x' t' I I'. rewrite (G _ _ _ I), (G _ _ _ I'). reflexivity.
Qed.

(** ** Executions that write to two addresses *)
Lemma run_grows cfg r0 es r1 : run cfg r0 es r1 -> exists q, r_out r1 = r_out r0 ++ q.
Proof. induction 1 as [x|x e l r1 V E R (q & IH)]; [exists []; rewrite app_nil_r; reflexivity|]. cbn [r_out] in IH. rewrite <- app_assoc in IH. eauto. Qed.
Lemma first_move cfg r0 es r k : run cfg r0 es r -> Forall regular es -> so (r_state r0) = Some k -> sends_to (so_remote k) (r_out r0) ->
  sends_to (so_remote k) (r_out r) \/
  exists es1 e es2 r1, es = es1 ++ e :: es2 /\ run cfg r0 es1 r1 /\ steady cfg r0 es1 /\ r_v r1 = Cont /\ enabled e (r_state r1) = true /\ closes cfg e (r_state r1) = true /\ run cfg (turn cfg r1 e) es2 r /\ so (r_state r1) = Some k /\ sends_to (so_remote k) (r_out r1).
Proof.
  induction 1 as [x|x e l r1 V E R IH]; intros G K S; [left; exact S|]. inversion G as [|? ? GE G']; subst. change (mkres _ _ _) with (turn cfg x e) in IH, R.
  destruct (closes cfg e (r_state x)) eqn:C.
  - right. exists [], e, l, x. split; [reflexivity|]. split; [apply run_nil|]. split; [constructor|]. repeat (split; [assumption|]). assumption.
  - destruct (kept_here cfg e _ k K C) as [S1 _]. assert (NS : forall b, e <> ESockErr b) by (intros b ->; destruct GE). pose proof (closes_not cfg e _ k K NS C) as K'.
    destruct (IH G' K') as [A|(es1 & e' & es2 & r2 & -> & R1 & ST & V2 & E2 & C2 & R2 & K2 & S2)].
    + intros to y t I. unfold turn in I. cbn [r_out] in I. apply in_app_or in I. destruct I as [I|I]; [exact (S _ _ _ I)|exact (S1 _ _ _ I)].
    + left. exact A.
    + right. exists (e :: es1), e', es2, r2. split; [reflexivity|]. split; [apply run_step; assumption|]. split; [constructor; assumption|]. repeat (split; [assumption|]). assumption.
Qed.
(** When the event loop would write to a second address, the dialog may stop for good: it has sent and reported what comes before that, and waits for a goroutine that waits for it. *)
Theorem second_address_hangs_refuted : forall cfg m es r, dialog cfg m es r -> Forall regular es ->
  (exists to x t to' x' t', In (OSend to x t) (r_out r) /\ In (OSend to' x' t') (r_out r) /\ to <> to') ->
  exists es1 e es2 l, es = es1 ++ e :: es2 /\ lsteps cfg (lbegin cfg m) (es1 ++ [e]) l /\ stuck cfg l /\
    (exists more, r_out r = shown cfg l ++ more) /\ (exists more, shown cfg l = r_out (start cfg m) ++ more) /\ exists a, forall to x t, In (OSend to x t) (shown cfg l) -> to = a.
Proof.
  intros cfg m es r D G (to & x & t & to' & x' & t' & I & I' & N). pose proof (start_sends cfg m) as SS.
  destruct (r_v (start cfg m)) eqn:V.
  2, 3: exfalso; inversion D as [? |? ? ? ? V' _ _]; subst; [|congruence]; destruct (SS _ _ _ I) as (k & K & ->); destruct (SS _ _ _ I') as (k' & K' & ->); congruence.
  destruct (start_so cfg m V) as (k & x0 & t0 & K & _). assert (S0 : sends_to (so_remote k) (r_out (start cfg m))) by (intros u y z J; destruct (SS _ _ _ J) as (k' & K' & ->); congruence).
  destruct (first_move cfg _ es r k D G K S0) as [A|(es1 & e & es2 & r1 & -> & R1 & ST & V1 & E1 & C1 & R2 & K1 & S1)]; [exfalso; apply N; rewrite (A _ _ _ I), (A _ _ _ I'); reflexivity|].
  apply Forall_app in G. destruct G as [G1 G2]. inversion G2 as [|? ? GE _]; subst.
  destruct (steady_live_from cfg _ _ _ R1 ST G1 k (reader false (has (cso (r_state (start cfg m)))) None) K) as (q & X). rewrite (place_loop _ V1) in X.
  assert (X1 : lsteps cfg (lbegin cfg m) es1 (mklive r1 LLoop (Some fresh) q)) by (unfold lbegin; rewrite K; exact X). clear X.
  exists es1, e, es2, (mklive r1 (LClose1 e) (Some (close fresh)) q). split; [reflexivity|]. split; [|split; [|split; [|split]]].
  - assert (J : forall l es a b, lsteps cfg l es a -> lsteps cfg a [e] b -> lsteps cfg l (es ++ [e]) b) by (induction 1; intros Q; cbn [app]; [exact Q|eapply ls_quiet; eauto|eapply ls_event; eauto]).
    apply (J _ _ _ _ X1). assert (T : forall p, taken e p q (Some fresh) q -> lsteps cfg (mklive r1 LLoop p q) [e] (mklive r1 (LClose1 e) (Some (close fresh)) q)).
    { intros p T. eapply ls_event; [exact (l_busy cfg r1 e p q (Some fresh) q V1 E1 T C1)|]. eapply ls_quiet; [apply l_close|]. apply ls_nil. }
    destruct e; try destruct GE; try (apply T; constructor). eapply ls_quiet; [apply l_read1, r_datagram|]. eapply ls_quiet; [apply l_read1, r_deliver|]. apply T. constructor.
  - apply moving_hangs_refuted. split; [left|]; reflexivity.
  - destruct (run_grows _ _ _ _ R2) as (o & O). destruct (closes_said cfg e _ C1) as (mo & M). exists (mo ++ o). rewrite O. unfold turn, shown. cbn [r_out lv lat]. rewrite M, <- !app_assoc. reflexivity.
  - destruct (run_grows _ _ _ _ R1) as (o & O). unfold shown. cbn [lv lat]. rewrite O, <- app_assoc. eexists. reflexivity.
  - exists (so_remote k). intros u y z J. unfold shown in J. cbn [lv lat] in J. apply in_app_or in J. destruct J as [J|J]; [exact (S1 _ _ _ J)|exact (said_here cfg e _ k K1 _ _ _ J)].
Qed.
(** ** Going over *)
(** A turn that is not the last leaves the loop with a socket. *)
Definition keeps (a : action) : Prop := forall s, so s <> None -> r_v (a s) = Cont -> so (r_state (a s)) <> None.
Lemma keeps_quiet a : quiet a -> keeps a. Proof. intros Q s K _. rewrite Q. exact K. Qed.
Lemma keeps_seq a b : keeps a -> keeps b -> keeps (a ;; b).
Proof. intros A C s K. unfold seq. destruct (r_v (a s)) eqn:V; [|rewrite V; discriminate..]. cbn [r_v r_state]. apply C. exact (A s K V). Qed.
Lemma keeps_look {A} (f : dstate -> A) g : (forall y, keeps (g y)) -> keeps (look f g). Proof. intros H s. apply H. Qed.
Lemma keeps_val {A} (x : res A) g : (forall y, keeps (g y)) -> keeps (val x g). Proof. intros H. destruct x; [apply H|apply keeps_quiet, quiet_crash]. Qed.
Lemma has_sent_seq a b : (forall s, has_sent (b s)) -> forall s, has_sent ((a ;; b) s).
Proof. intros H s. unfold has_sent, seq. destruct (r_v (a s)) eqn:V; [cbn [r_v r_state r_out]|rewrite V; discriminate..]. intros C. destruct (H _ C) as (k & x & t & K & I). exists k, x, t. split; [exact K|]. apply in_or_app. right. exact I. Qed.
Lemma has_sent_send cfg x keep s : (forall m s, so (keep m s) = so s) -> has_sent (send cfg x keep s).
Proof.
  intros H. unfold has_sent. rewrite send_eq. cbv zeta. destruct (_ =? 1); [discriminate|]. destruct (addTimestamp _ _) as [m2|]; [|discriminate]. set (s3 := keep m2 _). destruct (so s3) as [k|] eqn:K; [|discriminate].
  destruct (w_write _ _); [|discriminate]. intros _. eexists k, _, _. split; [exact K|]. left. reflexivity.
Qed.
Section Keeps.
Variable cfg : config.
Lemma has_sent_pop rs : forall s, has_sent (pop_route cfg rs s).
Proof.
  induction rs as [|a rs IH]; [intros s; discriminate|]. cbn [pop_route]. apply has_sent_seq. apply has_sent_seq. unfold ask. intros s. destruct (connect _ _ _) as [s1 []]; cbn [negb]; [|apply IH]. destruct (so s1) as [k|]; [|discriminate].
  destruct (populate _ _ _ _) as [x|]; [|discriminate]. cbn [val]. revert s1. do 4 apply has_sent_seq. intros s1. apply has_sent_send. intros y z. unfold set_the_request. destruct (req z); reflexivity.
Qed.
Lemma sent_keeps a : (forall s, has_sent (a s)) -> keeps a. Proof. intros H s _ V. destruct (H s V) as (k & x & t & K & _). rewrite K. discriminate. Qed.
Lemma has_sent_request which : forall s, has_sent (sendRequest cfg which s).
Proof.
  intros s. unfold sendRequest, look at 1. destruct (RouteMessage _ _ _) as [[m1 [[host port]|e]]|]; [| |discriminate]; cbn [val].
  - revert s. apply has_sent_seq. unfold ask, look at 1. intros s. destruct (RouteAddress _ _ _ _); [|discriminate]. match goal with |- has_sent (?a ?s0) => generalize s0 end. do 3 apply has_sent_seq. intros s0. apply has_sent_pop.
  - discriminate.
Qed.
Lemma keeps_popRoute : keeps (popRoute cfg). Proof. apply keeps_look. intros rs. apply sent_keeps, has_sent_pop. Qed.
Lemma keeps_sendRequest which : keeps (sendRequest cfg which). Proof. apply sent_keeps, has_sent_request. Qed.
Lemma keeps_send m keep : (forall m s, so (keep m s) = so s) -> keeps (send cfg m keep). Proof. intros H. apply keeps_quiet, quiet_send, H. Qed.
Ltac kt := apply keeps_quiet; let s := fresh in intros s; reflexivity.
Lemma keeps_sdp m : keeps (checkSDP m). Proof. unfold checkSDP. destruct (pay m) as [[|d]|]; [kt|destruct (s_audio d); kt|kt]. Qed.
Lemma keeps_drop m : keeps (send cfg m drop). Proof. apply keeps_send. reflexivity. Qed.
Lemma keeps_response m : keeps (handleResponse cfg m).
Proof.
  unfold handleResponse. apply keeps_look. intros q. destruct (negb (ResponseMatch q m)); [kt|]. apply keeps_seq.
  { destruct (_ && _); [|kt]. destruct (addrs m Contact); [kt|]. apply keeps_val. intros ack. apply keeps_drop. }
  apply keeps_seq; [kt|]. apply keeps_seq; [kt|]. apply keeps_seq; [destruct (_ <=? _); [apply keeps_sdp|kt]|].
  destruct (_ =? _); [kt|]. destruct (_ || _); [kt|]. destruct (_ =? _).
  { destruct (bseq _ _); [apply keeps_seq; [apply keeps_look; intros [r|]; kt|kt]|]. destruct (_ || _); kt. }
  destruct (_ =? _); [apply keeps_look; intros [r|]; [kt|apply keeps_look; intros [k|]; [apply keeps_popRoute|kt]]|].
  destruct (_ || _); [apply keeps_val; intros u; apply keeps_seq; [kt|apply keeps_sendRequest]|]. destruct (_ <? _); kt.
Qed.
Lemma keeps_request m : keeps (handleRequest cfg m).
Proof.
  unfold handleRequest. destruct (_ <=? _); [apply keeps_seq; [apply keeps_drop|kt]|]. apply keeps_look. intros r. destruct (_ && _); [apply keeps_drop|]. apply keeps_seq; [kt|].
  destruct (bseq _ _); [apply keeps_seq; [apply keeps_drop|kt]|]. destruct (bseq _ _); [apply keeps_drop|].
  destruct (bseq _ _); [apply keeps_seq; [kt|]; apply keeps_seq; [apply keeps_sdp|]; unfold sendResponse; do 3 (apply keeps_seq; [kt|]); apply keeps_send; reflexivity|]. destruct (bseq _ _); [kt|apply keeps_drop].
Qed.
Lemma keeps_handle e : keeps (handle cfg e).
Proof.
  destruct e as [b| | | |m|]; cbn [handle].
  - intros s K. destruct b; discriminate.
  - kt.
  - apply keeps_seq; [kt|]. unfold resendRequest. apply keeps_look. intros n. destruct (n <? _); [|apply keeps_look; intros [k|]; [apply keeps_popRoute|kt]].
    apply keeps_seq; [apply keeps_look; intros q; apply keeps_send, so_request|kt].
  - apply keeps_seq; [kt|]. unfold resendResponse. apply keeps_look. intros [r|]; [|kt]. apply keeps_look. intros n. destruct (n <? _); [|apply keeps_look; intros [k|]; [apply keeps_popRoute|kt]].
    apply keeps_seq; [apply keeps_send; reflexivity|kt].
  - unfold handleMessage. destruct (_ || _); [apply keeps_seq; [apply keeps_drop|kt]|]. apply keeps_look. intros q. destruct (negb _); [apply keeps_drop|]. destruct (IsResponse m); [apply keeps_response|apply keeps_request].
  - unfold sendHangup. apply keeps_look. intros n. destruct (_ || _); [apply keeps_look; intros c; apply keeps_send; reflexivity|]. destruct (_ =? _).
    + apply keeps_look. intros s. destruct (remote s); [|kt]. apply keeps_val. intros [bye q]. apply keeps_seq; [kt|apply keeps_sendRequest].
    + destruct (_ =? _); kt.
Qed.
End Keeps.
(** Every execution of the event loop is one of the dialog with its goroutines: wherever it goes over to another address, a datagram comes for the old socket and is lost. *)
Lemma live_from cfg r es r' : run cfg r es r' -> Forall regular es -> forall k q, so (r_state r) = Some k ->
  exists p' q', lsteps cfg (mklive r (place r) (Some fresh) q) es (mklive r' (place r') p' q').
Proof.
  induction 1 as [r|r e es r' V E R IH]; intros G k q K.
  - exists (Some fresh), q. apply ls_nil.
  - inversion G as [|? ? GE G']; subst. assert (NE : forall b, e <> ESockErr b) by (intros b ->; destruct GE).
    change (mkres (r_state (handle cfg e (r_state r))) (r_out r ++ r_out (handle cfg e (r_state r))) (r_v (handle cfg e (r_state r)))) with (turn cfg r e) in *.
    replace (place r) with LLoop by (unfold place; rewrite V; reflexivity).
    assert (TK : forall ls, (forall p, taken e p q (Some fresh) q -> lsteps cfg (mklive r LLoop p q) (e :: es) ls) -> lsteps cfg (mklive r LLoop (Some fresh) q) (e :: es) ls).
    { intros ls T. destruct e; try destruct GE; try (apply T; constructor). eapply ls_quiet; [apply l_read1, r_datagram|]. eapply ls_quiet; [apply l_read1, r_deliver|]. apply T. constructor. }
    set (q1 := reader (has (cso (r_state r))) (has (cso (r_state (turn cfg r e)))) q).
    assert (LAST : exists p' q', forall p, (so (r_state (turn cfg r e)) <> None -> p = Some fresh) -> (so (r_state (turn cfg r e)) = None -> p = Some (mkr RCloseC false false false)) -> lsteps cfg (mklive (turn cfg r e) (place (turn cfg r e)) p q1) es (mklive r' (place r') p' q')).
    { destruct (so (r_state (turn cfg r e))) as [k1|] eqn:K1.
      - destruct (IH G' k1 q1 eq_refl) as (p' & q' & X). exists p', q'. intros p P _. rewrite P by discriminate. exact X.
      - assert (es = []) as ->. { destruct es as [|e2 es]; [reflexivity|exfalso]. assert (V2 : r_v (turn cfg r e) = Cont) by (inversion R; assumption). apply (keeps_handle cfg e (r_state r)); [rewrite K; discriminate|exact V2|exact K1]. }
        inversion R; subst. exists (Some (mkr RCloseC false false false)), q1. intros p _ P. rewrite (P eq_refl). apply ls_nil. }
    destruct LAST as (p' & q' & X). exists p', q'. apply TK. intros p T.
    destruct (closes cfg e (r_state r)) eqn:C.
    + eapply ls_event; [exact (l_busy cfg r e p q _ _ V E T C)|]. unfold fresh. eapply ls_quiet; [apply l_read1, r_datagram|]. eapply ls_quiet; [apply l_read1, r_deliver|].
      eapply ls_quiet; [apply l_close|]. eapply ls_quiet; [apply l_wait1, take_msg|]. eapply ls_quiet; [apply l_read1, r_fail|]. eapply ls_quiet; [apply l_wait2, take_err|]. fold q1. apply X; destruct (so (r_state (turn cfg r e))); cbn [has]; intros N; try reflexivity; try discriminate. destruct (N eq_refl).
    + pose proof (closes_not cfg e _ k K NE C) as K'. change (r_state (handle cfg e (r_state r))) with (r_state (turn cfg r e)) in K'. 
      eapply ls_event; [|apply (X (Some fresh)); [reflexivity|rewrite K'; discriminate]]. pose proof (l_turn cfg r e p q (Some fresh) q V E T C) as Y. rewrite K, K' in Y. cbn [has reader negb andb] in Y. exact Y.
Qed.
Theorem dialog_lives : forall cfg m es r, dialog cfg m es r -> Forall regular es -> exists l, lsteps cfg (lbegin cfg m) es l /\ lv l = r /\ lat l = place r /\ shown cfg l = r_out r.
Proof.
  intros cfg m es r D G. unfold lbegin.
  assert (SH : forall p q, shown cfg (mklive r (place r) p q) = r_out r) by (intros p q; unfold shown, place; cbn [lv lat]; destruct (r_v r); apply app_nil_r).
  destruct es as [|e es]; [inversion D; subst; eexists; split; [apply ls_nil|]; cbn [lv lat]; auto|].
  assert (V : r_v (start cfg m) = Cont) by (inversion D; assumption). destruct (start_so cfg m V) as (k & x0 & t0 & K & _). rewrite K. cbn [has reader negb andb].
  destruct (live_from cfg _ _ _ D G k (reader false (has (cso (r_state (start cfg m)))) None) K) as (p & q & X). eexists. split; [exact X|]. cbn [lv lat]. auto.
Qed.
(** When the event loop writes to one address only, the dialog does all it does. *)
Theorem one_address_lives : forall cfg m es r a, opens cfg -> dialog cfg m es r -> r_v r <> Crash -> Forall regular es ->
  (forall e, ~ In (OErr e) (r_out r)) -> (forall to x t, In (OSend to x t) (r_out r) -> to = a) ->
  exists l, lsteps cfg (lbegin cfg m) es l /\ lv l = r /\ lat l = place r /\ shown cfg l = r_out r.
Proof. intros cfg m es r a O D NC G NE ON. apply steady_is_live; [exact D| |exact G]. exact (one_address_steady cfg m es r a O D NC G NE ON). Qed.
