(** C55: which messages of the peer can make the event loop of a dialog panic. *)
From Verif Require Import Bytes BytesLemmas GoLib GoLibLemmas SdpModel SipText SipTypes SipAppend UtilModel P_Text P_Lists DialogMsg P_DialogMsg DialogModel P_DialogEnd P_Dialog.
Local Open Scope Z_scope.

(** ** Specification *)
Definition has_uri (a : addr) : Prop := a_uri a <> None.
(** What the peer must not leave out: a Via; the audio of a session description; the Contact of an INVITE or of a redirect. That the
    addresses have a URI is so for every message which the parser accepts (C15). *)
Definition tame (m : msg) : Prop :=
  vias m <> [] /\ Forall has_uri (addrs m Contact) /\ Forall has_uri (addrs m RecordRoute) /\
  (forall d, pay m = Some (PSdp d) -> s_audio d <> None) /\
  ((status m <= 0 /\ method m = B "INVITE") \/ status m = 301 \/ status m = 302 -> addrs m Contact <> []).
(** the events which come from such a peer; its host does not refuse datagrams *)
Definition tame_event (e : event) : Prop := match e with EMsg m => tame m | ESockErr refused => refused = false | _ => True end.
(** the INVITE of the application *)
Definition good (m : msg) : Prop := status m <= 0 /\ request m <> None /\ Forall has_uri (addrs m Contact) /\ Forall has_uri (addrs m Route).
(** The random source gives what is asked for. *)
Definition drawing (cfg : config) : Prop := forall n, length (dr_callid (w_draws (c_world cfg n))) = 15%nat.

(** ** Invariant *)
Definition peer_ok (s : dstate) : Prop :=
  (forall rm, remote s = Some rm -> addrs rm Contact <> [] /\ Forall has_uri (addrs rm Contact) /\ Forall has_uri (addrs rm RecordRoute)) /\
  (forall m, response s = Some m -> vias m <> []) /\ st s <> Hangup.
Definition ready (s : dstate) : Prop := good (invite s) /\ (forall q, req s = Some q -> good q /\ vias (invite s) <> []) /\ peer_ok s /\ (st s = Answered -> remote s <> None).
Definition Inv (s : dstate) : Prop := ready s /\ so s <> None /\ vias (invite s) <> [] /\ vias (the_request s) <> [].
Definition safe_at (s : dstate) (r : result) : Prop := r_v r <> Crash /\ (r_v r = Cont -> Inv (r_state r)).
Definition safe (a : action) : Prop := forall s, Inv s -> safe_at s (a s).

Lemma safe_seq a b : safe a -> safe b -> safe (a ;; b).
Proof.
  intros A C s H. unfold seq. cbv zeta. destruct (A s H) as [A1 A2]. destruct (r_v (a s)) eqn:E; [|split; rewrite E; congruence|split; rewrite E; congruence]. destruct (C _ (A2 eq_refl)) as [C1 C2]. split; assumption.
Qed.
Lemma safe_upd f : (forall s, Inv s -> Inv (f s)) -> safe (upd f). Proof. intros H s I. split; [discriminate|intros _; apply H; exact I]. Qed.
Lemma safe_emit o : safe (emit o). Proof. intros s I. split; [discriminate|intros _; exact I]. Qed.
Lemma safe_fail e : safe (fail e). Proof. intros s I. split; discriminate. Qed.
Lemma safe_halt : safe halt. Proof. intros s I. split; discriminate. Qed.
Lemma safe_look {A} (f : dstate -> A) k : (forall x, safe (k x)) -> safe (look f k). Proof. intros H s. apply H. Qed.
Lemma safe_look_at {A} (f : dstate -> A) k : (forall s, Inv s -> safe_at s (k (f s) s)) -> safe (look f k). Proof. intros H s I. exact (H s I). Qed.
Lemma stamp_vias m t : vias m <> [] -> exists v, v <> [] /\ addTimestamp m t = Ok (set_vias v m).
Proof.
  intros V. unfold addTimestamp. destruct t as [t|]; [|exists (vias m); split; [exact V|destruct m; reflexivity]]. destruct (vias m) as [|v l]; [congruence|]. eexists. split; [|reflexivity]. discriminate.
Qed.
Lemma lowered_vias m : vias (lowered m) = vias m. Proof. unfold lowered. destruct (0 <? maxforwards m); reflexivity. Qed.
Lemma lowered_good m : good m -> good (lowered m). Proof. unfold lowered, good. destruct (0 <? maxforwards m); auto. Qed.
(** a message sent does not crash the loop if it has a Via and there is a socket *)
Lemma send_safe cfg m keep s : vias m <> [] -> so s <> None -> (forall x s, so (keep x s) = so s) ->
  r_v (send cfg m keep s) <> Crash /\ (r_v (send cfg m keep s) = Cont -> exists v n, v <> [] /\ r_state (send cfg m keep s) = keep (set_vias v (lowered m)) (set_clock n (keep (lowered m) s))).
Proof.
  intros V K KS. rewrite send_eq. cbv zeta. destruct (maxforwards m =? 1); [split; discriminate|]. destruct (stamp_vias (lowered m) (w_stamp (c_world cfg (clock (keep (lowered m) s))))) as (v & NV & E); [rewrite lowered_vias; exact V|]. rewrite E, KS.
  cbn [so set_clock]. rewrite KS. destruct (so s) as [k|]; [|congruence]. destruct (w_write _ _); [|split; discriminate]. split; [discriminate|]. intros _. exists v, (S (clock (keep (lowered m) s))). split; [exact NV|reflexivity].
Qed.
Lemma safe_drop cfg m : vias m <> [] -> safe (send cfg m drop).
Proof.
  intros V s I. destruct (send_safe cfg m drop s V) as [A C]; [apply I|reflexivity|]. split; [exact A|]. intros E. destruct (C E) as (v & n & _ & ->). exact I.
Qed.
Lemma req_clock n s : the_request (set_clock n s) = the_request s. Proof. reflexivity. Qed.
Lemma so_set m s : so (set_the_request m s) = so s. Proof. unfold set_the_request. destruct (req s); reflexivity. Qed.
(** storing a populated request *)
Lemma set_ready m s : ready s -> good m -> vias m <> [] -> so s <> None -> Inv (set_the_request m s).
Proof.
  intros (R1 & R2 & R3 & R4) G V K. unfold Inv, ready, peer_ok, the_request, set_the_request in *. destruct (req s) as [q|] eqn:E; cbn [set_req set_invite invite req remote st response so].
  - destruct (R2 q eq_refl) as [_ VI]. split; [split; [exact R1|]; split; [intros q' Q; injection Q as <-; auto|]; split; assumption|]. auto.
  - rewrite E. split; [split; [exact G|]; split; [discriminate|]; split; assumption|]. auto.
Qed.
Lemma ready_clock n s : ready s -> ready (set_clock n s). Proof. exact (fun H => H). Qed.
Lemma send_request_safe cfg m s : ready s -> good m -> vias m <> [] -> so s <> None -> safe_at s (send cfg m set_the_request s).
Proof.
  intros R G V K. destruct (send_safe cfg m set_the_request s V K so_set) as [A C]. split; [exact A|]. intros E. destruct (C E) as (v & n & NV & ->).
  assert (I : Inv (set_the_request (lowered m) s)) by (apply set_ready; auto using lowered_good; rewrite lowered_vias; exact V).
  apply set_ready; [apply ready_clock; apply I| |exact NV|exact (proj1 (proj2 I))]. destruct (lowered_good m G) as (G1 & G2 & G3 & G4). repeat split; assumption.
Qed.
(** ** Populating and routing a request succeed *)
Lemma or_else_nil {A} (l : list A) : or_else l [] = l. Proof. destruct l; reflexivity. Qed.
Lemma populate_message_good m r v vl c cl : good m -> length (dr_callid r) = 15%nat -> vias m = v :: vl -> addrs m Contact = c :: cl -> exists m', PopulateMessage [] [] m r = Ok m' /\ good m' /\ vias m' <> [].
Proof.
  intros (G1 & G2 & G3 & G4) L V C. destruct (callid_is_uuid _ L) as (id & HI & _). rewrite C in G3.
  destruct (populate_result [] [] m r v vl c cl id G1 L HI) as (m' & f & fl & E & F1 & F2 & _ & _ & _ & _ & _ & _ & _ & _ & F & _ & _ & _ & _ & RQ & SM & _); [rewrite or_else_nil; exact V|rewrite or_else_nil; exact C|intros _; inversion G3; assumption|].
  exists m'. split; [exact E|]. split; [|rewrite F1; discriminate]. unfold good. rewrite F2, SM, RQ, F by discriminate. auto.
Qed.
Lemma populate_good k c w m : length (dr_callid (w_draws w)) = 15%nat -> good m -> exists m', populate k c w m = Ok m' /\ good m' /\ vias m' <> [].
Proof.
  intros L (G1 & G2 & G3 & G4). unfold populate.
  set (m1 := match vias m with [] => _ | _ => _ end).
  assert (A1 : (exists v l, vias m1 = v :: l) /\ status m1 = status m /\ request m1 = request m /\ addrs m1 = addrs m) by (unfold m1; destruct (vias m) eqn:E; cbn; [eauto 6|rewrite E; eauto 6]).
  clearbody m1. destruct A1 as ((v & l & A1) & A2 & A3 & A4). rewrite A1. cbn [rbind].
  set (m2 := set_vias _ m1).
  assert (B1 : (exists v l, vias m2 = v :: l) /\ status m2 = status m /\ request m2 = request m /\ addrs m2 = addrs m) by (unfold m2; cbn; eauto 6).
  clearbody m2. destruct B1 as ((v' & l' & B1) & B2 & B3 & B4). clear A1 A2 A3 A4 m1 v l.
  set (m3 := match addrs m2 Contact with [] => _ | _ => _ end).
  assert (C1 : vias m3 = v' :: l' /\ status m3 = status m /\ request m3 = request m /\ (exists a l, addrs m3 Contact = a :: l) /\ Forall has_uri (addrs m3 Contact) /\ addrs m3 Route = addrs m Route).
  { unfold m3. rewrite B4. destruct (addrs m Contact) eqn:E; cbn; rewrite ?B4.
    - repeat split; eauto. constructor; [discriminate|constructor].
    - rewrite E. repeat split; eauto. }
  clearbody m3. destruct C1 as (C1 & C2 & C3 & (a & al & C4) & C5 & C6). rewrite C4. rewrite C4 in C5. inversion C5 as [|? ? U US]. subst. unfold has_uri in U. destruct (a_uri a) as [u|] eqn:EU; [|congruence]. cbn [deref rbind].
  set (c' := set_auri _ a). assert (HC : has_uri c') by (unfold has_uri, c'; discriminate). clearbody c'.
  set (m4 := set_addr Contact _ m3).
  assert (D : vias m4 = v' :: l' /\ status m4 = status m /\ request m4 = request m /\ addrs m4 Contact = c' :: al /\ addrs m4 Route = addrs m Route) by (unfold m4; cbn; auto).
  clearbody m4. destruct D as (D1 & D2 & D3 & D4 & D5).
  set (m5 := if bseq (method m4) (B "INVITE") then _ else _).
  assert (E : vias m5 = v' :: l' /\ status m5 = status m /\ request m5 = request m /\ addrs m5 Contact = c' :: al /\ addrs m5 Route = addrs m Route).
  { unfold m5. destruct (bseq _ _); [|auto]. destruct (pay m4) as [[]|]; cbn; auto. }
  clearbody m5. destruct E as (E1 & E2 & E3 & E4 & E5). eapply populate_message_good; [|exact L|exact E1|exact E4]. unfold good. rewrite E2, E3, E4, E5. auto.
Qed.
Lemma route_good m : good m -> exists m' x, RouteMessage [] [] m = Ok (m', x) /\ good m' /\ vias m' = vias m.
Proof.
  intros (G1 & G2 & G3 & G4). unfold RouteMessage, IsResponse. destruct (Z.ltb_spec 0 (status m)); [lia|].
  set (m1 := if addr_CompareHostPort [] _ then _ else _).
  assert (A : good m1 /\ vias m1 = vias m /\ request m1 = request m).
  { unfold m1. destruct (addr_CompareHostPort _ _); [|repeat split; auto]. repeat split; auto. cbn. destruct (addrs m Route); [constructor|inversion G4; assumption]. }
  clearbody m1. destruct A as (A1 & A2 & A3). destruct (addrs m1 Route) as [|r rs] eqn:R.
  - destruct A1 as (H1 & H2 & H3 & H4). destruct (request m1) as [u|] eqn:Q; [|congruence]. cbn [deref rbind]. do 2 eexists. split; [reflexivity|]. split; [|exact A2]. repeat split; congruence || assumption.
  - destruct (bseq _ _); [do 2 eexists; split; [reflexivity|]; auto|]. pose proof A1 as (H1 & H2 & H3 & H4). rewrite R in H4. inversion H4 as [|? ? U US]; subst. unfold has_uri in U. destruct (a_uri r) as [u|] eqn:EU; [|congruence]. cbn [deref rbind].
    destruct (param_get _ _); [do 2 eexists; split; [reflexivity|]; auto|]. rewrite copy_map. cbn [map app uri_of a_uri rbind tl]. rewrite EU. cbn [deref rbind]. do 2 eexists. split; [reflexivity|]. split; [|exact A2].
    repeat split; [exact H1|discriminate|exact H3|]. cbn. apply Forall_app. split; [|constructor; [unfold has_uri; cbn; congruence|constructor]]. clear -US. induction US; cbn; constructor; auto.
Qed.
(** ** The actions *)
Section Safe.
Variable cfg : config.
Hypothesis draws15 : drawing cfg.
Lemma connect_ready w s : ready s -> ready (fst (connect cfg w s)) /\ (snd (connect cfg w s) = true -> so (fst (connect cfg w s)) <> None).
Proof.
  intros R. unfold connect. destruct (match so s with Some k => bseq (daddr s) (so_remote k) | None => false end) eqn:E; [split; [exact R|intros _; cbn [fst]; destruct (so s); [discriminate|discriminate E]]|].
  cbv zeta. change (daddr (set_so None s)) with (daddr s). destruct (w_dial w (daddr s)); cbn [fst snd]; [|split; [exact R|discriminate]]. cbn [cso set_so].
  destruct (cso s); cbn [fst snd]; [split; [exact R|intros _; discriminate]|]. destruct (c_loose cfg); [|split; [exact R|intros _; discriminate]]. destruct (w_listen w); cbn [fst snd]; split; try exact R; first [discriminate|intros _; discriminate].
Qed.
Lemma pop_safe rs : forall s, ready s -> safe_at s (pop_route cfg rs s).
Proof.
  induction rs as [|a rs IH]; intros s R; cbn [pop_route].
  - rewrite upd_seq. split; discriminate.
  - rewrite !upd_seq. unfold ask. set (s1 := set_clock _ _). assert (R1 : ready s1) by exact R. set (w := c_world cfg _). assert (LW : length (dr_callid (w_draws w)) = 15%nat) by apply draws15. clearbody s1 w.
    destruct (connect_ready w s1 R1) as [R2 K]. destruct (connect cfg w s1) as [s2 ok]. cbn [fst snd] in R2, K. destruct ok; cbn [negb]; [|destruct (IH s2 R2) as [A C]; split; assumption].
    specialize (K eq_refl). destruct (so s2) as [k|] eqn:SO; [|congruence]. clear K.
    assert (GQ : good (the_request s2)) by (unfold the_request; destruct R2 as (G & Q & _); destruct (req s2) as [q|]; [exact (proj1 (Q q eq_refl))|exact G]).
    destruct (populate_good k (cso s2) w (the_request s2) LW GQ) as (m & -> & GM & VM). cbn [val]. rewrite upd_seq.
    assert (I3 : Inv (set_the_request m s2)) by (apply set_ready; try assumption; rewrite SO; discriminate). set (s3 := set_the_request m s2) in *. clearbody s3.
    assert (X : exists s4, Inv s4 /\ forall b, ((look st (fun n => if n <? Answered then upd (set_rseq 0) ;; upd (set_remote None) ;; upd (set_lseq (cseq m)) else upd (fun s => s))) ;; b) s3 = b s4).
    { destruct (Z.ltb_spec (st s3) Answered) as [L|L].
      - exists (set_lseq (cseq m) (set_remote None (set_rseq 0 s3))). split.
        + destruct I3 as ((J1 & J2 & (J3 & J4 & J5) & J6) & J7 & J8). split; [|split; assumption]. split; [exact J1|]. split; [exact J2|]. split; [split; [discriminate|split; assumption]|]. cbn. lia.
        + intros b. apply seq_go. unfold look. destruct (Z.ltb_spec (st s3) Answered); [|lia]. rewrite !upd_seq. reflexivity.
      - exists s3. split; [exact I3|]. intros b. apply seq_go. unfold look. destruct (Z.ltb_spec (st s3) Answered); [lia|]. reflexivity. }
    destruct X as (s4 & I4 & ->). rewrite !upd_seq. destruct (send_request_safe cfg m (set_rtimer true (set_resends 0 s4))) as [A C]; [apply I4|exact GM|exact VM|apply I4|]. split; assumption.
Qed.
Lemma popRoute_safe s : ready s -> safe_at s (popRoute cfg s). Proof. intros R. unfold popRoute, look. apply pop_safe. exact R. Qed.
Lemma ready_invite m s : ready s -> good m -> (vias (invite s) <> [] -> vias m <> []) -> ready (set_invite m s).
Proof. intros (R1 & R2 & R3 & R4) G V. split; [exact G|]. split; [|split; assumption]. cbn. intros q Q. destruct (R2 q Q). auto. Qed.
Lemma send_start s which : ready s -> (forall m, which = Some m -> good m /\ vias (invite s) <> []) -> safe_at s (sendRequest cfg which s).
Proof.
  intros R W. unfold sendRequest, look at 1. set (m0 := match which with Some m => m | None => invite s end). assert (G0 : good m0) by (unfold m0; destruct which as [m|]; [exact (proj1 (W m eq_refl))|exact (proj1 R)]).
  assert (VI : which = None -> m0 = invite s) by (unfold m0; intros ->; reflexivity). clearbody m0.
  destruct (route_good m0 G0) as (m & x & -> & GM & VM). cbn [val]. rewrite upd_seq. set (s1 := match which with Some _ => s | None => set_invite m s end).
  assert (R1 : ready s1) by (unfold s1; destruct which; [exact R|apply ready_invite; [exact R|exact GM|rewrite VM, (VI eq_refl); auto]]).
  assert (V1 : which <> None -> vias (invite s1) <> []) by (unfold s1; destruct which as [y|]; [intros _; apply (W y eq_refl)|congruence]). clearbody s1.
  destruct x as [[host port]|]; [|split; discriminate]. unfold ask, look. destruct (RouteAddress _ _ _ _) as [rs|]; [|split; discriminate]. rewrite !upd_seq.
  set (s2 := set_dest _ _). assert (R2 : ready s2).
  { unfold s2. destruct R1 as (A1 & A2 & A3 & A4). split; [exact A1|]. split; [|split; assumption]. cbn. destruct which; [|discriminate]. intros q Q. injection Q as <-. split; [exact GM|]. apply V1. discriminate. }
  clearbody s2. exact (popRoute_safe s2 R2).
Qed.
Lemma sdp_safe m : tame m -> safe (checkSDP m).
Proof.
  intros (_ & _ & _ & A & _). unfold checkSDP. destruct (pay m) as [p|]; [|apply safe_upd; auto]. destruct p; try (apply safe_upd; auto; fail). specialize (A _ eq_refl). destruct (s_audio _); [apply safe_emit|congruence].
Qed.
Ltac inv_frame := apply safe_upd; intros ? I; exact I.
Lemma hangup_safe : safe (transition Hangup ;; halt).
Proof. intros s I. unfold transition, seq, upd, go, emit, halt. cbn [r_v r_state r_out]. split; discriminate. Qed.
Lemma state_safe n : n <> Answered -> n <> Hangup -> safe (transition n).
Proof.
  intros A H s I. split; [discriminate|]. intros _. destruct I as ((J1 & J2 & (J3 & J4 & J5) & J6) & J7 & J8). split; [|split; assumption]. split; [exact J1|]. split; [exact J2|]. split; [split; [exact J3|split; [exact J4|exact H]]|]. intros E. destruct (A E).
Qed.
Lemma remote_safe m : tame m -> addrs m Contact <> [] -> safe (upd (set_remote (Some m))).
Proof.
  intros (T1 & T2 & T3 & _) C. apply safe_upd. intros s ((J1 & J2 & (J3 & J4 & J5) & J6) & J7 & J8). split; [|split; assumption]. split; [exact J1|]. split; [exact J2|]. split; [|discriminate]. split; [|split; assumption]. intros rm E. injection E as <-. auto.
Qed.
Lemma answered_safe m : tame m -> addrs m Contact <> [] -> safe (look remote (fun r => match r with None => transition Answered | Some _ => upd (fun s => s) end) ;; upd (set_remote (Some m))).
Proof.
  intros (T1 & T2 & T3 & _) C s ((J1 & J2 & (J3 & J4 & J5) & J6) & J7 & J8). unfold look. destruct (remote s) eqn:E.
  - rewrite (seq_go _ _ s s) by (rewrite E; reflexivity). split; [discriminate|]. intros _. split; [|split; assumption]. split; [exact J1|]. split; [exact J2|]. split; [|discriminate]. split; [|split; assumption]. intros rm H. injection H as <-. auto.
  - unfold seq, upd, go. rewrite E. unfold transition, seq, upd, go, emit. cbn [r_v r_state r_out]. split; [discriminate|]. intros _. split; [|split; assumption]. split; [exact J1|]. split; [exact J2|]. split; [|discriminate]. split; [|split; [assumption|discriminate]]. intros rm H. injection H as <-. auto.
Qed.
Lemma pop_turn_safe : safe (look so (fun k => match k with Some _ => popRoute cfg | None => crash end)).
Proof. intros s I. unfold look. destruct I as (R & K & V). destruct (so s) eqn:E; [|congruence]. apply popRoute_safe. exact R. Qed.
Lemma redirect_safe m : tame m -> addrs m Contact <> [] ->
  safe (val (uri_of (addrs m Contact)) (fun u => upd (fun s => set_invite (set_addr Route [] (set_request u (invite s))) s) ;; sendRequest cfg None)).
Proof.
  intros (_ & T & _) C s I. destruct (addrs m Contact) as [|a l]; [congruence|]. cbn [uri_of val]. rewrite upd_seq. inversion T as [|? ? U _]; subst. destruct I as (R & _ & V & _). pose proof R as ((G1 & G2 & G3 & G4) & _).
  apply send_start; [|discriminate]. apply ready_invite; [exact R| |auto]. repeat split; [exact G1|exact U|exact G3|constructor].
Qed.
Lemma response_safe m : tame m -> safe (handleResponse cfg m).
Proof.
  intros T. unfold handleResponse. apply safe_look. intros q. destruct (ResponseMatch q m) eqn:M; cbn [negb]; [|inv_frame].
  destruct (match_via _ _ M) as (v & vl & V).
  assert (CM : bseq (cseqmethod m) (method q) = true) by (unfold ResponseMatch in M; apply andb_true_iff in M; destruct M as [M _]; apply andb_true_iff in M; destruct M as [M _]; apply andb_true_iff in M; apply M).
  assert (X : forall b, (addrs m Contact <> [] \/ (200 <=? status m) && bseq (method q) (B "INVITE") = false -> safe b) ->
    safe ((if (200 <=? status m) && bseq (method q) (B "INVITE") then match addrs m Contact with [] => fail DNoContact | _ => val (NewAck m q) (fun ack => send cfg ack drop) end else upd (fun s => s)) ;; b)).
  { intros b S. destruct (_ && _) eqn:F; [|apply safe_seq; [inv_frame|apply S; auto]]. destruct (addrs m Contact) as [|c cs] eqn:C; [intros s I; split; discriminate|]. apply safe_seq; [|apply S; left; discriminate].
    destruct (new_ack m q _ _ _ _ C V) as (ack & -> & _ & _ & _ & _ & _ & _ & _ & _ & VA & _). cbn [val]. apply safe_drop. rewrite VA. discriminate. }
  apply X. clear X. intros C. apply safe_seq; [inv_frame|]. apply safe_seq; [inv_frame|]. apply safe_seq; [destruct (status m <=? 200); [apply sdp_safe; exact T|inv_frame]|].
  destruct (status m =? 100); [apply state_safe; discriminate|]. destruct (_ || _); [apply state_safe; discriminate|]. destruct (Z.eqb_spec (status m) 200) as [E2|_].
  { destruct (bseq_reflect (cseqmethod m) (B "INVITE")) as [EI|_].
    - apply answered_safe; [exact T|]. destruct C as [C|C]; [exact C|]. assert (Q : method q = B "INVITE") by (destruct (bseq_reflect (cseqmethod m) (method q)); congruence). rewrite E2, Q, bseq_refl in C. discriminate.
    - destruct (_ || _); [apply hangup_safe|inv_frame]. }
  destruct (status m =? 503). { apply safe_look. intros r. destruct r; [apply safe_fail|apply pop_turn_safe]. }
  destruct (_ || _) eqn:E3; [|destruct (200 <? status m); [apply safe_fail|inv_frame]].
  apply redirect_safe; [exact T|]. apply T. right. apply orb_true_iff in E3. destruct E3 as [E3|E3]; apply Z.eqb_eq in E3; auto.
Qed.
Lemma keep_safe m : vias m <> [] -> safe (send cfg m keep_response).
Proof.
  intros V s I. destruct (send_safe cfg m keep_response s V) as [A C]; [apply I|reflexivity|]. split; [exact A|]. intros E. destruct (C E) as (v & n & NV & ->).
  destruct I as ((J1 & J2 & (J3 & J4 & J5) & J6) & J7 & J8). split; [|split; assumption]. split; [exact J1|]. split; [exact J2|]. split; [|exact J6]. split; [exact J3|]. split; [|exact J5]. intros x X. injection X as <-. exact NV.
Qed.
Lemma set_response_safe m : vias m <> [] -> safe (upd (set_response (Some m))).
Proof.
  intros V. apply safe_upd. intros s ((J1 & J2 & (J3 & J4 & J5) & J6) & J7 & J8). split; [|split; assumption]. split; [exact J1|]. split; [exact J2|]. split; [|exact J6]. split; [exact J3|]. split; [|exact J5]. intros x X. injection X as <-. exact V.
Qed.
Lemma no_response_safe : safe (upd (set_response None)).
Proof. apply safe_upd. intros s ((J1 & J2 & (J3 & J4 & J5) & J6) & J7 & J8). split; [|split; assumption]. split; [exact J1|]. split; [exact J2|]. split; [|exact J6]. split; [exact J3|]. split; [discriminate|exact J5]. Qed.
Lemma request_safe m : tame m -> IsResponse m = false -> safe (handleRequest cfg m).
Proof.
  intros T RS. pose proof T as (V & _ & _ & _ & C). assert (D : forall n, safe (send cfg (NewResponse m n) drop)) by (intros n; apply safe_drop; exact V).
  unfold handleRequest. destruct (_ <=? 0); [apply safe_seq; [apply D|apply safe_fail]|]. apply safe_look. intros r. destruct (_ && _); [apply D|]. apply safe_seq; [inv_frame|].
  destruct (bseq _ _); [apply safe_seq; [apply D|apply hangup_safe]|]. destruct (bseq _ _); [apply D|]. destruct (bseq_reflect (method m) (B "INVITE")) as [EI|_].
  - apply safe_seq; [apply remote_safe; [exact T|]; apply C; left; split; [|exact EI]; unfold IsResponse in RS; apply Z.ltb_ge in RS; exact RS|]. apply safe_seq; [apply sdp_safe; exact T|]. unfold sendResponse.
    apply safe_seq; [apply set_response_safe; exact V|]. apply safe_seq; [inv_frame|]. apply safe_seq; [inv_frame|]. apply keep_safe. exact V.
  - destruct (bseq _ _); [apply safe_seq; [apply no_response_safe|inv_frame]|apply D].
Qed.
Lemma message_safe m : tame m -> safe (handleMessage cfg m).
Proof.
  intros T. pose proof T as (V & _). assert (D : forall n, safe (send cfg (NewResponse m n) drop)) by (intros n; apply safe_drop; exact V).
  unfold handleMessage. destruct (_ || _); [apply safe_seq; [apply D|apply safe_fail]|]. apply safe_look. intros q. destruct (negb _); [apply D|]. destruct (IsResponse m) eqn:E; [apply response_safe; exact T|apply request_safe; assumption].
Qed.
Lemma cancel_safe : safe (look (fun s => NewCancel (invite s)) (fun c => send cfg c (fun m s => set_invite (set_vias (vias m) (invite s)) s))).
Proof.
  intros s I. unfold look. pose proof I as (R & K & V1 & V2). match goal with |- context[send cfg ?c ?k s] => destruct (send_safe cfg c k s) as [A C]; [exact V1|exact K|reflexivity|] end. split; [exact A|]. intros E. destruct (C E) as (v & n & NV & ->). clear A C E.
  set (s1 := set_clock n _). assert (I1 : Inv s1).
  { unfold s1. rewrite lowered_zero by reflexivity. unfold NewCancel. cbn [vias set_method set_request set_vias set_addr set_callid set_cseq set_cseqmethod]. destruct s as [? ? ? ? ? ? i ? ? ? ? ? ? ? ? ? ?]. cbn [invite] in *. destruct i. exact I. }
  clearbody s1. cbn [vias set_vias]. destruct I1 as (R1 & K1 & V3 & V4). split; [|split; [exact K1|split; [exact NV|]]].
  - apply ready_invite; [exact R1| |intros _; exact NV]. destruct R1 as ((G1 & G2 & G3 & G4) & _). repeat split; assumption.
  - unfold the_request in *. cbn. destruct (req s1); [exact V4|exact NV].
Qed.
Lemma reversed_uri l : Forall has_uri l -> Forall has_uri (addr_Reversed l).
Proof. rewrite addr_reversed_rev. apply Forall_rev. Qed.
Lemma hangup_turn_safe : safe (sendHangup cfg).
Proof.
  intros s I. unfold sendHangup. unfold look at 1. destruct (_ || _); [apply cancel_safe; exact I|]. destruct (Z.eqb_spec (st s) Answered) as [EA|_].
  - unfold look. destruct I as (R & K & V1 & V2). pose proof R as (G & _ & (J3 & J4 & J5) & J6). specialize (J6 EA). destruct (remote s) as [rm|] eqn:E; [|congruence]. destruct (J3 rm eq_refl) as (C1 & C2 & C3). unfold NewBye. destruct (addrs rm Contact) as [|c cs]; [congruence|]. cbn [uri_of rbind val].
    rewrite upd_seq. apply send_start; [exact R|]. intros m M. injection M as <-. split; [|exact V1]. inversion C2; subst. repeat split; [discriminate|assumption|constructor|]. apply reversed_uri. exact C3.
  - destruct (Z.eqb_spec (st s) Hangup) as [EH|_]; [destruct I as ((_ & _ & (_ & _ & J) & _) & _); congruence|]. apply hangup_safe. exact I.
Qed.
Lemma handle_safe e : tame_event e -> safe (handle cfg e).
Proof.
  intros T. destruct e as [refused| | | |m|]; cbn [handle].
  - cbn in T. subst refused. intros s I. split; discriminate.
  - intros s I. split; discriminate.
  - apply safe_seq; [inv_frame|]. unfold resendRequest. apply safe_look. intros n. destruct (_ <? _); [|apply pop_turn_safe]. apply safe_seq; [|apply safe_seq; inv_frame].
    intros s I. unfold look. pose proof I as (R & K & V1 & V2). apply send_request_safe; [exact R| |exact V2|exact K]. unfold the_request. destruct R as (G & Q & _). destruct (req s) as [q|]; [exact (proj1 (Q q eq_refl))|exact G].
  - apply safe_seq; [inv_frame|]. unfold resendResponse. intros s I. unfold look at 1. destruct (response s) as [m|] eqn:E; [|split; [discriminate|intros _; exact I]]. revert s I E.
    assert (X : vias m <> [] -> safe (look rspresends (fun n => if n <? c_max cfg then send cfg m keep_response ;; upd (set_rspresends (n + 1)) ;; upd (set_rsptimer true) else look so (fun k => match k with Some _ => popRoute cfg | None => crash end)))).
    { intros V. apply safe_look. intros n. destruct (_ <? _); [|apply pop_turn_safe]. apply safe_seq; [apply keep_safe; exact V|apply safe_seq; inv_frame]. }
    intros s I E. apply X; [|exact I]. destruct I as ((_ & _ & (_ & J & _) & _) & _). exact (J m E).
  - apply message_safe. exact T.
  - apply hangup_turn_safe.
Qed.
Lemma run_safe r es r' : run cfg r es r' -> Forall tame_event es -> r_v r <> Crash /\ (r_v r = Cont -> Inv (r_state r)) -> r_v r' <> Crash.
Proof.
  induction 1 as [r|r e es r' C EN R IH]; intros T [A B]; [exact A|]. inversion T; subst. apply IH; [assumption|]. cbn [r_v r_state]. exact (handle_safe e ltac:(assumption) _ (B C)).
Qed.
End Safe.
(** No event sequence made of such messages, timers, socket errors and the application's hanging up makes the loop panic. What is
    missing: the messages which are not tame, and the refusal of a datagram; each of them does, see below. *)
Theorem dialog_no_crash_partial : forall cfg m es r, drawing cfg -> good m -> Forall tame_event es -> dialog cfg m es r -> r_v r <> Crash.
Proof.
  intros cfg m es r D G T R. apply (run_safe cfg D _ _ _ R T). apply (send_start cfg D (init m) None); [|discriminate]. split; [exact G|]. split; [discriminate|]. split; [|discriminate]. split; [discriminate|]. split; [discriminate|discriminate].
Qed.

(** ** Received messages *)
From Verif Require Import MsgModel UriModel UriSpec P_Msg.
(** what the receive loop hands over: a packet, read, and prepared *)
Definition received (m : msg) : Prop := exists data lhost lport src stamp m0, parse_msg data = MOk m0 /\ prepare lhost lport src stamp m0 = Ok m.
(** what is left to the good will of the peer *)
Definition mannered (m : msg) : Prop :=
  vias m <> [] /\ (forall d, pay m = Some (PSdp d) -> s_audio d <> None) /\ ((status m <= 0 /\ method m = B "INVITE") \/ status m = 301 \/ status m = 302 -> addrs m Contact <> []).
Definition mannered_event (e : event) : Prop := match e with EMsg m => received m /\ mannered m | ESockErr refused => refused = false | _ => True end.
Lemma set_addr_other k l m f : f <> k -> addrs (set_addr k l m) f = addrs m f. Proof. intros N. destruct f, k; try reflexivity; destruct (N eq_refl). Qed.
Lemma prepare_addrs lhost lport src stamp m m' : prepare lhost lport src stamp m = Ok m' -> forall f, f <> Route -> addrs m' f = addrs m f.
Proof.
  unfold prepare. intros H f NF. destruct (addReceived m src) as [m1|] eqn:E1; [|discriminate]. cbn [rbind] in H. destruct (addTimestamp m1 stamp) as [m2|] eqn:E2; [|discriminate]. cbn [rbind] in H. destruct (pop_own_route lhost lport m2) as [m3|] eqn:E3; [|discriminate]. injection H as <-.
  assert (A1 : addrs m1 = addrs m). { unfold addReceived in E1. destruct (IsResponse m); [injection E1 as <-; reflexivity|]. destruct (vias m); [discriminate|]. injection E1 as <-. reflexivity. }
  assert (A2 : addrs m2 = addrs m1). { apply stamp_ok in E2. destruct E2 as [v ->]. reflexivity. }
  assert (A3 : addrs m3 f = addrs m2 f). { unfold pop_own_route in E3. destruct (addrs m2 Route) as [|r l]; [injection E3 as <-; reflexivity|]. destruct (a_uri r); [|discriminate]. cbn [deref rbind] in E3. injection E3 as <-. destruct (_ && _); [apply set_addr_other; exact NF|reflexivity]. }
  rewrite <- A1, <- A2, <- A3. unfold fixMessagesFromStrictRouters. destruct (request m3) as [u|]; [|reflexivity]. destruct (param_get _ _); [|reflexivity]. destruct (addr_Last _); [|reflexivity]. destruct (_ && _); [|reflexivity]. rewrite set_addr_other by exact NF. reflexivity.
Qed.
Lemma received_tame m : received m -> mannered m -> tame m.
Proof.
  intros (data & lhost & lport & src & stamp & m0 & P & E) (V & A & C). destruct (msg_complete_partial _ _ P) as (_ & U & _). pose proof (prepare_addrs _ _ _ _ _ _ E) as F.
  assert (H : forall f, Forall has_uri (addrs m0 f)) by (intros f; apply Forall_forall; intros a I; unfold has_uri; destruct (U f a I) as (u & -> & _); discriminate).
  split; [exact V|]. split; [rewrite F by discriminate; apply H|]. split; [rewrite F by discriminate; apply H|]. split; assumption.
Qed.
(** The same over packets. What is missing: the peer's manners. *)
Theorem dialog_no_crash_received_partial : forall cfg m es r, drawing cfg -> good m -> Forall mannered_event es -> dialog cfg m es r -> r_v r <> Crash.
Proof.
  intros cfg m es r D G T. apply dialog_no_crash_partial; [exact D|exact G|]. eapply Forall_impl; [|exact T]. intros [| | | |x|]; cbn; auto. intros [A C]. apply received_tame; assumption.
Qed.
(** The receive loop does not panic on a packet with a Via, ... *)
Theorem receiver_no_crash_partial : forall data m lhost lport src stamp, parse_msg data = MOk m -> vias m <> [] -> exists m', prepare lhost lport src stamp m = Ok m' /\ vias m' <> [].
Proof.
  intros data m lhost lport src stamp P V. destruct (msg_complete_partial _ _ P) as (_ & U & _). unfold prepare.
  assert (A : exists m1, addReceived m src = Ok m1 /\ vias m1 <> [] /\ addrs m1 = addrs m). { unfold addReceived. destruct (IsResponse m); [eauto|]. destruct (vias m); [congruence|]. eexists. split; [reflexivity|]. split; [discriminate|reflexivity]. }
  destruct A as (m1 & -> & V1 & A1). cbn [rbind]. destruct (stamp_vias m1 stamp V1) as (v & NV & ->). cbn [rbind].
  assert (A3 : exists m3, pop_own_route lhost lport (set_vias v m1) = Ok m3 /\ vias m3 = v). { unfold pop_own_route. cbn [addrs set_vias]. rewrite A1. destruct (addrs m Route) as [|r l] eqn:E; [eauto|]. destruct (U Route r) as (u & -> & _); [rewrite E; left; reflexivity|]. cbn [deref rbind]. eexists. split; [reflexivity|]. destruct (_ && _); reflexivity. }
  destruct A3 as (m3 & -> & V3). cbn [rbind]. eexists. split; [reflexivity|]. unfold fixMessagesFromStrictRouters. destruct (request m3) as [u|]; [|congruence]. destruct (param_get _ _); [|congruence]. destruct (addr_Last _); [|congruence]. destruct (_ && _); [|congruence]. cbn. congruence.
Qed.
(** ... but it does on every request without, and there are such packets. *)
Theorem request_without_via_refuted : (forall m lhost lport src stamp, status m <= 0 -> vias m = [] -> prepare lhost lport src stamp m = Panic) /\
  exists data m, parse_msg data = MOk m /\ status m <= 0 /\ vias m = [].
Proof.
  split.
  - intros m lhost lport src stamp S V. unfold prepare, addReceived, IsResponse. destruct (Z.ltb_spec 0 (status m)); [lia|]. rewrite V. reflexivity.
  - exists (B "OPTIONS sip:a SIP/2.0" ++ CRLF ++ CRLF). destruct (parse_msg (B "OPTIONS sip:a SIP/2.0" ++ CRLF ++ CRLF)) as [m| | |] eqn:E; vm_compute in E; try discriminate E. exists m. split; [reflexivity|]. injection E as <-. split; [discriminate|reflexivity].
Qed.

(** ** What crashes the loop *)
(** A request of this dialog, in order *)
Definition current_request (s : dstate) (m : msg) : Prop :=
  sip2 m /\ callid m = callid (the_request s) /\ status m <= 0 /\ 0 < maxforwards m /\ (rseq s = 0 \/ rseq s <= cseq m).
Lemma current_split cfg s m : current_request s m -> handle cfg (EMsg m) s =
  (if bseq (method m) (B "BYE") then send cfg (NewResponse m 200) drop ;; transition Hangup ;; halt
   else if bseq (method m) (B "OPTIONS") then send cfg (NewResponse m 200) drop
   else if bseq (method m) (B "INVITE") then upd (set_remote (Some m)) ;; checkSDP m ;; sendResponse cfg (NewResponse m 200)
   else if bseq (method m) (B "ACK") then upd (set_response None) ;; upd (set_rsptimer false)
   else send cfg (NewResponse m 405) drop) (set_rseq (cseq m) s).
Proof.
  intros (V & C & S & MF & Q). cbn [handle]. unfold handleMessage. rewrite (version_ok _ V). unfold look at 1. rewrite C, bseq_refl. unfold IsResponse. destruct (Z.ltb_spec 0 (status m)); [lia|]. cbn [negb].
  unfold handleRequest. destruct (Z.leb_spec (maxforwards m) 0); [lia|]. unfold look at 1. replace (negb (rseq s =? 0) && (cseq m <? rseq s)) with false; [apply upd_seq|].
  destruct Q as [->|Q]; [reflexivity|]. destruct (Z.ltb_spec (cseq m) (rseq s)); [lia|]. rewrite andb_false_r. reflexivity.
Qed.
(** an INVITE whose session description has no audio *)
Theorem video_only_refuted : forall cfg s m d, current_request s m -> method m = B "INVITE" -> pay m = Some (PSdp d) -> s_audio d = None -> r_v (handle cfg (EMsg m) s) = Crash.
Proof.
  intros cfg s m d R I P A. rewrite (current_split _ _ _ R), I. change (bseq (B "INVITE") (B "BYE")) with false. change (bseq (B "INVITE") (B "OPTIONS")) with false. change (bseq (B "INVITE") (B "INVITE")) with true. cbv iota. rewrite upd_seq. unfold checkSDP. rewrite P, A. reflexivity.
Qed.
(** a refused datagram *)
Theorem refusal_refuted : forall cfg s, r_v (handle cfg (ESockErr true) s) = Crash.
Proof. reflexivity. Qed.
(** a redirect of the BYE without Contact *)
Theorem bare_redirect_refuted : forall cfg s m, sip2 m -> callid m = callid (the_request s) -> ResponseMatch (the_request s) m = true -> method (the_request s) <> B "INVITE" ->
  status m = 301 \/ status m = 302 -> addrs m Contact = [] -> r_v (handle cfg (EMsg m) s) = Crash.
Proof.
  intros cfg s m V C M NI S CT. cbn [handle]. unfold handleMessage. rewrite (version_ok _ V). unfold look at 1. rewrite C, bseq_refl. unfold IsResponse. destruct (Z.ltb_spec 0 (status m)); [|lia]. cbn [negb].
  unfold handleResponse, look at 1. rewrite M. destruct (bseq_reflect (method (the_request s)) (B "INVITE")) as [E|_]; [contradiction|]. rewrite andb_false_r. cbn [negb]. rewrite !upd_seq, CT. destruct S as [->| ->]; reflexivity.
Qed.
(** hanging up after an INVITE of the peer which had no Contact *)
Theorem reinvite_without_contact_refuted : forall cfg s rm, st s = Answered -> remote s = Some rm -> addrs rm Contact = [] -> r_v (handle cfg EHangup s) = Crash.
Proof. intros cfg s rm A R C. cbn [handle]. unfold sendHangup, look. rewrite A. cbn [Z.eqb Answered Proceeding Ringing orb Pos.eqb]. rewrite R. unfold NewBye. rewrite C. reflexivity. Qed.
