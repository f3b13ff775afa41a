(** C65: the requests a dialog sends are those of its call. *)
From Verif Require Import Bytes BytesLemmas GoLib GoLibLemmas SdpModel SipText SipTypes SipAppend UtilModel P_Text P_Lists DialogMsg P_DialogMsg DialogModel P_DialogEnd P_Dialog P_DialogCount P_DialogRuns.
Local Open Scope Z_scope.

(** ** Specification *)
(** the same From, or one that has been given a tag ([tag_of] is the tag parameter of the first address) *)
Definition same_from (l l' : list addr) : Prop := l' = l \/ (tag_of l = None /\ exists a k t, l = a :: k /\ l' = set_aparam ((B "tag", t) :: a_param a) a :: k).
(** the same payload, but the addresses and the identifier of a session description may be filled in *)
Definition same_sdp (d d' : sdp) : Prop :=
  s_audio d' = s_audio d /\ s_video d' = s_video d /\ s_session d' = s_session d /\ s_time d' = s_time d /\ s_ptime d' = s_ptime d /\ s_sendonly d' = s_sendonly d /\ s_recvonly d' = s_recvonly d /\ s_attrs d' = s_attrs d /\ s_other d' = s_other d /\
  (s_addr d <> [] -> s_addr d' = s_addr d) /\ o_user (s_origin d') = o_user (s_origin d) /\ o_version (s_origin d') = o_version (s_origin d) /\ (o_id (s_origin d) <> [] -> o_id (s_origin d') = o_id (s_origin d)) /\ (o_addr (s_origin d) <> [] -> o_addr (s_origin d') = o_addr (s_origin d)).
Definition same_pay (p p' : option payload) : Prop := p' = p \/ exists d d', p = Some (PSdp d) /\ p' = Some (PSdp d') /\ same_sdp d d'.
(** [m'] is the request [m] with what was missing filled in. Via, Contact, Max-Forwards, and, because of routing and redirects, the request
    URI and the Route are the business of the dialog. *)
Definition same_call (m m' : msg) : Prop :=
  (method m' = method m /\ status m' = status m /\ (callid m <> [] -> callid m' = callid m) /\ (cseq m <> 0 -> cseq m' = cseq m) /\ (cseqmethod m <> [] -> cseqmethod m' = cseqmethod m)) /\
  ((addrs m To <> [] -> addrs m' To = addrs m To) /\ (addrs m From <> [] -> same_from (addrs m From) (addrs m' From)) /\ (forall f, f <> Contact -> f <> To -> f <> From -> f <> Route -> addrs m' f = addrs m f)) /\
  ((forall f, f <> UserAgent -> strs m' f = strs m f) /\ (strs m UserAgent <> [] -> strs m' UserAgent = strs m UserAgent)) /\
  (vmaj m' = vmaj m /\ vmin m' = vmin m /\ phrase m' = phrase m /\ source m' = source m /\ expires m' = expires m /\ minexpires m' = minexpires m /\ xheader m' = xheader m) /\
  same_pay (pay m) (pay m').

(** ** The relation *)
Lemma from_trans a b c : same_from a b -> same_from b c -> same_from a c.
Proof.
  intros [->|(T & x & k & t & -> & ->)] H; [exact H|]. destruct H as [->|(T' & _)]; [right; eauto 7|]. exfalso. revert T'. cbn. discriminate.
Qed.
Lemma sdp_trans a b c : same_sdp a b -> same_sdp b c -> same_sdp a c.
Proof.
  unfold same_sdp. intros (A1 & A2 & A3 & A4 & A5 & A6 & A7 & A8 & A9 & A10 & A11 & A12 & A13 & A14) (C1 & C2 & C3 & C4 & C5 & C6 & C7 & C8 & C9 & C10 & C11 & C12 & C13 & C14).
  repeat split; try congruence; intros N.
  - rewrite C10, A10; [reflexivity|exact N|rewrite A10; exact N].
  - rewrite C13, A13; [reflexivity|exact N|rewrite A13; exact N].
  - rewrite C14, A14; [reflexivity|exact N|rewrite A14; exact N].
Qed.
Lemma sdp_refl d : same_sdp d d. Proof. repeat split. Qed.
Lemma pay_trans a b c : same_pay a b -> same_pay b c -> same_pay a c.
Proof.
  intros [->|(d & d' & -> & -> & S)] H; [exact H|]. destruct H as [->|(e & e' & E & -> & S')]; [right; eauto 6|]. injection E as <-. right. exists d, e'. split; [reflexivity|]. split; [reflexivity|]. eapply sdp_trans; eassumption.
Qed.
Lemma sc_refl m : same_call m m. Proof. repeat split; left; reflexivity. Qed.
Lemma sc_trans a b c : same_call a b -> same_call b c -> same_call a c.
Proof.
  intros ((A1 & A2 & A3 & A4 & A5) & (A6 & A7 & A8) & (A9 & A10) & (A11 & A12 & A13 & A14 & A15 & A16 & A17) & A18) ((C1 & C2 & C3 & C4 & C5) & (C6 & C7 & C8) & (C9 & C10) & (C11 & C12 & C13 & C14 & C15 & C16 & C17) & C18).
  split; [|split; [|split; [|split]]].
  - split; [congruence|]. split; [congruence|]. split; [intros N; rewrite C3, A3; auto; rewrite A3; auto|]. split; [intros N; rewrite C4, A4; auto; rewrite A4; auto|intros N; rewrite C5, A5; auto; rewrite A5; auto].
  - split; [intros N; rewrite C6, A6; auto; rewrite A6; auto|]. split; [|intros f F1 F2 F3 F4; rewrite C8, A8; auto]. intros N. specialize (A7 N). eapply from_trans; [exact A7|]. apply C7. destruct A7 as [->|(_ & x & k & t & _ & ->)]; [exact N|discriminate].
  - split; [intros f F; rewrite C9, A9; auto|]. intros N. rewrite C10, A10; auto. rewrite A10; auto.
  - repeat split; congruence.
  - eapply pay_trans; eassumption.
Qed.
Ltac scf := let H := fresh in intros H; destruct H as ((? & ? & ? & ? & ?) & (? & ? & ?) & (? & ?) & (? & ? & ? & ? & ? & ? & ?) & ?); split; [split; [|split; [|split; [|split]]]|split; [split; [|split]|split; [split|split; [|]]]]; cbn; auto; try (repeat split; assumption).
Lemma sc_vias m x v : same_call m x -> same_call m (set_vias v x). Proof. scf. Qed.
Lemma sc_maxf m x n : same_call m x -> same_call m (set_maxforwards n x). Proof. scf. Qed.
Lemma sc_request m x u : same_call m x -> same_call m (set_request u x). Proof. scf. Qed.
Lemma sc_contact m x l : same_call m x -> same_call m (set_addr Contact l x). Proof. scf. intros f F1 F2 F3 F4. destruct f; cbn; auto; congruence. Qed.
Lemma sc_route m x l : same_call m x -> same_call m (set_addr Route l x). Proof. scf. intros f F1 F2 F3 F4. destruct f; cbn; auto; congruence. Qed.
Lemma sc_to m x l : addrs x To = [] -> same_call m x -> same_call m (set_addr To l x).
Proof. intros E. scf. - intros N. exfalso. match goal with H : addrs m To <> [] -> _ |- _ => rewrite (H N) in E end. congruence. - intros f F1 F2 F3 F4. destruct f; cbn; auto; congruence. Qed.
Lemma sc_from_new m x l : addrs x From = [] -> same_call m x -> same_call m (set_addr From l x).
Proof.
  intros E. scf.
  - intros N. exfalso. match goal with H : addrs m From <> [] -> _ |- _ => destruct (H N) as [Q|(_ & ? & ? & ? & _ & Q)]; rewrite Q in E; congruence end.
  - intros f F1 F2 F3 F4. destruct f; cbn; auto; congruence.
Qed.
Lemma sc_from_tag m x a k t : addrs x From = a :: k -> value_of (B "tag") (a_param a) = None -> same_call m x -> same_call m (set_addr From (set_aparam ((B "tag", t) :: a_param a) a :: k) x).
Proof.
  intros E T. scf.
  - intros N. eapply from_trans; [match goal with H : addrs m From <> [] -> _ |- _ => exact (H N) end|]. right. rewrite E. split; [exact T|]. eauto 6.
  - intros f F1 F2 F3 F4. destruct f; cbn; auto; congruence.
Qed.
Lemma sc_callid m x c : callid x = [] -> same_call m x -> same_call m (set_callid c x).
Proof. intros E. scf. intros N. exfalso. match goal with H : callid m <> [] -> _ |- _ => rewrite (H N) in E end. congruence. Qed.
Lemma sc_cseq m x c : cseq x = 0 -> same_call m x -> same_call m (set_cseq c x).
Proof. intros E. scf. intros N. exfalso. match goal with H : cseq m <> 0 -> _ |- _ => rewrite (H N) in E end. congruence. Qed.
Lemma sc_cseqmethod m x c : cseqmethod x = [] -> same_call m x -> same_call m (set_cseqmethod c x).
Proof. intros E. scf. intros N. exfalso. match goal with H : cseqmethod m <> [] -> _ |- _ => rewrite (H N) in E end. congruence. Qed.
Lemma sc_ua m x u : strs x UserAgent = [] -> same_call m x -> same_call m (set_str UserAgent u x).
Proof.
  intros E. scf.
  - intros f F. destruct f; cbn; auto; congruence.
  - intros N. exfalso. match goal with H : strs m UserAgent <> [] -> _ |- _ => rewrite (H N) in E end. congruence.
Qed.
Lemma sc_pay m x d d' : pay x = Some (PSdp d) -> same_sdp d d' -> same_call m x -> same_call m (set_pay (Some (PSdp d')) x).
Proof. intros E S. scf. eapply pay_trans; [eassumption|]. right. exists d, d'. auto. Qed.

(** ** Routing and populating keep the call *)
Ltac scstep m := match goal with
  | |- all_ok ?P (let x := ?X in @?K x) => let y := fresh "y" in assert (y : same_call m X); [|change (all_ok P (K X)); cbv beta; generalize dependent X; intros ? y]
  | |- all_ok ?P (rbind ?X ?K) => apply (all_ok_bind P (same_call m) X K); [|let x := fresh "x" in let y := fresh "y" in intros x y] end.
Lemma tag_absent l : param_get l (B "tag") = None -> value_of (B "tag") l = None.
Proof. intros E. rewrite value_get, E. reflexivity. Qed.
Lemma populate_message_same tv tc m r : all_ok (same_call m) (PopulateMessage tv tc m r).
Proof.
  cbv delta [PopulateMessage] beta. destruct (IsResponse m); [apply all_ok_ok, sc_refl|]. pose proof (sc_refl m) as K0.
  scstep m; [destruct (vias m); [apply sc_vias|]; exact K0|]. clear K0.
  scstep m; [destruct (addrs _ Contact); [apply sc_contact|]; exact y|]. clear y.
  scstep m; [destruct (addrs _ To) eqn:E; [apply sc_to; [exact E|]|]; exact y0|]. clear y0.
  scstep m.
  { destruct (addrs _ From) eqn:E; [|apply all_ok_ok; exact y]. destruct (addr_Copy _) as [|a l]; [apply all_ok_panic|]. apply all_ok_bind'. intros u. apply all_ok_ok. apply sc_from_new; [exact E|exact y]. }
  clear y. scstep m.
  { destruct (callid _) eqn:E; [|apply all_ok_ok; exact y0]. apply all_ok_bind'. intros c. apply all_ok_ok. apply sc_callid; [exact E|exact y0]. }
  clear y0. scstep m; [destruct (Z.eqb_spec (cseq x0) 0); [apply sc_cseq; [assumption|]|]; exact y|]. clear y.
  scstep m; [destruct (cseqmethod _) eqn:E; [apply sc_cseqmethod; [exact E|]|]; exact y0|]. clear y0.
  scstep m; [destruct (maxforwards _ =? 0); [apply sc_maxf|]; exact y|]. clear y.
  scstep m; [destruct (strs _ UserAgent) eqn:E; [apply sc_ua; [exact E|]|]; exact y0|]. clear y0.
  scstep m.
  { destruct (vias _) as [|v l]; [apply all_ok_panic|]. destruct (param_get _ _); apply all_ok_ok; [exact y|apply sc_vias; exact y]. }
  clear y. destruct (addrs _ From) as [|a l] eqn:E; [apply all_ok_panic|]. destruct (param_get (a_param a) (B "tag")) eqn:G; apply all_ok_ok; [exact y0|]. apply sc_from_tag; [exact E|apply tag_absent; exact G|exact y0].
Qed.
Lemma populate_same k c w m : all_ok (same_call m) (populate k c w m).
Proof.
  cbv delta [populate] beta. pose proof (sc_refl m) as K0.
  scstep m; [destruct (vias m); [apply sc_vias|]; exact K0|]. clear K0.
  scstep m; [destruct (vias _); [apply all_ok_panic|apply all_ok_ok, sc_vias; exact y]|]. clear y.
  scstep m; [destruct (addrs _ Contact); [apply sc_contact|]; exact y0|]. clear y0.
  scstep m; [destruct (addrs _ Contact); [apply all_ok_panic|apply all_ok_bind'; intros u; apply all_ok_ok, sc_contact; exact y]|]. clear y.
  scstep m.
  { destruct (bseq _ _); [|exact y0]. destruct (pay _) as [[|d]|] eqn:E; try exact y0. cbv zeta. eapply sc_pay; [exact E| |exact y0].
    destruct d as [[ou oi ov oa] sa au vi ss tt pt so_ ro at_ ot]. unfold same_sdp, with_addr, with_origin. cbn. destruct sa; destruct oa; destruct oi; cbn; repeat split; congruence. }
  intros m' E. exact (sc_trans _ _ _ y (populate_message_same _ _ _ _ _ E)).
Qed.
Lemma route_same tv tc m m' x : RouteMessage tv tc m = Ok (m', x) -> same_call m m'.
Proof.
  unfold RouteMessage. destruct (IsResponse m).
  - set (y := if via_CompareHostPort tv (vias m) then set_vias (tl (vias m)) m else m). assert (K : same_call m y) by (unfold y; destruct (via_CompareHostPort tv (vias m)); [apply sc_vias|]; apply sc_refl). clearbody y. destruct (vias y) as [|v l]; [discriminate|].
    destruct (param_get (v_param v) (B "rport")) as [[n [|c z]]|]; [|destruct (atoi (c :: z))|]; intros E; injection E as <- _; exact K.
  - set (y := if addr_CompareHostPort tc (addrs m Route) then set_addr Route (tl (addrs m Route)) m else m). assert (K : same_call m y) by (unfold y; destruct (addr_CompareHostPort tc (addrs m Route)); [apply sc_route|]; apply sc_refl). clearbody y.
    destruct (addrs y Route) as [|r rs]; [destruct (request y); [|discriminate]; cbn [deref rbind]; intros E; injection E as <- _; exact K|].
    destruct (bseq _ _); [intros E; injection E as <- _; exact K|]. destruct (a_uri r) as [u|]; [|discriminate]. cbn [deref rbind]. destruct (param_get _ _); [intros E; injection E as <- _; exact K|].
    destruct (uri_of _) as [q|]; [|discriminate]. cbn [rbind]. destruct q; [|discriminate]. cbn [deref rbind]. intros E. injection E as <- _. apply sc_route, sc_request. exact K.
Qed.
Lemma same_is_invite m m' : same_call m m' -> is_invite m' = is_invite m.
Proof. intros ((A & C & _) & _). apply is_invite_kept; assumption. Qed.

(** ** The loop *)
Section Call.
Variable cfg : config.
Variable m0 : msg.
(** [x] has the Call-ID of the call, if the application chose it *)
Definition of_call (x : msg) : Prop := callid m0 <> [] -> callid x = callid m0.
Definition proper (x : msg) : Prop := status x <= 0 -> of_call x /\ (is_invite x = true -> same_call m0 x).
Definition tells (l : list out) : Prop := forall to x t, In (OSend to x t) l -> proper x.
Definition mine (s : dstate) : Prop := same_call m0 (invite s) /\ (forall q, req s = Some q -> is_invite q = false /\ of_call q) /\ (forall a, response s = Some a -> 0 < status a).
Definition fine (r : result) : Prop := tells (r_out r) /\ (r_v r = Cont -> mine (r_state r)).
Definition keeps (a : action) (s : dstate) : Prop := fine (a s).
Definition keeping (a : action) : Prop := forall s, mine s -> keeps a s.
Lemma same_of_call x y : of_call x -> same_call x y -> of_call y.
Proof. intros C ((_ & _ & A & _) & _) N. rewrite A; [exact (C N)|]. rewrite (C N). exact N. Qed.
Lemma of_call_mine : of_call m0. Proof. intros _. reflexivity. Qed.
Lemma invite_of_call s : mine s -> of_call (invite s). Proof. intros [A _]. exact (same_of_call _ _ of_call_mine A). Qed.
Lemma request_of_call s : mine s -> of_call (the_request s). Proof. intros M. unfold the_request. destruct (req s) eqn:E; [exact (proj2 (proj1 (proj2 M) _ E))|apply invite_of_call; exact M]. Qed.
Lemma proper_request s m : mine s -> (match req s with Some _ => is_invite m = false /\ of_call m | None => same_call m0 m end) -> proper m.
Proof. intros M H. destruct (req s); intros _; [destruct H as [H1 H2]; split; [exact H2|congruence]|split; [exact (same_of_call _ _ of_call_mine H)|auto]]. Qed.
Lemma tells_app l k : tells l -> tells k -> tells (l ++ k). Proof. intros A C to x t I. apply in_app_or in I. destruct I; [eapply A|eapply C]; eassumption. Qed.
Lemma tells_nil : tells []. Proof. intros ? ? ? []. Qed.
Lemma tells_one o : (forall to x t, o = OSend to x t -> proper x) -> tells [o]. Proof. intros H to x t [I|[]]. eapply H; eassumption. Qed.
Lemma keeps_seq a b s : keeps a s -> keeping b -> keeps (a ;; b) s.
Proof. intros [A1 A2] C. unfold keeps, seq. cbv zeta. destruct (r_v (a s)) eqn:E; [|split; [exact A1|congruence]|split; [exact A1|congruence]]. destruct (C _ (A2 eq_refl)) as [C1 C2]. cbn [r_out r_v r_state]. split; [apply tells_app; assumption|exact C2]. Qed.
Lemma keeping_seq a b : keeping a -> keeping b -> keeping (a ;; b). Proof. intros A C s M. apply keeps_seq; [apply A; exact M|exact C]. Qed.
Lemma keeping_upd f : (forall s, mine s -> mine (f s)) -> keeping (upd f). Proof. intros H s M. split; [apply tells_nil|intros _; apply H; exact M]. Qed.
Lemma keeping_crash : keeping crash. Proof. intros s M. split; [apply tells_nil|discriminate]. Qed.
Lemma keeping_halt : keeping halt. Proof. intros s M. split; [apply tells_nil|discriminate]. Qed.
Lemma keeping_emit o : (forall to x t, o <> OSend to x t) -> keeping (emit o). Proof. intros H s M. split; [apply tells_one; intros to x t E; destruct (H _ _ _ E)|intros _; exact M]. Qed.
Lemma keeping_fail e : keeping (fail e). Proof. apply keeping_seq; [apply keeping_emit; discriminate|apply keeping_halt]. Qed.
Lemma keeping_look {A} (f : dstate -> A) k : (forall s, mine s -> keeps (k (f s)) s) -> keeping (look f k). Proof. intros H s M. apply H. exact M. Qed.
Lemma keeping_look' {A} (f : dstate -> A) k : (forall x, keeping (k x)) -> keeping (look f k). Proof. intros H s M. apply H. exact M. Qed.
Lemma keeping_val {A} (x : res A) k : (forall a, x = Ok a -> keeping (k a)) -> keeping (val x k). Proof. intros H. destruct x; [apply H; reflexivity|apply keeping_crash]. Qed.
Lemma keeping_ask k : (forall j, keeping (k (c_world cfg j))) -> keeping (ask cfg k). Proof. intros H s M. exact (H (clock s) (set_clock (Datatypes.S (clock s)) s) M). Qed.
Lemma lowered_same m : same_call m (lowered m). Proof. unfold lowered. destruct (_ <? _); [apply sc_maxf|]; apply sc_refl. Qed.
(** sending: what is transmitted differs in Via and Max-Forwards *)
Lemma keeps_send m keep s : mine s -> (forall x, same_call m x -> proper x) -> (forall x s, same_call m x -> mine s -> mine (keep x s)) -> keeps (send cfg m keep) s.
Proof.
  intros M PR K. unfold keeps. rewrite send_eq. cbv zeta. pose proof (lowered_same m) as L. destruct (maxforwards m =? 1); [split; [apply tells_one; discriminate|discriminate]|].
  destruct (addTimestamp _ _) as [m2|] eqn:E; [|split; [apply tells_nil|discriminate]]. apply stamp_ok in E. destruct E as [v ->]. assert (L2 : same_call m (set_vias v (lowered m))) by (apply sc_vias; exact L).
  set (s1 := set_clock _ _). assert (M1 : mine s1) by (exact (K _ _ L M)). clearbody s1. pose proof (K _ _ L2 M1) as M2. set (s2 := keep _ _) in *. clearbody s2.
  destruct (so s2) as [k|]; [|split; [apply tells_nil|discriminate]]. destruct (w_write _ _); [|split; [apply tells_one; discriminate|discriminate]]. split; [|intros _; exact M2]. apply tells_one. intros to x t E. injection E as _ <- _. apply PR. exact L2.
Qed.
Lemma keeping_drop m : proper m -> is_invite m = false -> keeping (send cfg m drop).
Proof.
  intros P I s M. apply keeps_send; [exact M| |intros x s' _ H; exact H]. intros x L. intros S. assert (SM : status x = status m) by apply L. rewrite SM in S. destruct (P S) as [C _]. split; [exact (same_of_call _ _ C L)|]. rewrite (same_is_invite _ _ L). congruence.
Qed.
Lemma response_proper m n : 0 < n -> proper (NewResponse m n). Proof. intros N S. change (status (NewResponse m n)) with n in S. lia. Qed.
Lemma response_other m n : 0 < n -> is_invite (NewResponse m n) = false. Proof. intros N. unfold is_invite. change (status (NewResponse m n)) with n. destruct (Z.leb_spec n 0); [lia|reflexivity]. Qed.
Lemma keeping_answer m n : 0 < n -> keeping (send cfg (NewResponse m n) drop). Proof. intros N. apply keeping_drop; [apply response_proper|apply response_other]; exact N. Qed.
Lemma keeping_keep m : 0 < status m -> keeping (send cfg m keep_response).
Proof.
  intros N s M. apply keeps_send; [exact M| |].
  - intros x L S. assert (status x = status m) by apply L. lia.
  - intros x s' L (A & C & D). split; [exact A|]. split; [exact C|]. intros a E. injection E as <-. assert (status x = status m) by apply L. lia.
Qed.
Lemma set_request_mine m s : mine s -> (match req s with Some _ => is_invite m = false /\ of_call m | None => same_call m0 m end) -> mine (set_the_request m s).
Proof.
  intros (A & C & D) H. unfold set_the_request. destruct (req s) eqn:R; cbn; (split; [|split; [|exact D]]); [exact A|intros q E; injection E as <-; exact H|exact H|cbn; rewrite R; exact C].
Qed.
Lemma request_kept s m x : match req s with Some _ => is_invite m = false /\ of_call m | None => same_call m0 m end -> same_call m x -> match req s with Some _ => is_invite x = false /\ of_call x | None => same_call m0 x end.
Proof. destruct (req s); [intros [H1 H2] L; split; [rewrite (same_is_invite _ _ L); exact H1|exact (same_of_call _ _ H2 L)]|intros H L; exact (sc_trans _ _ _ H L)]. Qed.
Lemma current s : mine s -> match req s with Some _ => is_invite (the_request s) = false /\ of_call (the_request s) | None => same_call m0 (the_request s) end.
Proof. intros (A & C & _). unfold the_request. destruct (req s); [apply C; reflexivity|exact A]. Qed.
Lemma keeps_request m s : mine s -> (match req s with Some _ => is_invite m = false /\ of_call m | None => same_call m0 m end) -> keeps (send cfg m set_the_request) s.
Proof.
  intros M H. assert (G : forall r : option msg, (r = None <-> req s = None) -> forall x, same_call m x -> match r with Some _ => is_invite x = false /\ of_call x | None => same_call m0 x end).
  { intros r R x L. pose proof (request_kept s m x H L) as X. destruct (req s); destruct r; try exact X; [destruct R as [R _]; discriminate (R eq_refl)|destruct R as [_ R]; discriminate (R eq_refl)]. }
  assert (SR : forall y z, req (set_the_request y z) = None <-> req z = None) by (intros y z; unfold set_the_request; destruct (req z) eqn:E; cbn; [split; discriminate|rewrite E; tauto]).
  unfold keeps. rewrite send_eq. cbv zeta. pose proof (lowered_same m) as L. destruct (maxforwards m =? 1); [split; [apply tells_one; discriminate|discriminate]|].
  destruct (addTimestamp _ _) as [m2|] eqn:E; [|split; [apply tells_nil|discriminate]]. apply stamp_ok in E. destruct E as [v ->]. assert (L2 : same_call m (set_vias v (lowered m))) by (apply sc_vias; exact L).
  assert (M1 : mine (set_the_request (lowered m) s)) by (apply set_request_mine; [exact M|apply G; [tauto|exact L]]). set (s1 := set_clock _ _). assert (R1 : req s1 = None <-> req s = None) by exact (SR (lowered m) s). assert (M1' : mine s1) by exact M1. clearbody s1. clear M1.
  assert (M2 : mine (set_the_request (set_vias v (lowered m)) s1)) by (apply set_request_mine; [exact M1'|apply G; [exact R1|exact L2]]). set (s2 := set_the_request _ _) in *. clearbody s2.
  destruct (so s2) as [k|]; [|split; [apply tells_nil|discriminate]]. destruct (w_write _ _); [|split; [apply tells_one; discriminate|discriminate]]. split; [|intros _; exact M2]. apply tells_one. intros to x t E. injection E as _ <- _.
  apply (proper_request s1); [exact M1'|]. apply G; [exact R1|exact L2].
Qed.
Lemma connect_same j s : let s1 := fst (connect cfg (c_world cfg j) s) in req s1 = req s /\ response s1 = response s /\ invite s1 = invite s.
Proof.
  unfold connect. destruct (match so s with Some k => _ | None => _ end); [repeat split|]. cbv zeta. destruct (w_dial _ _) as [k|]; [|repeat split]. destruct (cso _); [repeat split|]. destruct (c_loose cfg); [|repeat split]. destruct (w_listen _); repeat split.
Qed.
Lemma mine_same s s' : req s' = req s -> response s' = response s -> invite s' = invite s -> mine s -> mine s'.
Proof. unfold mine. intros -> -> ->. auto. Qed.
Lemma pop_keeping rs : keeping (pop_route cfg rs).
Proof.
  induction rs as [|a rs IH]; cbn [pop_route]; [apply keeping_seq; [apply keeping_upd; intros s M; exact M|apply keeping_look; intros s M; apply keeping_fail; exact M]|].
  apply keeping_seq; [apply keeping_upd; intros s M; exact M|]. apply keeping_seq; [apply keeping_upd; intros s M; exact M|]. apply keeping_ask. intros j s M. unfold keeps. pose proof (connect_same j s) as (C1 & C2 & C3). destruct (connect cfg (c_world cfg j) s) as [s1 ok]. cbn [fst] in *.
  assert (M1 : mine s1) by (exact (mine_same s s1 C1 C2 C3 M)). destruct ok; cbn [negb]; [|exact (IH s1 M1)]. destruct (so s1) as [k|]; [|exact (keeping_crash s1 M1)]. destruct (populate _ _ _ _) as [m|] eqn:PO; [|exact (keeping_crash s1 M1)]. cbn [val]. apply populate_same in PO.
  pose proof (request_kept s1 _ m (current s1 M1) PO) as RK. rewrite upd_seq. assert (R2 : req (set_the_request m s1) = None <-> req s1 = None) by (unfold set_the_request; destruct (req s1) eqn:E; cbn; [split; discriminate|rewrite E; tauto]). pose proof (set_request_mine m s1 M1 RK) as M2. set (s2 := set_the_request m s1) in *. clearbody s2.
  assert (RK2 : match req s2 with Some _ => is_invite m = false /\ of_call m | None => same_call m0 m end) by (destruct (req s2); destruct (req s1); try exact RK; [destruct R2 as [_ R2]; discriminate (R2 eq_refl)|destruct R2 as [R2 _]; discriminate (R2 eq_refl)]). clear R2 RK M1 C1 C2 C3 PO.
  set (LK := look st _). assert (G : exists s3, LK s2 = go s3 /\ req s3 = req s2 /\ response s3 = response s2 /\ invite s3 = invite s2) by (unfold LK, look; destruct (st s2 <? Answered); eexists; (split; [reflexivity|]); repeat split; reflexivity). clearbody LK.
  destruct G as (s3 & G & G1 & G2 & G3). rewrite (seq_go _ _ _ _ G), !upd_seq. apply keeps_request; [exact (mine_same s2 s3 G1 G2 G3 M2)|]. change (req (set_rtimer true (set_resends 0 s3))) with (req s3). rewrite G1. exact RK2.
Qed.
Lemma keeping_pop : keeping (popRoute cfg). Proof. apply keeping_look. intros s M. apply pop_keeping. exact M. Qed.
Lemma keeping_sendInvite : keeping (sendRequest cfg None).
Proof.
  intros s M. unfold keeps, sendRequest, look at 1. destruct (RouteMessage [] [] (invite s)) as [[m r]|] eqn:E; [|exact (keeping_crash s M)]. cbn [val]. apply route_same in E. rewrite upd_seq. assert (SM : same_call m0 m) by (exact (sc_trans _ _ _ (proj1 M) E)).
  assert (M1 : mine (set_invite m s)) by (split; [exact SM|exact (proj2 M)]). set (s1 := set_invite m s) in *. clearbody s1. destruct r as [[host port]|e]; [|exact (keeping_fail _ s1 M1)]. revert s1 M1. apply keeping_ask. intros j. apply keeping_look. intros s1 M1. destruct (RouteAddress _ _ _ _) as [rs|]; [|exact (keeping_fail _ s1 M1)].
  revert s1 M1. apply keeping_seq; [apply keeping_upd; intros z (A & C & D); split; [exact A|split; [discriminate|exact D]]|]. apply keeping_seq; [apply keeping_upd; intros z Z; exact Z|]. apply keeping_seq; [apply keeping_upd; intros z Z; exact Z|apply keeping_pop].
Qed.
Lemma keeping_sendOther b : is_invite b = false -> of_call b -> keeping (sendRequest cfg (Some b)).
Proof.
  intros I O s M. unfold keeps, sendRequest, look at 1. destruct (RouteMessage [] [] b) as [[m r]|] eqn:E; [|exact (keeping_crash s M)]. cbn [val]. apply route_same in E. rewrite upd_seq. assert (I2 : is_invite m = false) by (rewrite (same_is_invite _ _ E); exact I). assert (O2 : of_call m) by exact (same_of_call _ _ O E).
  destruct r as [[host port]|e]; [|exact (keeping_fail _ s M)]. revert s M. apply keeping_ask. intros j. apply keeping_look. intros s M. destruct (RouteAddress _ _ _ _) as [rs|]; [|exact (keeping_fail _ s M)].
  revert s M. apply keeping_seq; [apply keeping_upd; intros z (A & C & D); split; [exact A|split; [intros q Q; injection Q as <-; split; assumption|exact D]]|]. apply keeping_seq; [apply keeping_upd; intros z Z; exact Z|]. apply keeping_seq; [apply keeping_upd; intros z Z; exact Z|apply keeping_pop].
Qed.
Lemma keeping_sdp m : keeping (checkSDP m).
Proof. unfold checkSDP. destruct (pay m) as [[|d]|]; try (apply keeping_upd; intros s M; exact M). destruct (s_audio d); [apply keeping_emit; discriminate|apply keeping_crash]. Qed.
Lemma ack_facts m q a : NewAck m q = Ok a -> is_invite a = false /\ callid a = callid m.
Proof. unfold NewAck. destruct (uri_of _); [|discriminate]. cbn [rbind]. destruct (via_Detach _); [|discriminate]. cbn [rbind]. intros E. injection E as <-. split; reflexivity. Qed.
Lemma bye_facts i r q a n : NewBye i r q = Ok (a, n) -> is_invite a = false /\ callid a = callid i.
Proof. unfold NewBye. destruct (uri_of _); [|discriminate]. cbn [rbind]. intros E. injection E as <- _. split; reflexivity. Qed.
Ltac kp1 := match goal with
  | |- keeping (upd (set_response None)) => let s := fresh in apply keeping_upd; intros s (? & ? & ?); split; [assumption|split; [assumption|discriminate]]
  | |- keeping (upd (set_response (Some _))) => let s := fresh in apply keeping_upd; intros s (? & ? & ?); split; [assumption|split; [assumption|let a := fresh in let E := fresh in intros a E; injection E as <-; reflexivity]]
  | |- keeping (send _ (NewResponse _ _) keep_response) => apply keeping_keep; reflexivity
  | |- keeping (send _ (NewResponse _ _) drop) => apply keeping_answer; reflexivity
  | |- keeping (upd _) => let s := fresh in let M := fresh in apply keeping_upd; intros s M; exact M
  | |- keeping crash => apply keeping_crash
  | |- keeping halt => apply keeping_halt
  | |- keeping (fail _) => apply keeping_fail
  | |- keeping (emit _) => apply keeping_emit; discriminate
  | |- keeping (checkSDP _) => apply keeping_sdp
  | |- keeping (popRoute _) => apply keeping_pop
  | |- keeping (look _ _) => apply keeping_look'; intros
  | |- keeping (val _ _) => apply keeping_val; intros
  | |- keeping (_ ;; _) => apply keeping_seq
  | |- keeping (transition _) => unfold transition
  | |- keeping (if ?b then _ else _) => destruct b
  | |- keeping (match ?x with _ => _ end) => destruct x
  | |- forall s, mine s -> keeps ?a s => change (keeping a) end.
Lemma keeps_response m s : mine s -> callid m = callid (the_request s) -> keeps (handleResponse cfg m) s.
Proof.
  intros M CI. unfold keeps, handleResponse. unfold look at 1. destruct (negb _); [exact (keeping_upd (fun s => s) (fun s H => H) s M)|]. apply keeps_seq.
  { destruct (_ && _); [|exact (keeping_upd (fun s => s) (fun s H => H) s M)]. destruct (addrs m Contact); [exact (keeping_fail _ s M)|]. destruct (NewAck _ _) as [ack|] eqn:E; [|exact (keeping_crash s M)]. cbn [val]. apply ack_facts in E. destruct E as [E1 E2].
    apply keeping_drop; [|exact E1|exact M]. intros _. split; [|congruence]. intros N. rewrite E2, CI. exact (request_of_call s M N). }
  clear M CI. generalize (the_request s). clear s. intros q. do 3 (apply keeping_seq; [repeat kp1|]). destruct (status m =? 100); [repeat kp1|]. destruct (_ || _); [repeat kp1|]. destruct (status m =? 200); [repeat kp1|]. destruct (status m =? 503); [repeat kp1|]. destruct (_ || _); [|repeat kp1].
  apply keeping_val. intros u _. apply keeping_seq; [|apply keeping_sendInvite]. apply keeping_upd. intros s (A & C & D). split; [|split; [exact C|exact D]]. apply sc_route, sc_request. exact A.
Qed.
Lemma keeping_resend : keeping (resendRequest cfg).
Proof.
  unfold resendRequest. apply keeping_look. intros s M. destruct (_ <? _); [|revert s M; kp1; repeat kp1]. apply keeps_seq; [|repeat kp1]. unfold keeps, look. apply keeps_request; [exact M|apply current; exact M].
Qed.
Lemma keeping_repeat : keeping (resendResponse cfg).
Proof.
  unfold resendResponse. apply keeping_look. intros s M. destruct (response s) as [m|] eqn:R; [|exact (keeping_upd (fun s => s) (fun s H => H) s M)].
  assert (N : 0 < status m) by (apply (proj2 (proj2 M)); exact R). revert s M R. enough (T : keeping (look rspresends (fun n => if n <? c_max cfg then send cfg m keep_response ;; upd (set_rspresends (n + 1)) ;; upd (set_rsptimer true) else look so (fun k => match k with Some _ => popRoute cfg | None => crash end)))) by (intros; apply T; assumption).
  kp1. kp1; [|repeat kp1]. apply keeping_seq; [apply keeping_keep; exact N|repeat kp1].
Qed.
Lemma keeping_request m : keeping (handleRequest cfg m).
Proof. unfold handleRequest, sendResponse. repeat kp1. Qed.
Lemma keeping_message m : keeping (handleMessage cfg m).
Proof.
  unfold handleMessage. destruct (_ || _); [repeat kp1|]. apply keeping_look. intros s M. destruct (bseq_reflect (callid m) (callid (the_request s))) as [CI|CI]; cbn [negb]; [|apply keeping_answer; [reflexivity|exact M]]. destruct (IsResponse m); [apply keeps_response; assumption|]. apply keeping_request. exact M.
Qed.
Lemma keeps_cancel s c : mine s -> of_call c -> is_invite c = false -> keeps (send cfg c (fun m s => set_invite (set_vias (vias m) (invite s)) s)) s.
Proof.
  intros M OC I. apply keeps_send; [exact M| |intros x z _ (A & C & D); split; [apply sc_vias; exact A|split; [exact C|exact D]]]. intros x L _. split; [exact (same_of_call _ _ OC L)|]. rewrite (same_is_invite _ _ L). congruence.
Qed.
Lemma cancel_facts m : is_invite (NewCancel m) = false /\ callid (NewCancel m) = callid m. Proof. split; reflexivity. Qed.
Lemma keeping_hangup : keeping (sendHangup cfg).
Proof.
  unfold sendHangup. apply keeping_look. intros s M. destruct (_ || _).
  - unfold keeps, look. destruct (cancel_facts (invite s)) as [E1 E2]. apply keeps_cancel; [exact M| |exact E1]. intros N. rewrite E2. exact (invite_of_call s M N).
  - destruct (_ =? Answered); [|destruct (_ =? Hangup); [exact (keeping_crash s M)|revert s M; kp1; repeat kp1]]. unfold keeps, look. destruct (remote s) as [rm|]; [|exact (keeping_crash s M)]. destruct (NewBye _ _ _) as [[bye k]|] eqn:E; [|exact (keeping_crash s M)]. cbn [val]. apply bye_facts in E. destruct E as [E1 E2].
    apply (keeping_seq (upd (set_lseq k)) (sendRequest cfg (Some bye))); [kp1| |exact M]. apply keeping_sendOther; [exact E1|]. intros N. rewrite E2. exact (invite_of_call s M N).
Qed.
Lemma keeping_handle e : keeping (handle cfg e).
Proof.
  destruct e as [[|]| | | |m|]; cbn [handle].
  - repeat kp1.
  - repeat kp1.
  - repeat kp1.
  - apply keeping_seq; [kp1|apply keeping_resend].
  - apply keeping_seq; [kp1|apply keeping_repeat].
  - apply keeping_message.
  - apply keeping_hangup.
Qed.
Lemma run_fine r es r' : run cfg r es r' -> fine r -> fine r'.
Proof.
  induction 1 as [r|r e es r' V E R IH]; intros [S1 S2]; [split; assumption|]. destruct (keeping_handle e (r_state r) (S2 V)) as [H1 H2]. apply IH. split; [cbn [r_out]; apply tells_app; assumption|exact H2].
Qed.
End Call.

(** ** The Call-ID, when the dialog has to choose it *)
Definition named (m : msg) : Prop := callid m <> [].
Lemma callid_named r c : GenerateCallID r = Ok c -> c <> [].
Proof.
  unfold GenerateCallID. destruct (slice_of 0 8 _) as [a|]; [|discriminate]. cbn [rbind]. destruct (slice_of 8 12 _); [|discriminate]. cbn [rbind]. destruct (slice_of 12 15 _); [|discriminate]. cbn [rbind]. destruct (slice_of 15 18 _); [|discriminate]. cbn [rbind]. destruct (slice_of 18 _ _); [|discriminate]. cbn [rbind]. intros E. injection E as <-. destruct a; discriminate.
Qed.
Ltac nfin := unfold named in *; cbn [callid set_vias set_addr set_addrs set_cseq set_cseqmethod set_str set_strs set_maxforwards]; first [assumption|exact I].
Ltac nleaf := repeat match goal with
  | |- all_ok _ (Ok _) => apply all_ok_ok
  | |- all_ok _ Panic => apply all_ok_panic
  | |- all_ok _ (rbind _ _) => apply all_ok_bind'; intros
  | |- context[match ?x with _ => _ end] => destruct x end; nfin.
Ltac nstep R := match goal with
  | |- all_ok ?P (let x := ?X in @?K x) => let y := fresh "y" in assert (y : R X); [|change (all_ok P (K X)); cbv beta; generalize dependent X; intros ? y]
  | |- all_ok ?P (rbind ?X ?K) => apply (all_ok_bind P R X K); [|let x := fresh "x" in let y := fresh "y" in intros x y] end.
Lemma populate_message_named tv tc m r : status m <= 0 -> all_ok named (PopulateMessage tv tc m r).
Proof.
  intros S. cbv delta [PopulateMessage] beta. replace (IsResponse m) with false by (unfold IsResponse; symmetry; apply Z.ltb_ge; exact S).
  do 4 (nstep (fun _ : msg => True); [try exact I; try (intros ? _; exact I)|]). nstep named.
  { destruct (callid _) eqn:E; [|apply all_ok_ok; unfold named; congruence]. intros m' H. destruct (GenerateCallID _) as [c|] eqn:G; [|discriminate]. injection H as <-. exact (callid_named _ _ G). }
  clear y y0 y1 y2. do 5 (nstep named; [nleaf|]; match goal with H : named _, H' : named _ |- _ => clear H end). nleaf.
Qed.
Lemma populate_named k c w m : status m <= 0 -> all_ok named (populate k c w m).
Proof.
  intros S. cbv delta [populate] beta. pose proof (kept_refl m) as K0. kstep (kept m). clear K0. kstep (kept m). clear y. kstep (kept m). clear y0. kstep (kept m). clear y. kstep (kept m). clear y0.
  apply populate_message_named. destruct y as (_ & -> & _). exact S.
Qed.
Definition sends_nothing (r : result) : Prop := r_v r <> Cont /\ forall to x t, ~ In (OSend to x t) (r_out r).
Definition first_sent (m : msg) (r : result) : Prop := r_v r = Cont /\ req (r_state r) = None /\ response (r_state r) = None /\ same_call m (invite (r_state r)) /\ named (invite (r_state r)) /\ exists to t, r_out r = [OSend to (invite (r_state r)) t].
Lemma send_first cfg m s : req s = None -> response s = None -> named m -> let r := send cfg m set_the_request s in sends_nothing r \/ first_sent m r.
Proof.
  intros R RS N. cbv zeta. rewrite send_eq. cbv zeta. destruct (maxforwards m =? 1); [left; split; [discriminate|intros ? ? ? [H|[]]; discriminate]|].
  destruct (addTimestamp _ _) as [m2|] eqn:E; [|left; split; [discriminate|intros ? ? ? []]]. apply stamp_ok in E. destruct E as [v ->]. unfold set_the_request. rewrite R. cbn [req set_clock set_invite]. rewrite R. cbn [so set_clock set_invite].
  destruct (so s) as [k|]; [|left; split; [discriminate|intros ? ? ? []]]. destruct (w_write _ _); [|left; split; [discriminate|intros ? ? ? [H|[]]; discriminate]]. right. split; [reflexivity|]. split; [exact R|]. split; [exact RS|]. cbn [r_state invite set_invite set_clock r_out].
  split; [apply sc_vias, lowered_same|]. split; [|eauto]. unfold named in *. unfold lowered. destruct (0 <? maxforwards m); exact N.
Qed.
Lemma pop_first cfg rs : forall s, req s = None -> response s = None -> status (invite s) <= 0 -> sends_nothing (pop_route cfg rs s) \/ first_sent (invite s) (pop_route cfg rs s).
Proof.
  induction rs as [|a rs IH]; intros s R RS ST; cbn [pop_route].
  { left. rewrite upd_seq. unfold look. split; [discriminate|intros ? ? ? [H|[]]; discriminate]. }
  rewrite upd_seq, upd_seq. unfold ask. match goal with |- context[clock ?x] => set (s0 := x) end. set (j := clock s0). set (s0' := set_clock _ s0). pose proof (connect_same cfg j s0') as (C1 & C2 & C3). change (req s0') with (req s) in C1. change (response s0') with (response s) in C2. change (invite s0') with (invite s) in C3. clearbody s0' j. clear s0.
  destruct (connect cfg (c_world cfg j) s0') as [s1 ok]. cbn [fst] in *. rewrite R in C1. rewrite RS in C2. rewrite <- C3 in ST. rewrite <- C3. destruct ok; cbn [negb]; [|apply IH; assumption]. clear IH.
  destruct (so s1) as [k|]; [|left; split; [discriminate|intros ? ? ? []]]. destruct (populate _ _ _ _) as [m|] eqn:PO; [|left; split; [discriminate|intros ? ? ? []]]. cbn [val]. unfold the_request in PO. rewrite C1 in PO. pose proof (populate_named _ _ _ _ ST _ PO) as N. apply populate_same in PO.
  rewrite upd_seq. assert (E2 : set_the_request m s1 = set_invite m s1) by (unfold set_the_request; rewrite C1; reflexivity). rewrite E2. clear E2. set (s2 := set_invite m s1). set (LK := look st _). assert (G : exists s3, LK s2 = go s3 /\ req s3 = None /\ response s3 = None) by (unfold LK, look; destruct (st s2 <? Answered); eexists; (split; [reflexivity|]); split; cbn; assumption). clearbody LK.
  destruct G as (s3 & G & G1 & G2). rewrite (seq_go _ _ _ _ G), !upd_seq. destruct (send_first cfg m (set_rtimer true (set_resends 0 s3)) G1 G2 N) as [X|(X1 & X2 & X3 & X4 & X5)]; [left; exact X|]. right. split; [exact X1|]. split; [exact X2|]. split; [exact X3|]. split; [exact (sc_trans _ _ _ PO X4)|exact X5].
Qed.
Definition begun (m : msg) (r : result) : Prop := sends_nothing r \/ first_sent m r.
Lemma start_first cfg m : status m <= 0 -> begun m (start cfg m).
Proof.
  intros ST. unfold start, sendRequest, look at 1. cbn [init invite]. destruct (RouteMessage [] [] m) as [[m' r]|] eqn:E; [|left; split; [discriminate|intros ? ? ? []]]. cbn [val]. apply route_same in E. rewrite upd_seq. destruct r as [[host port]|e]; [|left; split; [discriminate|intros ? ? ? [H|[]]; discriminate]].
  unfold ask, look. destruct (RouteAddress _ _ _ _) as [rs|]; [|left; split; [discriminate|intros ? ? ? [H|[]]; discriminate]]. rewrite !upd_seq. unfold popRoute, look. cbn [routes set_dest set_routes set_req]. set (s2 := set_dest _ _). assert (ST2 : status (invite s2) <= 0). { change (invite s2) with m'. destruct E as ((_ & -> & _) & _). exact ST. }
  destruct (pop_first cfg rs s2 eq_refl eq_refl ST2) as [X|(X1 & X2 & X3 & X4 & X5)]; [left; exact X|]. right. split; [exact X1|]. split; [exact X2|]. split; [exact X3|]. split; [|exact X5]. change (invite s2) with m' in X4. exact (sc_trans _ _ _ E X4).
Qed.

(** ** C65 *)
(** Every request the dialog transmits, apart from ACK, CANCEL and BYE, is the request of the application with what was missing filled
    in; whatever arrives, and however often it is repeated, redirected or sent to another address. *)
Theorem invite_is_the_applications : forall cfg m es r to x t, dialog cfg m es r -> In (OSend to x t) (r_out r) -> status x <= 0 -> method x <> B "ACK" -> method x <> B "CANCEL" -> method x <> B "BYE" -> same_call m x.
Proof.
  intros cfg m es r to x t D I S A C Y. assert (F : fine m (start cfg m)). { apply (keeping_sendInvite cfg m). split; [apply sc_refl|]. split; discriminate. }
  destruct (run_fine cfg m _ _ _ D F) as [T _]. destruct (T _ _ _ I S) as [_ H]. apply H. unfold is_invite. destruct (Z.leb_spec (status x) 0); [|lia].
  destruct (bseq_reflect (method x) (B "ACK")); [congruence|]. destruct (bseq_reflect (method x) (B "CANCEL")); [congruence|]. destruct (bseq_reflect (method x) (B "BYE")); [congruence|]. reflexivity.
Qed.
(** All the requests of one dialog have one Call-ID, that of the application if it chose one; and what was filled in (the tag of From, the
    CSeq, the identifier of the session) is filled in once: the request [m1] is the first that was transmitted. *)
Theorem one_call : forall cfg m es r, status m <= 0 -> dialog cfg m es r -> (forall to x t, ~ In (OSend to x t) (r_out r)) \/
  exists m1 to1 t1 rest, r_out r = OSend to1 m1 t1 :: rest /\ same_call m m1 /\ callid m1 <> [] /\
    forall to x t, In (OSend to x t) (r_out r) -> status x <= 0 -> callid x = callid m1 /\ (method x <> B "ACK" -> method x <> B "CANCEL" -> method x <> B "BYE" -> same_call m1 x).
Proof.
  intros cfg m es r ST D. unfold dialog in D. destruct (start_first cfg m ST) as [[V N]|(V & R & RS & SC & NM & to1 & t1 & O)].
  { left. intros to x t I. inversion D; subst; [exact (N _ _ _ I)|congruence]. }
  right. set (m1 := invite (r_state (start cfg m))) in *. assert (F : fine m1 (start cfg m)).
  { split; [|intros _; split; [apply sc_refl|split; congruence]]. rewrite O. apply tells_one. intros to x t E. injection E as _ <- _. intros _. split; [intros _; reflexivity|intros _; apply sc_refl]. }
  assert (P : exists rest, r_out r = OSend to1 m1 t1 :: rest). { clear F. revert O. generalize (OSend to1 m1 t1). clear - D. intros o. enough (G : forall l, r_out (start cfg m) = o :: l -> exists rest, r_out r = o :: rest) by (apply G). induction D as [r|r e es r' V E R IH]; intros l H; [eauto|]. apply (IH (l ++ r_out (handle cfg e (r_state r)))). cbn [r_out]. rewrite H. reflexivity. }
  destruct P as [rest P]. exists m1, to1, t1, rest. split; [exact P|]. split; [exact SC|]. split; [exact NM|]. destruct (run_fine cfg m1 _ _ _ D F) as [T _]. intros to x t I S. destruct (T _ _ _ I S) as [H1 H2]. split; [apply H1; exact NM|]. intros A C Y. apply H2.
  unfold is_invite. destruct (Z.leb_spec (status x) 0); [|lia]. destruct (bseq_reflect (method x) (B "ACK")); [congruence|]. destruct (bseq_reflect (method x) (B "CANCEL")); [congruence|]. destruct (bseq_reflect (method x) (B "BYE")); [congruence|]. reflexivity.
Qed.

(** ** C63: hanging up after the answer *)
Definition one_sent (m : msg) (r : result) : Prop := sends_nothing r \/ (r_v r = Cont /\ exists to b t, r_out r = [OSend to b t] /\ same_call m b).
Lemma send_one cfg m s : one_sent m (send cfg m set_the_request s).
Proof.
  rewrite send_eq. cbv zeta. destruct (maxforwards m =? 1); [left; split; [discriminate|intros ? ? ? [H|[]]; discriminate]|].
  destruct (addTimestamp _ _) as [m2|] eqn:E; [|left; split; [discriminate|intros ? ? ? []]]. apply stamp_ok in E. destruct E as [v ->]. set (s2 := set_the_request _ _). clearbody s2.
  destruct (so s2) as [k|]; [|left; split; [discriminate|intros ? ? ? []]]. destruct (w_write _ _); [|left; split; [discriminate|intros ? ? ? [H|[]]; discriminate]]. right. split; [reflexivity|]. do 3 eexists. split; [reflexivity|]. apply sc_vias, lowered_same.
Qed.
Lemma pop_one cfg rs : forall s, one_sent (the_request s) (pop_route cfg rs s).
Proof.
  induction rs as [|a rs IH]; intros s; cbn [pop_route].
  { left. rewrite upd_seq. unfold look. split; [discriminate|intros ? ? ? [H|[]]; discriminate]. }
  rewrite upd_seq, upd_seq. unfold ask. match goal with |- context[clock ?x] => set (s0 := x) end. set (j := clock s0). set (s0' := set_clock _ s0). pose proof (connect_same cfg j s0') as (C1 & C2 & C3). change (req s0') with (req s) in C1. change (response s0') with (response s) in C2. change (invite s0') with (invite s) in C3. clearbody s0' j. clear s0.
  destruct (connect cfg (c_world cfg j) s0') as [s1 ok]. cbn [fst] in *. assert (TR : the_request s1 = the_request s) by (unfold the_request; rewrite C1, C3; reflexivity). rewrite <- TR. destruct ok; cbn [negb]; [|apply IH]. clear IH.
  destruct (so s1) as [k|]; [|left; split; [discriminate|intros ? ? ? []]]. destruct (populate _ _ _ _) as [m|] eqn:PO; [|left; split; [discriminate|intros ? ? ? []]]. cbn [val]. apply populate_same in PO.
  rewrite upd_seq. set (s2 := set_the_request m s1). clearbody s2. set (LK := look st _). assert (G : exists s3, LK s2 = go s3) by (unfold LK, look; destruct (st s2 <? Answered); eexists; reflexivity). clearbody LK.
  destruct G as (s3 & G). rewrite (seq_go _ _ _ _ G), !upd_seq. destruct (send_one cfg m (set_rtimer true (set_resends 0 s3))) as [X|(X1 & to & b & t & X2 & X3)]; [left; exact X|]. right. split; [exact X1|]. exists to, b, t. split; [exact X2|exact (sc_trans _ _ _ PO X3)].
Qed.
Lemma request_one cfg b s : one_sent b (sendRequest cfg (Some b) s).
Proof.
  unfold sendRequest, look at 1. destruct (RouteMessage [] [] b) as [[m r]|] eqn:E; [|left; split; [discriminate|intros ? ? ? []]]. cbn [val]. apply route_same in E. rewrite upd_seq. destruct r as [[host port]|e]; [|left; split; [discriminate|intros ? ? ? [H|[]]; discriminate]].
  unfold ask, look. destruct (RouteAddress _ _ _ _) as [rs|]; [|left; split; [discriminate|intros ? ? ? [H|[]]; discriminate]]. rewrite !upd_seq. unfold popRoute, look. cbn [routes set_dest set_routes set_req]. set (s2 := set_dest _ _). pose proof (pop_one cfg rs s2) as P. change (the_request s2) with m in P.
  destruct P as [X|(X1 & to & x & t & X2 & X3)]; [left; exact X|]. right. split; [exact X1|]. exists to, x, t. split; [exact X2|exact (sc_trans _ _ _ E X3)].
Qed.
(** A BYE with the identity of the call and the next sequence number is the only thing sent, or the dialog ends and nothing is sent. *)
Theorem hangup_byes : forall cfg s, st s = Answered -> let r := handle cfg EHangup s in
  (r_v r <> Cont /\ forall to x t, ~ In (OSend to x t) (r_out r)) \/
  (r_v r = Cont /\ exists to b t, r_out r = [OSend to b t] /\ status b = 0 /\ method b = B "BYE" /\ cseqmethod b = B "BYE" /\ (callid (invite s) <> [] -> callid b = callid (invite s)) /\ (i64 (lseq s + 1) <> 0 -> cseq b = i64 (lseq s + 1)) /\
    (addrs (invite s) From <> [] -> same_from (addrs (invite s) From) (addrs b From))).
Proof.
  intros cfg s ST. cbv zeta. cbn [handle]. unfold sendHangup, look. rewrite ST. cbn [Z.eqb orb Proceeding Ringing Answered Pos.eqb]. destruct (remote s) as [rm|]; [|left; split; [discriminate|intros ? ? ? []]].
  destruct (NewBye _ _ _) as [[bye n]|] eqn:E; [|left; split; [discriminate|intros ? ? ? []]]. cbn [val]. rewrite upd_seq.
  assert (F : status bye = 0 /\ method bye = B "BYE" /\ cseqmethod bye = B "BYE" /\ callid bye = callid (invite s) /\ cseq bye = i64 (lseq s + 1) /\ addrs bye From = addrs (invite s) From).
  { revert E. unfold NewBye. destruct (uri_of _); [|discriminate]. cbn [rbind]. intros E. injection E as <- _. repeat split; reflexivity. }
  destruct F as (F1 & F2 & F3 & F4 & F5 & F6). destruct (request_one cfg bye (set_lseq n s)) as [X|(X1 & to & b & t & X2 & X3)]; [left; exact X|]. right. split; [exact X1|]. exists to, b, t. split; [exact X2|]. destruct X3 as ((A1 & A2 & A3 & A4 & A5) & (A6 & A7 & A8) & _).
  rewrite F1 in A2. rewrite F2 in A1. rewrite F3 in A5. rewrite F4 in A3. rewrite F5 in A4. rewrite F6 in A7. split; [exact A2|]. split; [exact A1|]. split; [apply A5; discriminate|]. split; [exact A3|]. split; [exact A4|exact A7].
Qed.
(** the theorems of this file are met by the runs of P_DialogRuns: an INVITE which is repeated, redirected and repeated again *)
Example one_call_met : exists es r, dialog (ex_cfg 2) ex_invite es r /\ status ex_invite <= 0 /\ length (r_out r) = 7%nat.
Proof. destruct redirect_run_refuted as (es & r & D & _ & L & _). exists es, r. split; [exact D|]. split; [discriminate|]. rewrite <- (map_length show), L. reflexivity. Qed.
