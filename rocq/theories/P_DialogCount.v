(** C50: how often the INVITE is transmitted. *)
From Verif Require Import Bytes BytesLemmas GoLib GoLibLemmas SdpModel SipText SipTypes SipAppend UtilModel P_Text P_Lists DialogMsg P_DialogMsg DialogModel P_DialogEnd P_Dialog.
Local Open Scope Z_scope.

(** ** What routing and populating keep *)
Definition kept (m m' : msg) : Prop := method m' = method m /\ status m' = status m /\ maxforwards m' = maxforwards m.
Definition hops (m m' : msg) : Prop := method m' = method m /\ status m' = status m /\ ((maxforwards m' = maxforwards m /\ (maxforwards m = 0 -> 0 < status m)) \/ (maxforwards m = 0 /\ maxforwards m' = 70)).
Lemma kept_refl m : kept m m. Proof. repeat split. Qed.
Definition all_ok (P : msg -> Prop) (x : res msg) : Prop := forall m', x = Ok m' -> P m'.
Lemma all_ok_ok (P : msg -> Prop) m : P m -> all_ok P (Ok m). Proof. intros H m' E. injection E as <-. exact H. Qed.
Lemma all_ok_panic (P : msg -> Prop) : all_ok P Panic. Proof. intros m' E. discriminate. Qed.
Lemma all_ok_bind (P R : msg -> Prop) X K : all_ok R X -> (forall x, R x -> all_ok P (K x)) -> all_ok P (rbind X K).
Proof. intros H F m' E. destruct X as [x|]; [|discriminate]. exact (F x (H x eq_refl) m' E). Qed.
Lemma all_ok_bind' {A} (P : msg -> Prop) (X : res A) K : (forall x, all_ok P (K x)) -> all_ok P (rbind X K).
Proof. intros F m' E. destruct X as [x|]; [|discriminate]. exact (F x m' E). Qed.
Ltac kfin := match goal with
  | |- kept _ _ => first [assumption|unfold kept in *; cbn [method status maxforwards set_vias set_addr set_addrs set_callid set_cseq set_cseqmethod set_str set_strs set_maxforwards set_request set_pay]; assumption]
  | |- hops _ _ => first [assumption|unfold hops in *; cbn [method status maxforwards set_vias set_addr set_addrs set_callid set_cseq set_cseqmethod set_str set_strs set_maxforwards set_request set_pay]; assumption] end.
Ltac kleaf := repeat match goal with
  | |- all_ok _ (Ok _) => apply all_ok_ok
  | |- all_ok _ Panic => apply all_ok_panic
  | |- all_ok _ (let x := _ in _) => cbv zeta
  | |- all_ok _ (rbind _ _) => apply all_ok_bind'; intros
  | |- context[match ?x with _ => _ end] => destruct x end; kfin.
Ltac kstep R := match goal with
  | |- all_ok ?P (let x := ?X in @?K x) => let y := fresh "y" in assert (y : R X); [kleaf|change (all_ok P (K X)); cbv beta; generalize dependent X; intros ? y]
  | |- all_ok ?P (rbind ?X ?K) => apply (all_ok_bind P R X K); [kleaf|let x := fresh "x" in let y := fresh "y" in intros x y] end.
Lemma populate_message_hops tv tc m r : all_ok (hops m) (PopulateMessage tv tc m r).
Proof.
  cbv delta [PopulateMessage] beta. destruct (IsResponse m) eqn:IR; [apply Z.ltb_lt in IR; apply all_ok_ok; unfold hops; auto|]. pose proof (kept_refl m) as K0. 
  kstep (kept m). clear K0. kstep (kept m). clear y. kstep (kept m). clear y0. kstep (kept m). clear y. kstep (kept m). clear y0. kstep (kept m). clear y. kstep (kept m). clear y0.
  match goal with |- all_ok ?P (let x := ?X in @?K x) => assert (y0 : hops m X); [|change (all_ok P (K X)); cbv beta; generalize dependent X; intros ? y0] end.
  { destruct y as (A & C & D). unfold hops. destruct (maxforwards _ =? 0) eqn:E; [|rewrite D in *; apply Z.eqb_neq in E; split; [exact A|]; split; [exact C|]; left; split; [reflexivity|contradiction]]. apply Z.eqb_eq in E. cbn [method status maxforwards set_maxforwards]. split; [exact A|]. split; [exact C|]. right. split; [congruence|reflexivity]. }
  clear y. kstep (hops m). clear y0. kstep (hops m). clear y. kleaf.
Qed.
Lemma hops_kept m x m' : kept m x -> hops x m' -> hops m m'.
Proof. intros (A & C & D) (E & F & G). unfold hops. rewrite C, D in G. rewrite E, F, A, C. auto. Qed.
Lemma populate_hops k c w m : all_ok (hops m) (populate k c w m).
Proof.
  cbv delta [populate] beta. pose proof (kept_refl m) as K0. kstep (kept m). clear K0. kstep (kept m). clear y. kstep (kept m). clear y0. kstep (kept m). clear y. kstep (kept m). clear y0.
  intros m' E. exact (hops_kept _ _ _ y (populate_message_hops _ _ _ _ _ E)).
Qed.
Lemma route_kept tv tc m m' x : RouteMessage tv tc m = Ok (m', x) -> kept m m'.
Proof.
  unfold RouteMessage. destruct (IsResponse m).
  - set (y := if via_CompareHostPort tv (vias m) then set_vias (tl (vias m)) m else m). assert (K : kept m y) by (unfold y; destruct (via_CompareHostPort tv (vias m)); repeat split). clearbody y. destruct (vias y) as [|v l]; [discriminate|].
    destruct (param_get (v_param v) (B "rport")) as [[n [|c z]]|]; [|destruct (atoi (c :: z))|]; intros E; injection E as <- _; exact K.
  - set (y := if addr_CompareHostPort tc (addrs m Route) then set_addr Route (tl (addrs m Route)) m else m). assert (K : kept m y) by (unfold y; destruct (addr_CompareHostPort tc (addrs m Route)); repeat split). clearbody y.
    destruct (addrs y Route) as [|r rs]; [destruct (request y); [|discriminate]; cbn [deref rbind]; intros E; injection E as <- _; exact K|].
    destruct (bseq _ _); [intros E; injection E as <- _; exact K|]. destruct (a_uri r) as [u|]; [|discriminate]. cbn [deref rbind]. destruct (param_get _ _); [intros E; injection E as <- _; exact K|].
    destruct (uri_of _) as [q|]; [|discriminate]. cbn [rbind]. destruct q; [|discriminate]. cbn [deref rbind]. intros E. injection E as <- _. exact K.
Qed.

(** ** Counting *)
(** a request which is not ACK, CANCEL or BYE; the only such request of a dialog is its INVITE *)
Definition is_invite (m : msg) : bool := (status m <=? 0) && negb (bseq (method m) (B "ACK")) && negb (bseq (method m) (B "CANCEL")) && negb (bseq (method m) (B "BYE")).
(** the number of INVITEs transmitted to addresses in P *)
Definition invites (P : bytes -> bool) (l : list out) : Z := Z.of_nat (length (filter (fun o => match o with OSend to m _ => P to && is_invite m | _ => false end) l)).
Lemma invites_app P l k : invites P (l ++ k) = invites P l + invites P k.
Proof. unfold invites. rewrite filter_app, app_length. lia. Qed.
Lemma invites_nonneg P l : 0 <= invites P l. Proof. unfold invites. lia. Qed.
Lemma is_invite_kept m m' : method m' = method m -> status m' = status m -> is_invite m' = is_invite m.
Proof. intros A C. unfold is_invite. rewrite A, C. reflexivity. Qed.
Definition count (Q : bytes -> bool) (l : list bytes) : Z := Z.of_nat (length (filter Q l)).

Section Count.
Variable cfg : config.
Variable P Q : bytes -> bool.
Variable life : bool.
Hypothesis dialed : forall n a k, w_dial (c_world cfg n) a = Some k -> P (so_remote k) = true -> Q a = true.
Hypothesis same_text : forall a, P a = true -> Q a = true.
Definition top : Z := Z.max 0 (c_max cfg).
Definition here (s : dstate) : bool := match so s with Some k => P (so_remote k) | None => false end.
(** how often the INVITE can still be transmitted: by addresses and repetitions, or by hops *)
Definition by_address (s : dstate) : Z := match req s with Some _ => 0 | None => (if here s then Z.max 0 (c_max cfg - resends s) else 0) + (top + 1) * count Q (routes s) end.
Definition by_hops (s : dstate) : Z := if maxforwards (invite s) =? 0 then 69 else maxforwards (invite s) - 1.
Definition more (s : dstate) : Z := if life then by_hops s else by_address s.
(** [sound0] holds from the start, [sound] after the INVITE has been populated. *)
Definition sound0 (s : dstate) : Prop := (forall q, req s = Some q -> is_invite q = false) /\ (forall m, response s = Some m -> is_invite m = false) /\ (life = true -> 0 <= maxforwards (invite s)) /\ 0 <= resends s.
Definition fit (m : msg) : Prop := life = true -> maxforwards m = 0 -> is_invite m = false.
Definition sound (s : dstate) : Prop := sound0 s /\ fit (invite s).
Definition rest (r : result) : Z := match r_v r with Cont => more (r_state r) | _ => 0 end.
Definition paid (n : Z) (s : dstate) (r : result) : Prop := (r_v r = Cont -> sound (r_state r)) /\ invites P (r_out r) + rest r <= more s + n.
Definition pays (n : Z) (a : action) : Prop := forall s, sound s -> paid n s (a s).
Lemma count_nonneg l : 0 <= count Q l. Proof. unfold count. lia. Qed.
Lemma more_nonneg0 s : sound0 s -> 0 <= more s.
Proof.
  intros (_ & _ & L & _). unfold more. destruct life; [unfold by_hops; specialize (L eq_refl); destruct (Z.eqb_spec (maxforwards (invite s)) 0); lia|]. unfold by_address. destruct (req s); [lia|]. pose proof (count_nonneg (routes s)). assert (0 <= top) by (unfold top; lia). destruct (here s); nia.
Qed.
Lemma more_nonneg s : sound s -> 0 <= more s. Proof. intros [H _]. apply more_nonneg0. exact H. Qed.
Lemma pays_seq n k a b : pays n a -> pays k b -> 0 <= k -> pays (n + k) (a ;; b).
Proof.
  intros A C K s S. destruct (A s S) as [A1 A2]. unfold paid, seq. cbv zeta. unfold rest in *. destruct (r_v (a s)) eqn:E; [|rewrite E; split; [discriminate|lia]|rewrite E; split; [discriminate|lia]].
  destruct (C _ (A1 eq_refl)) as [C1 C2]. cbn [r_state r_out r_v]. split; [exact C1|]. rewrite invites_app. unfold rest in C2. lia.
Qed.
Lemma pays_seq0 a b : pays 0 a -> pays 0 b -> pays 0 (a ;; b). Proof. intros A C. apply (pays_seq 0 0 a b A C). lia. Qed.
Lemma pays_upd f : (forall s, sound s -> sound (f s) /\ more (f s) <= more s) -> pays 0 (upd f).
Proof. intros H s S. destruct (H s S) as [A C]. split; [intros _; exact A|]. cbn. lia. Qed.
Lemma pays_same f : (forall s, req (f s) = req s /\ response (f s) = response s /\ invite (f s) = invite s /\ resends (f s) = resends s /\ so (f s) = so s /\ routes (f s) = routes s) -> pays 0 (upd f).
Proof.
  intros H. apply pays_upd. intros s S. destruct (H s) as (A & C & D & E & F & G). split; [unfold sound, sound0 in *; rewrite A, C, D, E; exact S|].
  unfold more, by_hops, by_address, here. rewrite A, D, E, F, G. lia.
Qed.
Lemma pays_stop r n s : sound s -> r_state r = s -> r_v r <> Cont -> (forall to m t, ~ In (OSend to m t) (r_out r)) -> 0 <= n -> paid n s r.
Proof.
  intros S E V O N. split; [congruence|]. pose proof (more_nonneg s S). unfold rest. destruct (r_v r); [congruence| |]; assert (invites P (r_out r) = 0) as ->; try lia;
  (unfold invites; induction (r_out r) as [|o l IH]; [reflexivity|]; cbn [filter]; destruct o; try (apply IH; intros to m t I; apply (O to m t); right; exact I); exfalso; apply (O to m text); left; reflexivity).
Qed.
Lemma pays_crash n : 0 <= n -> pays n crash. Proof. intros N s S. apply pays_stop; [exact S|reflexivity|discriminate|intros ? ? ? []|exact N]. Qed.
Lemma pays_fail n e : 0 <= n -> pays n (fail e). Proof. intros N s S. apply pays_stop; [exact S|reflexivity|discriminate|intros ? ? ? [H|[]]; discriminate|exact N]. Qed.
Lemma pays_halt n : 0 <= n -> pays n halt. Proof. intros N s S. apply pays_stop; [exact S|reflexivity|discriminate|intros ? ? ? []|exact N]. Qed.
Lemma pays_emit o : (forall to m t, o <> OSend to m t) -> pays 0 (emit o).
Proof. intros H s S. split; [intros _; exact S|]. cbn [r_state r_out r_v emit rest]. unfold invites. cbn [filter]. destruct o; cbn; try lia. destruct (H to m text eq_refl). Qed.
Lemma pays_look {A} n (f : dstate -> A) k : (forall x, pays n (k x)) -> pays n (look f k). Proof. intros H s. apply H. Qed.
Lemma pays_val {A} n (x : res A) k : 0 <= n -> (forall a, x = Ok a -> pays n (k a)) -> pays n (val x k). Proof. intros N H. destruct x; [apply H; reflexivity|apply pays_crash; exact N]. Qed.
Lemma sound_clock n s : sound s -> sound (set_clock n s). Proof. exact (fun H => H). Qed.
Lemma pays_ask n k : (forall j, pays n (k (c_world cfg j))) -> pays n (ask cfg k). Proof. intros H s S. exact (H (clock s) (set_clock (Datatypes.S (clock s)) s) S). Qed.
Lemma lowered_invite m : is_invite (lowered m) = is_invite m. Proof. unfold lowered. destruct (0 <? maxforwards m); reflexivity. Qed.
(** sending something other than the INVITE *)
Lemma pays_other m keep : is_invite m = false -> (forall s m', is_invite m' = false -> sound s -> sound (keep m' s) /\ more (keep m' s) <= more s) -> pays 0 (send cfg m keep).
Proof.
  intros I K s S. rewrite send_eq. cbv zeta. pose proof (K s (lowered m) ltac:(rewrite lowered_invite; exact I) S) as [S1 M1]. set (s1 := keep (lowered m) s) in *. clearbody s1. pose proof (more_nonneg s S) as N.
  destruct (maxforwards m =? 1); [split; [discriminate|]; cbn; lia|]. destruct (addTimestamp _ _) as [m2|] eqn:E; [|split; [discriminate|]; cbn; lia]. assert (I2 : is_invite m2 = false) by (apply stamp_ok in E; destruct E as [v ->]; change (is_invite (set_vias v (lowered m))) with (is_invite (lowered m)); rewrite lowered_invite; exact I).
  pose proof (K (set_clock (Datatypes.S (clock s1)) s1) m2 I2 S1) as [S2 M2]. set (s2 := keep m2 _) in *. clearbody s2. change (more (set_clock (Datatypes.S (clock s1)) s1)) with (more s1) in M2.
  destruct (so s2) as [k|]; [|split; [discriminate|]; cbn; lia]. destruct (w_write _ _); (split; [intros _; exact S2|]); cbn [r_out rest r_v r_state]; unfold invites; cbn [filter]; rewrite ?I2, ?andb_false_r; cbn; lia.
Qed.
Lemma pays_drop m : is_invite m = false -> pays 0 (send cfg m drop). Proof. intros I. apply pays_other; [exact I|]. intros s m' _ S. split; [exact S|apply Z.le_refl]. Qed.
Lemma pays_keep m : is_invite m = false -> pays 0 (send cfg m keep_response).
Proof. intros I. apply pays_other; [exact I|]. intros s m' I' S. split; [|apply Z.le_refl]. destruct S as ((A & C & D & E) & F). split; [|exact F]. split; [exact A|]. split; [|split; assumption]. intros x H. injection H as <-. exact I'. Qed.
Lemma pays_sdp m : pays 0 (checkSDP m).
Proof. unfold checkSDP. destruct (pay m) as [[|d]|]; try (apply pays_same; intros; repeat split; reflexivity). destruct (s_audio d); [apply pays_emit; discriminate|apply pays_crash; lia]. Qed.
(** sending the current request: its outcome *)
Lemma send_request_out m s : sound0 s -> (req s <> None -> fit (invite s)) -> (req s <> None -> is_invite m = false) -> (req s = None -> life = true -> 0 <= maxforwards m) -> (req s = None -> fit m) -> let r := send cfg m set_the_request s in
  ((r_v r <> Cont /\ invites P (r_out r) = 0) \/
    (r_v r = Cont /\ sound (r_state r) /\ invites P (r_out r) <= (if req s then 0 else if here s && is_invite m then 1 else 0) /\ routes (r_state r) = routes s /\ resends (r_state r) = resends s /\ so (r_state r) = so s /\
      match req s with Some _ => req (r_state r) <> None /\ invite (r_state r) = invite s | None => req (r_state r) = None /\ maxforwards (invite (r_state r)) = maxforwards (lowered m) end /\ maxforwards m <> 1)).
Proof.
  intros S HF HI HL HM. cbv zeta. rewrite send_eq. cbv zeta. assert (SR : forall x s, sound0 s -> (req s <> None -> fit (invite s)) -> (req s <> None -> is_invite x = false) -> (req s = None -> life = true -> 0 <= maxforwards x) -> (req s = None -> fit x) -> sound (set_the_request x s)).
  { intros x y (A & C & D & E) F0 F G H. unfold set_the_request. destruct (req y) eqn:R; (split; [split; [|split; [|split]]|]); cbn; try assumption; [|apply F0; discriminate|congruence|exact (G eq_refl)|exact (H eq_refl)]. intros q Hq. injection Hq as <-. apply F. congruence. }
  assert (ML : req s = None -> life = true -> 0 <= maxforwards (lowered m)). { intros RN L. specialize (HL RN L). unfold lowered. destruct (Z.ltb_spec 0 (maxforwards m)); cbn [maxforwards set_maxforwards]; lia. }
  destruct (Z.eqb_spec (maxforwards m) 1) as [E1|E1]; [left; split; [discriminate|reflexivity]|].
   assert (MM : req s = None -> fit (lowered m)). { intros RN L. rewrite lowered_invite. specialize (HL RN L). unfold lowered. destruct (Z.ltb_spec 0 (maxforwards m)); cbn [maxforwards set_maxforwards]; [lia|exact (HM RN L)]. }
  assert (S1 : sound (set_the_request (lowered m) s)) by (apply SR; [exact S|exact HF|rewrite lowered_invite; exact HI|exact ML|exact MM]).
  destruct (addTimestamp _ _) as [m2|] eqn:E; [|left; split; [discriminate|reflexivity]].
  apply stamp_ok in E. destruct E as [v ->]. set (s1 := set_clock _ _). assert (R1 : req s1 = None <-> req s = None) by (unfold s1, set_the_request; destruct (req s) eqn:R; cbn; [split; discriminate|rewrite R; tauto]).
  assert (S2 : sound (set_the_request (set_vias v (lowered m)) s1)). { apply SR; [exact (proj1 S1)|intros _; exact (proj2 S1)| |intros R; apply ML, R1, R|intros R; exact (MM (proj1 R1 R))]. intros R. change (is_invite (set_vias v (lowered m))) with (is_invite (lowered m)). rewrite lowered_invite. apply HI. tauto. }
  assert (F : so (set_the_request (set_vias v (lowered m)) s1) = so s) by (unfold s1, set_the_request; destruct (req s) eqn:R; cbn; rewrite ?R; reflexivity). rewrite F. destruct (so s) as [k|] eqn:K; [|left; split; [discriminate|reflexivity]].
  destruct (w_write _ _); [|left; split; [discriminate|reflexivity]]. right. cbn [r_state r_v r_out]. split; [reflexivity|]. split; [exact S2|].
  split.
  { unfold invites, here. rewrite K. cbn [filter]. change (is_invite (set_vias v (lowered m))) with (is_invite (lowered m)). rewrite lowered_invite. destruct (req s) eqn:R; [rewrite HI by discriminate; rewrite andb_false_r; cbn; lia|]. destruct (P (so_remote k)); cbn [andb]; [destruct (is_invite m)|]; cbn; lia. }
  unfold s1, set_the_request. destruct (req s) eqn:R; cbn; rewrite ?R, ?K; cbn; repeat split; try discriminate; assumption.
Qed.
Lemma connect_facts j s : let s1 := fst (connect cfg (c_world cfg j) s) in req s1 = req s /\ response s1 = response s /\ invite s1 = invite s /\ resends s1 = resends s /\ routes s1 = routes s /\
  (snd (connect cfg (c_world cfg j) s) = true -> here s1 = true -> Q (daddr s) = true).
Proof.
  unfold connect. destruct (match so s with Some k => _ | None => _ end) eqn:E.
  - repeat split. intros _. unfold here. cbn [fst]. destruct (so s) as [k|]; [|discriminate]. destruct (bseq_reflect (daddr s) (so_remote k)) as [->|]; [|discriminate]. apply same_text.
  - cbv zeta. change (daddr (set_so None s)) with (daddr s). destruct (w_dial _ _) as [k|] eqn:D; [|repeat split; discriminate].
    assert (G : here (set_so (Some k) (set_so None s)) = true -> Q (daddr s) = true) by exact (dialed _ _ _ D). destruct (cso _); [repeat split; intros _; exact G|]. destruct (c_loose cfg); [|repeat split; intros _; exact G].
    destruct (w_listen _); [repeat split; intros _; exact G|repeat split; discriminate].
Qed.
Definition before (rs : list bytes) (s : dstate) : Z := if life then by_hops s else match req s with Some _ => 0 | None => (top + 1) * count Q rs end.
Lemma top_nonneg : 0 <= top. Proof. unfold top. lia. Qed.
Lemma before_nonneg rs s : sound0 s -> 0 <= before rs s.
Proof. intros S. unfold before. destruct life eqn:L; [pose proof (more_nonneg0 s S) as H; unfold more in H; rewrite L in H; exact H|]. destruct (req s); [lia|]. pose proof (count_nonneg rs). pose proof top_nonneg. nia. Qed.
Lemma count_cons a rs : count Q (a :: rs) = (if Q a then 1 else 0) + count Q rs. Proof. unfold count. cbn [filter]. destruct (Q a); cbn [length]; lia. Qed.
Lemma pop_pays rs : forall s, sound0 s -> (req s <> None -> fit (invite s)) -> (r_v (pop_route cfg rs s) = Cont -> sound (r_state (pop_route cfg rs s))) /\ invites P (r_out (pop_route cfg rs s)) + rest (pop_route cfg rs s) <= before rs s.
Proof.
  induction rs as [|a rs IH]; intros s S SF; cbn [pop_route].
  { rewrite upd_seq. unfold look. split; [discriminate|]. pose proof (before_nonneg [] s S). cbn. lia. }
  rewrite upd_seq, upd_seq. unfold ask. match goal with |- context[clock ?x] => set (s0 := x) end. assert (S0 : sound0 s0) by exact S. set (j := clock s0). set (s0' := set_clock _ s0).
  pose proof (connect_facts j s0') as (C1 & C2 & C3 & C4 & C5 & C6). destruct (connect cfg (c_world cfg j) s0') as [s1 ok]. cbn [fst snd] in *.
  change (req s0') with (req s) in C1. change (response s0') with (response s) in C2. change (invite s0') with (invite s) in C3. change (resends s0') with (resends s) in C4. change (routes s0') with rs in C5. change (daddr s0') with a in C6. clearbody s0' j. clear s0 S0.
  assert (S1 : sound0 s1) by (unfold sound0 in *; rewrite C1, C2, C3, C4; exact S). assert (SF1 : req s1 <> None -> fit (invite s1)) by (rewrite C1, C3; exact SF). assert (BM : before rs s1 <= before (a :: rs) s).
  { unfold before, by_hops. rewrite C1, C3. destruct life; [lia|]. destruct (req s); [lia|]. rewrite count_cons. pose proof top_nonneg. destruct (Q a); nia. }
  destruct ok; cbn [negb]; [|specialize (IH s1 S1 SF1); destruct IH as [I1 I2]; split; [exact I1|lia]]. specialize (C6 eq_refl). clear IH.
  pose proof (before_nonneg (a :: rs) s S) as NN. destruct (so s1) as [k|] eqn:K; [|split; [discriminate|cbn; lia]]. destruct (populate _ _ _ _) as [m|] eqn:PO; [|split; [discriminate|cbn; lia]]. cbn [val].
  apply populate_hops in PO. destruct PO as (PM & PS & PF). rewrite upd_seq.
  set (s2 := set_the_request m s1). set (LK := look st _).
  assert (X : exists s3, (LK ;; upd (set_resends 0) ;; upd (set_rtimer true) ;; send cfg m set_the_request) s2 = send cfg m set_the_request s3 /\ req s3 = req s2 /\ response s3 = response s2 /\ invite s3 = invite s2 /\ resends s3 = 0 /\ routes s3 = routes s2 /\ so s3 = so s2).
  { assert (G : exists s3, LK s2 = go s3 /\ req s3 = req s2 /\ response s3 = response s2 /\ invite s3 = invite s2 /\ routes s3 = routes s2 /\ so s3 = so s2) by (unfold LK, look; destruct (st s2 <? Answered); eexists; (split; [reflexivity|]); repeat split; reflexivity).
    destruct G as (s3 & G & G1 & G2 & G3 & G4 & G5). rewrite (seq_go _ _ _ _ G), !upd_seq. eexists. split; [reflexivity|]. repeat split; assumption. }
  clearbody LK. destruct X as (s3 & -> & X1 & X2 & X3 & X4 & X5 & X6).
  assert (IM : req s3 <> None -> is_invite m = false). { intros R. rewrite (is_invite_kept (the_request s1) m PM PS). rewrite X1 in R. unfold s2, set_the_request in R. unfold the_request. destruct (req s1) as [q|] eqn:RQ; [|cbn in R; congruence]. exact (proj1 S1 _ RQ). }
  assert (ML : req s1 = None -> life = true -> 0 < maxforwards m \/ (maxforwards m = 0 /\ maxforwards (invite s1) = 0 /\ is_invite m = false)).
  { intros R L. destruct S1 as (_ & _ & F & _). specialize (F L). unfold the_request in PF, PS. rewrite R in PF, PS. destruct PF as [[PF1 PF2]|PF]; [|lia]. destruct (Z.eq_dec (maxforwards (invite s1)) 0) as [ZE|]; [|lia]. right. split; [congruence|]. split; [exact ZE|]. specialize (PF2 ZE). unfold is_invite. destruct (Z.leb_spec (status m) 0); [lia|reflexivity]. }
  assert (S3 : sound0 s3). { unfold sound0. rewrite X1, X2, X3, X4. unfold s2, set_the_request. unfold s2, set_the_request in X1. destruct S1 as (F1 & F2 & F3 & F4). destruct (req s1) as [q|] eqn:RQ; cbn; (split; [|split; [exact F2|split; [|lia]]]).
    - intros x E. injection E as <-. apply IM. rewrite X1. discriminate.
    - exact F3.
    - intros x E; congruence.
    - intros L. destruct (ML eq_refl L) as [G|(G1 & G2 & G3)]; lia. }
  assert (HL : req s3 = None -> life = true -> 0 <= maxforwards m). { intros R L. rewrite X1 in R. unfold s2, set_the_request in R. destruct (req s1) eqn:RQ; [discriminate|]. specialize (ML eq_refl L). lia. }
  assert (HM : req s3 = None -> fit m). { intros R L E0. rewrite X1 in R. unfold s2, set_the_request in R. destruct (req s1) eqn:RQ; [discriminate|]. destruct (ML eq_refl L) as [G|(_ & _ & G)]; [lia|exact G]. }
  assert (HF : req s3 <> None -> fit (invite s3)). { intros R. rewrite X1 in R. rewrite X3. unfold s2, set_the_request in *. destruct (req s1) eqn:RQ; [apply SF1; discriminate|cbn in R; congruence]. }
  pose proof (send_request_out m s3 S3 HF IM HL HM) as Z2. unfold rest. destruct Z2 as [[Z2 Z3]|(Z2 & Z1 & Z3 & Z4 & Z5 & Z6 & Z7 & Z8)]; [split; [congruence|]; destruct (r_v _); [congruence| |]; rewrite Z3; lia|]. split; [intros _; exact Z1|]. rewrite Z2.
  set (r0 := send cfg m set_the_request s3) in *. clearbody r0. clear LK. set (s4 := r_state r0) in *. clearbody s4. unfold more, by_hops, by_address, before, here in *. rewrite Z4, Z5, Z6, X4. rewrite X1, X6 in Z3. rewrite X1, X3 in Z7. unfold by_hops. rewrite X5, X6. unfold s2, set_the_request in *. destruct (req s1) as [q|] eqn:RQ; cbn in *; rewrite <- C1.
  - destruct Z7 as [Z7 Z7']. rewrite Z7', C3. destruct life; [lia|]. destruct (req s4); [lia|congruence].
  - rewrite RQ in Z7. destruct Z7 as [Z7 Z7']. rewrite Z7, Z7', K in *. rewrite RQ in Z3. destruct life.
    + specialize (ML eq_refl eq_refl). unfold the_request in PF. rewrite RQ, C3 in PF. destruct ML as [ML|(ML1 & ML2 & ML3)].
      * unfold lowered. destruct (Z.ltb_spec 0 (maxforwards m)); [|lia]. cbn [maxforwards set_maxforwards]. destruct (Z.eqb_spec (maxforwards m - 1) 0); [lia|]. 
destruct (P (so_remote k) && is_invite m); destruct (Z.eqb_spec (maxforwards (invite s)) 0); lia.
      * rewrite (lowered_zero m ML1), ML1, <- C3, ML2. rewrite ML3, andb_false_r in Z3. cbn. lia.
    + rewrite C5, count_cons. rewrite Z.sub_0_r. fold top. pose proof top_nonneg. pose proof (count_nonneg rs). destruct (P (so_remote k)); [rewrite (C6 eq_refl); destruct (is_invite m)|destruct (Q a)]; cbn [andb] in Z3; lia.
Qed.
Lemma pays_popRoute : pays 0 (popRoute cfg).
Proof.
  intros s S. unfold popRoute, look. destruct (pop_pays (routes s) s (proj1 S) (fun _ => proj2 S)) as [A C]. split; [exact A|]. enough (before (routes s) s <= more s) by lia. unfold before, more, by_address. destruct life; [lia|]. destruct (req s); [lia|]. destruct (here s); lia.
Qed.
Variable N : Z.
Hypothesis candidates : life = false -> forall j host port b rs, RouteAddress (w_dns (c_world cfg j)) host port b = Some rs -> count Q rs <= N.
Hypothesis Npos : 0 <= N.
(** what one lookup for the INVITE costs *)
Definition lookup : Z := if life then 0 else (top + 1) * N.
Lemma lookup_nonneg : 0 <= lookup. Proof. unfold lookup. pose proof top_nonneg. destruct life; nia. Qed.
Lemma pays_more n k a : pays n a -> n <= k -> pays k a. Proof. intros A L s S. destruct (A s S) as [A1 A2]. split; [exact A1|lia]. Qed.
Lemma fit_kept m m' : kept m m' -> fit m -> fit m'.
Proof. intros (A & C & D) F L. rewrite D, (is_invite_kept _ _ A C). exact (F L). Qed.
Lemma start_pays s : sound0 s -> paid lookup s (sendRequest cfg None s).
Proof.
  intros S. pose proof (more_nonneg0 s S) as NN. unfold sendRequest, look at 1. assert (STOP : forall r s', more s' = more s -> r_v r <> Cont -> invites P (r_out r) = 0 -> paid lookup s r) by (intros r s' _ V O; split; [congruence|]; pose proof lookup_nonneg; unfold rest; destruct (r_v r); [congruence| |]; lia).
  destruct (RouteMessage [] [] (invite s)) as [[m r]|] eqn:E; [|apply (STOP _ s); [reflexivity|discriminate|reflexivity]]. cbn [val]. apply route_kept in E. pose proof E as (_ & _ & MF). rewrite upd_seq. set (s1 := set_invite m s).
  destruct r as [[host port]|e]; [|apply (STOP _ s); [reflexivity|discriminate|reflexivity]]. unfold ask, look. destruct (RouteAddress _ _ _ _) as [rs|] eqn:RA; [|apply (STOP _ s); [reflexivity|discriminate|reflexivity]]. pose proof (fun L => candidates L _ _ _ _ _ RA) as RB. rewrite !upd_seq. unfold popRoute, look. cbn [routes set_dest set_routes set_req].
  set (s2 := set_dest _ _). assert (S2 : sound0 s2) by (destruct S as (A & C & D & F); split; [cbn; congruence|split; [exact C|split; [cbn; rewrite MF; exact D|exact F]]]). destruct (pop_pays rs s2 S2) as [Z1 Z2]; [intros H; cbn in H; congruence|]. split; [exact Z1|]. enough (before rs s2 <= more s + lookup) by lia.
  assert (BH : by_hops s2 = by_hops s) by (unfold by_hops; cbn; rewrite MF; reflexivity). unfold before, lookup, more in *. rewrite BH. destruct life; [lia|]. specialize (RB eq_refl). cbn. pose proof top_nonneg. nia.
Qed.
Lemma pays_sendInvite : pays lookup (sendRequest cfg None). Proof. intros s [S _]. apply start_pays. exact S. Qed.
Lemma pays_sendOther m0 : is_invite m0 = false -> pays 0 (sendRequest cfg (Some m0)).
Proof.
  intros I s S. unfold sendRequest, look at 1. destruct (RouteMessage [] [] m0) as [[m r]|] eqn:E; [|exact (pays_crash 0 (Z.le_refl 0) s S)]. cbn [val]. apply route_kept in E. destruct E as (KM & KS & _). rewrite <- (is_invite_kept _ _ KM KS) in I. clear KM KS m0. rewrite upd_seq.
  destruct r as [[host port]|e]; [|exact (pays_fail 0 _ (Z.le_refl 0) s S)]. revert s S. apply pays_ask. intros j. apply pays_look. intros n s S. destruct (RouteAddress _ _ _ _) as [rs|] eqn:E; [|exact (pays_fail 0 _ (Z.le_refl 0) s S)]. rewrite !upd_seq. unfold popRoute, look. cbn [routes set_dest set_routes set_req].
  set (s1 := set_dest _ _). assert (S1 : sound0 s1). { destruct S as ((A & C & D & F) & _). split; [|split; [exact C|split; [exact D|exact F]]]. cbn. intros q H. injection H as <-. exact I. } destruct (pop_pays rs s1 S1 (fun _ => proj2 S)) as [Z1 Z2]. split; [exact Z1|]. pose proof (more_nonneg s S). enough (before rs s1 <= more s) by lia.
  unfold before, more in *. change (by_hops s1) with (by_hops s). destruct life; [lia|]. cbn. lia.
Qed.
Lemma pays_invite_vias v : pays 0 (upd (fun s => set_invite (set_vias v (invite s)) s)).
Proof. apply pays_upd. intros s S. split; [exact S|apply Z.le_refl]. Qed.
Lemma pays_routes : pays 0 (upd (set_routes [])).
Proof.
  apply pays_upd. intros s S. split; [exact S|]. pose proof (more_nonneg s S) as H. unfold more in *. destruct life; [apply Z.le_refl|]. unfold by_address in *. cbn [req routes set_routes]. destruct (req s); [lia|]. change (here (set_routes [] s)) with (here s). change (resends (set_routes [] s)) with (resends s).
  change (count Q []) with 0. pose proof (count_nonneg (routes s)). pose proof top_nonneg. nia.
Qed.
Lemma pays_resend : pays 0 (resendRequest cfg).
Proof.
  intros s S. unfold resendRequest, look at 1. destruct (Z.ltb_spec (resends s) (c_max cfg)) as [L|L]; [|unfold look at 1; destruct (so s); [exact (pays_popRoute s S)|exact (pays_crash 0 (Z.le_refl 0) s S)]].
  change (paid 0 s ((send cfg (the_request s) set_the_request ;; upd (set_resends (resends s + 1)) ;; upd (set_rtimer true)) s)).
  assert (HI : req s <> None -> is_invite (the_request s) = false). { unfold the_request. destruct (req s) eqn:R; [|congruence]. intros _. exact (proj1 (proj1 S) _ R). }
  assert (HL : req s = None -> life = true -> 0 <= maxforwards (the_request s)). { unfold the_request. intros ->. apply (proj1 S). }
  assert (HM : req s = None -> fit (the_request s)). { unfold the_request. intros ->. exact (proj2 S). }
  pose proof (send_request_out (the_request s) s (proj1 S) (fun _ => proj2 S) HI HL HM) as Z2. assert (MF : req s = None -> the_request s = invite s) by (unfold the_request; intros ->; reflexivity). pose proof (more_nonneg s S) as NN. unfold paid, seq. cbv zeta. set (r0 := send cfg _ _ s) in *. clearbody r0.
  destruct Z2 as [[Z2 Z3]|(Z2 & Z1 & Z3 & Z4 & Z5 & Z6 & Z7 & Z8)].
  { destruct (r_v r0) eqn:V; [congruence| |]; (split; [congruence|]); unfold rest; rewrite V, Z3; lia. }
  rewrite Z2. cbn [upd go r_v r_state r_out rest]. set (s1 := r_state r0) in *. clearbody s1. rewrite !app_nil_r. split.
  { intros _. destruct Z1 as ((A & C & D & F) & G). split; [|exact G]. split; [exact A|split; [exact C|split; [exact D|]]]. cbn. destruct S as ((_ & _ & _ & F0) & _). lia. }
  unfold more in *. destruct life eqn:LF.
  - unfold by_hops in *. cbn [invite set_rtimer set_resends]. destruct (req s) eqn:R; [destruct Z7 as [_ ->]; lia|]. destruct Z7 as [_ ->]. specialize (HL eq_refl eq_refl). rewrite (MF eq_refl) in *. unfold lowered. destruct (Z.ltb_spec 0 (maxforwards (invite s))) as [PL|PL].
    + cbn [maxforwards set_maxforwards]. destruct (Z.eqb_spec (maxforwards (invite s) - 1) 0); [lia|]. destruct (Z.eqb_spec (maxforwards (invite s)) 0); [lia|]. destruct (here s && is_invite (invite s)); lia.
    + assert (ZE : maxforwards (invite s) = 0) by lia. rewrite (proj2 S LF ZE), andb_false_r in Z3. lia.
  - unfold by_address in *. change (here (set_rtimer true (set_resends (resends s + 1) s1))) with (here s1). cbn [req routes resends set_rtimer set_resends]. unfold here in *. rewrite Z4, Z6. destruct (req s) eqn:R; [destruct (req s1); [lia|destruct Z7; congruence]|]. destruct Z7 as [-> _]. destruct (so s) as [k|]; [destruct (P (so_remote k))|]; [destruct (is_invite (the_request s)) | |]; cbn [andb] in Z3; lia.
Qed.
Lemma pays_set_response m : is_invite m = false -> pays 0 (upd (set_response (Some m))).
Proof. intros I. apply pays_upd. intros s S. split; [|apply Z.le_refl]. destruct S as ((A & C & D & E) & F). split; [|exact F]. split; [exact A|]. split; [|split; assumption]. intros x H. injection H as <-. exact I. Qed.
Lemma pays_no_response : pays 0 (upd (set_response None)).
Proof. apply pays_upd. intros s S. split; [|apply Z.le_refl]. destruct S as ((A & C & D & E) & F). split; [|exact F]. split; [exact A|]. split; [discriminate|split; assumption]. Qed.
Ltac py1 := match goal with
  | |- pays _ (upd (set_response None)) => apply pays_no_response
  | |- pays _ (upd (set_response (Some _))) => apply pays_set_response; reflexivity
  | |- pays _ (send _ (NewResponse _ _) keep_response) => apply pays_keep; reflexivity
  | |- pays _ (upd (set_routes [])) => apply pays_routes
  | |- pays _ (upd _) => apply pays_same; intros; repeat split; reflexivity
  | |- pays _ crash => apply pays_crash; lia
  | |- pays _ halt => apply pays_halt; lia
  | |- pays _ (fail _) => apply pays_fail; lia
  | |- pays _ (emit _) => apply pays_emit; discriminate
  | |- pays _ (send _ (NewResponse _ _) drop) => apply pays_drop; reflexivity
  | |- pays _ (checkSDP _) => apply pays_sdp
  | |- pays _ (popRoute _) => apply pays_popRoute
  | |- pays _ (look _ _) => apply pays_look; intros
  | |- pays _ (val _ _) => apply pays_val; [lia|intros]
  | |- pays _ (_ ;; _) => apply pays_seq0
  | |- pays _ (transition _) => unfold transition
  | |- pays _ (if ?b then _ else _) => destruct b
  | |- pays _ (match ?x with _ => _ end) => destruct x end.
Lemma ack_not_invite m q a : NewAck m q = Ok a -> is_invite a = false.
Proof. unfold NewAck. destruct (uri_of _); [|discriminate]. cbn [rbind]. destruct (via_Detach _); [|discriminate]. cbn [rbind]. intros E. injection E as <-. reflexivity. Qed.
Lemma bye_not_invite i r q a n : NewBye i r q = Ok (a, n) -> is_invite a = false.
Proof. unfold NewBye. destruct (uri_of _); [|discriminate]. cbn [rbind]. intros E. injection E as <- _. reflexivity. Qed.
(** redirects: the responses 301 and 302 *)
Definition redirect (m : msg) : bool := (status m =? 301) || (status m =? 302).
Definition costs (e : event) : Z := match e with EMsg m => if redirect m then lookup else 0 | _ => 0 end.
Lemma pays_response m : pays (if redirect m then lookup else 0) (handleResponse cfg m).
Proof.
  pose proof lookup_nonneg as LN. assert (CN : 0 <= if redirect m then lookup else 0) by (destruct (redirect m); lia). unfold handleResponse. apply pays_look. intros q. destruct (negb _); [apply (pays_more 0); [py1|exact CN]|].
  assert (PRE : forall a b, pays 0 a -> pays (if redirect m then lookup else 0) b -> pays (if redirect m then lookup else 0) (a ;; b)) by (intros a b A C; apply (pays_seq 0 _ a b A C CN)).
  apply PRE. { repeat py1. apply pays_drop. eapply ack_not_invite; eassumption. } apply PRE; [py1|]. apply PRE; [py1|]. apply PRE; [repeat py1|]. clear PRE.
  destruct (status m =? 100); [apply (pays_more 0); [repeat py1|exact CN]|]. destruct (_ || _); [apply (pays_more 0); [repeat py1|exact CN]|]. destruct (status m =? 200); [apply (pays_more 0); [repeat py1|exact CN]|]. destruct (status m =? 503); [apply (pays_more 0); [repeat py1|exact CN]|].
  fold (redirect m). destruct (redirect m); [|repeat py1]. apply pays_val; [exact CN|]. intros u _. apply (pays_seq 0 lookup); [|apply pays_sendInvite|exact LN]. apply pays_upd. intros s S. split; [exact S|apply Z.le_refl].
Qed.
Lemma pays_handle e : pays (costs e) (handle cfg e).
Proof.
  destruct e as [[|]| | | |m|]; cbn [handle costs].
  - apply pays_seq0; [|repeat py1]. apply pays_upd. intros s S. split; [exact S|]. pose proof (more_nonneg s S) as H. unfold more in *. destruct life; [apply Z.le_refl|]. unfold by_address in *. change (req (set_so None s)) with (req s). change (here (set_so None s)) with false. change (routes (set_so None s)) with (routes s). destruct (req s); [lia|]. destruct (here s); lia.
  - apply pays_seq0; [|repeat py1]. apply pays_upd. intros s S. split; [exact S|]. pose proof (more_nonneg s S) as H. unfold more in *. destruct life; [apply Z.le_refl|]. unfold by_address in *. change (req (set_so None s)) with (req s). change (here (set_so None s)) with false. change (routes (set_so None s)) with (routes s). destruct (req s); [lia|]. destruct (here s); lia.
  - repeat py1.
  - apply pays_seq0; [py1|apply pays_resend].
  - apply pays_seq0; [py1|]. unfold resendResponse. intros s S. unfold look at 1. destruct (response s) as [m|] eqn:R; [|revert s S R; assert (T : pays 0 (upd (fun s => s))) by py1; intros; apply T; assumption].
    assert (I : is_invite m = false) by (apply (proj1 S); exact R). revert s S R. assert (T : pays 0 (look rspresends (fun n => if n <? c_max cfg then send cfg m keep_response ;; upd (set_rspresends (n + 1)) ;; upd (set_rsptimer true) else look so (fun k => match k with Some _ => popRoute cfg | None => crash end)))).
    { apply pays_look. intros n. destruct (n <? c_max cfg); [|repeat py1]. apply pays_seq0; [apply pays_keep; exact I|repeat py1]. } intros; apply T; assumption.
  - pose proof lookup_nonneg as LN. assert (CN : 0 <= if redirect m then lookup else 0) by (destruct (redirect m); lia). unfold handleMessage. destruct (_ || _); [apply (pays_more 0); [repeat py1|exact CN]|]. apply pays_look. intros q. destruct (negb _); [apply (pays_more 0); [repeat py1|exact CN]|]. destruct (IsResponse m); [apply pays_response|]. apply (pays_more 0); [|exact CN].
    unfold handleRequest, sendResponse. repeat py1.
  - unfold sendHangup. apply pays_look. intros n. destruct (_ || _).
    + intros s S. unfold look. revert S. generalize (NewCancel (invite s)) (eq_refl : is_invite (NewCancel (invite s)) = false). intros c I. apply pays_other; [exact I|]. intros y m' _ Y. split; [exact Y|apply Z.le_refl].
    + destruct (n =? Answered); [|repeat py1]. apply pays_look. intros s0. destruct (remote s0) as [rm|]; [|py1]. apply pays_val; [lia|]. intros [bye k] E. apply pays_seq0; [py1|]. apply pays_sendOther. eapply bye_not_invite. exact E.
Qed.
Fixpoint redirects (es : list event) : Z := match es with [] => 0 | EMsg m :: l => (if redirect m then 1 else 0) + redirects l | _ :: l => redirects l end.
Lemma run_pays r es r' : run cfg r es r' -> (r_v r = Cont -> sound (r_state r)) -> invites P (r_out r') + rest r' <= invites P (r_out r) + rest r + lookup * redirects es.
Proof.
  induction 1 as [r|r e es r' V E R IH]; intros S; [cbn [redirects]; lia|]. specialize (S V). destruct (pays_handle e (r_state r) S) as [H1 H2]. specialize (IH H1). cbn [r_out] in IH. rewrite invites_app in IH.
  replace (rest r) with (more (r_state r)) by (unfold rest; rewrite V; reflexivity). match type of IH with _ <= _ + rest ?x + _ => change (rest x) with (rest (handle cfg e (r_state r))) in IH end.
  assert (C : costs e + lookup * redirects es = lookup * redirects (e :: es)). { destruct e; cbn [costs redirects]; try lia. destruct (redirect m); lia. } lia.
Qed.
Theorem dialog_pays m es r : (life = true -> 0 <= maxforwards m) -> dialog cfg m es r -> invites P (r_out r) <= more (init m) + lookup * (1 + redirects es).
Proof.
  intros M D. assert (S0 : sound0 (init m)) by (split; [discriminate|split; [discriminate|split; [exact M|cbn; lia]]]). destruct (start_pays _ S0) as [A C]. pose proof (run_pays _ _ _ D A) as H. change (sendRequest cfg None (init m)) with (start cfg m) in C.
  assert (0 <= rest r). { clear - D S0 Npos dialed same_text candidates A. unfold rest. destruct (r_v r) eqn:V; try lia. apply more_nonneg. revert V. change (sendRequest cfg None (init m)) with (start cfg m) in A. induction D as [r|r e es r' V E R IH]; [exact A|]. apply IH. cbn [r_v r_state]. apply (pays_handle e (r_state r) (A V)). }
  lia.
Qed.
End Count.
(** ** Over its life *)
(** The INVITE is transmitted at most as often as its Max-Forwards allows (70 if the application gave none), whatever arrives. *)
Theorem invite_life_bounded : forall cfg m es r, 0 <= maxforwards m -> dialog cfg m es r ->
  invites (fun _ => true) (r_out r) <= (if maxforwards m =? 0 then 70 else maxforwards m) - 1.
Proof.
  intros cfg m es r M D. pose proof (dialog_pays cfg (fun _ => true) (fun _ => true) true (fun _ _ _ _ _ => eq_refl) (fun _ _ => eq_refl) 0 ltac:(discriminate) (Z.le_refl 0) m es r (fun _ => M) D) as H.
  unfold more, by_hops, lookup in H. cbn [init invite] in H. destruct (maxforwards m =? 0); lia.
Qed.
(** ** To one address *)
(** If every lookup gives each address at most once, and the socket for an address is connected to that address, then the INVITE is
    transmitted to an address at most c_max + 1 times, and as many times more for every redirect. *)
Theorem invite_per_address_partial : forall cfg m es r a, (forall n x k, w_dial (c_world cfg n) x = Some k -> so_remote k = x) ->
  (forall n host port b rs, RouteAddress (w_dns (c_world cfg n)) host port b = Some rs -> NoDup rs) -> dialog cfg m es r ->
  invites (bseq a) (r_out r) <= (Z.max 0 (c_max cfg) + 1) * (1 + redirects es).
Proof.
  intros cfg m es r a HD HN D. pose proof (dialog_pays cfg (bseq a) (bseq a) false) as H. unfold more, by_address, lookup in H. 
  assert (G : invites (bseq a) (r_out r) <= by_address cfg (bseq a) (bseq a) (init m) + (top cfg + 1) * 1 * (1 + redirects es)).
  { apply H; [|auto| |lia|discriminate|exact D].
    - intros n x k E P. rewrite (HD _ _ _ E) in P. exact P.
    - intros _ j host port b rs E. apply HN in E. clear - E. unfold count. induction E as [|x l NI ND IH]; cbn [filter length]; [lia|]. destruct (bseq_reflect a x) as [<-|]; [|exact IH]. cbn [length]. enough (filter (bseq a) l = []) as -> by (cbn; lia).
      clear - NI. induction l as [|y l IH]; [reflexivity|]. cbn [filter]. destruct (bseq_reflect a y) as [->|]; [destruct NI; left; reflexivity|]. apply IH. intros I. apply NI. right. exact I. }
  assert (B0 : by_address cfg (bseq a) (bseq a) (init m) = 0) by (unfold by_address; cbn [init req routes here so]; change (count (bseq a) []) with 0; cbn; lia). rewrite B0 in G. unfold top in G. lia.
Qed.
(** In all: as many times as there are candidates, for each lookup. *)
Theorem invite_total_partial : forall cfg m es r N, (forall n host port b rs, RouteAddress (w_dns (c_world cfg n)) host port b = Some rs -> Z.of_nat (length rs) <= N) -> 0 <= N -> dialog cfg m es r ->
  invites (fun _ => true) (r_out r) <= (Z.max 0 (c_max cfg) + 1) * N * (1 + redirects es).
Proof.
  intros cfg m es r N HN NP D. pose proof (dialog_pays cfg (fun _ => true) (fun _ => true) false (fun _ _ _ _ _ => eq_refl) (fun _ _ => eq_refl) N) as H. unfold more, lookup in H.
  assert (G : invites (fun _ => true) (r_out r) <= by_address cfg (fun _ => true) (fun _ => true) (init m) + (top cfg + 1) * N * (1 + redirects es)).
  { apply H; [|exact NP|discriminate|exact D]. intros _ j host port b rs E. apply HN in E. unfold count. enough (filter (fun _ => true) rs = rs) as -> by exact E. clear. induction rs; cbn; congruence. }
  assert (B0 : by_address cfg (fun _ => true) (fun _ => true) (init m) = 0) by (unfold by_address; cbn [init req routes here so]; change (count (fun _ => true) []) with 0; cbn; lia). rewrite B0 in G. unfold top in G. lia.
Qed.
