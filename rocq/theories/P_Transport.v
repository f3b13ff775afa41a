(** C57, C59 and C60 (transport part): the transport and the receive loop. *)
From Verif Require Import Bytes BytesLemmas GoLib GoLibLemmas SdpModel SipText SipTypes SipAppend UtilModel P_Text P_Lists DialogMsg P_DialogMsg MsgModel MsgSpec MsgNames MsgMeaning MsgLines P_MsgText TransportModel.
Local Open Scope Z_scope.

Lemma rbind_ok {A C} (x : res A) (k : A -> res C) c : rbind x k = Ok c -> exists a, x = Ok a /\ k a = Ok c.
Proof. destruct x as [a|]; [eauto|discriminate]. Qed.
Lemma deref_ok {A} (p : option A) a : deref p = Ok a -> p = Some a.
Proof. destruct p; cbn; congruence. Qed.

(** the branch of a message's first Via *)
Definition branch_of (m : msg) : option bytes := match vias m with v :: _ => value_of (B "branch") (v_param v) | [] => None end.
(** The transport NewTransport makes has one Contact with a URI. *)
Definition ready (tp : transport) : Prop := exists a u, tp_contact tp = [a] /\ a_uri a = Some u.
(** a request whose Contact entries, if it has any, have URIs *)
Definition sendable (m : msg) : Prop := status m <= 0 /\ forall c, In c (addrs m Contact) -> a_uri c <> None.
Definition drawn (w : net) : Prop := length (dr_callid (n_draws w)) = 15%nat /\ length (dr_branch (n_draws w)) = 6%nat.

Lemma route_request_keeps tv tc m m' r : status m <= 0 -> RouteMessage tv tc m = Ok (m', r) -> vias m' = vias m /\ maxforwards m' = maxforwards m /\ status m' = status m.
Proof.
  intros S. unfold RouteMessage, IsResponse. replace (0 <? status m) with false by (symmetry; apply Z.ltb_ge; lia).
  set (m1 := if addr_CompareHostPort tc (addrs m Route) then _ else _). assert (K : vias m1 = vias m /\ maxforwards m1 = maxforwards m /\ status m1 = status m) by (unfold m1; destruct (addr_CompareHostPort _ _); auto). clearbody m1.
  destruct (addrs m1 Route) as [|r1 rs]; [intros H; apply rbind_ok in H; destruct H as (u & _ & H); injection H as <- <-; exact K|].
  destruct (bseq (method m1) (B "REGISTER")); [intros H; injection H as <- <-; exact K|]. intros H. apply rbind_ok in H. destruct H as (u & _ & H).
  destruct (param_get (u_param u) (B "lr")); [injection H as <- <-; exact K|]. apply rbind_ok in H. destruct H as (q & _ & H). apply rbind_ok in H. destruct H as (u' & _ & H). injection H as <- <-. exact K.
Qed.
Lemma stamp_branch m st m' : addTimestamp m st = Ok m' -> branch_of m' = branch_of m /\ maxforwards m' = maxforwards m /\ length (vias m') = length (vias m).
Proof.
  unfold addTimestamp, branch_of. destruct st as [t|]; [|intros H; injection H as <-; auto]. destruct (vias m) as [|v l]; [discriminate|]. intros H. injection H as <-. cbn [set_vias vias set_vparam v_param maxforwards length].
  split; [apply value_skip; reflexivity|auto].
Qed.
(** What a successful call for a request leaves behind and transmits. *)
Lemma send_request tp h w s : ready tp -> drawn w -> sendable (view tp h) -> Send tp h w = Ok s ->
  let m := view tp h in
  let v := match vias m with v :: _ => v | [] => tp_via tp end in
  let b := match value_of (B "branch") (v_param v) with Some b => b | None => GenerateBranch (dr_branch (n_draws w)) end in
  let left := h_msg (sd_held s) in
  status left <= 0 /\ branch_of left = Some b /\ h_shared (sd_held s) = h_shared h || match vias m with [] => true | _ => false end /\
  tp_contact (sd_tp s) = tp_contact tp /\
  (h_shared (sd_held s) = false -> sd_tp s = tp) /\ (h_shared (sd_held s) = true -> exists l, vias left = tp_via (sd_tp s) :: l) /\
  (sd_wire s = [] \/ exists a x, sd_wire s = [(a, left, x)] /\ x = msg_append (n_rid w) left /\
     let k := if maxforwards m =? 0 then 70 else maxforwards m in maxforwards left = if 0 <? k then k - 1 else k).
Proof.
  intros (ca & cu & TC & CU) (LC & _) (S & HC). unfold Send. set (m := view tp h) in *. clearbody m. cbv zeta.
  set (v := match vias m with v :: _ => v | [] => tp_via tp end). set (vl := match vias m with _ :: l => l | [] => [] end).
  assert (HV : or_else (vias m) [tp_via tp] = v :: vl) by (unfold v, vl; destruct (vias m); reflexivity).
  assert (HCC : exists c cl, or_else (addrs m Contact) (tp_contact tp) = c :: cl /\ a_uri c <> None).
  { destruct (addrs m Contact) as [|c cl]; cbn [or_else]; [rewrite TC; eexists _, _; split; [reflexivity|]; congruence|]. eexists _, _. split; [reflexivity|]. apply HC. left. reflexivity. }
  destruct HCC as (c & cl & HCC & HU). destruct (callid_is_uuid _ LC) as (id & HI & _ & _).
  destruct (populate_result [tp_via tp] (tp_contact tp) m (n_draws w) v vl c cl id S LC HI HV HCC (fun _ => HU)) as (m1 & f & fl & E & V & _ & _ & _ & _ & _ & _ & _ & MF & _ & _ & _ & _ & _ & _ & _ & ST & _).
  rewrite E. cbn [rbind]. intros H. apply rbind_ok in H. destruct H as ([m2 r] & R & H). assert (S1 : status m1 <= 0) by lia. destruct (route_request_keeps _ _ _ _ _ S1 R) as (V2 & MF2 & ST2).
  assert (SH : IsResponse m = false) by (unfold IsResponse; apply Z.ltb_ge; lia). rewrite SH in H. cbn [negb andb] in H. clear SH.
  set (sh := h_shared h || _) in *.
  assert (B2 : branch_of m2 = Some (match value_of (B "branch") (v_param v) with Some b => b | None => GenerateBranch (dr_branch (n_draws w)) end)).
  { unfold branch_of. rewrite V2, V. cbn [set_vparam v_param]. apply with_value_value. reflexivity. }
  assert (N2 : vias m2 <> []) by (rewrite V2, V; discriminate).
  assert (L : forall m' wire ok, branch_of m' = branch_of m2 -> status m' <= 0 -> vias m' <> [] -> s = left_behind tp sh m' wire ok ->
    status (h_msg (sd_held s)) <= 0 /\ branch_of (h_msg (sd_held s)) = branch_of m2 /\ h_shared (sd_held s) = sh /\ tp_contact (sd_tp s) = tp_contact tp /\ (h_shared (sd_held s) = false -> sd_tp s = tp) /\
    (h_shared (sd_held s) = true -> exists l, vias (h_msg (sd_held s)) = tp_via (sd_tp s) :: l) /\ sd_wire s = wire /\ h_msg (sd_held s) = m').
  { intros m' wire ok Bm Sm Nm ->. unfold left_behind. cbn [sd_held sd_tp sd_wire h_msg h_shared]. split; [exact Sm|]. split; [exact Bm|]. split; [reflexivity|].
    destruct sh; (split; [destruct (vias m'); reflexivity|]); split; try discriminate; try (intros _; reflexivity); (split; [|split; reflexivity]); try discriminate. intros _. destruct (vias m') as [|v' l']; [congruence|]. exists l'. reflexivity. }
  rewrite B2 in L. destruct r as [[host port]|e].
  2: { injection H as H. destruct (L m2 [] false B2 ltac:(lia) N2 (eq_sym H)) as (L1 & L2 & L3 & L4 & L5 & L6 & L7 & L8). repeat (split; [assumption|]). left. exact L7. }
  destruct (n_resolve w _) as [a|].
  2: { injection H as H. destruct (L m2 [] false B2 ltac:(lia) N2 (eq_sym H)) as (L1 & L2 & L3 & L4 & L5 & L6 & L7 & L8). repeat (split; [assumption|]). left. exact L7. }
  set (m3 := if 0 <? maxforwards m2 then _ else _) in *. assert (K3 : branch_of m3 = branch_of m2 /\ status m3 = status m2 /\ vias m3 = vias m2 /\ maxforwards m3 = if 0 <? maxforwards m2 then maxforwards m2 - 1 else maxforwards m2)
    by (unfold m3; destruct (0 <? maxforwards m2); repeat split). clearbody m3. destruct K3 as (B3 & S3 & V3 & M3).
  apply rbind_ok in H. destruct H as (m4 & T & H). destruct (stamp_branch _ _ _ T) as (B4 & M4 & L4). assert (S4 : status m4 = status m3).
  { revert T. unfold addTimestamp. destruct (n_stamp w); [destruct (vias m3); [discriminate|]|]; intros T; injection T as <-; reflexivity. }
  injection H as H. assert (N4 : vias m4 <> []) by (intros N; rewrite N, V3 in L4; destruct (vias m2); [congruence|discriminate]).
  destruct (L m4 _ _ ltac:(congruence) ltac:(lia) N4 (eq_sym H)) as (L1 & L2 & L3 & LC4 & L5 & L6 & L7 & L8). repeat (split; [assumption|]). right.
  rewrite L8. eexists _, _. split; [exact L7|]. split; [reflexivity|]. rewrite M4, M3, MF2, MF. reflexivity.
Qed.

(** * C59 *)
(** Two requests which bring no Via of their own get the same branch, however different the draws. *)
Theorem send_branch_reused_refuted : forall tp m1 m2 w1 w2 s1 s2 d1 t1 x1 d2 t2 x2, ready tp -> sendable m1 -> sendable m2 -> vias m1 = [] -> vias m2 = [] -> drawn w1 -> drawn w2 ->
  Send tp (mkheld m1 false) w1 = Ok s1 -> sd_wire s1 = [(d1, t1, x1)] -> Send (sd_tp s1) (mkheld m2 false) w2 = Ok s2 -> sd_wire s2 = [(d2, t2, x2)] ->
  branch_of t1 = branch_of t2.
Proof.
  intros tp m1 m2 w1 w2 s1 s2 d1 t1 x1 d2 t2 x2 R P1 P2 V1 V2 D1 D2 E1 W1 E2 W2.
  destruct (send_request tp (mkheld m1 false) _ _ R D1 P1 E1) as (_ & B1 & H1 & C1 & _ & T1 & [X|(a & x & X & _)]); [congruence|]. rewrite W1 in X. injection X as <- -> <-.
  assert (R2 : ready (sd_tp s1)) by (destruct R as (c & u & R & U); exists c, u; rewrite C1; auto).
  destruct (send_request (sd_tp s1) (mkheld m2 false) _ _ R2 D2 P2 E2) as (_ & B2 & _ & _ & _ & _ & [Y|(a & y & Y & _)]); [congruence|]. rewrite W2 in Y. injection Y as <- -> <-.
  cbn [view h_shared h_msg] in *. rewrite V1 in *. rewrite V2 in *. cbn [orb] in H1. destruct (T1 H1) as (l & TV). rewrite B2. unfold branch_of in *. rewrite TV in B1 |- *.
  rewrite B1. reflexivity.
Qed.
(** A request made with NewRequest has a branch from its own draw, whatever the Via of the transport has become, and keeps it when it is sent. *)
Theorem new_request_branch : forall tvia tcontact mth to from r m, NewRequest tvia tcontact mth to from r = Ok m -> branch_of m = Some (GenerateBranch (dr_branch r)).
Proof.
  intros tvia tcontact mth to from r m. unfold NewRequest. intros H. apply rbind_ok in H. destruct H as (u & _ & H). destruct (via_Copy tvia) as [|v vs]; [discriminate|]. destruct (addr_Copy _) as [|f fs]; [discriminate|].
  apply rbind_ok in H. destruct H as (c & _ & H). injection H as <-. reflexivity.
Qed.
Lemma new_request_sendable tvia tcontact mth to from r m : NewRequest tvia tcontact mth to from r = Ok m -> sendable m.
Proof.
  unfold NewRequest. intros H. apply rbind_ok in H. destruct H as (u & _ & H). destruct (via_Copy tvia) as [|v vs]; [discriminate|]. destruct (addr_Copy _) as [|f fs]; [discriminate|].
  apply rbind_ok in H. destruct H as (c & _ & H). injection H as <-. split; [cbn; lia|]. intros c' []. 
Qed.
Theorem send_fresh_branch_partial : forall tp tp' mth1 mth2 to1 to2 from1 from2 r1 r2 m1 m2 w1 w2 s1 s2 d1 t1 x1 d2 t2 x2, ready tp -> ready tp' -> drawn w1 -> drawn w2 ->
  length (dr_branch r1) = 6%nat -> dr_branch r1 <> dr_branch r2 ->
  NewRequest [tp_via tp] (tp_contact tp) mth1 to1 from1 r1 = Ok m1 -> NewRequest [tp_via tp'] (tp_contact tp') mth2 to2 from2 r2 = Ok m2 ->
  Send tp (mkheld m1 false) w1 = Ok s1 -> sd_wire s1 = [(d1, t1, x1)] -> Send tp' (mkheld m2 false) w2 = Ok s2 -> sd_wire s2 = [(d2, t2, x2)] ->
  branch_of t1 = Some (GenerateBranch (dr_branch r1)) /\ branch_of t2 = Some (GenerateBranch (dr_branch r2)) /\ branch_of t1 <> branch_of t2.
Proof.
  intros tp tp' mth1 mth2 to1 to2 from1 from2 r1 r2 m1 m2 w1 w2 s1 s2 d1 t1 x1 d2 t2 x2 R R' D1 D2 L1 N Q1 Q2 E1 W1 E2 W2.
  pose proof (new_request_branch _ _ _ _ _ _ _ Q1) as F1. pose proof (new_request_branch _ _ _ _ _ _ _ Q2) as F2.
  destruct (send_request tp (mkheld m1 false) _ _ R D1 (new_request_sendable _ _ _ _ _ _ _ Q1) E1) as (_ & B1 & _ & _ & _ & _ & [X|(a & x & X & _)]); [congruence|]. rewrite W1 in X. injection X as <- -> <-.
  destruct (send_request tp' (mkheld m2 false) _ _ R' D2 (new_request_sendable _ _ _ _ _ _ _ Q2) E2) as (_ & B2 & _ & _ & _ & _ & [Y|(b & y & Y & _)]); [congruence|]. rewrite W2 in Y. injection Y as <- -> <-.
  cbn [view h_shared h_msg] in *. unfold branch_of in F1, F2. destruct (vias m1) as [|v1 l1]; [discriminate|]. destruct (vias m2) as [|v2 l2]; [discriminate|]. rewrite F1 in B1. rewrite F2 in B2.
  split; [exact B1|]. split; [exact B2|]. rewrite B1, B2. intros E. injection E as E. apply N. exact (proj1 (proj2 (proj2 (proj2 (tags_and_branches (dr_branch r1) (dr_branch r2) L1)))) E).
Qed.

(** * C60, Transport.Send *)
(** A message with a hop limit is transmitted with one less. *)
Theorem send_decrements_partial : forall tp h w s a t x, ready tp -> drawn w -> sendable (view tp h) -> Send tp h w = Ok s -> sd_wire s = [(a, t, x)] -> 0 < maxforwards (view tp h) ->
  maxforwards t = maxforwards (view tp h) - 1 /\ x = msg_append (n_rid w) t /\ maxforwards (h_msg (sd_held s)) = maxforwards t.
Proof.
  intros tp h w s a t x R D P E W M. destruct (send_request _ _ _ _ R D P E) as (_ & _ & _ & _ & _ & _ & [X|(b & y & X & T & K)]); [congruence|]. rewrite W in X. injection X as <- -> <-.
  split; [|split; [exact T|reflexivity]]. cbv zeta in K. destruct (Z.eqb_spec (maxforwards (view tp h)) 0); [lia|]. destruct (Z.ltb_spec 0 (maxforwards (view tp h))); lia.
Qed.
(** The last hop is transmitted all the same; the text says 70 hops are left (see maxforwards_zero_refuted), and sending the message again
    starts from 70. *)
Theorem send_last_hop_refuted : forall tp h w s a t x, ready tp -> drawn w -> sendable (view tp h) -> Send tp h w = Ok s -> sd_wire s = [(a, t, x)] -> maxforwards (view tp h) = 1 ->
  maxforwards t = 0 /\ x = msg_append (n_rid w) t /\
  forall w' s' a' t' x', drawn w' -> sendable (view (sd_tp s) (sd_held s)) -> Send (sd_tp s) (sd_held s) w' = Ok s' -> sd_wire s' = [(a', t', x')] -> maxforwards t' = 69.
Proof.
  intros tp h w s a t x R D P E W M. destruct (send_decrements_partial _ _ _ _ _ _ _ R D P E W ltac:(lia)) as (K1 & K2 & K3). split; [lia|]. split; [exact K2|].
  intros w' s' a' t' x' D' P' E' W'. destruct (send_request _ _ _ _ R D P E) as (_ & _ & _ & C & _).
  assert (R2 : ready (sd_tp s)) by (destruct R as (c & u & R & U); exists c, u; rewrite C; auto).
  destruct (send_request _ _ _ _ R2 D' P' E') as (_ & _ & _ & _ & _ & _ & [X|(b & y & X & T & K)]); [congruence|]. rewrite W' in X. injection X as <- -> <-.
  assert (Z0 : maxforwards (view (sd_tp s) (sd_held s)) = 0) by (unfold view; destruct (h_shared _); cbn; lia). rewrite Z0 in K. exact K.
Qed.

(** * C57 *)
(** Fields which were copied out of the buffer do not change: only payloads of other types than SDP point into it. *)
Theorem delivered_copied_partial : forall buf packet m, (forall t d, pay m <> Some (Misc t d)) -> seen buf (deliver packet m) = m.
Proof. intros buf packet m H. unfold seen, deliver. cbn. destruct (pay m) as [[t d|s]|]; try reflexivity. destruct (H t d eq_refl). Qed.
Theorem delivered_rest_copied : forall buf packet m, exists p, seen buf (deliver packet m) = set_pay p m.
Proof. intros buf packet m. unfold seen, deliver. cbn. destruct (pay m) as [[t d|s]|] eqn:P; try (exists (pay m); destruct m; reflexivity). eauto. Qed.
Lemma misc_suffix data m t d : parse_msg data = MOk m -> pay m = Some (Misc t d) -> exists pre, data = pre ++ d.
Proof.
  intros H P. destruct (packet_lines data m H) as (st & ts & body & -> & FS & FL & _). apply packet_exact in H; [|exact FS|exact FL]. destruct H as (m0 & dr & S & H & SB & Q).
  assert (N : pay (d_msg dr) = None).
  { rewrite (steps_pay _ _ _ H). cbn. destruct S as [(u & x & v & maj & min & _ & _ & _ & _ & ->)|(v & maj & min & y & n & x & _ & _ & _ & _ & _ & _ & ->)]; reflexivity. }
  destruct Q as [[_ ->]|(_ & _ & [(_ & p & _ & ->)|(_ & ->)])]; [congruence|discriminate|]. cbn in P. injection P as <- <-. unfold packet. eexists. rewrite !app_assoc. reflexivity.
Qed.
Lemma prepare_pay lhost lport src stamp m m' : prepare lhost lport src stamp m = Ok m' -> pay m' = pay m.
Proof.
  unfold prepare. intros H. apply rbind_ok in H. destruct H as (m1 & E1 & H). apply rbind_ok in H. destruct H as (m2 & E2 & H). apply rbind_ok in H. destruct H as (m3 & E3 & H). injection H as <-.
  transitivity (pay m3); [|transitivity (pay m2); [|transitivity (pay m1)]].
  - unfold fixMessagesFromStrictRouters. destruct (request m3); [|reflexivity]. destruct (param_get _ _); [|reflexivity]. destruct (addr_Last _); [|reflexivity]. destruct (_ && _); reflexivity.
  - unfold pop_own_route in E3. destruct (addrs m2 Route); [congruence|]. apply rbind_ok in E3. destruct E3 as (u & _ & E3). injection E3 as <-. destruct (_ && _); reflexivity.
  - unfold addTimestamp in E2. destruct stamp; [|congruence]. destruct (vias m1); [discriminate|]. injection E2 as <-. reflexivity.
  - unfold addReceived in E1. destruct (IsResponse m); [congruence|]. destruct (vias m); [discriminate|]. injection E1 as <-. reflexivity.
Qed.
Lemma read_full buf d : (length d <= length buf)%nat -> read_into buf d = d ++ skipn (length d) buf.
Proof. intros L. unfold read_into. rewrite (firstn_all2 d) by exact L. reflexivity. Qed.
Lemma read_length buf d : length (read_into buf d) = length buf.
Proof. unfold read_into. rewrite app_length, skipn_length, firstn_length. lia. Qed.
(** At the time of delivery the message is what was parsed. *)
Theorem delivered_at_first : forall lhost lport buf datagram src stamp buf' dv, receive lhost lport buf datagram src stamp = Ok (buf', Some dv) ->
  exists m m', parse_msg (firstn (length buf) datagram) = MOk m /\ prepare lhost lport src stamp m = Ok m' /\ seen buf' dv = m'.
Proof.
  intros lhost lport buf datagram src stamp buf' dv. unfold receive. destruct (parse_msg (firstn (length buf) datagram)) as [m| | |] eqn:P; try discriminate. intros H. apply rbind_ok in H. destruct H as (m' & E & H). injection H as <- <-.
  exists m, m'. split; [reflexivity|]. split; [exact E|]. pose proof (prepare_pay _ _ _ _ _ _ E) as PY. unfold seen, deliver. cbn [dv_payload dv_msg].
  destruct (pay m') as [[t d|s]|] eqn:Q; try reflexivity. destruct (misc_suffix _ _ t d P (eq_sym PY)) as (pre & EP). unfold read_into. rewrite EP, app_length, Nat.add_sub.
  rewrite <- app_assoc, skipn_app, Nat.sub_diag, skipn_all2 by lia. cbn [app skipn]. rewrite firstn_app, Nat.sub_diag, firstn_all. cbn. rewrite app_nil_r. destruct m'; cbn in *. rewrite <- Q. reflexivity.
Qed.
(** Any datagram that arrives afterwards and is at least as long, a message or not, replaces the payload of a delivered message. *)
Theorem payload_overwritten_refuted : forall lhost lport buf first src stamp buf1 dv m t d second src2 stamp2 buf2 r,
  (length first <= length buf)%nat -> receive lhost lport buf first src stamp = Ok (buf1, Some dv) -> seen buf1 dv = m -> pay m = Some (Misc t d) ->
  (length first <= length second)%nat -> receive lhost lport buf1 second src2 stamp2 = Ok (buf2, r) ->
  pay (seen buf2 dv) = Some (Misc t (firstn (length d) (skipn (length first - length d) second))).
Proof.
  intros lhost lport buf first src stamp buf1 dv m t d second src2 stamp2 buf2 r L1 R1 S1 P1 L2 R2.
  assert (LB : length buf1 = length buf). { unfold receive in R1. destruct (parse_msg _); try discriminate. apply rbind_ok in R1. destruct R1 as (x & _ & R1). injection R1 as <- _. apply read_length. }
  assert (B2 : buf2 = read_into buf1 second). { unfold receive in R2. destruct (parse_msg _); try discriminate; [|injection R2 as <- _; reflexivity]. apply rbind_ok in R2. destruct R2 as (x & _ & R2). injection R2 as <- _. reflexivity. }
  destruct (delivered_at_first _ _ _ _ _ _ _ _ R1) as (m0 & m' & PM & PR & SN). rewrite S1 in SN. subst m'. pose proof (prepare_pay _ _ _ _ _ _ PR) as PY. rewrite P1 in PY. rewrite (firstn_all2 first) in PM by exact L1.
  destruct (misc_suffix _ _ t d PM (eq_sym PY)) as (pre & EP).
  unfold receive in R1. rewrite (firstn_all2 first) in R1 by exact L1. rewrite PM in R1. rewrite PR in R1. cbn [rbind] in R1. injection R1 as _ <-. unfold seen, deliver. cbn [dv_payload dv_msg]. rewrite P1. cbn [pay set_pay].
  do 2 f_equal. rewrite B2. unfold read_into. rewrite LB. rewrite EP, app_length, Nat.add_sub in *. set (sec := firstn (length buf) second).
  assert (LS : (length pre + length d <= length sec)%nat) by (unfold sec; rewrite firstn_length; lia).
  rewrite skipn_app. rewrite firstn_app, skipn_length. replace (length d - (length sec - length pre))%nat with 0%nat by lia. cbn [firstn]. rewrite app_nil_r. unfold sec. rewrite skipn_firstn_comm, firstn_firstn. f_equal. lia.
Qed.
Definition ex_wnet (n : byte) : net := mknet (mkdraws (repeat n 6) (repeat n 6) (repeat n 15) 7 7) None (fun a => Some a) (fun _ _ => true) (B "1").
Definition ex_tp : transport := mktp (mkvia [] [] [] (B "1.2.3.4") 5070 []) ex_contact.
Definition wire_of (r : res sending) : list (bytes * option bytes * Z) :=
  match r with Ok s => map (fun x => (fst (fst x), branch_of (snd (fst x)), maxforwards (snd (fst x)))) (sd_wire s) | Panic => [] end.
Definition after (r : res sending) : transport := match r with Ok s => sd_tp s | Panic => ex_tp end.
Example send_example : ready ex_tp /\ drawn (ex_wnet "a") /\ sendable (ex_req []) /\ vias (ex_req []) = [] /\
  wire_of (Send ex_tp (mkheld (ex_req []) false) (ex_wnet "a")) = [(B "bob:0", Some (B "z9hG4bK-616161616161"), 69)] /\
  wire_of (Send (after (Send ex_tp (mkheld (ex_req []) false) (ex_wnet "a"))) (mkheld (ex_req []) false) (ex_wnet "b")) = [(B "bob:0", Some (B "z9hG4bK-616161616161"), 69)] /\
  wire_of (Send ex_tp (mkheld (set_maxforwards 1 (ex_req [])) false) (ex_wnet "a")) = [(B "bob:0", Some (B "z9hG4bK-616161616161"), 0)].
Proof.
  split; [eexists _, _; split; reflexivity|]. split; [split; reflexivity|]. split; [split; [cbn; lia|intros c []]|]. split; [reflexivity|]. repeat split; vm_compute; reflexivity.
Qed.
Definition ex_packet (body : bytes) : bytes :=
  B "OPTIONS sip:a SIP/2.0" ++ CRLF ++ B "Via: SIP/2.0/UDP b:5070" ++ CRLF ++ B "Content-Type: text/plain" ++ CRLF ++ B "Content-Length: 5" ++ CRLF ++ CRLF ++ body.
Definition payload_seen (r1 r2 : res (bytes * option delivered)) : option payload :=
  match r1, r2 with Ok (_, Some d), Ok (b, _) => pay (seen b d) | _, _ => None end.
Example overwritten_example : let buf := repeat "0"%byte 200 in
  let r1 := receive (B "1.2.3.4") 5060 buf (ex_packet (B "hello")) (B "b", 5070) None in
  let r2 := receive (B "1.2.3.4") 5060 (match r1 with Ok (b, _) => b | Panic => [] end) (ex_packet (B "world")) (B "c", 5070) None in
  payload_seen r1 r1 = Some (Misc (B "text/plain") (B "hello")) /\ payload_seen r1 r2 = Some (Misc (B "text/plain") (B "world")).
Proof. split; vm_compute; reflexivity. Qed.

(** * C62 *)
(** The dialog: a host without a port is looked up with port 5060. *)
Theorem dialog_default_port : forall d host, parse_ip d host = true \/ lookup_srv d host = None ->
  RouteAddress d host 0 true = if parse_ip d host then Some [host_port host (B "5060")] else option_map (fun a => [a]) (resolve_udp d (host_port host (B "5060"))).
Proof. intros d host H. apply (single_candidate d host 0 true). tauto. Qed.
(** The transport: a request without Route for a URI without a port is sent to what the resolver says about port 0. *)
Theorem transport_default_port_refuted : forall tp h w s a t x u, ready tp -> drawn w -> sendable (view tp h) -> Send tp h w = Ok s -> sd_wire s = [(a, t, x)] ->
  addrs (view tp h) Route = [] -> request (view tp h) = Some u -> u_port u = 0 -> n_resolve w (host_port (u_host u) (B "0")) = Some a.
Proof.
  intros tp h w s a t x u (ca & cu & TC & CU) (LC & _) (S & HC). unfold Send. set (m := view tp h) in *. clearbody m. cbv zeta. intros H W RT RQ PT.
  set (v := match vias m with v :: _ => v | [] => tp_via tp end). set (vl := match vias m with _ :: l => l | [] => [] end).
  assert (HV : or_else (vias m) [tp_via tp] = v :: vl) by (unfold v, vl; destruct (vias m); reflexivity).
  assert (HCC : exists c cl, or_else (addrs m Contact) (tp_contact tp) = c :: cl /\ a_uri c <> None).
  { destruct (addrs m Contact) as [|c cl]; cbn [or_else]; [rewrite TC; eexists _, _; split; [reflexivity|]; congruence|]. eexists _, _. split; [reflexivity|]. apply HC. left. reflexivity. }
  destruct HCC as (c & cl & HCC & HU). destruct (callid_is_uuid _ LC) as (id & HI & _ & _).
  destruct (populate_result [tp_via tp] (tp_contact tp) m (n_draws w) v vl c cl id S LC HI HV HCC (fun _ => HU)) as (m1 & f & fl & E & V & _ & _ & _ & _ & _ & _ & _ & MF & _ & OT & _ & _ & _ & _ & RQ1 & ST & _).
  rewrite E in H. cbn [rbind] in H.
  assert (O : addr_CompareHostPort (tp_contact tp) (addrs m1 Route) = false) by (rewrite (OT Route), RT by discriminate; destruct (tp_contact tp); reflexivity).
  rewrite (route_direct [tp_via tp] (tp_contact tp) m1 u) in H; try lia; try congruence; [|rewrite (OT Route) by discriminate; exact RT].
  cbn [rbind] in H. rewrite PT in H. change (Portstr 0) with (B "0") in H. destruct (n_resolve w _) as [b|].
  - apply rbind_ok in H. destruct H as (m4 & T & H). injection H as <-. cbn in W. congruence.
  - injection H as <-. discriminate.
Qed.
