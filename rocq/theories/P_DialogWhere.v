(** C71: the requests of a dialog name the socket they leave from, and go where it is connected to. *)
From Verif Require Import Bytes BytesLemmas GoLib GoLibLemmas SdpModel SipText SipTypes SipAppend UtilModel P_Text P_Lists DialogMsg P_DialogMsg DialogModel P_DialogEnd P_Dialog P_DialogSafe P_DialogFail P_DialogPeer P_DialogRuns P_DialogCount P_DialogCall.
Local Open Scope Z_scope.

(** ** What populating for a socket says *)
Definition via_branch (m : msg) : option bytes := match vias m with v :: _ => value_of (B "branch") (v_param v) | [] => None end.
Definition via_port (m : msg) : option Z := match vias m with v :: _ => Some (v_port v) | [] => None end.
Definition contact_uri (m : msg) : option uri := match addrs m Contact with c :: _ => a_uri c | [] => None end.
(** [m'] is on its way from the socket [k]: the topmost Via has its port and, unless the application gave a host, its host, and the new
    branch; the Contact has the port of the contact socket, or else of [k], and a transport. *)
Definition addressed (k : sock) (cport : option Z) (branch : bytes) (m m' : msg) : Prop :=
  via_port m' = Some (so_lport k) /\ via_branch m' = Some branch /\
  map v_host (vias m') = match vias m with [] => [so_lhost k] | l => map v_host l end /\ tl (vias m') = tl (vias m) /\ tl (addrs m' Contact) = tl (addrs m Contact) /\
  exists u, contact_uri m' = Some u /\ u_port u = match cport with Some p => p | None => so_lport k end /\ value_of (B "transport") (u_param u) <> None /\
    u_host u = match addrs m Contact with [] => so_lhost k | _ => match contact_uri m with Some u0 => u_host u0 | None => [] end end /\
    u_user u = match contact_uri m with Some u0 => u_user u0 | None => [] end.
(** with these Vias and Contacts *)
Definition with_vc (V : list via) (C : list addr) (x : msg) : Prop := vias x = V /\ addrs x Contact = C.
Ltac wleaf := repeat match goal with
  | |- all_ok _ (Ok _) => apply all_ok_ok
  | |- all_ok _ Panic => apply all_ok_panic
  | |- all_ok _ (let x := _ in _) => cbv zeta
  | |- all_ok _ (rbind _ _) => apply all_ok_bind'; intros
  | |- context[match ?x with _ => _ end] => destruct x eqn:? end; first [assumption|match goal with H : with_vc _ _ _ |- _ => destruct H; split; cbn; congruence end].
Ltac wstep R := match goal with
  | |- all_ok ?P (let x := ?X in @?K x) => let y := fresh "y" in assert (y : R X); [wleaf|change (all_ok P (K X)); cbv beta; generalize dependent X; intros ? y]
  | |- all_ok ?P (rbind ?X ?K) => apply (all_ok_bind P R X K); [wleaf|let x := fresh "x" in let y := fresh "y" in intros x y] end.
Lemma populate_message_vc v V c C tv tc m r : value_of (B "branch") (v_param v) <> None -> with_vc (v :: V) (c :: C) m -> all_ok (with_vc (v :: V) (c :: C)) (PopulateMessage tv tc m r).
Proof.
  intros NB T. cbv delta [PopulateMessage] beta. destruct (IsResponse m); [apply all_ok_ok; exact T|].
  wstep (with_vc (v :: V) (c :: C)). clear T. wstep (with_vc (v :: V) (c :: C)). clear y. wstep (with_vc (v :: V) (c :: C)). clear y0. wstep (with_vc (v :: V) (c :: C)). clear y. wstep (with_vc (v :: V) (c :: C)). clear y0. wstep (with_vc (v :: V) (c :: C)). clear y. wstep (with_vc (v :: V) (c :: C)). clear y0. wstep (with_vc (v :: V) (c :: C)). clear y. wstep (with_vc (v :: V) (c :: C)). clear y0.
  apply (all_ok_bind _ (with_vc (v :: V) (c :: C))); [|intros x1 y1; wleaf]. destruct (vias _) as [|v1 l1] eqn:E; [apply all_ok_panic|]. destruct (param_get (v_param v1) (B "branch")) eqn:G; [apply all_ok_ok; exact y|]. exfalso. apply NB. rewrite value_get. destruct y as [Y _]. assert (v1 = v) by congruence. subst. rewrite G. reflexivity.
Qed.
Theorem populate_says : forall k cport w m m', populate k cport w m = Ok m' -> addressed k cport (GenerateBranch (dr_branch (w_draws w))) m m'.
Proof.
  intros k cport w m m'. set (b := GenerateBranch _). unfold populate. fold b.
  (* the Via *)
  set (m1 := match vias m with [] => set_vias [mkvia [] [] [] (so_lhost k) 0 []] m | _ => m end).
  assert (A1 : exists v1 l1, vias m1 = v1 :: l1 /\ map v_host (v1 :: l1) = match vias m with [] => [so_lhost k] | l => map v_host l end /\ l1 = tl (vias m) /\ addrs m1 Contact = addrs m Contact).
  { unfold m1. destruct (vias m) as [|v l] eqn:E; [|exists v, l; auto]. do 2 eexists. split; [reflexivity|]. auto. }
  clearbody m1. destruct A1 as (v1 & l1 & E1 & H1 & T1 & C1). cbv zeta. rewrite E1. cbn [rbind].
  set (p := match param_get _ _ with Some _ => _ | None => _ end). set (v2 := set_vparam p _). set (m2 := set_vias (v2 :: l1) m1).
  assert (B2 : value_of (B "branch") (v_param v2) = Some b). { unfold v2, p. cbn [set_vparam set_vport v_param]. destruct (param_get (v_param v1) (B "branch")) as [[]|] eqn:G; [|apply value_head; reflexivity]. apply value_set. rewrite value_get, G. discriminate. }
  assert (P2 : v_port v2 = so_lport k /\ v_host v2 = v_host v1) by (split; reflexivity). clearbody v2. clear p.
  assert (C2 : addrs m2 Contact = addrs m Contact) by exact C1. assert (E2 : vias m2 = v2 :: l1) by reflexivity. clearbody m2. clear m1 E1 C1.
  (* the Contact *)
  set (m3 := match addrs m2 Contact with [] => _ | _ => m2 end).
  assert (A3 : exists a l, addrs m3 Contact = a :: l /\ l = tl (addrs m Contact) /\ vias m3 = vias m2 /\ a = match addrs m Contact with c :: _ => c | [] => mkaddr (Some (mkuri (B "sip") [] [] (so_lhost k) 0 [] [])) [] [] end).
  { unfold m3. rewrite C2. destruct (addrs m Contact) as [|c l] eqn:E; [do 2 eexists; split; [reflexivity|]; auto|]. exists c, l. rewrite C2. auto. }
  clearbody m3. destruct A3 as (a & l & E3 & T3 & V3 & AE). rewrite E3. destruct (a_uri a) as [u|] eqn:AU; [|discriminate]. cbn [deref rbind].
  set (u1 := set_uport _ u). set (u2 := match param_get (u_param u1) (B "transport") with None => _ | Some _ => u1 end). set (m4 := set_addr Contact (set_auri (Some u2) a :: l) m3).
  assert (U : u_port u2 = match cport with Some p => p | None => so_lport k end /\ value_of (B "transport") (u_param u2) <> None /\ u_host u2 = u_host u /\ u_user u2 = u_user u).
  { unfold u2. destruct (param_get (u_param u1) (B "transport")) as [[]|] eqn:G; [|split; [reflexivity|]; split; [cbn [u_param set_uparam]; rewrite value_head by reflexivity; discriminate|split; reflexivity]]. split; [reflexivity|]. split; [rewrite value_get, G; discriminate|split; reflexivity]. }
  clearbody u2. assert (K4 : with_vc (v2 :: l1) (set_auri (Some u2) a :: l) m4) by (split; [exact (eq_trans V3 E2)|reflexivity]). clearbody m4. clear m3 E3 V3 m2 E2 C2 u1.
  set (m5 := if bseq (method m4) (B "INVITE") then _ else m4). assert (K5 : with_vc (v2 :: l1) (set_auri (Some u2) a :: l) m5) by (unfold m5; destruct (bseq _ _); [|exact K4]; destruct (pay m4) as [[|d]|]; exact K4). clearbody m5. clear m4 K4.
  intros PM. apply (populate_message_vc v2 l1 (set_auri (Some u2) a) l [] [] m5) in PM; [|rewrite B2; discriminate|exact K5]. destruct PM as [PV PC].
  unfold addressed, via_port, via_branch, contact_uri. rewrite PV, PC. destruct P2 as [P2 P3]. destruct U as (U1 & U2 & U3 & U4). split; [congruence|]. split; [exact B2|]. split; [rewrite <- H1; cbn [map]; congruence|]. split; [exact T1|]. split; [exact T3|].
  exists u2. split; [reflexivity|]. split; [exact U1|]. split; [exact U2|]. rewrite U3, U4. destruct (addrs m Contact) as [|c0 l0]; subst a; [cbn in AU; injection AU as <-; auto|rewrite AU; auto].
Qed.

(** ** Placing a request *)
(** The request [m] of the dialog is sent: its next hop gives a host and a port, the host gives the addresses, SRV records being looked up
    only while the call is not answered; [bad] are those that cannot be connected to, [a] is the first that can. The call is then
    known by the name of that host. *)
Theorem request_placed : forall cfg which s m1 host port bad a rest k m2, let m := match which with Some b => b | None => invite s end in
  RouteMessage [] [] m = Ok (m1, inl (host, port)) -> RouteAddress (w_dns (c_world cfg (clock s))) host port (st s <? Answered) = Some (bad ++ a :: rest) ->
  unreachable cfg (S (clock s)) bad -> Forall (elsewhere s) (bad ++ [a]) -> let w := c_world cfg (S (clock s) + length bad)%nat in
  w_dial w a = Some k -> cso s <> None \/ c_loose cfg = false \/ w_listen w <> None -> populate k (contact_port cfg s w) w m1 = Ok m2 -> vias m2 <> [] -> maxforwards m2 <> 1 ->
  placed cfg (set_dest host s) k (contact_port cfg s w) rest m2 (sendRequest cfg which s).
Proof.
  intros cfg which s m1 host port bad a rest k m2 m R A U E w D CS P V MF. unfold sendRequest, look at 1. fold m. rewrite R. cbn [val]. rewrite upd_seq. set (s1 := match which with Some _ => s | None => set_invite m1 s end).
  assert (F : clock s1 = clock s /\ st s1 = st s /\ so s1 = so s /\ cso s1 = cso s /\ (which = None -> invite s1 = m1)) by (unfold s1; destruct which; repeat split; discriminate). clearbody s1. destruct F as (F1 & F2 & F3 & F4 & F5).
  unfold ask, look. rewrite F1. change (st (set_clock (S (clock s)) s1)) with (st s1). rewrite F2, A. rewrite !upd_seq. unfold popRoute, look. cbn [routes set_dest set_routes set_req]. match goal with |- context[pop_route cfg _ ?z] => set (s2 := z) end.
  assert (TR : the_request s2 = m1) by (unfold s2, the_request; destruct which; cbn; [reflexivity|auto]).
  assert (CP : contact_port cfg s2 w = contact_port cfg s w) by (unfold contact_port; change (cso s2) with (cso s1); rewrite F4; reflexivity).
  pose proof (pop_next cfg s2 bad a rest k m2) as X. change (clock s2) with (S (clock s)) in X. change (cso s2) with (cso s1) in X. cbv zeta in X. fold w in X. rewrite CP, TR, F4 in X. specialize (X U).
  assert (E' : Forall (elsewhere s2) (bad ++ [a])) by (eapply Forall_impl; [|exact E]; intros z Z y Y; apply Z; rewrite <- F3; exact Y). specialize (X E' D CS P V MF).
  unfold placed in *. change (st s2) with (st s1) in X. rewrite F2 in X. exact X.
Qed.
(** The first request of a dialog. *)
Corollary call_placed : forall cfg m m1 host port bad a rest k m2,
  RouteMessage [] [] m = Ok (m1, inl (host, port)) -> RouteAddress (w_dns (c_world cfg 0)) host port true = Some (bad ++ a :: rest) -> unreachable cfg 1 bad -> let w := c_world cfg (1 + length bad)%nat in
  w_dial w a = Some k -> c_loose cfg = false \/ w_listen w <> None -> populate k (if c_loose cfg then w_listen w else None) w m1 = Ok m2 -> vias m2 <> [] -> maxforwards m2 <> 1 ->
  placed cfg (set_dest host (init m)) k (if c_loose cfg then w_listen w else None) rest m2 (start cfg m).
Proof.
  intros cfg m m1 host port bad a rest k m2 R A U w D CS P V MF. apply (request_placed cfg None (init m) m1 host port bad a rest k m2); try assumption; [|right; exact CS]. apply Forall_forall. intros z _ y Y. discriminate.
Qed.

(** ** Over a whole execution *)
(** a request of ours which is populated: not an ACK or a CANCEL *)
Definition own (m : msg) : Prop := status m <= 0 /\ method m <> B "ACK" /\ method m <> B "CANCEL".
Definition dialed (cfg : config) (k : sock) : Prop := exists n a, w_dial (c_world cfg n) a = Some k.
(** a port at which the dialog listens while it uses the socket [k] *)
Definition listening (cfg : config) (k : sock) (p : Z) : Prop := p = so_lport k \/ (c_loose cfg = true /\ exists n, w_listen (c_world cfg n) = Some p).
Definition leaves (cfg : config) (k : sock) (m : msg) : Prop :=
  via_port m = Some (so_lport k) /\ (exists n, via_branch m = Some (GenerateBranch (dr_branch (w_draws (c_world cfg n))))) /\ exists u, contact_uri m = Some u /\ listening cfg k (u_port u) /\ value_of (B "transport") (u_param u) <> None.
Definition right_datagram (cfg : config) (o : out) : Prop :=
  match o with
  | OSend to m text => (exists n, text = msg_append (w_rid (c_world cfg n)) m) /\ exists k, dialed cfg k /\ to = so_remote k /\ (own m -> leaves cfg k m)
  | _ => True
  end.
Section Where.
Variable cfg : config.
Definition sockets (s : dstate) : Prop := (forall k, so s = Some k -> dialed cfg k) /\ (forall p, cso s = Some p -> c_loose cfg = true /\ exists n, w_listen (c_world cfg n) = Some p) /\ (forall a, response s = Some a -> 0 < status a).
Definition leaving (s : dstate) : Prop := sockets s /\ exists k, so s = Some k /\ leaves cfg k (the_request s).
(** started in a state with Pre, [a] sends only right datagrams, and if it goes on, it ends in a state with Post *)
Definition right (Pre Post : dstate -> Prop) (a : action) : Prop := forall s, Pre s -> Forall (right_datagram cfg) (r_out (a s)) /\ (r_v (a s) = Cont -> Post (r_state (a s))).
Lemma right_seq P Q R a b : right P Q a -> right Q R b -> right P R (a ;; b).
Proof.
  intros A C s H. destruct (A s H) as [A1 A2]. rewrite seq_eq. destruct (r_v (a s)) eqn:E; [|split; [exact A1|rewrite E; discriminate]|split; [exact A1|rewrite E; discriminate]].
  destruct (C _ (A2 eq_refl)) as [C1 C2]. cbn [r_out r_v r_state]. split; [apply Forall_app; auto|exact C2].
Qed.
Lemma right_upd (P Q : dstate -> Prop) f : (forall s, P s -> Q (f s)) -> right P Q (upd f). Proof. intros H s S. split; [constructor|intros _; apply H; exact S]. Qed.
Lemma right_crash P Q : right P Q crash. Proof. intros s S. split; [constructor|discriminate]. Qed.
Lemma right_halt P Q : right P Q halt. Proof. intros s S. split; [constructor|discriminate]. Qed.
Lemma right_fail P Q e : right P Q (fail e). Proof. intros s S. split; [repeat constructor|discriminate]. Qed.
Lemma right_emit (P Q : dstate -> Prop) o : (forall s, P s -> Q s) -> match o with OSend _ _ _ => False | _ => True end -> right P Q (emit o).
Proof. intros H N s S. split; [|intros _; apply H; exact S]. repeat constructor. destruct o; [exact I..|destruct N]. Qed.
Lemma right_look {A} P Q (f : dstate -> A) k : (forall x, right (fun s => P s /\ f s = x) Q (k x)) -> right P Q (look f k). Proof. intros H s S. apply (H (f s) s). split; [exact S|reflexivity]. Qed.
Lemma right_val {A} P Q (x : res A) k : (forall a, x = Ok a -> right P Q (k a)) -> right P Q (val x k). Proof. intros H. destruct x; [apply H; reflexivity|apply right_crash]. Qed.
Lemma right_weaken (P P' Q Q' : dstate -> Prop) a : (forall s, P' s -> P s) -> (forall s, Q s -> Q' s) -> right P Q a -> right P' Q' a.
Proof. intros A C R s S. destruct (R s (A s S)) as [R1 R2]. split; [exact R1|]. intros V. apply C, R2, V. Qed.

Lemma leaves_kept k m v : leaves cfg k m -> stamped (vias m) v -> leaves cfg k (set_vias v (lowered m)).
Proof.
  intros (L1 & (n & L2) & u & L3 & L4 & L5) S. assert (C : contact_uri (set_vias v (lowered m)) = contact_uri m) by (unfold lowered; destruct (0 <? maxforwards m); reflexivity).
  unfold leaves. rewrite C. assert (X : via_port (set_vias v (lowered m)) = via_port m /\ via_branch (set_vias v (lowered m)) = via_branch m).
  { unfold via_port, via_branch. cbn [vias set_vias]. destruct S as [-> | (h & t & z & -> & ->)]; [split; reflexivity|]. cbn [set_vparam v_port v_param]. split; [reflexivity|apply value_skip; reflexivity]. }
  destruct X as [-> ->]. split; [exact L1|]. split; [exists n; exact L2|]. exists u. auto.
Qed.
(** one datagram: the message is right for the socket, and stays so in the state *)
Lemma right_send m keep (P : dstate -> Prop) :
  (forall s, P s -> sockets s /\ exists k, so s = Some k /\ (own m -> leaves cfg k m)) ->
  (forall s x n, P s -> (exists v, stamped (vias m) v /\ x = set_vias v (lowered m)) -> let s' := set_clock n (keep (lowered m) s) in so (keep x s') = so s /\ leaving (keep x s')) -> right P leaving (send cfg m keep).
Proof.
  intros H K s S. rewrite send_eq. cbv zeta. destruct (H s S) as [(D & _) (k & SO & OW)]. destruct (maxforwards m =? 1); [split; [repeat constructor|discriminate]|].
  destruct (addTimestamp _ _) as [m2|] eqn:E; [|split; [constructor|discriminate]]. apply stamp_stamped in E. destruct E as (v & SV & ->). rewrite lowered_vias in SV. set (s7 := set_clock _ _).
  destruct (K s (set_vias v (lowered m)) (Datatypes.S (clock (keep (lowered m) s))) S (ex_intro _ v (conj SV eq_refl))) as [K1 K2]. fold s7 in K1, K2. rewrite K1, SO. destruct (w_write _ _); [|split; [repeat constructor|discriminate]].
  cbn [r_out r_v r_state]. split; [|intros _; exact K2]. repeat constructor; [eexists; reflexivity|]. exists k. split; [exact (D k SO)|]. split; [reflexivity|]. intros O. apply leaves_kept; [|exact SV]. apply OW. unfold own, lowered in *. destruct (0 <? maxforwards m); exact O.
Qed.
Lemma own_response m n : 0 < n -> ~ own (NewResponse m n). Proof. intros N [A _]. change (status (NewResponse m n)) with n in A. lia. Qed.
Lemma right_drop m : ~ own m -> right leaving leaving (send cfg m drop).
Proof.
  intros N. apply right_send; [intros s (S & k & K & L); split; [exact S|]; exists k; split; [exact K|intros O; contradiction]|]. intros s x n (S & k & K & L) _. unfold drop. cbn. split; [reflexivity|]. split; [exact S|]. exists k. split; [exact K|exact L].
Qed.
Lemma so_request m s : so (set_the_request m s) = so s /\ cso (set_the_request m s) = cso s /\ response (set_the_request m s) = response s. Proof. unfold set_the_request. destruct (req s); auto. Qed.
Lemma sockets_eq s s' : so s' = so s -> cso s' = cso s -> response s' = response s -> sockets s -> sockets s'.
Proof. intros E1 E2 E3. unfold sockets. rewrite E1, E2, E3. auto. Qed.
Lemma right_request m : right (fun s => sockets s /\ exists k, so s = Some k /\ leaves cfg k m) leaving (send cfg m set_the_request).
Proof.
  apply right_send; [intros s (S & k & K & L); split; [exact S|]; exists k; auto|]. intros s x n (S & k & K & L) (v & SV & ->). cbv zeta. set (x := set_vias v (lowered m)).
  destruct (so_request (lowered m) s) as (A1 & A2 & A3). set (s1 := set_the_request (lowered m) s) in *. destruct (so_request x (set_clock n s1)) as (B1 & B2 & B3). cbn [so cso response set_clock] in B1, B2, B3.
  assert (E : so (set_the_request x (set_clock n s1)) = so s) by congruence. split; [exact E|]. split; [apply (sockets_eq s); try congruence; exact S|]. exists k. split; [congruence|]. rewrite the_request_set. apply leaves_kept; assumption.
Qed.
Lemma addressed_leaves k cp w n m m' : w = c_world cfg n -> (forall p, cp = Some p -> c_loose cfg = true /\ exists n, w_listen (c_world cfg n) = Some p) -> addressed k cp (GenerateBranch (dr_branch (w_draws w))) m m' -> leaves cfg k m'.
Proof.
  intros -> CP (A1 & A2 & _ & _ & _ & u & A3 & A4 & A5 & _). split; [exact A1|]. split; [exists n; exact A2|]. exists u. split; [exact A3|]. split; [|exact A5]. unfold listening. rewrite A4. destruct cp as [p|]; [right; apply CP; reflexivity|left; reflexivity].
Qed.
Lemma connect_sockets n s : sockets s -> let '(s', ok) := connect cfg (c_world cfg n) s in sockets s' /\ (ok = true -> exists k, so s' = Some k).
Proof.
  intros (D & C & RS). unfold connect. destruct (so s) as [k|] eqn:K.
  - destruct (bseq _ _); [split; [split; [intros k0 X; apply D; congruence|split; assumption]|intros _; exists k; exact K]|]. cbv zeta. change (daddr (set_so None s)) with (daddr s).
    destruct (w_dial (c_world cfg n) (daddr s)) as [k'|] eqn:W; [|split; [split; [discriminate|split; assumption]|discriminate]]. change (cso (set_so (Some k') (set_so None s))) with (cso s).
    assert (DK : forall k0, Some k' = Some k0 -> dialed cfg k0) by (intros k0 X; injection X as <-; exists n, (daddr s); exact W).
    destruct (cso s) as [p|] eqn:CS; [split; [split; [exact DK|split; [intros p0 X; cbn in X; apply C; congruence|exact RS]]|intros _; eexists; reflexivity]|]. destruct (c_loose cfg) eqn:LO; [|split; [split; [exact DK|split; [intros p0 X; cbn in X; congruence|exact RS]]|intros _; eexists; reflexivity]].
    destruct (w_listen (c_world cfg n)) as [p|] eqn:LI; (split; [split; [exact DK|split; [|exact RS]]|]). + intros p0 X. cbn in X. injection X as <-. split; [exact LO|eauto]. + intros _. eexists. reflexivity. + cbn. rewrite CS. discriminate. + discriminate.
  - cbv zeta. change (daddr (set_so None s)) with (daddr s).
    destruct (w_dial (c_world cfg n) (daddr s)) as [k'|] eqn:W; [|split; [split; [discriminate|split; assumption]|discriminate]]. change (cso (set_so (Some k') (set_so None s))) with (cso s).
    assert (DK : forall k0, Some k' = Some k0 -> dialed cfg k0) by (intros k0 X; injection X as <-; exists n, (daddr s); exact W).
    destruct (cso s) as [p|] eqn:CS; [split; [split; [exact DK|split; [intros p0 X; cbn in X; apply C; congruence|exact RS]]|intros _; eexists; reflexivity]|]. destruct (c_loose cfg) eqn:LO; [|split; [split; [exact DK|split; [intros p0 X; cbn in X; congruence|exact RS]]|intros _; eexists; reflexivity]].
    destruct (w_listen (c_world cfg n)) as [p|] eqn:LI; (split; [split; [exact DK|split; [|exact RS]]|]). + intros p0 X. cbn in X. injection X as <-. split; [exact LO|eauto]. + intros _. eexists. reflexivity. + cbn. rewrite CS. discriminate. + discriminate.
Qed.
Lemma right_pop rs : right sockets leaving (pop_route cfg rs).
Proof.
  induction rs as [|a rs IH]; cbn [pop_route]; [apply (right_seq _ sockets); [apply right_upd; auto|apply right_look; intros; apply right_fail]|].
  apply (right_seq _ sockets); [apply right_upd; auto|]. apply (right_seq _ sockets); [apply right_upd; auto|]. intros s H. unfold ask. set (n := clock s). set (s0 := set_clock _ s). assert (H0 : sockets s0) by exact H. clearbody s0 n. clear H s.
  pose proof (connect_sockets n s0 H0) as C. destruct (connect cfg (c_world cfg n) s0) as [s1 ok]. destruct C as [C1 C2]. destruct ok; cbn [negb]; [|apply IH; exact C1]. destruct (C2 eq_refl) as (k & K). rewrite K.
  destruct (populate k (cso s1) (c_world cfg n) (the_request s1)) as [m|] eqn:PO; [|split; [constructor|discriminate]]. apply populate_says in PO. assert (L : leaves cfg k m) by (exact (addressed_leaves k _ _ n _ _ eq_refl (proj1 (proj2 C1)) PO)). cbn [val].
  set (Q := fun s => sockets s /\ exists k, so s = Some k /\ leaves cfg k m).
  match goal with |- Forall _ (r_out (?b s1)) /\ _ => enough (T : right (fun s => sockets s /\ so s = Some k) leaving b) by (apply T; split; assumption) end.
  apply (right_seq _ Q). { apply right_upd. intros s [S X]. destruct (so_request m s) as (A1 & A2 & A3). split; [apply (sockets_eq s); assumption|]. exists k. split; [congruence|exact L]. }
  apply (right_seq _ Q). { apply right_look. intros x. destruct (x <? Answered); [|apply right_upd; intros s [X _]; exact X]. apply (right_seq _ Q); [apply right_upd; intros s [X _]; exact X|]. apply (right_seq _ Q); apply right_upd; intros s X; exact X. }
  apply (right_seq _ Q); [apply right_upd; intros s X; exact X|]. apply (right_seq _ Q); [apply right_upd; intros s X; exact X|]. apply right_request.
Qed.
Lemma right_popRoute : right sockets leaving (popRoute cfg). Proof. apply right_look. intros rs. eapply right_weaken; [|intros s X; exact X|apply right_pop]. intros s [X _]. exact X. Qed.
Lemma right_sendRequest w : right sockets leaving (sendRequest cfg w).
Proof.
  apply right_look. intros m. apply right_val. intros [m' r] _. apply (right_seq _ sockets); [apply right_upd; intros s [X _]; destruct w; exact X|]. destruct r as [[host port]|e]; [|apply right_fail].
  intros s S. unfold ask, look. assert (S1 : sockets (set_clock (Datatypes.S (clock s)) s)) by exact S. set (s1 := set_clock _ s) in *. clearbody s1. destruct (RouteAddress _ _ _ _); [|apply (right_fail sockets); exact S1]. revert s1 S1.
  do 3 (apply (right_seq _ sockets); [apply right_upd; auto|]). apply right_popRoute.
Qed.
Lemma leaving_sockets s : leaving s -> sockets s. Proof. intros [X _]. exact X. Qed.
Lemma right_sdp m : right leaving leaving (checkSDP m).
Proof. unfold checkSDP. destruct (pay m) as [[|d]|]; try (apply right_upd; auto). destruct (s_audio d); [apply right_emit; [auto|exact I]|apply right_crash]. Qed.
Lemma right_transition n : right leaving leaving (transition n).
Proof. apply (right_seq _ leaving); [apply right_upd; auto|apply right_emit; [auto|exact I]]. Qed.
Lemma right_keep m : 0 < status m -> right leaving leaving (send cfg m keep_response).
Proof.
  intros N. apply right_send; [intros s (S & k & K & L); split; [exact S|]; exists k; split; [exact K|intros [O _]; lia]|]. intros s x n ((S1 & S2 & S3) & k & K & L) (v & SV & ->). unfold keep_response. cbn. split; [reflexivity|]. split; [split; [exact S1|split; [exact S2|]]|exists k; split; [exact K|exact L]].
  cbn. intros a A. injection A as <-. unfold lowered. destruct (0 <? maxforwards m); exact N.
Qed.
Ltac rg1 := match goal with
  | |- right leaving leaving (upd _) => apply right_upd; auto
  | |- right _ _ crash => apply right_crash
  | |- right _ _ halt => apply right_halt
  | |- right _ _ (fail _) => apply right_fail
  | |- right leaving leaving (send _ (NewResponse _ _) drop) => apply right_drop, own_response; lia
  | |- right leaving leaving (transition _) => apply right_transition
  | |- right leaving leaving (checkSDP _) => apply right_sdp
  | |- right leaving leaving (popRoute _) => apply (right_weaken sockets leaving leaving leaving _ leaving_sockets (fun s X => X)); apply right_popRoute
  | |- right leaving leaving (sendRequest _ _) => apply (right_weaken sockets leaving leaving leaving _ leaving_sockets (fun s X => X)); apply right_sendRequest
  | |- right leaving leaving (look _ _) => apply right_look; let x := fresh "x" in intros x; apply (right_weaken leaving _ leaving leaving); [intros ? [? _]; assumption|auto|]
  | |- right leaving leaving (val _ _) => apply right_val; intros
  | |- right leaving leaving (_ ;; _) => apply (right_seq _ leaving)
  | |- right leaving leaving (if ?b then _ else _) => destruct b
  | |- right leaving leaving (match ?x with _ => _ end) => destruct x end.
Lemma right_response m : right leaving leaving (handleResponse cfg m).
Proof.
  unfold handleResponse. rg1. rg1; [rg1|]. rg1.
  { rg1; [|rg1]. destruct (addrs m Contact); [rg1|]. rg1. apply right_drop. intros (_ & O & _). destruct (ack_facts _ _ _ H) as [A _]. unfold NewAck in H. destruct (uri_of _); [|discriminate]. cbn [rbind] in H. destruct (via_Detach _); [|discriminate]. cbn [rbind] in H. injection H as <-. apply O. reflexivity. }
  repeat rg1. intros s (S & k & K & L). split; [exact S|]. exists k. split; [exact K|]. unfold the_request in *. cbn [req invite set_invite]. destruct (req s); exact L.
Qed.
Lemma right_peer m : right leaving leaving (handleRequest cfg m).
Proof.
  unfold handleRequest, sendResponse. repeat rg1; try (apply right_keep; reflexivity); intros s ((S1 & S2 & S3) & k & K & L); (split; [split; [exact S1|split; [exact S2|]]|exists k; split; [exact K|exact L]]).
  - cbn. intros a A. injection A as <-. reflexivity.
  - discriminate.
Qed.
Lemma right_handle e : right leaving leaving (handle cfg e).
Proof.
  destruct e as [[|]| | | |m|]; cbn [handle].
  - intros s S. split; [constructor|discriminate].
  - intros s S. split; [repeat constructor|discriminate].
  - intros s S. split; [repeat constructor|discriminate].
  - rg1; [rg1|]. unfold resendRequest. rg1. rg1; [|repeat rg1]. rg1; [|repeat rg1]. apply right_look. intros q. eapply right_weaken; [|intros s X; exact X|apply right_request]. intros s [(S & k & K & L) <-]. split; [exact S|]. exists k. auto.
  - rg1; [rg1|]. unfold resendResponse. apply right_look. intros [a|]; [|apply right_upd; intros s [X _]; exact X].
    intros s [S R]. assert (N : 0 < status a) by exact (proj2 (proj2 (proj1 S)) a R). revert s S R. match goal with |- forall s, leaving s -> _ -> Forall _ (r_out (?b s)) /\ _ => enough (T : right leaving leaving b) by (intros s S _; exact (T s S)) end.
    repeat rg1. apply right_keep. exact N.
  - unfold handleMessage. repeat rg1; [apply right_response|apply right_peer].
  - unfold sendHangup. rg1. rg1; [|repeat rg1]. apply right_look. intros c. apply right_send.
    + intros s [(S & k & K & L) C]. split; [exact S|]. exists k. split; [exact K|]. intros (_ & _ & O). subst c. destruct O. reflexivity.
    + intros s x0 n [(S & k & K & L) C] (v & SV & ->). cbv zeta. subst c. rewrite lowered_vias in *. cbn [vias set_vias NewCancel set_method set_request] in *. split; [reflexivity|]. split; [exact S|]. exists k. split; [exact K|].
      unfold the_request in *. cbn [req invite set_invite set_clock]. destruct (req s); [exact L|]. change (leaves cfg k (set_vias v (set_vias (vias (invite s)) (invite s)))).
      destruct L as (L1 & (i & L2) & u & L3). assert (X : via_port (set_vias v (invite s)) = via_port (invite s) /\ via_branch (set_vias v (invite s)) = via_branch (invite s)).
      { unfold via_port, via_branch. cbn [vias set_vias]. destruct SV as [-> | (h & t & z & -> & ->)]; [split; reflexivity|]. cbn [set_vparam v_port v_param]. split; [reflexivity|apply value_skip; reflexivity]. }
      destruct X as [X1 X2]. split; [exact (eq_trans X1 L1)|]. split; [exists i; exact (eq_trans X2 L2)|]. exists u. exact L3.
Qed.
Lemma start_right m : Forall (right_datagram cfg) (r_out (start cfg m)) /\ (r_v (start cfg m) = Cont -> leaving (r_state (start cfg m))).
Proof. apply (right_sendRequest None). split; [discriminate|]. split; discriminate. Qed.
Lemma right_run r es r' : run cfg r es r' -> Forall (right_datagram cfg) (r_out r) -> (r_v r = Cont -> leaving (r_state r)) -> Forall (right_datagram cfg) (r_out r').
Proof.
  induction 1 as [r|r e es r' V EN D IH]; intros F L; [exact F|]. destruct (right_handle e _ (L V)) as [A1 A2]. apply IH; [cbn [r_out]; apply Forall_app; auto|exact A2].
Qed.
End Where.

(** * C71: in every execution, every datagram is the text of its message and goes to where a socket of the dialog is connected to, and the
    requests of the dialog name the ports it listens at, with a branch drawn for them. *)
Theorem datagrams_right : forall cfg m es r, dialog cfg m es r -> forall to x text, In (OSend to x text) (r_out r) ->
  (exists n, text = msg_append (w_rid (c_world cfg n)) x) /\ exists k, dialed cfg k /\ to = so_remote k /\ (own x -> leaves cfg k x).
Proof.
  intros cfg m es r D to x text I. destruct (start_right cfg m) as [A1 A2]. exact (proj1 (Forall_forall _ _) (right_run cfg _ _ _ D A1 A2) _ I).
Qed.

(** ** Examples *)
Example placed_met : exists m2, populate (mksock a1 (B "10.0.0.9") 5070) None (ex_world 1) ex_invite = Ok m2 /\ vias m2 <> [] /\ maxforwards m2 <> 1 /\
  RouteMessage [] [] ex_invite = Ok (ex_invite, inl (B "example.org", 0)) /\ RouteAddress (w_dns (ex_world 0)) (B "example.org") 0 true = Some [a1; a2] /\ via_port m2 = Some 5070.
Proof. destruct (populate (mksock a1 (B "10.0.0.9") 5070) None (ex_world 1) ex_invite) as [m2|] eqn:E; vm_compute in E; [|discriminate E]. injection E as <-. eexists. split; [reflexivity|]. vm_compute. repeat split; discriminate. Qed.
