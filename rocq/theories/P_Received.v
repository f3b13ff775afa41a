(** C67: what the receive loop changes in a message before it is delivered. *)
From Verif Require Import Bytes BytesLemmas GoLib GoLibLemmas SdpModel SipText SipTypes SipAppend UtilModel P_Text P_Lists DialogMsg P_DialogMsg MsgModel TransportModel P_Transport.
Local Open Scope Z_scope.

(** nothing but Via, Route and the request URI *)
Definition same_elsewhere (m m' : msg) : Prop :=
  vmaj m' = vmaj m /\ vmin m' = vmin m /\ method m' = method m /\ status m' = status m /\ phrase m' = phrase m /\ pay m' = pay m /\ source m' = source m /\
  callid m' = callid m /\ cseq m' = cseq m /\ cseqmethod m' = cseqmethod m /\ maxforwards m' = maxforwards m /\ expires m' = expires m /\ minexpires m' = minexpires m /\
  (forall f, strs m' f = strs m f) /\ xheader m' = xheader m /\ forall f, f <> Route -> addrs m' f = addrs m f.
(** the parameters the receiver may add: for a request where it came from, and for every message the time, if messages are stamped *)
Definition noted (rsp : bool) (src : bytes * Z) (stamp : option bytes) (p : param) : Prop :=
  (rsp = false /\ (p = (B "rport", itoa (snd src)) \/ p = (B "received", fst src))) \/ exists t, stamp = Some t /\ p = (B "usi", t).
(** A parameter [p] that was there is still there, as [q]; only an "rport" without value may be given one. *)
Definition same_param (rsp : bool) (src : bytes * Z) (p q : param) : Prop :=
  fst q = fst p /\ (snd q = snd p \/ rsp = false /\ snd p = [] /\ equal_fold (fst p) (B "rport") = true /\ snd q = itoa (snd src)).
(** A Via entry of a message from the address [src]: the same entry, with parameters added in front. For a request "rport" and "received" say where
    it came from if the entry does not say so itself; parameters with a value are never changed. *)
Definition annotated (rsp : bool) (src : bytes * Z) (stamp : option bytes) (v v' : via) : Prop :=
  v_protocol v' = v_protocol v /\ v_version v' = v_version v /\ v_transport v' = v_transport v /\ v_host v' = v_host v /\ v_port v' = v_port v /\
  (exists added kept, v_param v' = added ++ kept /\ Forall (noted rsp src stamp) added /\ Forall2 (same_param rsp src) (v_param v) kept) /\
  (forall x, value_of (B "received") (v_param v) = Some x -> value_of (B "received") (v_param v') = Some x) /\
  (forall x, value_of (B "rport") (v_param v) = Some x -> x <> [] -> value_of (B "rport") (v_param v') = Some x) /\
  (rsp = false -> v_host v <> fst src -> value_of (B "received") (v_param v) = None -> value_of (B "received") (v_param v') = Some (fst src)) /\
  (rsp = false -> v_port v <> snd src -> value_of (B "rport") (v_param v) = None \/ value_of (B "rport") (v_param v) = Some [] -> value_of (B "rport") (v_param v') = Some (itoa (snd src))) /\
  (forall t, stamp = Some t -> value_of (B "usi") (v_param v') = Some t).
(** the first Route entry is our address *)
Definition for_us (lhost : bytes) (lport : Z) (m : msg) : Prop := exists r l u, addrs m Route = r :: l /\ a_uri r = Some u /\ ours lhost lport u.
(** the request URI is one of ours with "lr": a strict router has put it there *)
Definition by_strict_router (lhost : bytes) (lport : Z) (m : msg) : Prop := exists u, request m = Some u /\ ours lhost lport u /\ looser u.

Definition core (rsp : bool) (src : bytes * Z) (stamp : option bytes) (v w : via) : Prop :=
  v_protocol w = v_protocol v /\ v_version w = v_version v /\ v_transport w = v_transport v /\ v_host w = v_host v /\ v_port w = v_port v /\
  exists added kept, v_param w = added ++ kept /\ Forall (noted rsp src stamp) added /\ Forall2 (same_param rsp src) (v_param v) kept.
Lemma kept_refl rsp src (l : list param) : Forall2 (same_param rsp src) l l.
Proof. induction l; constructor; [split; auto|assumption]. Qed.
Lemma core_refl rsp src stamp v : core rsp src stamp v v.
Proof. unfold core. repeat (split; [reflexivity|]). exists [], (v_param v). split; [reflexivity|]. split; [constructor|apply kept_refl]. Qed.
Lemma core_cons rsp src stamp v w n x : noted rsp src stamp (n, x) -> core rsp src stamp v w -> core rsp src stamp v (set_vparam ((n, x) :: v_param w) w).
Proof.
  intros N (H1 & H2 & H3 & H4 & H5 & ad & k & E & F & K). unfold core. cbn [set_vparam v_protocol v_version v_transport v_host v_port v_param]. repeat (split; [assumption|]).
  exists ((n, x) :: ad), k. rewrite E. split; [reflexivity|]. split; [constructor; [exact N|exact F]|exact K].
Qed.
Lemma core_set src stamp v n : param_get (v_param v) (B "rport") = Some (n, []) -> core false src stamp v (set_vparam (param_set (v_param v) (B "rport") (itoa (snd src))) v).
Proof.
  intros G. unfold core. cbn [set_vparam v_protocol v_version v_transport v_host v_port v_param]. repeat (split; [reflexivity|]). exists [], (param_set (v_param v) (B "rport") (itoa (snd src))).
  split; [reflexivity|]. split; [constructor|]. revert G. generalize (v_param v). induction l as [|[k y] l IH]; cbn [param_get param_set]; [discriminate|]. destruct (equal_fold k (B "rport")) eqn:E.
  - intros G. injection G as -> ->. constructor; [split; [reflexivity|]; right; auto|apply kept_refl].
  - intros G. constructor; [split; auto|exact (IH G)].
Qed.
Lemma annotated_via (src : bytes * Z) (rsp : bool) (v : via) (stamp : option bytes) :
  let v1 := if rsp then v else if v_port v =? snd src then v else
      match param_get (v_param v) (B "rport") with
      | None => set_vparam ((B "rport", itoa (snd src)) :: v_param v) v
      | Some (_, []) => set_vparam (param_set (v_param v) (B "rport") (itoa (snd src))) v
      | Some _ => v
      end in
  let v2 := if rsp then v1 else if bseq (v_host v1) (fst src) then v1 else
      match param_get (v_param v1) (B "received") with None => set_vparam ((B "received", fst src) :: v_param v1) v1 | Some _ => v1 end in
  annotated rsp src stamp v (match stamp with Some t => set_vparam ((B "usi", t) :: v_param v2) v2 | None => v2 end).
Proof.
  intros v1 v2.
  assert (H1 : core rsp src stamp v v1 /\ value_of (B "received") (v_param v1) = value_of (B "received") (v_param v) /\
    (forall x, value_of (B "rport") (v_param v) = Some x -> x <> [] -> value_of (B "rport") (v_param v1) = Some x) /\
    (rsp = false -> v_port v <> snd src -> value_of (B "rport") (v_param v) = None \/ value_of (B "rport") (v_param v) = Some [] -> value_of (B "rport") (v_param v1) = Some (itoa (snd src)))).
  { unfold v1. destruct rsp; [split; [apply core_refl|]; auto; repeat split; auto; discriminate|]. destruct (Z.eqb_spec (v_port v) (snd src)) as [E|E]; [split; [apply core_refl|]; repeat split; auto; congruence|].
    rewrite (value_get (B "rport") (v_param v)). destruct (param_get (v_param v) (B "rport")) as [[n [|c x]]|] eqn:G.
    - split; [apply (core_set src stamp v n G)|]. cbn [set_vparam v_param]. split; [apply value_set_other; apply fold_disjoint; [reflexivity|reflexivity|discriminate]|]. split; [intros x X NX; congruence|].
      intros _ _ _. apply value_set. unfold value_of. rewrite G. discriminate.
    - split; [apply core_refl|]. split; [reflexivity|]. rewrite value_get, G. split; [auto|]. intros _ _ [X|X]; discriminate.
    - split; [apply core_cons; [left; auto|apply core_refl]|]. cbn [set_vparam v_param]. split; [apply value_skip; reflexivity|]. split; [discriminate|]. intros _ _ _. apply value_head. reflexivity. }
  destruct H1 as (C1 & R1 & K1 & N1).
  assert (H2 : core rsp src stamp v v2 /\ value_of (B "rport") (v_param v2) = value_of (B "rport") (v_param v1) /\
    (forall x, value_of (B "received") (v_param v) = Some x -> value_of (B "received") (v_param v2) = Some x) /\
    (rsp = false -> v_host v <> fst src -> value_of (B "received") (v_param v) = None -> value_of (B "received") (v_param v2) = Some (fst src))).
  { unfold v2. assert (HH : v_host v1 = v_host v) by (destruct C1 as (_ & _ & _ & X & _); exact X). rewrite <- HH, <- R1. clearbody v1. clear v2. destruct rsp; [repeat split; auto; try apply C1; discriminate|]. destruct (bseq_reflect (v_host v1) (fst src)) as [E|E]; [split; [exact C1|]; repeat split; auto; congruence|].
    rewrite (value_get (B "received")). destruct (param_get (v_param v1) (B "received")) as [[n x]|] eqn:G.
    - split; [exact C1|]. split; [reflexivity|]. rewrite value_get, G. split; [auto|discriminate].
    - split; [apply core_cons; [left; auto|exact C1]|]. cbn [set_vparam v_param]. split; [apply value_skip; reflexivity|]. split; [discriminate|]. intros _ _ _. apply value_head. reflexivity. }
  clearbody v2. destruct H2 as (C2 & R2 & K2 & N2). rewrite <- R2 in K1, N1. clearbody v1. clear v1 C1 R1 R2.
  destruct stamp as [t|].
  - pose proof (core_cons rsp src (Some t) v v2 (B "usi") t (or_intror (ex_intro _ t (conj eq_refl eq_refl))) C2) as (Y1 & Y2 & Y3 & Y4 & Y5 & Y6). unfold annotated. repeat (split; [assumption|]).
    cbn [set_vparam v_param]. intros t' E. injection E as <-. apply value_head. reflexivity.
  - destruct C2 as (Y1 & Y2 & Y3 & Y4 & Y5 & Y6). unfold annotated. repeat (split; [assumption|]). discriminate.
Qed.
Lemma same_refl m : same_elsewhere m m. Proof. repeat split; reflexivity. Qed.

(** * C67 *)
(** [m] is the message in the datagram and [m'] the message which is delivered. *)
Definition received_as (lhost : bytes) (lport : Z) (src : bytes * Z) (stamp : option bytes) (m m' : msg) : Prop :=
  same_elsewhere m m' /\
  (vias m = [] /\ vias m' = [] \/ exists v v' l, vias m = v :: l /\ vias m' = v' :: l /\ annotated (IsResponse m) src stamp v v') /\
  exists route, (for_us lhost lport m -> exists r, addrs m Route = r :: route) /\ (~ for_us lhost lport m -> route = addrs m Route) /\
    (by_strict_router lhost lport m /\ route <> [] -> exists last, route = addrs m' Route ++ [last] /\ request m' = a_uri last) /\
    (~ (by_strict_router lhost lport m /\ route <> []) -> addrs m' Route = route /\ request m' = request m).
Theorem reception_exact : forall lhost lport src stamp m m', prepare lhost lport src stamp m = Ok m' -> received_as lhost lport src stamp m m'.
Proof.
  intros lhost lport src stamp m m'. unfold prepare. intros H. apply rbind_ok in H. destruct H as (m1 & A & H). apply rbind_ok in H. destruct H as (m2 & T & H). apply rbind_ok in H. destruct H as (m3 & R & H). injection H as <-.
  assert (V : (exists vv, m2 = set_vias vv m) /\ (vias m = [] /\ vias m2 = [] \/ exists v v' l, vias m = v :: l /\ vias m2 = v' :: l /\ annotated (IsResponse m) src stamp v v')).
  { revert A T. unfold addReceived, addTimestamp. pose proof (annotated_via src (IsResponse m)) as AV. destruct (IsResponse m) eqn:IR.
    - intros A. injection A as <-. destruct (vias m) as [|v l] eqn:E.
      + destruct stamp; [discriminate|]. intros T. injection T as <-. split; [exists []; rewrite <- E; destruct m; reflexivity|]. left. auto.
      + specialize (AV v stamp). cbv zeta iota in AV. destruct stamp; intros T; injection T as <-; (split; [try (eexists; reflexivity); exists (v :: l); rewrite <- E; destruct m; reflexivity|]); right; eexists v, _, l; rewrite ?E; cbn [vias set_vias]; repeat split; try reflexivity; try exact E; apply AV.
    - destruct (vias m) as [|v l] eqn:E; [discriminate|]. specialize (AV v stamp). cbv zeta iota in AV. intros A. injection A as <-. cbn [vias set_vias].
      destruct stamp; intros T; injection T as <-; (split; [eexists; reflexivity|]); right; eexists v, _, l; (split; [reflexivity|]); (split; [reflexivity|]); exact AV. }
  clear A T m1. destruct V as ((vv & V1) & V2).
  assert (RM : addrs m2 Route = addrs m Route /\ request m2 = request m /\ same_elsewhere m m2) by (subst m2; repeat split; reflexivity). destruct RM as (RM & QM & SM). clear V1 vv.
  assert (P : same_elsewhere m m3 /\ vias m3 = vias m2 /\ request m3 = request m /\ (for_us lhost lport m -> exists r, addrs m Route = r :: addrs m3 Route) /\ (~ for_us lhost lport m -> addrs m3 Route = addrs m Route)).
  { revert R. unfold pop_own_route. rewrite RM. destruct (addrs m Route) as [|r l] eqn:E.
    - intros R. injection R as <-. split; [exact SM|]. split; [reflexivity|]. split; [exact QM|]. split; [intros (? & ? & ? & X & _); congruence|intros _; exact RM].
    - intros R. apply rbind_ok in R. destruct R as (u & D & R). apply deref_ok in D. injection R as <-. pose proof (ours_dec lhost lport u) as O. destruct (bseq (u_host u) lhost && _) eqn:B.
      + split; [unfold same_elsewhere in *; destruct SM as (S1 & S2 & S3 & S4 & S5 & S6 & S7 & S8 & S9 & S10 & S11 & S12 & S13 & S14 & S15 & S16); repeat (split; [assumption|]); intros f F; rewrite <- (S16 f F); destruct f; try reflexivity; congruence|].
        split; [reflexivity|]. split; [exact QM|]. split; [intros _; exists r; reflexivity|]. intros N. destruct N. exists r, l, u. split; [exact E|]. split; [exact D|]. apply O. reflexivity.
      + split; [exact SM|]. split; [reflexivity|]. split; [exact QM|]. rewrite RM. split; [|reflexivity]. intros (r' & l' & u' & X & X2 & X3). exfalso. rewrite E in X. injection X as <- <-. rewrite D in X2. injection X2 as <-. apply O in X3. discriminate. }
  clear R SM RM QM. destruct P as (SM & VM & QM & P1 & P2). 
  assert (F : same_elsewhere m3 (fixMessagesFromStrictRouters lhost lport m3) /\ vias (fixMessagesFromStrictRouters lhost lport m3) = vias m3 /\
    (by_strict_router lhost lport m3 /\ addrs m3 Route <> [] -> exists last, addrs m3 Route = addrs (fixMessagesFromStrictRouters lhost lport m3) Route ++ [last] /\ request (fixMessagesFromStrictRouters lhost lport m3) = a_uri last) /\
    (~ (by_strict_router lhost lport m3 /\ addrs m3 Route <> []) -> addrs (fixMessagesFromStrictRouters lhost lport m3) Route = addrs m3 Route /\ request (fixMessagesFromStrictRouters lhost lport m3) = request m3)).
  { clear. unfold fixMessagesFromStrictRouters. destruct (request m3) as [u|] eqn:Q.
    2: { split; [apply same_refl|]. split; [reflexivity|]. split; [|auto]. intros ((u & X & _) & _). congruence. }
    pose proof (ours_dec lhost lport u) as O. assert (LG : looser u <-> param_get (u_param u) (B "lr") <> None) by (rewrite looser_get; destruct (param_get (u_param u) (B "lr")) as [x|]; split; try congruence; try (intros [? X]; congruence); eauto).
    assert (I : by_strict_router lhost lport m3 <-> ours lhost lport u /\ looser u) by (unfold by_strict_router; split; [intros (u' & X & Y); congruence|intros Y; exists u; auto]).
    rewrite I, LG. clear I LG. destruct (param_get (u_param u) (B "lr")) as [x|]; [|split; [apply same_refl|]; split; [reflexivity|]; split; [intros ((_ & X) & _); congruence|auto]].
    unfold addr_Last. destruct (rev (addrs m3 Route)) as [|last k] eqn:RV; cbn [hd_error].
    { assert (RN : addrs m3 Route = []) by (rewrite <- (rev_involutive (addrs m3 Route)), RV; reflexivity). split; [apply same_refl|]. split; [reflexivity|]. split; [intros (_ & X); congruence|auto]. }
    assert (RN : addrs m3 Route = rev k ++ [last]) by (rewrite <- (rev_involutive (addrs m3 Route)), RV; reflexivity).
    destruct (bseq (u_host u) lhost && _) eqn:B.
    - split; [unfold same_elsewhere; repeat (split; [reflexivity|]); intros f NF; destruct f; try reflexivity; congruence|]. split; [reflexivity|]. split.
      + intros _. exists last. rewrite RN. cbn [set_addr addrs set_addrs]. change (afield_eqb Route Route) with true. cbv iota. rewrite removelast_last. split; reflexivity.
      + intros N. destruct N. split; [split; [apply O; reflexivity|discriminate]|]. rewrite RN. destruct (rev k); discriminate.
    - split; [apply same_refl|]. split; [reflexivity|]. split; [|auto]. intros ((X & _) & _). apply O in X. discriminate. }
  destruct F as (SF & VF & F1 & F2). set (m' := fixMessagesFromStrictRouters lhost lport m3) in *. clearbody m'.
  split. { clear - SM SF. unfold same_elsewhere in *. decompose [and] SM. decompose [and] SF. repeat (split; [first [congruence|intros f; match goal with X : forall f, strs m' f = _ |- _ => rewrite X end; auto]|]). intros f NF. match goal with X : forall f, _ -> addrs m' f = _ |- _ => rewrite X by exact NF end. auto. }
  split. { rewrite VF, VM. exact V2. }
  exists (addrs m3 Route). split; [exact P1|]. split; [exact P2|]. unfold by_strict_router in *. rewrite QM in F1, F2. split; [exact F1|exact F2].
Qed.

(** From the datagram to the message. *)
Theorem datagram_received : forall lhost lport buf datagram src stamp buf' dv, (length datagram <= length buf)%nat -> receive lhost lport buf datagram src stamp = Ok (buf', Some dv) ->
  exists m, parse_msg datagram = MOk m /\ received_as lhost lport src stamp m (seen buf' dv).
Proof.
  intros lhost lport buf datagram src stamp buf' dv L H. destruct (delivered_at_first _ _ _ _ _ _ _ _ H) as (m & m' & P & R & S). rewrite firstn_all2 in P by exact L. exists m. split; [exact P|]. rewrite S. apply (reception_exact _ _ _ _ _ _ R).
Qed.
Definition ex_via0 (p : list param) : via := mkvia (B "SIP") (B "2.0") (B "UDP") (B "10.0.0.1") 5060 p.
Definition ex_in : msg := set_vias [ex_via0 [(B "rport", []); (B "branch", B "b1")]; ex_via0 []] (set_request (Some (ex_uri (B "1.2.3.4") true))
  (set_addr Route [mkaddr (Some (ex_uri (B "1.2.3.4") true)) [] []; mkaddr (Some (ex_uri (B "p") true)) [] []; mkaddr (Some (ex_uri (B "bob") false)) [] []] (ex_req []))).
(** The receiver's own Route entry goes, the URI moved by a strict router comes back, and the Via says where the datagram came from. *)
Example reception_example : for_us (B "1.2.3.4") 5060 ex_in /\ by_strict_router (B "1.2.3.4") 5060 ex_in /\
  exists m', prepare (B "1.2.3.4") 5060 (B "5.6.7.8", 3333) (Some (B "77")) ex_in = Ok m' /\ request m' = Some (ex_uri (B "bob") false) /\
    addrs m' Route = [mkaddr (Some (ex_uri (B "p") true)) [] []] /\
    vias m' = [ex_via0 [(B "usi", B "77"); (B "received", B "5.6.7.8"); (B "rport", B "3333"); (B "branch", B "b1")]; ex_via0 []].
Proof.
  split; [eexists _, _, _; split; [reflexivity|]; split; [reflexivity|]; split; reflexivity|]. split; [eexists; split; [reflexivity|]; split; [split; reflexivity|discriminate]|].
  eexists. split; [vm_compute; reflexivity|]. split; [reflexivity|]. split; reflexivity.
Qed.
