(** C39 to C47: the messages a dialog builds, where they go, and what reception does to them. *)
From Verif Require Import Bytes BytesLemmas GoLib GoLibLemmas SdpModel SipText SipTypes SipAppend UtilModel P_Text P_Lists DialogMsg.
Local Open Scope Z_scope.

(** the value of a parameter, by name *)
Definition value_of (name : bytes) (p : list param) : option bytes := option_map snd (param_get p name).
Lemma value_get name p : value_of name p = match param_get p name with Some (_, v) => Some v | None => None end.
Proof. unfold value_of. destruct (param_get p name) as [[]|]; reflexivity. Qed.
Lemma value_head name v p : equal_fold name name = true -> value_of name ((name, v) :: p) = Some v.
Proof. intros E. unfold value_of. cbn [param_get]. rewrite E. reflexivity. Qed.
Lemma value_skip name n v p : equal_fold n name = false -> value_of name ((n, v) :: p) = value_of name p.
Proof. intros E. unfold value_of. cbn [param_get]. rewrite E. reflexivity. Qed.
Lemma value_set name v : forall p, value_of name p <> None -> value_of name (param_set p name v) = Some v.
Proof.
  induction p as [|[n x] p IH]; intros H; [exfalso; apply H; reflexivity|]. unfold value_of in *. cbn [param_get param_set] in *. destruct (equal_fold n name) eqn:E; cbn [param_get]; rewrite E; [reflexivity|auto].
Qed.
Lemma value_set_other name name' v : forall p, (forall n, equal_fold n name = true -> equal_fold n name' = false) -> value_of name' (param_set p name v) = value_of name' p.
Proof.
  intros p D. unfold value_of. induction p as [|[n x] p IH]; [reflexivity|]. cbn [param_get param_set] in *. destruct (equal_fold n name) eqn:E; cbn [param_get]; [rewrite (D _ E); reflexivity|].
  destruct (equal_fold n name'); [reflexivity|exact IH].
Qed.

Lemma addr_reversed_rev l : addr_Reversed l = rev l.
Proof. unfold addr_Reversed. enough (H : forall l r, addr_Reversed_loop l r = rev l ++ r) by (rewrite H; apply app_nil_r). clear. induction l as [|a l IH]; intros r; [reflexivity|]. cbn. rewrite IH, <- app_assoc. reflexivity. Qed.

(** * C39 *)
(** The Via entries of the two messages which are compared: the last one of the response and the first one of the request. *)
Definition via_agrees (v w : via) : Prop :=
  v_host v = v_host w /\ v_port v = v_port w /\ exists x, value_of (B "branch") (v_param v) = Some x /\ value_of (B "branch") (v_param w) = Some x.
Theorem response_match_spec : forall req rsp, ResponseMatch req rsp = true <->
  0 < status rsp /\ cseq rsp = cseq req /\ cseqmethod rsp = method req /\
  exists vs v w ws, vias rsp = vs ++ [v] /\ vias req = w :: ws /\ via_agrees v w.
Proof.
  intros req rsp. unfold ResponseMatch, IsResponse, via_Last, via_agrees. rewrite !andb_true_iff, Z.ltb_lt, Z.eqb_eq. destruct (bseq_reflect (cseqmethod rsp) (method req)) as [EM|EM]; [|intuition congruence].
  assert (V : (via_CompareHostPort (at_ptr (hd_error (rev (vias rsp)))) (vias req) = true /\ via_CompareBranch (at_ptr (hd_error (rev (vias rsp)))) (vias req) = true) <->
    exists vs v w ws, vias rsp = vs ++ [v] /\ vias req = w :: ws /\ v_host v = v_host w /\ v_port v = v_port w /\ exists x, value_of (B "branch") (v_param v) = Some x /\ value_of (B "branch") (v_param w) = Some x).
  { destruct (vias rsp) as [|v vs _] using rev_ind.
    - cbn. split; [intros [H _]; discriminate|]. intros (vs & v & w & ws & E & _). destruct vs; discriminate.
    - rewrite rev_app_distr. cbn [rev app hd_error at_ptr via_CompareHostPort via_CompareBranch]. destruct (vias req) as [|w ws]; [split; [intros [H _]; discriminate|intros (? & ? & ? & ? & _ & E & _); discriminate]|].
      setoid_rewrite value_get. rewrite andb_true_iff, Z.eqb_eq. destruct (bseq_reflect (v_host v) (v_host w)) as [EH|EH].
      + split.
        * intros [[_ P] Bx]. exists vs, v, w, ws. repeat split; auto. destruct (param_get (v_param v) (B "branch")) as [[? x]|]; [|discriminate]. destruct (param_get (v_param w) (B "branch")) as [[? y]|]; [|discriminate].
          destruct (bseq_reflect x y); [subst|discriminate]. eauto.
        * intros (vs' & v' & w' & ws' & E1 & E2 & _ & P & x & X & Y). apply app_inj_tail in E1. destruct E1 as [_ <-]. injection E2 as <- _. split; [auto|].
          destruct (param_get (v_param v) (B "branch")) as [[? ?]|]; [|discriminate]. destruct (param_get (v_param w) (B "branch")) as [[? ?]|]; [|discriminate]. injection X as ->. injection Y as ->. apply bseq_refl.
      + split; [intros [[H _] _]; discriminate|]. intros (vs' & v' & w' & ws' & E1 & E2 & H & _). apply app_inj_tail in E1. destruct E1 as [_ <-]. injection E2 as <- _. congruence. }
  tauto.
Qed.
Theorem new_response_matches_partial : forall req v st x, 0 < st -> vias req = [v] -> cseqmethod req = method req ->
  value_of (B "branch") (v_param v) = Some x -> ResponseMatch req (NewResponse req st) = true.
Proof.
  intros req v st x P V C Bx. apply response_match_spec. cbn [NewResponse status cseq cseqmethod vias]. split; [exact P|]. split; [reflexivity|]. split; [exact C|].
  exists [], v, v, []. cbn. split; [exact V|]. split; [exact V|]. split; [reflexivity|]. split; [reflexivity|]. eauto.
Qed.
(** With more than one Via the last one of the response is compared with the first one of the request. *)
Theorem new_response_mismatch_refuted : forall req v w vs st, vias req = v :: vs ++ [w] -> ~ via_agrees w v -> ResponseMatch req (NewResponse req st) = false.
Proof.
  intros req v w vs st V N. apply not_true_iff_false. rewrite response_match_spec. intros (_ & _ & _ & vs' & v' & w' & ws' & E1 & E2 & A). cbn in E1. rewrite V in E1, E2.
  change (v :: vs ++ [w]) with ((v :: vs) ++ [w]) in E1. apply app_inj_tail in E1. destruct E1 as [_ <-]. injection E2 as <- _. exact (N A).
Qed.
Definition ex_via (h : bytes) (p : Z) (b : bytes) : via := mkvia (B "SIP") (B "2.0") (B "UDP") h p [(B "branch", b)].
Example new_response_example :
  (let req := set_method (B "OPTIONS") (set_cseqmethod (B "OPTIONS") (set_vias [ex_via (B "a") 5070 (B "z9hG4bK1")] msg0)) in
   value_of (B "branch") (v_param (ex_via (B "a") 5070 (B "z9hG4bK1"))) = Some (B "z9hG4bK1") /\ ResponseMatch req (NewResponse req 200) = true) /\
  ~ via_agrees (ex_via (B "b") 5070 (B "z9hG4bK2")) (ex_via (B "a") 5070 (B "z9hG4bK1")).
Proof. split; [split; reflexivity|]. intros (H & _). discriminate. Qed.

(** * C40 *)
Theorem ack_belongs : forall rsp invite a cs v vs, addrs rsp Contact = a :: cs -> vias rsp = v :: vs ->
  exists ack, NewAck rsp invite = Ok ack /\
    method ack = B "ACK" /\ status ack = 0 /\ request ack = a_uri a /\ callid ack = callid rsp /\
    addrs ack From = addrs rsp From /\ addrs ack To = addrs rsp To /\ cseq ack = cseq rsp /\ cseqmethod ack = B "ACK" /\
    addrs ack Route = rev (addrs rsp RecordRoute) /\ vias ack = [v] /\ pay ack = None /\
    strs ack Authorization = strs invite Authorization /\ strs ack ProxyAuthorization = strs invite ProxyAuthorization /\
    AckMatch rsp ack = true.
Proof.
  intros rsp invite a cs v vs C V. unfold NewAck. rewrite C, V. cbn [uri_of via_Detach rbind]. eexists. split; [reflexivity|]. repeat (split; [reflexivity|]).
  split; [apply addr_reversed_rev|]. repeat (split; [reflexivity|]). unfold AckMatch. rewrite V. cbn. rewrite Z.eqb_refl, bseq_refl, Z.eqb_refl. reflexivity.
Qed.
(** A final response without Contact cannot be acknowledged: NewAck is a nil dereference. *)
Theorem ack_without_contact_refuted : forall rsp invite, addrs rsp Contact = [] -> NewAck rsp invite = Panic.
Proof. intros rsp invite C. unfold NewAck. rewrite C. reflexivity. Qed.

(** * C41 *)
Theorem cancel_repeats : forall invite, exists c, c = NewCancel invite /\ method c = B "CANCEL" /\ cseqmethod c = B "CANCEL" /\ status c = 0 /\
  request c = request invite /\ callid c = callid invite /\ addrs c From = addrs invite From /\ addrs c To = addrs invite To /\ cseq c = cseq invite /\
  vias c = vias invite /\ addrs c Route = addrs invite Route /\ pay c = None.
Proof. intros. eexists. repeat split. Qed.

(** * C42 *)
Theorem bye_in_dialog : forall invite rsp lseq a cs, addrs rsp Contact = a :: cs -> 0 <= cseq invite -> (forall n, lseq = Some n -> cseq invite <= n) ->
  match lseq with Some n => n | None => cseq invite end < 2 ^ 63 - 1 ->
  exists bye n, NewBye invite rsp lseq = Ok (bye, n) /\ method bye = B "BYE" /\ cseqmethod bye = B "BYE" /\ status bye = 0 /\ request bye = a_uri a /\
    callid bye = callid invite /\ addrs bye From = addrs invite From /\ addrs bye To = addrs rsp To /\ addrs bye Route = rev (addrs rsp RecordRoute) /\
    cseq bye = n /\ cseq invite < n /\ (forall k, lseq = Some k -> n = k + 1).
Proof.
  intros invite rsp lseq a cs C P L M. unfold NewBye. rewrite C. cbn [uri_of rbind]. eexists _, _. split; [reflexivity|]. repeat (split; [reflexivity|]). split; [apply addr_reversed_rev|]. split; [reflexivity|].
  destruct lseq as [n|]; [specialize (L n eq_refl)|]; (rewrite i64_id by lia; split; [lia|]; intros k E; congruence).
Qed.
Theorem bye_without_contact_refuted : forall invite rsp lseq, addrs rsp Contact = [] -> NewBye invite rsp lseq = Panic.
Proof. intros invite rsp lseq C. unfold NewBye. rewrite C. reflexivity. Qed.
(** every BYE of a history has a larger CSeq than the INVITE and than the BYEs before it *)
Fixpoint bye_history (invite : msg) (rsps : list msg) (lseq : Z) : list Z :=
  match rsps with
  | [] => []
  | r :: l => match NewBye invite r (Some lseq) with Ok (b, n) => cseq b :: bye_history invite l n | Panic => bye_history invite l lseq end
  end.
Theorem bye_cseq_increases : forall invite rsps lseq, 0 <= cseq invite <= lseq -> lseq + Z.of_nat (length rsps) < 2 ^ 63 ->
  forall xs x ys, bye_history invite rsps lseq = xs ++ x :: ys -> cseq invite < x /\ lseq < x /\ Forall (fun y => x < y) ys.
Proof.
  intros invite rsps. induction rsps as [|r l IH]; intros lseq P M xs x ys E; [destruct xs; discriminate|]. cbn [bye_history length] in *. unfold NewBye in E.
  destruct (uri_of (addrs r Contact)) as [u|]; cbn [rbind] in E; [|apply (IH lseq P) with xs; [lia|exact E]]. rewrite i64_id in E by lia. cbn [cseq set_method set_request set_addr set_addrs set_callid set_cseq set_cseqmethod] in E.
  destruct xs as [|z xs]; cbn [app] in E; injection E as <- E.
  - split; [lia|]. split; [lia|]. apply Forall_forall. intros y I. rewrite <- E in I. apply in_split in I. destruct I as (l1 & l2 & I). apply (IH (lseq + 1)) in I; lia.
  - destruct (IH (lseq + 1) ltac:(lia) ltac:(lia) _ _ _ E) as (A & B & C). split; [lia|]. split; [lia|exact C].
Qed.
Example bye_example : let r := set_addr Contact [mkaddr (Some uri0) [] []] msg0 in bye_history (set_cseq 4 msg0) [r; msg0; r; r] 4 = [5; 6; 7].
Proof. reflexivity. Qed.

(** * C43 *)
Definition looser (u : uri) : Prop := value_of (B "lr") (u_param u) <> None.
Lemma looser_get u : looser u <-> exists x, param_get (u_param u) (B "lr") = Some x.
Proof.
  unfold looser, value_of. destruct (param_get _ _) as [x|]; cbn [option_map].
  - split; [eauto|]. intros _. discriminate.
  - split; [intros H; exfalso; apply H; reflexivity|]. intros [y E]. discriminate.
Qed.
(** the topmost Route entry is the transport's own address *)
Definition own_route (tcontact : list addr) (m : msg) : Prop := addr_CompareHostPort tcontact (addrs m Route) = true.
Theorem route_direct : forall tvia tcontact m u, status m <= 0 -> addrs m Route = [] -> request m = Some u ->
  RouteMessage tvia tcontact m = Ok (m, inl (u_host u, u_port u)).
Proof.
  intros tvia tcontact m u S R Q. unfold RouteMessage, IsResponse. replace (0 <? status m) with false by (symmetry; apply Z.ltb_ge; lia). rewrite R. cbn [addr_CompareHostPort]. destruct tcontact; cbn; rewrite R, Q; reflexivity.
Qed.
Theorem route_loose : forall tvia tcontact m r rs u, status m <= 0 -> method m <> B "REGISTER" -> addrs m Route = r :: rs -> a_uri r = Some u -> ~ own_route tcontact m -> looser u ->
  RouteMessage tvia tcontact m = Ok (m, inl (u_host u, u_port u)).
Proof.
  intros tvia tcontact m r rs u S M R U O L. apply looser_get in L. destruct L as [x L]. apply not_true_is_false in O. unfold RouteMessage, IsResponse. replace (0 <? status m) with false by (symmetry; apply Z.ltb_ge; lia).
  rewrite O, R. destruct (bseq_reflect (method m) (B "REGISTER")); [congruence|]. rewrite U. cbn [deref rbind]. rewrite L. reflexivity.
Qed.
Lemma copy_app l k : addr_Copy (l ++ k) = addr_Copy l ++ addr_Copy k.
Proof. induction l as [|a l IH]; [reflexivity|]. cbn. rewrite IH. reflexivity. Qed.
Lemma copy_map l : addr_Copy l = map (fun a => mkaddr (a_uri a) [] (a_param a)) l.
Proof. induction l as [|a l IH]; [reflexivity|]. cbn. rewrite IH. reflexivity. Qed.
(** The Route entries which are kept lose their display names (see C23 on Copy); everything else about them is kept. *)
Theorem route_strict : forall tvia tcontact m r rs u, status m <= 0 -> method m <> B "REGISTER" -> addrs m Route = r :: rs -> a_uri r = Some u -> ~ own_route tcontact m -> ~ looser u ->
  exists m', RouteMessage tvia tcontact m = Ok (m', inl (u_host u, u_port u)) /\
    m' = set_addr Route (map (fun a => mkaddr (a_uri a) [] (a_param a)) rs ++ [mkaddr (request m) [] []]) (set_request (Some u) m).
Proof.
  intros tvia tcontact m r rs u S M R U O L. rewrite looser_get in L. apply not_true_is_false in O. unfold RouteMessage, IsResponse. replace (0 <? status m) with false by (symmetry; apply Z.ltb_ge; lia).
  rewrite O, R. destruct (bseq_reflect (method m) (B "REGISTER")); [congruence|]. rewrite U. cbn [deref rbind]. destruct (param_get _ _) as [x|]; [exfalso; eauto|].
  cbn [addr_Copy app uri_of a_uri rbind deref tl]. rewrite U, copy_map. cbn [deref rbind]. eexists. split; reflexivity.
Qed.
(** our own entry on top of the Route list is skipped *)
Theorem route_own : forall tvia tcontact m, status m <= 0 -> own_route tcontact m -> ~ own_route tcontact (set_addr Route (tl (addrs m Route)) m) ->
  RouteMessage tvia tcontact m = RouteMessage tvia tcontact (set_addr Route (tl (addrs m Route)) m).
Proof.
  intros tvia tcontact m S O N. unfold own_route in O. apply not_true_is_false in N. assert (I : IsResponse m = false) by (apply Z.ltb_ge; lia). unfold RouteMessage.
  change (IsResponse (set_addr Route (tl (addrs m Route)) m)) with (IsResponse m). rewrite I, O, N. reflexivity.
Qed.
Theorem route_register : forall tvia tcontact m r rs, status m <= 0 -> method m = B "REGISTER" -> addrs m Route = r :: rs -> ~ own_route tcontact m ->
  RouteMessage tvia tcontact m = Ok (m, inr RRegister).
Proof.
  intros tvia tcontact m r rs S M R O. apply not_true_is_false in O. unfold RouteMessage, IsResponse. replace (0 <? status m) with false by (symmetry; apply Z.ltb_ge; lia). rewrite O, R, M. reflexivity.
Qed.
Definition ex_uri (h : bytes) (lr : bool) : uri := mkuri (B "sip") [] [] h 0 (if lr then [(B "lr", [])] else []) [].
Definition ex_req (rs : list addr) : msg := set_method (B "INVITE") (set_request (Some (ex_uri (B "bob") false)) (set_addr Route rs msg0)).
Example route_example :
  let lr := mkaddr (Some (ex_uri (B "p1") true)) [] [] in let st := mkaddr (Some (ex_uri (B "p2") false)) (B "x") [] in
  looser (ex_uri (B "p1") true) /\ ~ looser (ex_uri (B "p2") false) /\ ~ own_route [] (ex_req [lr; st]) /\
  RouteMessage [] [] (ex_req [lr; st]) = Ok (ex_req [lr; st], inl (B "p1", 0)) /\
  exists m', RouteMessage [] [] (ex_req [st; lr]) = Ok (m', inl (B "p2", 0)) /\ request m' = Some (ex_uri (B "p2") false) /\ addrs m' Route = [lr; mkaddr (Some (ex_uri (B "bob") false)) [] []].
Proof. split; [discriminate|]. split; [intros H; apply H; reflexivity|]. split; [discriminate|]. split; [reflexivity|]. eexists. split; [reflexivity|]. split; reflexivity. Qed.

(** * C44 *)
Definition ours (lhost : bytes) (lport : Z) (u : uri) : Prop := u_host u = lhost /\ or5060 (u_port u) = lport.
Lemma ours_dec lhost lport u : ours lhost lport u <-> bseq (u_host u) lhost && (or5060 (u_port u) =? lport) = true.
Proof. unfold ours. rewrite andb_true_iff, Z.eqb_eq. destruct (bseq_reflect (u_host u) lhost); intuition congruence. Qed.
(** [m] is the request as its sender had it; a strict router has put our own URI, with lr, in the place of the request URI, and the request URI
    at the end of the Route list. *)
Definition strict_routed (own : uri) (m : msg) : msg := set_addr Route (addrs m Route ++ [mkaddr (request m) [] []]) (set_request (Some own) m).
Definition same_but_route (m m' : msg) : Prop := exists f, (forall g, f g = addrs m g) /\ m' = set_addrs f m.
Theorem strict_undone_partial : forall lhost lport own m, ours lhost lport own -> looser own ->
  (forall r rs v, addrs m Route = r :: rs -> a_uri r = Some v -> ~ ours lhost lport v) -> (forall r, In r (addrs m Route) -> a_uri r <> None) ->
  (forall v, addrs m Route = [] -> request m = Some v -> ~ ours lhost lport v) -> request m <> None ->
  exists m', rbind (pop_own_route lhost lport (strict_routed own m)) (fun x => Ok (fixMessagesFromStrictRouters lhost lport x)) = Ok m' /\ same_but_route m m'.
Proof.
  intros lhost lport own m O L NR NU NQ Q. apply ours_dec in O. apply looser_get in L. destruct L as [x L].
  assert (PP : pop_own_route lhost lport (strict_routed own m) = Ok (strict_routed own m)).
  { unfold pop_own_route, strict_routed. cbn [addrs set_addr set_addrs afield_eqb afield_id Z.eqb Pos.eqb].  cbn. destruct (addrs m Route) as [|r rs] eqn:R; cbn [app].
    - destruct (request m) as [v|]; [|congruence]. cbn [a_uri deref rbind]. destruct (bseq (u_host v) lhost && _) eqn:X; [|reflexivity]. apply ours_dec in X. destruct (NQ v eq_refl eq_refl X).
    - destruct (a_uri r) as [v|] eqn:U; [|destruct (NU r (or_introl eq_refl) U)]. cbn [deref rbind]. destruct (bseq (u_host v) lhost && _) eqn:X; [|reflexivity]. apply ours_dec in X. destruct (NR r rs v eq_refl U X). }
  rewrite PP. cbn [rbind]. eexists. split; [reflexivity|]. unfold fixMessagesFromStrictRouters, strict_routed, addr_Last. cbn [request set_addr set_addrs set_request addrs]. rewrite L. cbn [afield_eqb afield_id Z.eqb Pos.eqb].
  cbn. rewrite rev_app_distr. cbn [rev app hd_error]. rewrite O, removelast_last. cbn [a_uri]. exists (fun g => if afield_eqb Route g then addrs m Route else if afield_eqb Route g then addrs m Route ++ [mkaddr (request m) [] []] else addrs m g).
  split; [intros []; reflexivity|]. reflexivity.
Qed.
(** When the Route list consists of the moved URI only and that URI is at our own address, it is taken for our own Route entry
    and dropped; the request keeps the URI the strict router gave it. *)
Theorem strict_lost_refuted : forall lhost lport own m v, ours lhost lport own -> request m = Some v -> ours lhost lport v -> addrs m Route = [] ->
  exists m', rbind (pop_own_route lhost lport (strict_routed own m)) (fun x => Ok (fixMessagesFromStrictRouters lhost lport x)) = Ok m' /\ request m' = Some own /\ addrs m' Route = [].
Proof.
  intros lhost lport own m v O Q V R. apply ours_dec in O, V. unfold pop_own_route, strict_routed. cbn. rewrite R, Q. cbn [app a_uri deref rbind]. rewrite V. eexists. split; [reflexivity|].
  unfold fixMessagesFromStrictRouters, addr_Last. cbn. destruct (param_get _ _); split; reflexivity.
Qed.
Example strict_example :
  let own := ex_uri (B "me") true in let m := ex_req [mkaddr (Some (ex_uri (B "p3") true)) [] []] in
  ours (B "me") 5060 own /\ looser own /\ ours (B "me") 5060 (mkuri (B "sip") (B "joe") [] (B "me") 5060 [] []) /\
  exists m', rbind (pop_own_route (B "me") 5060 (strict_routed own m)) (fun x => Ok (fixMessagesFromStrictRouters (B "me") 5060 x)) = Ok m' /\ request m' = request m /\ addrs m' Route = addrs m Route.
Proof. split; [split; reflexivity|]. split; [discriminate|]. split; [split; reflexivity|]. eexists. split; [reflexivity|]. split; reflexivity. Qed.

(** * C45 *)
Lemma itoa_some n : 0 <= n -> itoa n <> [].
Proof. intros H E. pose proof (utoa_value n H) as V. rewrite itoa_nonneg in E by exact H. rewrite E in V. discriminate. Qed.
Lemma fold_disjoint a b : forallb no_ks a = true -> forallb no_ks b = true -> map lower a <> map lower b -> forall n, equal_fold n a = true -> equal_fold n b = false.
Proof. intros A C D n E. apply not_true_iff_false. intros F. apply (equal_fold_no_ks a A) in E. apply (equal_fold_no_ks b C) in F. unfold same_name in *. congruence. Qed.
Lemma route_response tvia tcontact m v l : 0 < status m -> vias m = v :: l -> via_CompareHostPort tvia (v :: l) = false ->
  RouteMessage tvia tcontact m =
    (let host := match param_get (v_param v) (B "received") with Some (_, x) => x | None => v_host v end in
     match param_get (v_param v) (B "rport") with
     | Some (_, c :: x) => match atoi (c :: x) with Some i => Ok (m, inl (host, u16 i)) | None => Ok (m, inr RPort) end
     | _ => Ok (m, inl (host, v_port v))
     end).
Proof. intros S V T. unfold RouteMessage, IsResponse. apply Z.ltb_lt in S. rewrite S, V, T, V. reflexivity. Qed.
(** The request names neither a received address nor a response port of its own, and its Via is not ours. *)
Theorem response_goes_back_partial : forall tvia tcontact m v l ip port st,
  status m <= 0 -> 0 < st -> vias m = v :: l -> 0 <= port < 65536 ->
  value_of (B "received") (v_param v) = None -> (value_of (B "rport") (v_param v) = None \/ value_of (B "rport") (v_param v) = Some []) ->
  via_CompareHostPort tvia [v] = false ->
  exists m1, addReceived m (ip, port) = Ok m1 /\ RouteMessage tvia tcontact (NewResponse m1 st) = Ok (NewResponse m1 st, inl (ip, port)).
Proof.
  intros tvia tcontact m v l ip port st S P V R NR RP T. pose proof (itoa_some port ltac:(lia)) as IN. pose proof (atoi_itoa port ltac:(lia)) as IA.
  unfold addReceived, IsResponse. replace (0 <? status m) with false by (symmetry; apply Z.ltb_ge; lia). rewrite V. cbn [fst snd].
  set (v1 := if v_port v =? port then v else _). set (v2 := if bseq (v_host v1) ip then v1 else _). eexists. split; [reflexivity|].
  assert (H1 : v_host v1 = v_host v /\ v_port v1 = v_port v /\ value_of (B "received") (v_param v1) = None /\
    (value_of (B "rport") (v_param v1) = Some (itoa port) \/ (v_port v = port /\ v1 = v))).
  { unfold v1. destruct (Z.eqb_spec (v_port v) port) as [E|E]; [auto 6|]. pose proof RP as RP'. rewrite value_get in RP. destruct (param_get (v_param v) (B "rport")) as [[n x]|] eqn:G.
    - destruct RP as [RP|RP]; [discriminate|]. injection RP as ->. cbn [set_vparam v_host v_port v_param]. split; [reflexivity|]. split; [reflexivity|]. split.
      + rewrite value_set_other; [exact NR|]. apply fold_disjoint; [reflexivity|reflexivity|discriminate].
      + left. apply value_set. unfold value_of. rewrite G. discriminate.
    - cbn [set_vparam v_host v_port v_param]. split; [reflexivity|]. split; [reflexivity|]. split; [rewrite value_skip by reflexivity; exact NR|left; apply value_head; reflexivity]. }
  destruct H1 as (HH & HP & HR & HX). assert (H2 : v_host v2 = v_host v /\ v_port v2 = v_port v /\ value_of (B "rport") (v_param v2) = value_of (B "rport") (v_param v1) /\
    (value_of (B "received") (v_param v2) = Some ip \/ (v_host v = ip /\ value_of (B "received") (v_param v2) = None))).
  { unfold v2. destruct (bseq_reflect (v_host v1) ip) as [E|E]; [rewrite HH in E; auto 8|]. pose proof HR as HR'. rewrite value_get in HR. destruct (param_get (v_param v1) (B "received")) as [[? ?]|]; [discriminate|].
    cbn [set_vparam v_host v_port v_param]. rewrite HH, HP. split; [reflexivity|]. split; [reflexivity|]. split; [apply value_skip; reflexivity|left; apply value_head; reflexivity]. }
  clearbody v2. destruct H2 as (GH & GP & GR & GX).
  assert (T2 : via_CompareHostPort tvia (v2 :: l) = false) by (destruct tvia as [|t tl]; [reflexivity|]; cbn in *; rewrite GH, GP; exact T).
  rewrite (route_response tvia tcontact (NewResponse (set_vias (v2 :: l) m) st) v2 l P eq_refl T2). cbv zeta.
  assert (HO : match param_get (v_param v2) (B "received") with Some (_, x) => x | None => v_host v2 end = ip).
  { rewrite value_get in GX. destruct (param_get (v_param v2) (B "received")) as [[? x]|]; [destruct GX as [GX|[_ GX]]; congruence|]. destruct GX as [GX|[GX _]]; congruence. }
  rewrite HO. rewrite value_get in GR. destruct HX as [HX|[HX E1]].
  - rewrite HX in GR. destruct (param_get (v_param v2) (B "rport")) as [[? x]|]; [|discriminate]. injection GR as ->. destruct (itoa port) as [|c y] eqn:EI; [congruence|]. rewrite IA, u16_id by lia. reflexivity.
  - rewrite E1 in GR. rewrite HX in GP. destruct (param_get (v_param v2) (B "rport")) as [[? x]|]; [|rewrite GP; reflexivity]. destruct RP as [RP|RP]; rewrite RP in GR; [discriminate|]. injection GR as ->. rewrite GP. reflexivity.
Qed.
(** A request which comes with a received parameter of its own: the response goes to the address written there. *)
Theorem response_misdirected_refuted : forall tvia tcontact m v l ip port st claimed,
  status m <= 0 -> 0 < st -> vias m = v :: l -> v_port v = port -> value_of (B "received") (v_param v) = Some claimed -> value_of (B "rport") (v_param v) = None ->
  via_CompareHostPort tvia [v] = false ->
  exists m1 m2, addReceived m (ip, port) = Ok m1 /\ RouteMessage tvia tcontact (NewResponse m1 st) = Ok (m2, inl (claimed, port)).
Proof.
  intros tvia tcontact m v l ip port st claimed S P V R NR RP T. unfold addReceived, IsResponse. replace (0 <? status m) with false by (symmetry; apply Z.ltb_ge; lia). rewrite V. cbn [fst snd]. rewrite R, Z.eqb_refl.
  rewrite value_get in NR, RP. destruct (param_get (v_param v) (B "received")) as [[n x]|] eqn:G; [|discriminate]. injection NR as ->. destruct (param_get (v_param v) (B "rport")) as [[? ?]|] eqn:G2; [discriminate|].
  eexists _, _. split; [reflexivity|]. replace (if bseq (v_host v) ip then v else v) with v by (destruct (bseq _ _); reflexivity).
  assert (T2 : via_CompareHostPort tvia (v :: l) = false) by (destruct tvia; exact T).
  rewrite (route_response tvia tcontact (NewResponse (set_vias (v :: l) m) st) v l P eq_refl T2). cbv zeta. rewrite G, G2, R. reflexivity.
Qed.
(** A request whose only Via claims our own host and port: answering it is a nil dereference. *)
Theorem response_panics_refuted : forall tvia tcontact m v ip port st, status m <= 0 -> 0 < st -> vias m = [v] -> via_CompareHostPort tvia [v] = true ->
  exists m1, addReceived m (ip, port) = Ok m1 /\ RouteMessage tvia tcontact (NewResponse m1 st) = Panic.
Proof.
  intros tvia tcontact m v ip port st S P V T. unfold addReceived, IsResponse. replace (0 <? status m) with false by (symmetry; apply Z.ltb_ge; lia). rewrite V. cbn [fst snd].
  set (v1 := if v_port v =? port then v else _). set (v2 := if bseq (v_host v1) ip then v1 else _). eexists. split; [reflexivity|].
  assert (E : v_host v2 = v_host v /\ v_port v2 = v_port v).
  { assert (E1 : v_host v1 = v_host v /\ v_port v1 = v_port v) by (unfold v1; destruct (_ =? _); [auto|]; destruct (param_get _ _) as [[? [|]]|]; auto). clearbody v1. unfold v2. destruct (bseq _ _); [exact E1|]. destruct (param_get (v_param v1) _); exact E1. }
  clearbody v2. clear v1. assert (T2 : via_CompareHostPort tvia [v2] = true) by (destruct tvia; [discriminate|]; cbn in *; destruct E as [-> ->]; exact T).
  unfold RouteMessage, IsResponse. change (status (NewResponse (set_vias [v2] m) st)) with st. apply Z.ltb_lt in P. rewrite P.
  change (vias (NewResponse (set_vias [v2] m) st)) with [v2]. rewrite T2. reflexivity.
Qed.
Example response_back_example :
  let v := mkvia (B "SIP") (B "2.0") (B "UDP") (B "10.0.0.7") 5060 [(B "rport", []); (B "branch", B "z9hG4bK1")] in
  value_of (B "received") (v_param v) = None /\ value_of (B "rport") (v_param v) = Some [] /\ via_CompareHostPort [mkvia [] [] [] (B "1.2.3.4") 5060 []] [v] = false /\
  rbind (addReceived (ex_req []) (B "9.9.9.9", 40000)) (fun m => Ok tt) = Panic /\
  exists m1, addReceived (set_vias [v] (ex_req [])) (B "9.9.9.9", 40000) = Ok m1 /\
    map v_param (vias m1) = [[(B "received", B "9.9.9.9"); (B "rport", B "40000"); (B "branch", B "z9hG4bK1")]].
Proof. repeat (split; [reflexivity|]). eexists. split; reflexivity. Qed.

(** * C47 *)
(** a host and a port as the resolver wants them: an IPv6 address in brackets *)
Definition host_port (host port : bytes) : bytes := if existsb (beq ":") host then B "[" ++ host ++ B "]:" ++ port else host ++ B ":" ++ port.
Lemma joined host port : JoinHostPort host port = host_port host port. Proof. reflexivity. Qed.
Lemma srv_routes_eq l : forall r, srv_routes l r = map (fun x => host_port (fst x) (Portstr (snd x))) (rev l) ++ r.
Proof. induction l as [|[t p] l IH]; intros r; [reflexivity|]. cbn [srv_routes rev]. rewrite IH, map_app, <- app_assoc. reflexivity. Qed.
Theorem srv_candidates : forall d host srvs, parse_ip d host = false -> lookup_srv d host = Some srvs -> srvs <> [] ->
  RouteAddress d host 0 true = Some (map (fun x => host_port (fst x) (Portstr (snd x))) srvs).
Proof.
  intros d host srvs I L N. unfold RouteAddress. rewrite I, L. cbn [Z.eqb]. destruct srvs as [|s l]; [congruence|]. rewrite srv_routes_eq, rev_involutive, app_nil_r. reflexivity.
Qed.
Theorem single_candidate : forall d host port wantSRV, parse_ip d host = true \/ port <> 0 \/ wantSRV = false \/ lookup_srv d host = None \/ lookup_srv d host = Some [] ->
  RouteAddress d host port wantSRV =
    (if parse_ip d host then Some [host_port host (Portstr (if port =? 0 then 5060 else port))]
     else option_map (fun a => [a]) (resolve_udp d (host_port host (Portstr (if port =? 0 then 5060 else port))))).
Proof.
  intros d host port w H. unfold RouteAddress. rewrite !joined. destruct (parse_ip d host); [reflexivity|]. destruct H as [H|H]; [discriminate|]. destruct (Z.eqb_spec port 0) as [E|E].
  - destruct w; [|destruct (resolve_udp d _); reflexivity]. destruct H as [H|[H|[H|H]]]; [congruence|discriminate| |]; rewrite H; destruct (resolve_udp d _); reflexivity.
  - destruct (resolve_udp d _); reflexivity.
Qed.
Example candidates_example : let d := mkdns (fun h => bseq h (B "1.2.3.4")) (fun h => if bseq h (B "x.org") then Some [(B "a.x.org", 5060); (B "b.x.org", 5070)] else None) (fun a => Some a) in
  RouteAddress d (B "x.org") 0 true = Some [B "a.x.org:5060"; B "b.x.org:5070"] /\ RouteAddress d (B "x.org") 0 false = Some [B "x.org:5060"] /\
  RouteAddress d (B "1.2.3.4") 0 true = Some [B "1.2.3.4:5060"] /\ RouteAddress d (B "y.org") 7 true = Some [B "y.org:7"].
Proof. repeat split. Qed.

(** * C46 *)
Definition or_else {A} (l d : list A) : list A := match l with [] => d | _ => l end.
(** the parameter list with a value for [n], an old one having precedence *)
Definition with_value (n v : bytes) (p : list param) : list param := match value_of n p with Some _ => p | None => (n, v) :: p end.
(** The From of a sender who gives none: the Contact without display names (see C23 on Copy) and without the parameters of its first URI. *)
Definition nameless (a : addr) : addr := mkaddr (a_uri a) [] (a_param a).
Definition bare (l : list addr) : list addr :=
  match map nameless l with [] => [] | a :: k => set_auri (option_map (set_uparam []) (a_uri a)) a :: k end.
(** a message that needs nothing more *)
Definition complete (m : msg) : Prop :=
  (exists v l b, vias m = v :: l /\ value_of (B "branch") (v_param v) = Some b) /\ addrs m Contact <> [] /\ addrs m To <> [] /\
  (exists a l t, addrs m From = a :: l /\ value_of (B "tag") (a_param a) = Some t) /\
  callid m <> [] /\ cseq m <> 0 /\ cseqmethod m <> [] /\ maxforwards m <> 0 /\ strs m UserAgent <> [].
Lemma populate_done tvia tcontact m r : complete m -> PopulateMessage tvia tcontact m r = Ok m.
Proof.
  intros ((v & l & b & V & HB) & HC & HT & (a & l' & t & F & G) & HI & HQ & HM & HX & HU). unfold PopulateMessage. destruct (IsResponse m); [reflexivity|]. rewrite V. cbv zeta.
  destruct (addrs m Contact) eqn:E1; [congruence|]. destruct (addrs m To) eqn:E2; [congruence|]. rewrite F. cbn [rbind]. destruct (callid m) eqn:E3; [congruence|]. cbn [rbind].
  destruct (Z.eqb_spec (cseq m) 0); [congruence|]. destruct (cseqmethod m) eqn:E4; [congruence|]. destruct (Z.eqb_spec (maxforwards m) 0); [congruence|]. destruct (strs m UserAgent) eqn:E5; [congruence|].
  rewrite V. rewrite value_get in HB, G. destruct (param_get (v_param v) (B "branch")) as [[? ?]|]; [|discriminate]. cbn [rbind]. rewrite F. destruct (param_get (a_param a) (B "tag")) as [[? ?]|]; [reflexivity|discriminate].
Qed.
(** the state of a message under way: its nine fields, the others being those of [m] *)
Definition obs (m m' : msg) (v : list via) (c t f : list addr) (id : bytes) (q : Z) (cm : bytes) (mf : Z) (ua : bytes) : Prop :=
  vias m' = v /\ addrs m' Contact = c /\ addrs m' To = t /\ addrs m' From = f /\ callid m' = id /\ cseq m' = q /\ cseqmethod m' = cm /\ maxforwards m' = mf /\ strs m' UserAgent = ua /\
  (forall k, k <> Contact -> k <> To -> k <> From -> addrs m' k = addrs m k) /\ (forall k, k <> UserAgent -> strs m' k = strs m k) /\
  vmaj m' = vmaj m /\ vmin m' = vmin m /\ method m' = method m /\ request m' = request m /\ status m' = status m /\ phrase m' = phrase m /\ pay m' = pay m /\
  source m' = source m /\ expires m' = expires m /\ minexpires m' = minexpires m /\ xheader m' = xheader m.
Section Obs.
  Variables (m m' : msg) (v : list via) (c t f : list addr) (id : bytes) (q : Z) (cm : bytes) (mf : Z) (ua : bytes).
  Hypothesis O : obs m m' v c t f id q cm mf ua.
  Ltac parts := let H := fresh in pose proof O as H; destruct H as (? & ? & ? & ? & ? & ? & ? & ? & ? & ? & ? & ? & ? & ? & ? & ? & ? & ? & ? & ? & ? & ?).
  Ltac go := parts; repeat split; assumption.
  Ltac gok E := parts; repeat split; try assumption; intros k; cbn; destruct k; cbn; intros; try congruence; apply E; discriminate.
  Lemma obs_vias x : obs m (set_vias x m') x c t f id q cm mf ua. Proof. go. Qed.
  Lemma obs_callid x : obs m (set_callid x m') v c t f x q cm mf ua. Proof. go. Qed.
  Lemma obs_cseq x : obs m (set_cseq x m') v c t f id x cm mf ua. Proof. go. Qed.
  Lemma obs_cseqmethod x : obs m (set_cseqmethod x m') v c t f id q x mf ua. Proof. go. Qed.
  Lemma obs_maxf x : obs m (set_maxforwards x m') v c t f id q cm x ua. Proof. go. Qed.
  Lemma obs_others k : k <> Contact -> k <> To -> k <> From -> addrs m' k = addrs m k. Proof. apply O. Qed.
  Lemma obs_others' k : k <> UserAgent -> strs m' k = strs m k. Proof. apply O. Qed.
  Lemma obs_contact x : obs m (set_addr Contact x m') v x t f id q cm mf ua. Proof. gok obs_others. Qed.
  Lemma obs_to x : obs m (set_addr To x m') v c x f id q cm mf ua. Proof. gok obs_others. Qed.
  Lemma obs_from x : obs m (set_addr From x m') v c t x id q cm mf ua. Proof. gok obs_others. Qed.
  Lemma obs_ua x : obs m (set_str UserAgent x m') v c t f id q cm mf x. Proof. gok obs_others'. Qed.
End Obs.
(** What populating gives, field by field. The sender needs a Via and a Contact, its own or the transport's, and if it names no From the Contact must have a URI. *)
Theorem populate_result : forall tvia tcontact m r v vl c cl id, status m <= 0 -> length (dr_callid r) = 15%nat -> GenerateCallID (dr_callid r) = Ok id ->
  or_else (vias m) tvia = v :: vl -> or_else (addrs m Contact) tcontact = c :: cl -> (addrs m From = [] -> a_uri c <> None) ->
  exists m' f fl, PopulateMessage tvia tcontact m r = Ok m' /\
    vias m' = set_vparam (with_value (B "branch") (GenerateBranch (dr_branch r)) (v_param v)) v :: vl /\
    addrs m' Contact = c :: cl /\ addrs m' To = or_else (addrs m To) [mkaddr (request m) [] []] /\
    or_else (addrs m From) (bare (c :: cl)) = f :: fl /\ addrs m' From = set_aparam (with_value (B "tag") (GenerateTag (dr_tag r)) (a_param f)) f :: fl /\
    callid m' = or_else (callid m) id /\ cseq m' = (if cseq m =? 0 then GenerateCSeq (dr_cseq r) else cseq m) /\ cseqmethod m' = or_else (cseqmethod m) (method m) /\
    maxforwards m' = (if maxforwards m =? 0 then 70 else maxforwards m) /\ strs m' UserAgent = or_else (strs m UserAgent) GosipUA /\
    (forall k, k <> Contact -> k <> To -> k <> From -> addrs m' k = addrs m k) /\ (forall k, k <> UserAgent -> strs m' k = strs m k) /\
    vmaj m' = vmaj m /\ vmin m' = vmin m /\ method m' = method m /\ request m' = request m /\ status m' = status m /\ phrase m' = phrase m /\ pay m' = pay m /\
    source m' = source m /\ expires m' = expires m /\ minexpires m' = minexpires m /\ xheader m' = xheader m.
Proof.
  intros tvia tcontact m r v vl c cl id S LC HI HV HC HF.
  assert (F : exists f fl, or_else (addrs m From) (bare (c :: cl)) = f :: fl) by (destruct (addrs m From); cbn; eauto). destruct F as (f & fl & F).
  set (G := fun m' => obs m m' (set_vparam (with_value (B "branch") (GenerateBranch (dr_branch r)) (v_param v)) v :: vl)
    (c :: cl) (or_else (addrs m To) [mkaddr (request m) [] []]) (set_aparam (with_value (B "tag") (GenerateTag (dr_tag r)) (a_param f)) f :: fl)
    (or_else (callid m) id) (if cseq m =? 0 then GenerateCSeq (dr_cseq r) else cseq m) (or_else (cseqmethod m) (method m))
    (if maxforwards m =? 0 then 70 else maxforwards m) (or_else (strs m UserAgent) GosipUA)).
  assert (X : exists m', PopulateMessage tvia tcontact m r = Ok m' /\ G m').
  2: { destruct X as (m' & E & X). exists m', f, fl. unfold G, obs in X. destruct X as (X1 & X2 & X3 & X4 & X). repeat (split; [first [exact E|exact X1|exact X2|exact X3|exact F|exact X4]|]). exact X. }
  cbv delta [PopulateMessage IsResponse] beta. replace (0 <? status m) with false by (symmetry; apply Z.ltb_ge; lia).
  assert (Oa : obs m m (vias m) (addrs m Contact) (addrs m To) (addrs m From) (callid m) (cseq m) (cseqmethod m) (maxforwards m) (strs m UserAgent)) by (repeat split; reflexivity).
  cbv iota. pose (Q := fun x => exists m', x = Ok m' /\ G m').
  match goal with |- exists m', ?x = Ok m' /\ _ => change (Q x) end.
  Ltac step y P := match goal with |- ?Q (let m0 := ?X in @?K m0) =>
     assert (y : P X); [|change (Q (K X)); cbv beta; generalize dependent X; intros ? y] end.
  step O1 (fun x => obs m x (v :: vl) (addrs m Contact) (addrs m To) (addrs m From) (callid m) (cseq m) (cseqmethod m) (maxforwards m) (strs m UserAgent)).
  { cbv beta. rewrite <- HV. destruct (vias m) eqn:E; [apply (obs_vias _ _ _ _ _ _ _ _ _ _ _ Oa)|exact Oa]. }
  clear Oa HV. cbv beta in O1. 
  step Oa (fun x => obs m x (v :: vl) (c :: cl) (addrs m To) (addrs m From) (callid m) (cseq m) (cseqmethod m) (maxforwards m) (strs m UserAgent)).
  { cbv beta. rewrite <- HC. pose proof O1 as O2. unfold obs in O1. destruct O1 as (_ & -> & _). destruct (addrs m Contact) eqn:E; [apply (obs_contact _ _ _ _ _ _ _ _ _ _ _ O2)|exact O2]. }
  clear O1 HC. cbv beta in Oa.
  step O1 (fun x => obs m x (v :: vl) (c :: cl) (or_else (addrs m To) [mkaddr (request m) [] []]) (addrs m From) (callid m) (cseq m) (cseqmethod m) (maxforwards m) (strs m UserAgent)).
  { cbv beta. pose proof Oa as O2. unfold obs in Oa. destruct Oa as (_ & _ & -> & _ & _ & _ & _ & _ & _ & _ & _ & _ & _ & _ & -> & _). destruct (addrs m To) eqn:E; [apply (obs_to _ _ _ _ _ _ _ _ _ _ _ O2)|exact O2]. }
  clear Oa. cbv beta in O1.
  Ltac rstep y P := match goal with |- ?Q (rbind ?X ?K) =>
     assert (y : exists x, X = Ok x /\ P x); [|let x := fresh "x" in let Y := fresh in destruct y as (x & Y & y); rewrite Y; clear Y; change (Q (K x)); cbv beta; cbv beta in y] end.
  rstep Oa (fun x => obs m x (v :: vl) (c :: cl) (or_else (addrs m To) [mkaddr (request m) [] []]) (f :: fl) (callid m) (cseq m) (cseqmethod m) (maxforwards m) (strs m UserAgent)).
  { cbv beta. pose proof O1 as O2. unfold obs in O1. destruct O1 as (_ & -> & _ & -> & _). rewrite copy_map, <- F. destruct (addrs m From) eqn:E; cbn [or_else].
    - specialize (HF eq_refl). cbn [or_else] in F. injection F as <- <-. cbn [bare map nameless a_uri]. change (nameless c) with (mkaddr (a_uri c) [] (a_param c)). cbn [a_uri]. destruct (a_uri c) as [u|]; [|congruence]. cbn [deref rbind option_map]. eexists. split; [reflexivity|]. apply (obs_from _ _ _ _ _ _ _ _ _ _ _ O2).
    - eexists. split; [reflexivity|]. exact O2. }
  clear O1. 
  rstep O1 (fun x => obs m x (v :: vl) (c :: cl) (or_else (addrs m To) [mkaddr (request m) [] []]) (f :: fl) (or_else (callid m) id) (cseq m) (cseqmethod m) (maxforwards m) (strs m UserAgent)).
  { cbv beta. pose proof Oa as O2. unfold obs in Oa. destruct Oa as (_ & _ & _ & _ & -> & _). destruct (callid m) eqn:E; [rewrite HI; cbn [rbind]|]; (eexists; split; [reflexivity|]); [apply (obs_callid _ _ _ _ _ _ _ _ _ _ _ O2)|exact O2]. }
  clear Oa.
  step Oa (fun x => obs m x (v :: vl) (c :: cl) (or_else (addrs m To) [mkaddr (request m) [] []]) (f :: fl) (or_else (callid m) id) (if cseq m =? 0 then GenerateCSeq (dr_cseq r) else cseq m) (cseqmethod m) (maxforwards m) (strs m UserAgent)).
  { cbv beta. pose proof O1 as O2. unfold obs in O1. destruct O1 as (_ & _ & _ & _ & _ & -> & _). destruct (cseq m =? 0); [apply (obs_cseq _ _ _ _ _ _ _ _ _ _ _ O2)|exact O2]. }
  clear O1. cbv beta in Oa.
  step O1 (fun x => obs m x (v :: vl) (c :: cl) (or_else (addrs m To) [mkaddr (request m) [] []]) (f :: fl) (or_else (callid m) id) (if cseq m =? 0 then GenerateCSeq (dr_cseq r) else cseq m) (or_else (cseqmethod m) (method m)) (maxforwards m) (strs m UserAgent)).
  { cbv beta. pose proof Oa as O2. unfold obs in Oa. destruct Oa as (_ & _ & _ & _ & _ & _ & -> & _ & _ & _ & _ & _ & _ & -> & _). destruct (cseqmethod m); [apply (obs_cseqmethod _ _ _ _ _ _ _ _ _ _ _ O2)|exact O2]. }
  clear Oa. cbv beta in O1.
  step Oa (fun x => obs m x (v :: vl) (c :: cl) (or_else (addrs m To) [mkaddr (request m) [] []]) (f :: fl) (or_else (callid m) id) (if cseq m =? 0 then GenerateCSeq (dr_cseq r) else cseq m) (or_else (cseqmethod m) (method m)) (if maxforwards m =? 0 then 70 else maxforwards m) (strs m UserAgent)).
  { cbv beta. pose proof O1 as O2. unfold obs in O1. destruct O1 as (_ & _ & _ & _ & _ & _ & _ & -> & _). destruct (maxforwards m =? 0); [apply (obs_maxf _ _ _ _ _ _ _ _ _ _ _ O2)|exact O2]. }
  clear O1. cbv beta in Oa.
  step O1 (fun x => obs m x (v :: vl) (c :: cl) (or_else (addrs m To) [mkaddr (request m) [] []]) (f :: fl) (or_else (callid m) id) (if cseq m =? 0 then GenerateCSeq (dr_cseq r) else cseq m) (or_else (cseqmethod m) (method m)) (if maxforwards m =? 0 then 70 else maxforwards m) (or_else (strs m UserAgent) GosipUA)).
  { cbv beta. pose proof Oa as O2. unfold obs in Oa. destruct Oa as (_ & _ & _ & _ & _ & _ & _ & _ & -> & _). destruct (strs m UserAgent); [apply (obs_ua _ _ _ _ _ _ _ _ _ _ _ O2)|exact O2]. }
  clear Oa. cbv beta in O1.
  rstep Oa (fun x => obs m x (set_vparam (with_value (B "branch") (GenerateBranch (dr_branch r)) (v_param v)) v :: vl) (c :: cl) (or_else (addrs m To) [mkaddr (request m) [] []]) (f :: fl) (or_else (callid m) id) (if cseq m =? 0 then GenerateCSeq (dr_cseq r) else cseq m) (or_else (cseqmethod m) (method m)) (if maxforwards m =? 0 then 70 else maxforwards m) (or_else (strs m UserAgent) GosipUA)).
  { cbv beta. pose proof O1 as O2. unfold obs in O1. destruct O1 as (-> & _). unfold with_value. rewrite value_get. destruct (param_get (v_param v) (B "branch")) as [[? ?]|]; (eexists; split; [reflexivity|]).
    - replace (set_vparam (v_param v) v) with v by (destruct v; reflexivity). exact O2.
    - apply (obs_vias _ _ _ _ _ _ _ _ _ _ _ O2). }
  clear O1. pose proof Oa as O2. unfold obs in Oa. destruct Oa as (_ & _ & _ & -> & _). unfold Q, G, with_value in *. rewrite (value_get (B "tag")). destruct (param_get (a_param f) (B "tag")) as [[? ?]|]; (eexists; split; [reflexivity|]).
  - replace (set_aparam (a_param f) f) with f by (destruct f; reflexivity). exact O2.
  - apply (obs_from _ _ _ _ _ _ _ _ _ _ _ O2).
Qed.
Lemma with_value_value n v p : equal_fold n n = true -> value_of n (with_value n v p) = Some (match value_of n p with Some x => x | None => v end).
Proof. intros E. unfold with_value. destruct (value_of n p) as [x|] eqn:V; [exact V|]. apply value_head. exact E. Qed.
Lemma or_else_some {A} (l d : list A) : d <> [] -> or_else l d <> [].
Proof. destruct l; [auto|discriminate]. Qed.
(** A request whose method is given is completed unless it has no CSeq and the number drawn for it is 0; what it had is kept (see populate_result); populating again changes nothing. *)
Theorem populate_completes_partial : forall tvia tcontact m r v vl c cl, status m <= 0 -> length (dr_callid r) = 15%nat ->
  or_else (vias m) tvia = v :: vl -> or_else (addrs m Contact) tcontact = c :: cl -> (addrs m From = [] -> a_uri c <> None) ->
  method m <> [] -> (cseq m <> 0 \/ dr_cseq r mod 50000 <> 0) ->
  exists m', PopulateMessage tvia tcontact m r = Ok m' /\ complete m' /\ (cseqmethod m = [] -> cseqmethod m' = method m') /\
    forall tvia2 tcontact2 r2, PopulateMessage tvia2 tcontact2 m' r2 = Ok m'.
Proof.
  intros tvia tcontact m r v vl c cl S LC HV HC HF HM HQ. destruct (callid_is_uuid _ LC) as (id & HI & _ & LI).
  destruct (populate_result tvia tcontact m r v vl c cl id S LC HI HV HC HF) as (m' & f & fl & E & V & C & T & F & G & I & Q & CM & MF & UA & _ & _ & _ & _ & ME & _).
  assert (K : complete m').
  { split; [eexists _, _, _; split; [exact V|]; apply with_value_value; reflexivity|]. split; [rewrite C; discriminate|]. split; [rewrite T; apply or_else_some; discriminate|].
    split; [eexists _, _, _; split; [exact G|]; apply with_value_value; reflexivity|]. split; [rewrite I; apply or_else_some; intros ->; discriminate|].
    split; [rewrite Q; unfold GenerateCSeq; destruct (Z.eqb_spec (cseq m) 0); lia|]. split; [rewrite CM; apply or_else_some; exact HM|].
    split; [rewrite MF; destruct (Z.eqb_spec (maxforwards m) 0); lia|]. rewrite UA. apply or_else_some. discriminate. }
  exists m'. split; [exact E|]. split; [exact K|]. split; [rewrite CM, ME; intros ->; reflexivity|]. intros. apply populate_done. exact K.
Qed.
Definition ex_contact : list addr := [mkaddr (Some (mkuri (B "sip") [] [] (B "1.2.3.4") 5061 [(B "transport", B "udp")] [])) [] []].
Definition ex_tvia : list via := [mkvia (B "SIP") (B "2.0") (B "UDP") (B "1.2.3.4") 5061 []].
Definition ex_draws (q : Z) : draws := mkdraws (B "abcdef") (B "ghijkl") (B "abcdefghijklmno") q 7.
(** The draw for the CSeq number can be 0: the message is left without one, and populating again gives it one. *)
Theorem populate_zero_cseq_refuted : forall tvia tcontact m r r2 v vl c cl, status m <= 0 -> length (dr_callid r) = 15%nat -> length (dr_callid r2) = 15%nat ->
  or_else (vias m) tvia = v :: vl -> or_else (addrs m Contact) tcontact = c :: cl -> (addrs m From = [] -> a_uri c <> None) ->
  cseq m = 0 -> dr_cseq r mod 50000 = 0 -> dr_cseq r2 mod 50000 <> 0 ->
  exists m' m'', PopulateMessage tvia tcontact m r = Ok m' /\ cseq m' = 0 /\ PopulateMessage tvia tcontact m' r2 = Ok m'' /\ cseq m'' <> cseq m'.
Proof.
  intros tvia tcontact m r r2 v vl c cl S LC LC2 HV HC HF HM HQ HQ2. destruct (callid_is_uuid _ LC) as (id & HI & _ & LI). destruct (callid_is_uuid _ LC2) as (id2 & HI2 & _ & LI2).
  destruct (populate_result tvia tcontact m r v vl c cl id S LC HI HV HC HF) as (m' & f & fl & E & V & C & T & F & G & I & Q & _ & _ & _ & _ & _ & _ & _ & _ & _ & ST & _).
  destruct (populate_result tvia tcontact m' r2 _ vl c cl id2 (eq_ind_r (fun x => x <= 0) S ST) LC2 HI2 (f_equal (fun l => or_else l tvia) V) (f_equal (fun l => or_else l tcontact) C)) as (m'' & f2 & fl2 & E2 & _ & _ & _ & _ & _ & _ & Q2 & _).
  { rewrite G. discriminate. }
  exists m', m''. unfold GenerateCSeq in *. rewrite HM, HQ in Q. cbn in Q. rewrite Q in Q2. cbn in Q2. split; [exact E|]. split; [exact Q|]. split; [exact E2|]. rewrite Q, Q2. exact HQ2.
Qed.
(** A request without a method is sent as an INVITE (sip/msg.go:90-94) with no method in its CSeq. *)
Theorem populate_no_method_refuted : forall tvia tcontact m r v vl c cl, status m <= 0 -> length (dr_callid r) = 15%nat ->
  or_else (vias m) tvia = v :: vl -> or_else (addrs m Contact) tcontact = c :: cl -> (addrs m From = [] -> a_uri c <> None) ->
  method m = [] -> cseqmethod m = [] -> exists m', PopulateMessage tvia tcontact m r = Ok m' /\ cseqmethod m' = [].
Proof.
  intros tvia tcontact m r v vl c cl S LC HV HC HF HM HQ. destruct (callid_is_uuid _ LC) as (id & HI & _ & LI).
  destruct (populate_result tvia tcontact m r v vl c cl id S LC HI HV HC HF) as (m' & f & fl & E & V & C & T & F & G & I & Q & CM & _). exists m'. split; [exact E|]. rewrite CM, HQ, HM. reflexivity.
Qed.
Example populate_example : let m := set_cseq 5 (set_callid (B "mine") (ex_req [])) in or_else (vias m) ex_tvia <> [] /\ method m <> [] /\ cseq m <> 0 /\ length (dr_callid (ex_draws 3)) = 15%nat /\
  exists m', PopulateMessage ex_tvia ex_contact m (ex_draws 3) = Ok m' /\ complete m' /\ callid m' = B "mine" /\ cseq m' = 5 /\ maxforwards m' = 70 /\
    map v_param (vias m') = [[(B "branch", B "z9hG4bK-616263646566")]].
Proof.
  split; [discriminate|]. split; [discriminate|]. split; [discriminate|]. split; [reflexivity|].
  destruct (populate_completes_partial ex_tvia ex_contact (set_cseq 5 (set_callid (B "mine") (ex_req []))) (ex_draws 3) (hd (mkvia [] [] [] [] 0 []) ex_tvia) [] (hd (mkaddr None [] []) ex_contact) []) as (m' & E & K & _); try reflexivity; try discriminate; [left; discriminate|].
  destruct (populate_result ex_tvia ex_contact (set_cseq 5 (set_callid (B "mine") (ex_req []))) (ex_draws 3) (hd (mkvia [] [] [] [] 0 []) ex_tvia) [] (hd (mkaddr None [] []) ex_contact) [] (B "61626364-6566-4676-a869-6a6b6c6d6e6f")) as (m2 & f & fl & E2 & V & _ & _ & _ & _ & I & Q & _ & MF & _); try reflexivity; try discriminate.
  rewrite E in E2. injection E2 as <-. exists m'. split; [exact E|]. split; [exact K|]. split; [exact I|]. split; [exact Q|]. split; [exact MF|]. rewrite V. reflexivity.
Qed.
