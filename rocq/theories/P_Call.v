(** C77: a call goes through. The layers together: what the dialog sends is read by the peer's parser, answered, written, received by the
    receive loop of the dialog and recognised, from the INVITE to the confirmation of the BYE. *)
From Verif Require Import Bytes BytesLemmas GoLib GoLibLemmas SdpModel SdpProofs SipText SipTypes SipAppend UtilModel P_Text P_Lists UriSpec P_Uri MsgModel MsgSpec MsgGrammar P_MsgText MsgWf MsgRound P_MsgRound
  DialogMsg P_DialogMsg P_DialogWire TransportModel DialogModel P_DialogEnd P_Dialog P_DialogSafe P_DialogFail P_DialogPeer P_DialogRuns P_DialogCount P_DialogCall P_DialogTell P_DialogWhere P_Written.
Local Open Scope Z_scope.

(** ** The request of an application *)
Definition some_or_empty (P : bytes -> Prop) (x : bytes) : Prop := x = [] \/ P x.
(** a URI or an address the application may give: without a scheme it is written with "sip" *)
Definition uri_given (u : uri) : Prop := uri_ok (written_uri u).
Definition addr_given (a : addr) : Prop := (exists u, a_uri a = Some u /\ uri_given u) /\ display_ok (a_display a) /\ Forall param_ok (a_param a).
(** a Via the application may give: what is empty is written with its default, the port is filled in *)
Definition via_given (v : via) : Prop :=
  some_or_empty token (v_protocol v) /\ some_or_empty token (v_version v) /\ some_or_empty token (v_transport v) /\ v_host v <> [] /\ forallb viahost_class (v_host v) = true /\ Forall param_ok (v_param v).
(** the session description, with its empty fields filled in with the local address and a number *)
Definition filled_sdp (h id : bytes) (d : sdp) : sdp :=
  let o := s_origin d in
  mksdp (mkorigin (o_user o) (or_else (o_id o) id) (o_version o) (or_else (o_addr o) h)) (or_else (s_addr d) h)
    (s_audio d) (s_video d) (s_session d) (s_time d) (s_ptime d) (s_sendonly d) (s_recvonly d) (s_attrs d) (s_other d).
Definition payload_given (cfg : config) (p : payload) : Prop :=
  match p with
  | Misc _ _ => payload_ok [] p
  | PSdp d => forall n i a k j, w_dial (c_world cfg i) a = Some k -> payload_ok (w_rid (c_world cfg j)) (PSdp (written_sdp (w_rid (c_world cfg j)) (filled_sdp (so_lhost k) (GenerateOriginID (dr_origin (w_draws (c_world cfg n)))) d)))
  end.
(** next hop: the request URI, or a loose router *)
Definition loose (a : addr) : Prop := exists u, a_uri a = Some u /\ value_of (B "lr") (u_param u) <> None.
Definition request_given (cfg : config) (m : msg) : Prop :=
  status m = 0 /\ token (method m) /\ (exists u, request m = Some u /\ uri_given u) /\ 0 <= vmaj m < 256 /\ 0 <= vmin m < 256 /\
  (forall f, Forall addr_given (addrs m f)) /\ (vias m = [] \/ exists v, vias m = [v] /\ via_given v) /\
  some_or_empty callid_text (callid m) /\ 0 <= cseq m < 2 ^ 63 /\ (cseqmethod m = [] \/ cseqmethod m = method m) /\
  (maxforwards m = 0 \/ 1 < maxforwards m < 2 ^ 63) /\ 0 <= expires m < 2 ^ 63 /\ 0 <= minexpires m < 2 ^ 63 /\
  (forall f, header_val (strs m f)) /\ Forall xheader_ok (xheader m) /\ (forall p, pay m = Some p -> method m = B "INVITE" /\ payload_given cfg p).
Definition invite_given (cfg : config) (m : msg) : Prop :=
  request_given cfg m /\ method m = B "INVITE" /\ addrs m RecordRoute = [] /\ (addrs m Route = [] \/ exists r l, addrs m Route = r :: l /\ loose r) /\ cseq m < 2 ^ 63 - 1.

(** ** A network without faults *)
Definition local_host (h : bytes) : Prop :=
  h <> [] /\ forallb viahost_class h = true /\ lower_case h /\ forallb (if existsb (beq ":") h then ip6_class else host_class) h = true.
Definition port_ok (p : Z) : Prop := 0 <= p < 65536.
(** names have addresses, sockets can be opened and written to; the port is not 5060 (see response_default_port_refuted) *)
Definition faultless (w : world) : Prop :=
  (forall a, resolve_udp (w_dns w) a <> None) /\
  (forall a, exists k, w_dial w a = Some k /\ so_remote k = a /\ local_host (so_lhost k) /\ port_ok (so_lport k) /\ so_lport k <> 5060) /\
  (exists p, w_listen w = Some p /\ port_ok p) /\ (forall t, w_write w t = true) /\ (forall t, w_stamp w = Some t -> token t) /\
  length (dr_branch (w_draws w)) = 6%nat /\ length (dr_tag (w_draws w)) = 6%nat /\ length (dr_callid (w_draws w)) = 15%nat /\ GenerateCSeq (dr_cseq (w_draws w)) <> 0.

(** ** The peer *)
(** A reply: its status and what the peer adds to the response NewResponse makes, namely parameters of the Via (such as "received"),
    parameters of To (its tag), its Contact, the Record-Route of proxies, a payload; and the circumstances in which it is written and
    received: the number drawn for an SDP without origin ID, the address it comes from, the time. *)
Record reply := mkreply { rp_status : Z; rp_via : list param; rp_to : list param; rp_contact : list addr; rp_rr : list addr; rp_pay : option payload;
  rp_rid : bytes; rp_src : bytes * Z; rp_stamp : option bytes }.
Definition with_first {A} (f : A -> A) (l : list A) : list A := match l with a :: k => f a :: k | [] => [] end.
Definition reply_msg (m : msg) (x : reply) : msg :=
  set_pay (rp_pay x) (set_addr Contact (rp_contact x) (set_addr RecordRoute (rp_rr x) (set_addr To (with_first (fun a => set_aparam (rp_to x ++ a_param a) a) (addrs m To))
    (set_vias (with_first (fun v => set_vparam (rp_via x ++ v_param v) v) (vias m)) (NewResponse m (rp_status x)))))).
Definition reply_ok (x : reply) : Prop :=
  100 <= rp_status x <= 999 /\ Forall param_ok (rp_via x) /\ Forall (fun p => equal_fold (fst p) (B "branch") = false) (rp_via x) /\ Forall param_ok (rp_to x) /\
  Forall addr_ok (rp_contact x) /\ Forall addr_ok (rp_rr x) /\ Forall loose (rp_rr x) /\
  (forall p, rp_pay x = Some p -> payload_ok (rp_rid x) p) /\ (forall d, rp_pay x = Some (PSdp d) -> s_audio d <> None) /\ (forall t, rp_stamp x = Some t -> token t).
(** The datagram [text] is read by the peer and answered with [x]; the answer is written, and if it fits the buffer of the receiver of
    the socket [k], the receiver delivers [m]. *)
Definition answered (k : sock) (text : bytes) (x : reply) (m : msg) : Prop :=
  exists seen, parse_msg text = MOk seen /\
  forall buf, (length (msg_append (rp_rid x) (reply_msg seen x)) <= length buf)%nat ->
  exists buf' d, TransportModel.receive (so_lhost k) (so_lport k) buf (msg_append (rp_rid x) (reply_msg seen x)) (rp_src x) (rp_stamp x) = Ok (buf', Some d) /\ dv_msg d = m.

Lemma uri_scheme_kept u : u_scheme u <> [] -> written_uri u = u.
Proof. destruct u as [[|c x] a b h p q k]; [intros N; contradiction N; reflexivity|reflexivity]. Qed.
Lemma uri_ok_given u : uri_ok u -> uri_given u.
Proof. intros O. unfold uri_given. rewrite uri_scheme_kept; [exact O|]. destruct O as (((c & x & E & _) & _) & _). rewrite E. discriminate. Qed.
Lemma addr_ok_given a : addr_ok a -> addr_given a.
Proof. intros ((u & E & O) & R). split; [exists u; split; [exact E|apply uri_ok_given; exact O]|exact R]. Qed.
Lemma addr_ok_kept a : addr_ok a -> written_addr a = a.
Proof. intros ((u & E & (((c & x & C & _) & _) & _)) & _). destruct a as [au d p]. cbn in E. subst au. unfold written_addr. cbn [a_uri a_display a_param option_map]. rewrite uri_scheme_kept; [reflexivity|]. rewrite C. discriminate. Qed.
Lemma addrs_ok_given l : Forall addr_ok l -> Forall addr_given l.
Proof. apply Forall_impl, addr_ok_given. Qed.
Lemma addr_given_written a : addr_given a -> addr_ok (written_addr a).
Proof. intros ((u & E & O) & R). split; [exists (written_uri u); cbn [written_addr a_uri]; rewrite E; split; [reflexivity|exact O]|exact R]. Qed.
Lemma addr_written_given a : addr_ok (written_addr a) -> addr_given a.
Proof. intros ((u & E & O) & R). cbn [written_addr a_uri] in E. destruct (a_uri a) as [v|] eqn:V; [|discriminate]. injection E as <-. split; [exists v; split; [exact V|exact O]|exact R]. Qed.
Lemma addrs_given_written l : Forall addr_given l -> Forall addr_ok (map written_addr l).
Proof. intros F. apply Forall_map. eapply Forall_impl; [|exact F]. exact addr_given_written. Qed.
Lemma addrs_written_given l : Forall addr_ok (map written_addr l) -> Forall addr_given l.
Proof. intros F. induction l as [|a l IH]; [constructor|]. inversion F; subst. constructor; [apply addr_written_given; assumption|auto]. Qed.

(** ** A request which is answered *)
(** a request of the dialog on its way *)
Definition fit (cfg : config) (m : msg) : Prop :=
  (forall n, msg_ok (w_rid (c_world cfg n)) (written (w_rid (c_world cfg n)) m)) /\ status m = 0 /\ cseqmethod m = method m /\ (exists a l, addrs m From = a :: l /\ value_of (B "tag") (a_param a) <> None) /\ exists v b, vias m = [v] /\ v_port v <> 5060 /\ value_of (B "branch") (v_param v) = Some b.
Lemma value_app n l p : Forall (fun q => equal_fold (fst q) n = false) l -> value_of n (l ++ p) = value_of n p.
Proof. induction 1 as [|[a v] l E _ IH]; [reflexivity|]. cbn [app]. rewrite value_skip; assumption. Qed.
Lemma msg_ok_set_other rid f l m : f <> From -> f <> To -> msg_ok rid m -> Forall addr_ok l -> msg_ok rid (set_addr f l m).
Proof.
  intros N1 N2 (S & VA & VI & NF & NT & AD & R) F. split; [exact S|]. split; [exact VA|]. split; [exact VI|].
  split; [rewrite addr_set; destruct f; try congruence; exact NF|]. split; [rewrite addr_set; destruct f; try congruence; exact NT|].
  split; [intros g; rewrite addr_set; destruct (afield_eqb f g); [exact F|apply AD]|]. exact R.
Qed.
Lemma msg_ok_set_pay rid rid' p m : msg_ok rid m -> (forall q, p = Some q -> payload_ok rid' q) -> msg_ok rid' (set_pay p m).
Proof.
  intros (A1 & A2 & A3 & A4 & A5 & A6 & A7 & A8 & A9 & A10 & A11 & A12 & A13 & A14 & A15 & _) F.
  exact (conj A1 (conj A2 (conj A3 (conj A4 (conj A5 (conj A6 (conj A7 (conj A8 (conj A9 (conj A10 (conj A11 (conj A12 (conj A13 (conj A14 (conj A15 F))))))))))))))).
Qed.
Lemma with_first_all {A} (P : A -> Prop) f (l : list A) : (forall a, P a -> P (f a)) -> Forall P l -> Forall P (with_first f l).
Proof. intros H F. destruct F; constructor; auto. Qed.
Lemma reply_msg_ok rid m m' x : msg_ok rid m -> survives m m' -> reply_ok x -> msg_ok (rp_rid x) (reply_msg m' x).
Proof.
  intros OK SV (R & A1 & _ & A3 & A4 & A5 & _ & A6 & _). pose proof (response_ok rid m m' (rp_status x) OK SV R) as R1. unfold reply_msg. apply msg_ok_set_pay with (rid := rid); [|exact A6].
  apply msg_ok_set_other; [discriminate|discriminate| |exact A4]. apply msg_ok_set_other; [discriminate|discriminate| |exact A5].
  pose proof R1 as (_ & _ & _ & _ & NT & AD & VS & _). change (vias (NewResponse m' (rp_status x))) with (vias m') in VS. specialize (AD To). change (addrs (NewResponse m' (rp_status x)) To) with (addrs m' To) in AD, NT.
  apply msg_ok_set_addr.
  - apply msg_ok_set_vias; [exact R1|]. apply with_first_all; [|exact VS]. intros v (V1 & V2 & V3 & V4 & V5 & V6 & V7). repeat (split; [assumption|]). cbn [v_param set_vparam]. apply Forall_app. split; assumption.
  - destruct (addrs m' To); [congruence|discriminate].
  - apply with_first_all; [|exact AD]. intros a (U & D & P). split; [exact U|]. split; [exact D|]. cbn [a_param set_aparam]. apply Forall_app. split; assumption.
Qed.
Lemma reply_vias m x : vias (reply_msg m x) = with_first (fun v => set_vparam (rp_via x ++ v_param v) v) (vias m). Proof. reflexivity. Qed.
Lemma reply_route m x : addrs (reply_msg m x) Route = []. Proof. reflexivity. Qed.
Lemma reply_contact m x : addrs (reply_msg m x) Contact = rp_contact x. Proof. reflexivity. Qed.
Lemma reply_rr m x : addrs (reply_msg m x) RecordRoute = rp_rr x. Proof. reflexivity. Qed.
Lemma reply_from m x : addrs (reply_msg m x) From = addrs m From. Proof. reflexivity. Qed.
Lemma reply_other m x : status (reply_msg m x) = rp_status x /\ callid (reply_msg m x) = callid m /\ cseq (reply_msg m x) = cseq m /\ cseqmethod (reply_msg m x) = cseqmethod m /\ pay (reply_msg m x) = rp_pay x /\ vmaj (reply_msg m x) = 0 /\ vmin (reply_msg m x) = 0.
Proof. repeat split; reflexivity. Qed.
(** what the receiver does to a response without Route *)
Lemma prepare_response lhost lport src stamp m v l : 0 < status m -> addrs m Route = [] -> vias m = v :: l -> exists p, prepare lhost lport src stamp m = Ok (set_vias (set_vparam p v :: l) m) /\
  (p = v_param v \/ exists t, stamp = Some t /\ p = (B "usi", t) :: v_param v).
Proof.
  intros S R V. unfold prepare, addReceived, IsResponse. destruct (Z.ltb_spec 0 (status m)); [|lia]. cbn [rbind]. unfold addTimestamp, pop_own_route, fixMessagesFromStrictRouters. rewrite V. destruct stamp as [t|]; cbn [rbind].
  - exists ((B "usi", t) :: v_param v). split; [|right; eauto]. cbn [addrs set_vias request]. rewrite R. cbn [rbind addrs set_vias request]. rewrite R. cbn [addr_Last rev hd_error]. destruct (request m) as [u|]; [|reflexivity]. destruct (param_get (u_param u) (B "lr")); reflexivity.
  - exists (v_param v). split; [|auto]. rewrite R. cbn [rbind]. rewrite R. cbn [addr_Last rev hd_error]. replace (set_vias (set_vparam (v_param v) v :: l) m) with m; [destruct (request m) as [u|]; [|reflexivity]; destruct (param_get (u_param u) (B "lr")); reflexivity|].
    replace (set_vparam (v_param v) v) with v by (destruct v; reflexivity). rewrite <- V. destruct m; reflexivity.
Qed.
(** The reply to a request is received, and it belongs to it. *)
Lemma reply_comes cfg m k n x : fit cfg m -> reply_ok x -> exists r, answered k (msg_append (w_rid (c_world cfg n)) m) x r /\
  sip2 r /\ ResponseMatch m r = true /\ callid r = callid m /\ cseq r = cseq m /\ status r = rp_status x /\ pay r = rp_pay x /\ addrs r Contact = rp_contact x /\ addrs r RecordRoute = rp_rr x /\
  addrs r From = map written_addr (addrs m From) /\ (forall f, Forall addr_ok (addrs r f)) /\ addrs r To <> [] /\ exists v, vias r = [v] /\ via_ok v.
Proof.
  intros (OK & S & CM & TG & v & b & V & NP & HB) RO. specialize (OK n). destruct (msg_round_trip_partial _ _ OK) as (seen & P & SV). pose proof (reply_msg_ok _ _ _ x OK SV RO) as RK.
  destruct (msg_round_trip_partial _ _ RK) as (r0 & P2 & SV2). rewrite written_text in P. set (rid := w_rid (c_world cfg n)) in *.
  destruct SV as (_ & _ & EV & EA & EC & EQ & EM & _). change (vias (written rid m)) with (map written_via (vias m)) in EV. rewrite V in EV. cbn [map] in EV. rewrite (dropped_id (written_via v)) in EV by exact NP.
  change (callid (written rid m)) with (callid m) in EC. change (cseq (written rid m)) with (cseq m) in EQ. change (cseqmethod (written rid m)) with (cseqmethod m) in EM.
  destruct SV2 as (_ & RS & FV & FA & FC & FQ & FM & _ & _ & _ & _ & FP & FJ & FN). destruct (reply_other seen x) as (G1 & G2 & G3 & G4 & G5 & G6 & G7). destruct RO as (RR & RV1 & RV2 & _ & _ & _ & _ & _ & _ & TK).
  unfold IsResponse in RS. rewrite G1 in RS. destruct (RS (proj2 (Z.ltb_lt 0 (rp_status x)) ltac:(lia))) as [ST _]. clear RS.
  rewrite reply_vias, EV in FV. cbn [with_first map] in FV. rewrite dropped_id in FV by exact NP. set (v1 := set_vparam _ _) in FV.
  assert (B1 : value_of (B "branch") (v_param v1) = Some b) by (unfold v1; cbn [set_vparam v_param written_via]; rewrite value_app; assumption).
  destruct (prepare_response (so_lhost k) (so_lport k) (rp_src x) (rp_stamp x) r0 v1 []) as (p & PR & PP); [lia|rewrite FA; apply reply_route|exact FV|].
  exists (set_vias [set_vparam p v1] r0). split.
  { exists seen. split; [exact P|]. intros buf L. unfold TransportModel.receive. rewrite firstn_all2 by exact L. rewrite P2, PR. cbn [rbind]. eexists _, _. split; [reflexivity|]. reflexivity. }
  assert (B2 : value_of (B "branch") p = Some b) by (destruct PP as [-> |(t & _ & ->)]; [exact B1|rewrite value_skip by reflexivity; exact B1]).
  unfold the_vmaj in FJ. unfold the_vmin in FN. rewrite G6 in FJ, FN.
  split; [split; [exact FJ|exact FN]|]. split.
  { apply response_match_spec. cbn [status set_vias cseq cseqmethod vias]. split; [lia|]. split; [congruence|]. split; [congruence|]. exists [], (set_vparam p v1), v, []. split; [reflexivity|]. split; [exact V|]. split; [reflexivity|]. split; [reflexivity|]. eauto. }
  cbn [status set_vias cseq cseqmethod vias callid pay addrs]. split; [congruence|]. split; [congruence|]. split; [congruence|]. split; [congruence|]. split; [rewrite FA; apply reply_contact|]. split; [rewrite FA; apply reply_rr|].
  split; [rewrite FA, reply_from, EA; reflexivity|]. destruct RK as (_ & _ & _ & _ & NT & AD & VS & _). split; [intros f; rewrite FA; apply AD|]. split; [rewrite FA; exact NT|].
  exists (set_vparam p v1). split; [reflexivity|]. rewrite reply_vias, EV in VS. cbn [with_first] in VS. fold v1 in VS. inversion VS as [|? ? (V1 & V2 & V3 & V4 & V5 & V6 & V7) _]; subst. repeat (split; [assumption|]). cbn [set_vparam v_param].
  destruct PP as [-> |(t & TS & ->)]; [exact V7|]. constructor; [|exact V7]. split; [split; [discriminate|reflexivity]|]. right. left. apply TK. exact TS.
Qed.

(** ** A request which is filled in *)
Lemma fit_lowered cfg m : fit cfg m -> fit cfg (lowered m).
Proof.
  intros (OK & R). unfold lowered. destruct (Z.ltb_spec 0 (maxforwards m)); [|split; assumption]. split; [|exact R]. intros n. specialize (OK n). apply (msg_ok_set_maxf _ (maxforwards m - 1) _ OK). destruct OK as (_ & _ & _ & _ & _ & _ & _ & _ & _ & _ & X & _). cbn [written maxforwards] in X. lia.
Qed.
Lemma fit_stamp cfg m t : fit cfg m -> (forall x, t = Some x -> token x) -> exists m', addTimestamp m t = Ok m' /\ fit cfg m' /\ exists v l p, vias m = v :: l /\ m' = set_vias (set_vparam p v :: l) m.
Proof.
  intros F T. unfold addTimestamp. pose proof F as (OK & S & CM & TG & v & b & V & NP & HB). destruct t as [x|]; [|exists m; split; [reflexivity|]; split; [exact F|]; exists v, [], (v_param v); split; [exact V|]; replace (set_vparam (v_param v) v) with v by (destruct v; reflexivity); rewrite <- V; destruct m; reflexivity]. rewrite V. eexists. split; [reflexivity|]. split; [|eauto].
  split; [|split; [exact S|]; split; [exact CM|]; split; [exact TG|]; eexists _, b; split; [reflexivity|]; split; [exact NP|]; cbn [set_vparam v_param]; rewrite value_skip by reflexivity; exact HB].
  intros n. specialize (OK n). set (rid := w_rid (c_world cfg n)) in *.
  pose proof OK as (_ & _ & _ & _ & _ & _ & VS & _). change (vias (written rid m)) with (map written_via (vias m)) in VS. rewrite V in VS. inversion VS as [|? ? (V1 & V2 & V3 & V4 & V5 & V6 & V7) _]; subst.
  change (written rid (set_vias [set_vparam ((B "usi", x) :: v_param v) v] m)) with (set_vias [written_via (set_vparam ((B "usi", x) :: v_param v) v)] (written rid m)). apply msg_ok_set_vias; [exact OK|]. constructor; [|constructor].
  repeat (split; [assumption|]). constructor; [|exact V7]. split; [split; [discriminate|reflexivity]|]. right. left. apply T. reflexivity.
Qed.
Lemma branch_token r : length r = 6%nat -> token (GenerateBranch r) /\ token (GenerateTag r).
Proof.
  intros L. destruct (tags_and_branches r r L) as (LT & _ & (t & E & LB & _) & _). destruct (identifiers_unquoted r) as [X _]. split; (split; [|apply X; auto]); intros N; [rewrite E in N; discriminate|rewrite N in LT; discriminate].
Qed.
Lemma callid_drawn r : length r = 15%nat -> exists c, GenerateCallID r = Ok c /\ callid_text c.
Proof.
  intros L. destruct (callid_is_uuid r L) as (c & E & _ & LC). exists c. split; [exact E|]. destruct (identifiers_unquoted r) as [_ X]. destruct (X c E L) as [T _]. exists c, []. split; [symmetry; apply app_nil_r|]. split; [intros ->; discriminate|]. split; [|auto].
  revert T. apply forallb_byte_impl. vm_compute. reflexivity.
Qed.
Lemma params_set n x p : token x -> Forall param_ok p -> Forall param_ok (param_set p n x).
Proof.
  intros T. induction 1 as [|[a y] p [A1 A2] F IH]; cbn [param_set]; [constructor|]. destruct (equal_fold a n); constructor; auto; (split; [exact A1|]); [right; left; exact T|exact A2].
Qed.
Lemma params_with n x p : token n -> token x -> Forall param_ok p -> Forall param_ok (with_value n x p).
Proof. intros N T F. unfold with_value. destruct (value_of n p); [exact F|]. constructor; [|exact F]. split; [exact N|]. right. left. exact T. Qed.
Definition good_sock (cfg : config) (k : sock) : Prop := (exists n a, w_dial (c_world cfg n) a = Some k) /\ local_host (so_lhost k) /\ port_ok (so_lport k) /\ so_lport k <> 5060.
Lemma filled_payload cfg k w n m p : w = c_world cfg n -> good_sock cfg k -> (forall q, pay m = Some q -> method m = B "INVITE" /\ payload_given cfg q) ->
  pay (if bseq (method m) (B "INVITE") then match pay m with
      | Some (PSdp d) =>
        let d := match s_addr d with [] => with_addr (so_lhost k) d | _ => d end in
        let o := s_origin d in
        let o := match o_addr o with [] => mkorigin (o_user o) (o_id o) (o_version o) (so_lhost k) | _ => o end in
        let o := match o_id o with [] => mkorigin (o_user o) (GenerateOriginID (dr_origin (w_draws w))) (o_version o) (o_addr o) | _ => o end in
        set_pay (Some (PSdp (with_origin o d))) m
      | _ => m end else m) = Some p -> forall j, payload_ok (w_rid (c_world cfg j)) (written_payload (w_rid (c_world cfg j)) p).
Proof.
  intros -> ((i & a & D) & _) G E j. destruct (pay m) as [q|] eqn:P.
  - destruct (G q eq_refl) as [M Q]. rewrite M, bseq_refl in E. destruct q as [t x|d]; [rewrite P in E; injection E as <-; exact Q|]. cbn in E. injection E as <-. change (payload_ok (w_rid (c_world cfg j)) (PSdp (written_sdp (w_rid (c_world cfg j)) (let d0 := match s_addr d with [] => with_addr (so_lhost k) d | _ => d end in let o := s_origin d0 in let o := match o_addr o with [] => mkorigin (o_user o) (o_id o) (o_version o) (so_lhost k) | _ => o end in let o := match o_id o with [] => mkorigin (o_user o) (GenerateOriginID (dr_origin (w_draws (c_world cfg n)))) (o_version o) (o_addr o) | _ => o end in with_origin o d0)))).
    specialize (Q n i a k j D). destruct d as [[ou oi ov oa] da s1 s2 s3 s4 s5 s6 s7 s8 s9]. unfold filled_sdp in Q. destruct da, oa, oi; exact Q.
  - destruct (bseq _ _); rewrite P in E; discriminate.
Qed.
Lemma or_else_if {A} (P : list A -> Prop) l d : (l <> [] -> P l) -> (l = [] -> P d) -> P (or_else l d). Proof. intros X Y. destruct l; [apply Y; reflexivity|apply X; discriminate]. Qed.
(** all but the Vias, the Contact and the payload *)
Definition rest_same (m m' : msg) : Prop :=
  (forall f, f <> Contact -> addrs m' f = addrs m f) /\ strs m' = strs m /\ vmaj m' = vmaj m /\ vmin m' = vmin m /\ method m' = method m /\ request m' = request m /\ status m' = status m /\ callid m' = callid m /\ cseq m' = cseq m /\ cseqmethod m' = cseqmethod m /\
  maxforwards m' = maxforwards m /\ expires m' = expires m /\ minexpires m' = minexpires m /\ xheader m' = xheader m.
Lemma populate_fit cfg k cport n m : let w := c_world cfg n in faultless w -> good_sock cfg k -> (forall p, cport = Some p -> port_ok p) -> request_given cfg m ->
  exists m', populate k cport w m = Ok m' /\ fit cfg m' /\ maxforwards m' <> 1 /\ method m' = method m /\ (callid m <> [] -> callid m' = callid m) /\ cseq m' = (if cseq m =? 0 then GenerateCSeq (dr_cseq (w_draws w)) else cseq m) /\
    addrs m' RecordRoute = addrs m RecordRoute /\ (addrs m To <> [] -> addrs m' To = addrs m To) /\ request m' = request m /\ (addrs m From <> [] -> exists a l t, addrs m From = a :: l /\ addrs m' From = set_aparam t a :: l /\ (value_of (B "tag") (a_param a) <> None -> t = a_param a)).
Proof.
  intros w (_ & _ & _ & _ & _ & LB & LT & LC & CQ) GK CP (S & TM & (u0 & RQ & UO) & VA & VI & AD & VG & CI & CS & CM & MF & EX & ME & ST & XH & PG).
  pose proof GK as (_ & (LH1 & LH2 & LH3 & LH4) & PO & NP). destruct (branch_token _ LB) as [TB _]. destruct (branch_token _ LT) as [_ TT]. destruct (callid_drawn _ LC) as (cid & EC & TC).
  unfold populate. set (b := GenerateBranch _) in *. set (m1 := match vias m with [] => _ | _ => m end).
  assert (A1 : exists v1, vias m1 = [v1] /\ via_given v1 /\ rest_same m m1 /\ addrs m1 Contact = addrs m Contact /\ pay m1 = pay m).
  { unfold m1. destruct VG as [V|(v & V & G)]; rewrite V; [eexists; split; [reflexivity|]; split; [|repeat split]|exists v; split; [exact V|split; [exact G|repeat split]]]. do 3 (split; [left; reflexivity|]). split; [exact LH1|]. split; [exact LH2|constructor]. }
  clearbody m1. destruct A1 as (v1 & V1 & (G1 & G2 & G3 & G4 & G5 & G6) & RS1 & C1 & P1). cbv zeta. rewrite V1. cbn [rbind].
  set (p := match param_get _ _ with Some _ => _ | None => _ end). assert (PP : Forall param_ok p). { unfold p. cbn [set_vport v_param]. destruct (param_get _ _); [apply params_set; assumption|]. constructor; [|exact G6]. split; [split; [discriminate|reflexivity]|]. right. left. exact TB. }
  assert (BB : value_of (B "branch") p = Some b). { unfold p. cbn [set_vport v_param]. destruct (param_get (v_param v1) (B "branch")) as [[]|] eqn:G; [|apply value_head; reflexivity]. apply value_set. rewrite value_get, G. discriminate. }
  clearbody p. set (v2 := set_vparam p _). set (m2 := set_vias [v2] m1).
  assert (K2 : vias m2 = [v2] /\ rest_same m m2 /\ addrs m2 Contact = addrs m Contact /\ pay m2 = pay m) by (split; [reflexivity|]; split; [exact RS1|]; split; [exact C1|exact P1]). clearbody m2. clear m1 V1 RS1 C1 P1. destruct K2 as (V2 & RS2 & C2 & P2).
  rewrite C2. set (m3 := match addrs m Contact with [] => _ | _ => m2 end).
  assert (A3 : exists c l u, addrs m3 Contact = c :: l /\ vias m3 = [v2] /\ rest_same m m3 /\ pay m3 = pay m /\ a_uri c = Some u /\ uri_given u /\ display_ok (a_display c) /\ Forall param_ok (a_param c) /\ Forall addr_given l).
  { unfold m3. destruct (addrs m Contact) as [|c l] eqn:C; [eexists _, [], _; split; [reflexivity|]; split; [exact V2|]; split; [|split; [exact P2|]; split; [reflexivity|]; split; [|split; [left; reflexivity|split; constructor]]]|].
    - destruct RS2 as (X & Y). split; [|exact Y]. intros f N. rewrite addr_set. destruct f; try congruence; apply X; discriminate.
    - apply uri_ok_given. split; [|constructor]. split; [eexists _, _; split; [reflexivity|]; split; [reflexivity|]; split; reflexivity|]. split; [reflexivity|]. split; [split; [exact LH1|split; assumption]|]. split; [cbn; lia|split; constructor].
    - specialize (AD Contact). rewrite C in AD. inversion AD as [|? ? ((u & AU & UK) & DK & PK) AL]; subst. exists c, l, u. repeat (split; [assumption|]). assumption. }
  clearbody m3. clear m2 V2 RS2 C2 P2. destruct A3 as (c & cl & u & C3 & V3 & RS3 & P3 & CU & UK & DK & PK & AL). rewrite C3, CU. cbn [deref rbind].
  set (u1 := set_uport _ u). set (u2 := match param_get (u_param u1) (B "transport") with None => _ | Some _ => u1 end).
  assert (UK2 : uri_given u2).
  { destruct UK as ((W1 & W2 & W3 & W4 & W5 & W6) & W7). assert (X1 : uri_given u1). { split; [|exact W7]. repeat (split; [assumption|]). split; [|split; assumption]. unfold u1. cbn [written_uri set_uport u_port]. destruct cport as [q|]; [apply CP; reflexivity|exact PO]. }
    unfold u2. destruct (param_get _ _); [exact X1|]. clearbody u1. destruct X1 as ((Y1 & Y2 & Y3 & Y4 & Y5 & Y6) & Y7). split; [|exact Y7]. repeat (split; [assumption|]). split; [|assumption]. cbn [written_uri set_uparam u_param]. constructor; [discriminate|assumption]. }
  clearbody u2. clear u1. set (c2 := set_auri (Some u2) c). set (m4 := set_addr Contact (c2 :: cl) m3).
  assert (K4 : addrs m4 Contact = c2 :: cl /\ vias m4 = [v2] /\ rest_same m m4 /\ pay m4 = pay m).
  { split; [reflexivity|]. split; [exact V3|]. split; [|exact P3]. destruct RS3 as (X & Y). split; [|exact Y]. intros f N. unfold m4. rewrite addr_set. destruct f; try congruence; apply X; discriminate. }
  clearbody m4. clear m3 C3 V3 RS3 P3. destruct K4 as (C4 & V4 & RS4 & P4).
  pose proof (filled_payload cfg k w n m4) as FP. cbv zeta in FP. specialize (FP) with (1 := eq_refl) (2 := GK). set (m5 := if bseq (method m4) (B "INVITE") then _ else m4) in *.
  assert (K5 : addrs m5 Contact = c2 :: cl /\ vias m5 = [v2] /\ rest_same m m5) by (unfold m5; destruct (bseq _ _); [|auto]; destruct (pay m4) as [[|d]|]; auto).
  assert (FP5 : forall q, pay m5 = Some q -> forall j, payload_ok (w_rid (c_world cfg j)) (written_payload (w_rid (c_world cfg j)) q)). { intros q Q. apply (FP q); [|exact Q]. intros q' Q'. rewrite P4 in Q'. destruct RS4 as (_ & _ & _ & _ & -> & _). apply PG. exact Q'. }
  clearbody m5. clear FP m4 C4 V4 RS4 P4. destruct K5 as (C5 & V5 & (R1 & R2 & R3 & R4 & R5 & R6 & R7 & R8 & R9 & R10 & R11 & R12 & R13 & R14)).
  destruct (populate_result [] [] m5 (w_draws w) v2 [] c2 cl cid) as (m' & f & fl & PM & Q1 & Q2 & Q3 & Q4 & Q5 & Q6 & Q7 & Q8 & Q9 & Q10 & Q11 & Q12 & Q13 & Q14 & Q15 & Q16 & Q17 & Q18 & Q19 & Q20 & Q21 & Q22 & Q23);
    [rewrite R7, S; lia|exact LC|exact EC|rewrite V5; reflexivity|rewrite C5; reflexivity|intros _; discriminate|].
  exists m'. split; [exact PM|]. rewrite R1 in Q3, Q4 by discriminate. rewrite R5 in Q8. rewrite R6 in Q3. rewrite RQ in Q3. rewrite R8 in Q6. rewrite R9 in Q7. rewrite R10 in Q8. rewrite R11 in Q9. rewrite R2 in Q10.
  assert (CO : addr_given c2) by (split; [exists u2; auto|]; split; assumption).
  assert (BO : Forall addr_given (bare (c2 :: cl))).
  { unfold bare. cbn [map]. constructor.
    - split; [|split; [left; reflexivity|exact PK]]. exists (set_uparam [] u2). split; [reflexivity|]. destruct UK2 as ((W1 & W2 & W3 & W4 & W5 & W6) & W7). split; [|exact W7]. repeat (split; [assumption|]). split; [constructor|assumption].
    - apply Forall_map. eapply Forall_impl; [|exact AL]. intros z (Z1 & _ & Z3). split; [exact Z1|]. split; [left; reflexivity|exact Z3]. }
  assert (FO : Forall addr_given (f :: fl)) by (rewrite <- Q4; apply or_else_if; [intros _; apply AD|intros _; exact BO]).
  assert (VB : with_value (B "branch") b (v_param v2) = p) by (unfold with_value, v2; cbn [set_vparam v_param]; rewrite BB; reflexivity).
  fold b in Q1. rewrite VB in Q1. change (set_vparam p v2) with v2 in Q1.
  assert (AO : forall g, Forall addr_given (addrs m' g)).
  { intros g. destruct g; try (rewrite Q11 by discriminate; rewrite R1 by discriminate; apply AD).
    - rewrite Q2. constructor; assumption.
    - rewrite Q5. pose proof (Forall_inv FO) as (F1 & F2 & F3). pose proof (Forall_inv_tail FO) as FR. constructor; [|exact FR]. split; [exact F1|]. split; [exact F2|]. cbn [set_aparam a_param]. apply params_with; [split; [discriminate|reflexivity]|exact TT|exact F3].
    - rewrite Q3. apply or_else_if; [intros _; apply AD|intros _]. constructor; [|constructor]. split; [exists u0; auto|]. split; [left; reflexivity|constructor]. }
  assert (C8 : cseqmethod m' = method m) by (rewrite Q8; destruct CM as [-> | ->]; [reflexivity|]; destruct (method m); reflexivity).
  split; [split; [|split; [congruence|split; [congruence|split; [exists (set_aparam (with_value (B "tag") (GenerateTag (dr_tag (w_draws w))) (a_param f)) f), fl; split; [exact Q5|]; cbn [set_aparam a_param]; rewrite with_value_value by reflexivity; discriminate|]]]]|].
  - intros j. split; [left; split; [exact (eq_trans Q17 (eq_trans R7 S))|]; split; [cbn [written method]; rewrite Q15, R5; destruct (method m); [split; [discriminate|reflexivity]|exact TM]|exists (written_uri u0); cbn [written request]; rewrite Q16, R6, RQ; split; [reflexivity|exact UO]]|].
    set (rid := w_rid (c_world cfg j)) in *. cbn [written vmaj vmin addrs callid cseq cseqmethod maxforwards expires minexpires strs xheader pay vias].
    split; [lia|]. split; [lia|]. split; [rewrite Q5; discriminate|]. split; [rewrite Q3; intros X; apply map_eq_nil in X; revert X; apply or_else_some; discriminate|]. split; [intros g; apply addrs_given_written, AO|]. split.
    { rewrite Q1. constructor; [|constructor]. unfold via_ok. cbn [written_via v_protocol v_version v_transport v_host v_port v_param v2 set_vparam set_vport].
      split; [destruct G1 as [-> |G1]; [split; [discriminate|reflexivity]|]; destruct (v_protocol v1); [destruct G1; congruence|exact G1]|].
      split; [destruct G2 as [-> |G2]; [split; [discriminate|reflexivity]|]; destruct (v_version v1); [destruct G2; congruence|exact G2]|].
      split; [destruct G3 as [-> |G3]; [split; [discriminate|reflexivity]|]; destruct (v_transport v1); [destruct G3; congruence|exact G3]|]. split; [exact G4|]. split; [exact G5|]. split; [exact PO|exact PP]. }
    split; [rewrite Q6; destruct CI as [-> |CI]; [exact TC|]; apply or_else_if; [intros _; exact CI|intros X; exact TC]|].
    split; [rewrite Q7; destruct (cseq m =? 0); [destruct (cseq_and_origin (dr_cseq (w_draws w))); lia|exact CS]|]. split; [rewrite C8; exact TM|]. split; [rewrite Q9; destruct (Z.eqb_spec (maxforwards m) 0); lia|]. split; [lia|]. split; [lia|].
    split; [intros g; assert (D : g = UserAgent \/ g <> UserAgent) by (destruct g; first [left; reflexivity|right; discriminate]); destruct D as [-> |N]; [rewrite Q10; apply or_else_if; [intros _; apply ST|intros _]|rewrite Q12, R2 by exact N; apply ST]|].
    { split; [repeat (constructor; [reflexivity|]); constructor|]. intros z r E. injection E as <- _. reflexivity. }
    split; [rewrite Q23, R14; exact XH|]. intros q Q. rewrite Q19 in Q. destruct (pay m5) as [q0|] eqn:PQ; [|discriminate]. injection Q as <-. exact (FP5 q0 eq_refl j).
  - exists v2, b. split; [exact Q1|]. split; [exact NP|exact BB].
  - split; [rewrite Q9; destruct (Z.eqb_spec (maxforwards m) 0); lia|]. split; [congruence|]. split; [intros N; rewrite Q6; destruct (callid m); [congruence|reflexivity]|]. split; [exact Q7|]. split; [rewrite Q11, R1 by discriminate; reflexivity|]. split; [intros N; rewrite Q3; destruct (addrs m To); [congruence|reflexivity]|]. split; [congruence|].
    intros N. exists f, fl, (with_value (B "tag") (GenerateTag (dr_tag (w_draws w))) (a_param f)). split; [destruct (addrs m From); [congruence|exact Q4]|]. split; [exact Q5|]. intros T. unfold with_value. destruct (value_of (B "tag") (a_param f)); [reflexivity|congruence].
Qed.

(** ** A request which is sent *)
(** What [populate] puts into the fields it fills in: the local address and port of the socket [k], the port [cport] of the
    other socket if there is one, the defaults of the package. Every other field is the application's. *)
Definition contact_filled (k : sock) (cport : option Z) (u u' : uri) : Prop :=
  u_scheme u' = u_scheme u /\ u_user u' = u_user u /\ u_pass u' = u_pass u /\ u_host u' = u_host u /\ u_header u' = u_header u /\
  u_port u' = match cport with Some p => p | None => so_lport k end /\
  u_param u' = match value_of (B "transport") (u_param u) with None => (B "transport", B "udp") :: u_param u | Some _ => u_param u end.
Definition carries (k : sock) (cport : option Z) (m x : msg) : Prop :=
  (forall f, f <> Contact -> f <> To -> f <> From -> addrs x f = addrs m f) /\
  (forall f, f <> UserAgent -> strs x f = strs m f) /\ strs x UserAgent = or_else (strs m UserAgent) GosipUA /\
  expires x = expires m /\ minexpires x = minexpires m /\ xheader x = xheader m /\ vmaj x = vmaj m /\ vmin x = vmin m /\
  addrs x To = or_else (addrs m To) [mkaddr (request m) [] []] /\
  (exists id, id <> [] /\ pay x = match pay m with Some (PSdp d) => if bseq (method m) (B "INVITE") then Some (PSdp (filled_sdp (so_lhost k) id d)) else pay m | p => p end) /\
  (exists c l u u', or_else (addrs m Contact) [mkaddr (Some (mkuri (B "sip") [] [] (so_lhost k) 0 [] [])) [] []] = c :: l /\ a_uri c = Some u /\
     addrs x Contact = set_auri (Some u') c :: l /\ contact_filled k cport u u') /\
  (exists f l tag, or_else (addrs m From) (bare (addrs x Contact)) = f :: l /\ addrs x From = set_aparam (with_value (B "tag") tag (a_param f)) f :: l) /\
  (exists v l p, or_else (vias m) [mkvia [] [] [] (so_lhost k) 0 []] = v :: l /\ vias x = set_vparam p (set_vport (so_lport k) v) :: l).
Lemma populate_carries k cport w m m' : status m <= 0 -> length (dr_callid (w_draws w)) = 15%nat -> populate k cport w m = Ok m' ->
  carries k cport m m' /\ maxforwards m' = (if maxforwards m =? 0 then 70 else maxforwards m).
Proof.
  intros ST LC E. destruct (callid_drawn _ LC) as (cid & EC & _). unfold populate in E.
  set (m1 := match vias m with [] => _ | _ => m end) in E.
  assert (A1 : vias m1 = or_else (vias m) [mkvia [] [] [] (so_lhost k) 0 []] /\ rest_same m m1 /\ addrs m1 Contact = addrs m Contact /\ pay m1 = pay m) by (unfold m1; destruct (vias m) eqn:V; repeat split; exact V).
  clearbody m1. cbv zeta in E. destruct A1 as (V1 & RS1 & C1 & P1).
  destruct (vias m1) as [|v vl]; [discriminate|]. cbn [rbind] in E. set (p := match param_get _ _ with Some _ => _ | None => _ end) in E. set (v2 := set_vparam p (set_vport (so_lport k) v)) in E. set (m2 := set_vias (v2 :: vl) m1) in E.
  assert (K2 : vias m2 = v2 :: vl /\ rest_same m m2 /\ addrs m2 Contact = addrs m Contact /\ pay m2 = pay m) by (split; [reflexivity|]; split; [exact RS1|]; split; [exact C1|exact P1]).
  clearbody m2. destruct K2 as (V2 & RS2 & C2 & P2). rewrite C2 in E. set (m3 := match addrs m Contact with [] => _ | _ => m2 end) in E.
  assert (A3 : addrs m3 Contact = or_else (addrs m Contact) [mkaddr (Some (mkuri (B "sip") [] [] (so_lhost k) 0 [] [])) [] []] /\ vias m3 = v2 :: vl /\ rest_same m m3 /\ pay m3 = pay m).
  { unfold m3. destruct (addrs m Contact) as [|c l] eqn:C; [|split; [exact C2|split; [exact V2|split; assumption]]]. split; [reflexivity|]. split; [exact V2|]. split; [|exact P2].
    destruct RS2 as (X & Y). split; [|exact Y]. intros f N. rewrite addr_set. destruct f; try congruence; apply X; discriminate. }
  clearbody m3. destruct A3 as (C3 & V3 & RS3 & P3). destruct (addrs m3 Contact) as [|c cl]; [discriminate|]. destruct (a_uri c) as [u|] eqn:CU; [|discriminate]. cbn [deref rbind] in E.
  set (u1 := set_uport _ u) in E. set (u2 := match param_get (u_param u1) (B "transport") with None => _ | Some _ => u1 end) in E.
  assert (UF : contact_filled k cport u u2) by (unfold contact_filled, u2; rewrite value_get; change (u_param u1) with (u_param u); destruct (param_get (u_param u) (B "transport")) as [[]|]; repeat split).
  clearbody u2. set (c2 := set_auri (Some u2) c) in E. set (m4 := set_addr Contact (c2 :: cl) m3) in E.
  assert (K4 : addrs m4 Contact = c2 :: cl /\ vias m4 = v2 :: vl /\ rest_same m m4 /\ pay m4 = pay m).
  { split; [reflexivity|]. split; [exact V3|]. split; [|exact P3]. destruct RS3 as (X & Y). split; [|exact Y]. intros f N. unfold m4. rewrite addr_set. destruct f; try congruence; apply X; discriminate. }
  clearbody m4. destruct K4 as (C4 & V4 & RS4 & P4). set (m5 := if bseq (method m4) (B "INVITE") then _ else m4) in E.
  assert (K5 : addrs m5 Contact = c2 :: cl /\ vias m5 = v2 :: vl /\ rest_same m m5 /\ exists id, id <> [] /\ pay m5 = match pay m with Some (PSdp d) => if bseq (method m) (B "INVITE") then Some (PSdp (filled_sdp (so_lhost k) id d)) else pay m | p => p end).
  { unfold m5. replace (method m4) with (method m) by (destruct RS4 as (_ & _ & _ & _ & -> & _); reflexivity). rewrite P4. destruct (bseq (method m) (B "INVITE")).
    - destruct (pay m) as [[x y|d]|]; [split; [exact C4|split; [exact V4|split; [exact RS4|exists (B "0"); split; [discriminate|exact P4]]]]| |split; [exact C4|split; [exact V4|split; [exact RS4|exists (B "0"); split; [discriminate|exact P4]]]]].
      split; [exact C4|]. split; [exact V4|]. split; [exact RS4|]. exists (GenerateOriginID (dr_origin (w_draws w))). split; [destruct (cseq_and_origin (dr_origin (w_draws w))) as (_ & ? & _ & _ & _ & _ & NE); exact NE|]. destruct d as [[ou oi ov oa] da s1 s2 s3 s4 s5 s6 s7 s8 s9]. destruct da, oa, oi; reflexivity.
    - split; [exact C4|split; [exact V4|split; [exact RS4|exists (B "0"); split; [discriminate|rewrite P4; destruct (pay m) as [[]|]; reflexivity]]]]. }
  clearbody m5. destruct K5 as (C5 & V5 & (R1 & R2 & R3 & R4 & R5 & R6 & R7 & R8 & R9 & R10 & R11 & R12 & R13 & R14) & id & NI & P5).
  destruct (populate_result [] [] m5 (w_draws w) v2 vl c2 cl cid) as (m'' & f & fl & PM & Q1 & Q2 & Q3 & Q4 & Q5 & Q6 & Q7 & Q8 & Q9 & Q10 & Q11 & Q12 & Q13 & Q14 & Q15 & Q16 & Q17 & Q18 & Q19 & Q20 & Q21 & Q22 & Q23);
    [rewrite R7; exact ST|exact LC|exact EC|rewrite V5; reflexivity|rewrite C5; reflexivity|intros _; discriminate|].
  assert (m'' = m') by congruence. subst m''. split; [|rewrite Q9, R11; reflexivity].
  split; [intros g N1 N2 N3; rewrite Q11, R1 by assumption; reflexivity|]. split; [intros g N; rewrite Q12, R2 by exact N; reflexivity|]. split; [rewrite Q10, R2; reflexivity|].
  split; [congruence|]. split; [congruence|]. split; [congruence|]. split; [congruence|]. split; [congruence|]. split; [rewrite Q3, R1, R6 by discriminate; reflexivity|]. split; [exists id; split; [exact NI|rewrite Q19; exact P5]|].
  split; [exists c, cl, u, u2; split; [congruence|]; split; [exact CU|]; split; [exact Q2|exact UF]|]. split; [rewrite R1 in Q4 by discriminate; exists f, fl, (GenerateTag (dr_tag (w_draws w))); rewrite Q2; split; assumption|]. eexists v, vl, _. split; [congruence|]. exact Q1.
Qed.
Lemma carries_kept k cport m x y p : carries k cport m x -> strs y = strs x -> addrs y = addrs x -> expires y = expires x -> minexpires y = minexpires x -> xheader y = xheader x -> vmaj y = vmaj x -> vmin y = vmin x -> pay y = pay x ->
  (exists v l, vias x = v :: l /\ vias y = set_vparam p v :: l) -> carries k cport m y.
Proof.
  intros (Q1 & Q2 & Q3 & Q4 & Q5 & Q6 & Q7 & Q8 & Q9 & Q10 & Q11 & Q12 & v & l & q & V1 & V2) E1 E2 E3 E4 E5 E6 E7 E8 (v' & l' & W1 & W2). unfold carries. rewrite E1, E2, E3, E4, E5, E6, E7, E8. repeat (split; [assumption|]).
  rewrite V2 in W1. injection W1 as <- <-. exists v, l, p. split; [exact V1|exact W2].
Qed.
Definition sockets_good (cfg : config) (s : dstate) : Prop := (forall k, so s = Some k -> good_sock cfg k) /\ (forall p, cso s = Some p -> port_ok p).
(** [x] is the request [m], filled in *)
Definition completed (m x : msg) : Prop :=
  method x = method m /\ (callid m <> [] -> callid x = callid m) /\ (cseq m <> 0 -> cseq x = cseq m) /\ 0 < cseq x <= Z.max (cseq m) 50000 /\ (addrs m To <> [] -> addrs x To = addrs m To) /\ request x = request m /\
  (addrs m From <> [] -> exists a l t, addrs m From = a :: l /\ addrs x From = set_aparam t a :: l /\ (value_of (B "tag") (a_param a) <> None -> t = a_param a)).
Lemma lowered_same m : method (lowered m) = method m /\ callid (lowered m) = callid m /\ cseq (lowered m) = cseq m /\ addrs (lowered m) = addrs m /\ request (lowered m) = request m.
Proof. unfold lowered. destruct (0 <? maxforwards m); repeat split. Qed.
Lemma the_request_kept x z : so (set_the_request x z) = so z /\ cso (set_the_request x z) = cso z /\ st (set_the_request x z) = st z /\ remote (set_the_request x z) = remote z /\ lseq (set_the_request x z) = lseq z /\ req (set_the_request x z) = option_map (fun _ => x) (req z) /\ (req z = None -> invite (set_the_request x z) = x) /\ (req z <> None -> invite (set_the_request x z) = invite z) /\ rseq (set_the_request x z) = rseq z.
Proof. unfold set_the_request. destruct (req z) as [q|] eqn:E; cbn; rewrite ?E; repeat split; congruence. Qed.
Lemma the_request_timer x z : rtimer (set_the_request x z) = rtimer z /\ resends (set_the_request x z) = resends z.
Proof. unfold set_the_request. destruct (req z); split; reflexivity. Qed.
Lemma the_request_routes x z : routes (set_the_request x z) = routes z.
Proof. unfold set_the_request. destruct (req z); reflexivity. Qed.
(** where a request goes: to its first Route, or else to its URI *)
Definition next_hop (m : msg) : bytes * Z := match match addrs m Route with r :: _ => a_uri r | [] => request m end with Some u => (u_host u, u_port u) | None => ([], 0) end.
(** Where the requests within a call go, given the Record-Route and the Contact of its answer: to the last hop that recorded itself, or to the peer. *)
Definition way_back (rr contact : list addr) : bytes * Z := match match rev rr ++ contact with r :: _ => a_uri r | [] => None end with Some u => (u_host u, u_port u) | None => ([], 0) end.
(** [a] is the first of the addresses that a hop stands for, at some time *)
Definition first_address (cfg : config) (hop : bytes * Z) (outside : bool) (a : bytes) : Prop := exists n rest, RouteAddress (w_dns (c_world cfg n)) (fst hop) (snd hop) outside = Some (a :: rest).
Section Faultless.
Variable cfg : config.
Hypothesis NF : forall n, faultless (c_world cfg n).
Lemma connect_faultless n s : sockets_good cfg s -> exists s' k, connect cfg (c_world cfg n) s = (s', true) /\ so s' = Some k /\ sockets_good cfg s' /\
  st s' = st s /\ remote s' = remote s /\ lseq s' = lseq s /\ req s' = req s /\ invite s' = invite s /\ clock s' = clock s /\ so_remote k = daddr s /\ routes s' = routes s.
Proof.
  intros [G1 G2]. unfold connect. destruct (so s) as [k0|] eqn:K0.
  - destruct (bseq_reflect (daddr s) (so_remote k0)) as [BE|BE]; [exists s, k0; repeat (split; [first [reflexivity|assumption]|]); split; [|repeat split; auto]; split; [rewrite K0|]; assumption|].
    destruct (NF n) as (_ & D & (p & L & PK) & _). destruct (D (daddr s)) as (k & DK & HR & H1 & H2 & H3). cbv zeta. change (daddr (set_so None s)) with (daddr s). rewrite DK. change (cso (set_so (Some k) (set_so None s))) with (cso s).
    assert (GK : good_sock cfg k) by (split; [eauto|]; auto). destruct (cso s) as [q|] eqn:CS.
    + eexists _, k. split; [reflexivity|]. split; [reflexivity|]. split; [split; [intros z Z; injection Z as <-; exact GK|cbn [cso set_so]; rewrite CS; exact G2]|]. repeat split; exact HR.
    + destruct (c_loose cfg); [rewrite L|]; eexists _, k; (split; [reflexivity|]); (split; [reflexivity|]); (split; [split; [intros z Z; injection Z as <-; exact GK|cbn [cso set_so set_cso]; rewrite ?CS; first [exact G2|intros z Z; injection Z as <-; exact PK]]|]; repeat split; exact HR).
  - destruct (NF n) as (_ & D & (p & L & PK) & _). destruct (D (daddr s)) as (k & DK & HR & H1 & H2 & H3). cbv zeta. change (daddr (set_so None s)) with (daddr s). rewrite DK. change (cso (set_so (Some k) (set_so None s))) with (cso s).
    assert (GK : good_sock cfg k) by (split; [eauto|]; auto). destruct (cso s) as [q|] eqn:CS.
    + eexists _, k. split; [reflexivity|]. split; [reflexivity|]. split; [split; [intros z Z; injection Z as <-; exact GK|cbn [cso set_so]; rewrite CS; exact G2]|]. repeat split; exact HR.
    + destruct (c_loose cfg); [rewrite L|]; eexists _, k; (split; [reflexivity|]); (split; [reflexivity|]); (split; [split; [intros z Z; injection Z as <-; exact GK|cbn [cso set_so set_cso]; rewrite ?CS; first [exact G2|intros z Z; injection Z as <-; exact PK]]|]; repeat split; exact HR).
Qed.
Lemma pop_faultless a rest s : sockets_good cfg s -> request_given cfg (the_request s) ->
  exists s' k x n, pop_route cfg (a :: rest) s = mkres s' [OSend (so_remote k) x (msg_append (w_rid (c_world cfg n)) x)] Cont /\
    fit cfg x /\ completed (the_request s) x /\ (carries k (cso s') (the_request s) x /\ maxforwards x = (if maxforwards (the_request s) =? 0 then 70 else maxforwards (the_request s)) - 1 /\ rtimer s' = true /\ resends s' = 0 /\ so_remote k = a /\ routes s' = rest) /\ addrs x RecordRoute = addrs (the_request s) RecordRoute /\ so s' = Some k /\ sockets_good cfg s' /\ the_request s' = x /\ st s' = st s /\ (req s = None -> req s' = None /\ invite s' = x) /\ (st s < Answered -> remote s' = None /\ lseq s' = cseq x /\ rseq s' = 0).
Proof.
  intros SG RG. cbn [pop_route]. rewrite !upd_seq. unfold ask. set (s1 := set_clock _ _). change (clock (set_routes rest (set_daddr a s))) with (clock s).
  destruct (connect_faultless (clock s) s1 SG) as (s2 & k & -> & K2 & SG2 & E1 & E2 & E3 & E4 & E5 & E6 & EK & ER). cbn [negb]. rewrite K2.
  assert (TR : the_request s2 = the_request s) by (unfold the_request; rewrite E4, E5; reflexivity). rewrite TR.
  destruct (populate_fit cfg k (cso s2) (clock s) (the_request s) (NF _) (proj1 SG2 _ K2) (proj2 SG2) RG) as (m2 & PE & FM & MF & Q1 & Q2 & Q3 & Q4 & QT & QR & Q5). assert (CR : carries k (cso s2) (the_request s) m2 /\ maxforwards m2 = (if maxforwards (the_request s) =? 0 then 70 else maxforwards (the_request s))) by (refine ((populate_carries k (cso s2) (c_world cfg (clock s)) _ _ _ _ PE)); [destruct RG as (-> & _); lia|destruct (NF (clock s)) as (_ & _ & _ & _ & _ & _ & _ & LC & _); exact LC]). destruct CR as [CR CF]. rewrite PE. cbn [val]. rewrite upd_seq.
  assert (CQ : (cseq (the_request s) <> 0 -> cseq m2 = cseq (the_request s)) /\ 0 < cseq m2 <= Z.max (cseq (the_request s)) 50000).
  { rewrite Q3. destruct RG as (_ & _ & _ & _ & _ & _ & _ & _ & CS & _). destruct (NF (clock s)) as (_ & _ & _ & _ & _ & _ & _ & _ & NZ). destruct (cseq_and_origin (dr_cseq (w_draws (c_world cfg (clock s))))) as [CB _]. destruct (Z.eqb_spec (cseq (the_request s)) 0); split; try congruence; lia. }
  destruct (the_request_kept m2 s2) as (F1 & F2 & F3 & F4 & F5 & F6 & F7 & F8 & FR). pose proof (the_request_set m2 s2) as F9. pose proof (the_request_routes m2 s2) as FZ. set (s3 := set_the_request m2 s2) in *. clearbody s3.
  assert (Y : exists s4, so s4 = so s3 /\ routes s4 = routes s3 /\ cso s4 = cso s3 /\ st s4 = st s3 /\ req s4 = req s3 /\ invite s4 = invite s3 /\ (st s3 < Answered -> remote s4 = None /\ lseq s4 = cseq m2 /\ rseq s4 = 0) /\ forall b, ((look st (fun n => if n <? Answered then upd (set_rseq 0) ;; upd (set_remote None) ;; upd (set_lseq (cseq m2)) else upd (fun s => s))) ;; b) s3 = b s4).
  { destruct (Z.ltb_spec (st s3) Answered) as [L'|L'].
    - exists (set_lseq (cseq m2) (set_remote None (set_rseq 0 s3))). do 6 (split; [reflexivity|]). split; [intros _; repeat split|]. intros b. apply seq_go. unfold look. destruct (Z.ltb_spec (st s3) Answered); [|lia]. rewrite !upd_seq. reflexivity.
    - exists s3. do 6 (split; [reflexivity|]). split; [intros X; lia|]. intros b. apply seq_go. unfold look. destruct (Z.ltb_spec (st s3) Answered); [lia|]. reflexivity. }
  destruct Y as (s4 & Y1 & YR & Y2 & Y3 & Y4 & Y5 & Y6 & ->). rewrite !upd_seq. set (s5 := set_rtimer true _).
  assert (Z5 : so s5 = so s4 /\ cso s5 = cso s4 /\ st s5 = st s4 /\ req s5 = req s4 /\ invite s5 = invite s4 /\ remote s5 = remote s4 /\ lseq s5 = lseq s4 /\ rseq s5 = rseq s4 /\ rtimer s5 = true /\ resends s5 = 0 /\ routes s5 = routes s4) by (repeat split). clearbody s5. destruct Z5 as (Z1 & Z2 & Z3 & Z4 & Z5 & Z6 & Z7 & ZR & ZT & ZN & ZS).
  rewrite send_eq. cbv zeta. destruct (Z.eqb_spec (maxforwards m2) 1); [contradiction|].
  destruct (the_request_timer (lowered m2) s5) as [T6 N6]. pose proof (the_request_routes (lowered m2) s5) as S6. destruct (the_request_kept (lowered m2) s5) as (A1 & A2 & A3 & A4 & A5 & A6 & A7 & A8 & AR). set (s6 := set_the_request (lowered m2) s5) in *. clearbody s6.
  destruct (NF (clock s6)) as (_ & _ & _ & WR & TS & _). destruct (fit_stamp cfg (lowered m2) (w_stamp (c_world cfg (clock s6))) (fit_lowered _ _ FM) TS) as (x & -> & FX & (vx & vl & vp & VX & EX)).
  destruct (the_request_timer x (set_clock (Datatypes.S (clock s6)) s6)) as [T7 N7]. pose proof (the_request_routes x (set_clock (Datatypes.S (clock s6)) s6)) as S7. destruct (the_request_kept x (set_clock (Datatypes.S (clock s6)) s6)) as (B1 & B2 & B3 & B4 & B5 & B6 & B7 & B8 & BR). pose proof (the_request_set x (set_clock (Datatypes.S (clock s6)) s6)) as B9. set (s7 := set_the_request x _) in *. clearbody s7.
  cbn [so cso st remote lseq req invite rseq rtimer resends routes set_clock] in B1, B2, B3, B4, B5, B6, B7, B8, BR, T7, N7, S7. assert (K7 : so s7 = Some k) by congruence. rewrite K7, WR.
  exists s7, k, x, (clock s6). split; [reflexivity|]. split; [exact FX|]. destruct (lowered_same m2) as (L1 & L2 & L3 & L4 & L5). assert (X1 : method x = method m2 /\ callid x = callid m2 /\ cseq x = cseq m2 /\ addrs x = addrs m2 /\ request x = request m2) by (rewrite EX; cbn [method callid cseq addrs request set_vias]; auto). destruct X1 as (X1 & X2 & X3 & X4 & X5).
  split; [unfold completed; rewrite X1, X2, X3, X4, X5; repeat (split; [tauto|]); exact Q5|]. split.
  { replace (cso s7) with (cso s2) by congruence. assert (LV : vias (lowered m2) = vias m2 /\ strs (lowered m2) = strs m2 /\ expires (lowered m2) = expires m2 /\ minexpires (lowered m2) = minexpires m2 /\ xheader (lowered m2) = xheader m2 /\ vmaj (lowered m2) = vmaj m2 /\ vmin (lowered m2) = vmin m2 /\ pay (lowered m2) = pay m2) by (unfold lowered; destruct (0 <? maxforwards m2); repeat split).
    split; [|split; [|split; [congruence|split; [congruence|split; [exact EK|rewrite S7, S6, ZS, YR, FZ, ER; reflexivity]]]]; rewrite EX; change (maxforwards (set_vias (set_vparam vp vx :: vl) (lowered m2))) with (maxforwards (lowered m2)); destruct RG as (_ & _ & _ & _ & _ & _ & _ & _ & _ & _ & MR & _); unfold lowered; destruct (Z.ltb_spec 0 (maxforwards m2)); cbn [maxforwards set_maxforwards]; [congruence|destruct (Z.eqb_spec (maxforwards (the_request s)) 0); lia]].
    destruct LV as (LV1 & LV2 & LV3 & LV4 & LV5 & LV6 & LV7 & LV8). apply (carries_kept _ _ _ m2 _ vp CR); try (rewrite EX; cbn [strs expires minexpires xheader vmaj vmin pay set_vias]; assumption). exists vx, vl. rewrite <- LV1. split; [exact VX|rewrite EX; reflexivity]. }
  split; [congruence|]. split; [exact K7|].
  split; [split; [intros z Z; rewrite K7 in Z; injection Z as <-; exact (proj1 SG2 _ K2)|replace (cso s7) with (cso s2) by congruence; exact (proj2 SG2)]|]. split; [exact B9|]. split; [rewrite B3, A3, Z3, Y3, F3, E1; reflexivity|]. split.
  - intros RN. assert (R6 : req s6 = None) by (rewrite A6, Z4, Y4, F6, E4; change (req s1) with (req s); rewrite RN; reflexivity). split; [rewrite B6, R6; reflexivity|apply B7; exact R6].
  - intros ST. assert (S3 : st s3 = st s) by (rewrite F3, E1; reflexivity). rewrite S3 in Y6. destruct (Y6 ST) as (Y7 & Y8 & Y9). repeat split; congruence.
Qed.
(** names have addresses *)
Lemma routes_faultless n host port srv : exists a rest, RouteAddress (w_dns (c_world cfg n)) host port srv = Some (a :: rest).
Proof.
  destruct (NF n) as (D & _). unfold RouteAddress. set (d := w_dns _) in *. clearbody d.
  assert (Sg : forall p, exists a rest, match resolve_udp d (JoinHostPort host (Portstr p)) with Some a => Some [a] | None => None end = Some (a :: rest)) by (intros p; specialize (D (JoinHostPort host (Portstr p))); destruct (resolve_udp d _); [eauto|congruence]).
  assert (Sr : forall l r, (l <> [] \/ r <> []) -> srv_routes l r <> []). { induction l as [|[t p] l IH]; intros r H; [destruct H; [congruence|assumption]|]. cbn [srv_routes]. apply IH. right. discriminate. }
  destruct (parse_ip d host); [eauto|]. destruct (port =? 0); [|apply Sg]. destruct srv; [|apply Sg]. destruct (lookup_srv d host) as [[|z l]|]; try apply Sg. specialize (Sr (rev (z :: l)) []). destruct (srv_routes (rev (z :: l)) []) as [|a rest]; [|eauto].
  exfalso. apply Sr; [|reflexivity]. left. cbn [rev]. destruct (rev l); discriminate.
Qed.
(** a request is sent: its next hop is its URI or a loose router *)
Lemma sent_faultless which s : let m := match which with Some b => b | None => invite s end in sockets_good cfg s -> request_given cfg m -> method m <> B "REGISTER" -> (addrs m Route = [] \/ exists r l, addrs m Route = r :: l /\ loose r) ->
  exists s' k x n, sendRequest cfg which s = mkres s' [OSend (so_remote k) x (msg_append (w_rid (c_world cfg n)) x)] Cont /\
    fit cfg x /\ completed m x /\ (carries k (cso s') m x /\ maxforwards x = (if maxforwards m =? 0 then 70 else maxforwards m) - 1 /\ rtimer s' = true /\ resends s' = 0 /\ exists n', RouteAddress (w_dns (c_world cfg n')) (fst (next_hop m)) (snd (next_hop m)) (st s <? Answered) = Some (so_remote k :: routes s')) /\ addrs x RecordRoute = addrs m RecordRoute /\ so s' = Some k /\ sockets_good cfg s' /\ the_request s' = x /\ st s' = st s /\ (which = None -> req s' = None /\ invite s' = x) /\ (st s < Answered -> remote s' = None /\ lseq s' = cseq x /\ rseq s' = 0).
Proof.
  intros m SG RG NR LR. unfold sendRequest, look at 1. fold m.
  assert (R : exists host port, RouteMessage [] [] m = Ok (m, inl (host, port)) /\ next_hop m = (host, port)).
  { pose proof RG as (S & _ & (u & RQ & _) & _). unfold RouteMessage, IsResponse. rewrite S. cbn [Z.ltb Z.compare]. replace (addr_CompareHostPort [] (addrs m Route)) with false by reflexivity. cbv zeta iota. destruct LR as [E|(r & l & E & (u' & RU & LRU))]; unfold next_hop; rewrite E; [rewrite RQ; cbn [deref rbind]; eauto|].
    destruct (bseq_reflect (method m) (B "REGISTER")); [contradiction|]. rewrite RU. cbn [deref rbind]. rewrite value_get in LRU. destruct (param_get (u_param u') (B "lr")) as [[]|]; [eauto|congruence]. }
  destruct R as (host & port & -> & NH). cbn [val]. rewrite upd_seq. set (s1 := match which with Some _ => s | None => set_invite m s end).
  assert (F : so s1 = so s /\ cso s1 = cso s /\ st s1 = st s /\ (which = None -> invite s1 = m)) by (unfold s1; destruct which; repeat split; discriminate). clearbody s1. destruct F as (F1 & F2 & F3 & F4).
  unfold ask, look. destruct (routes_faultless (clock s1) host port (st (set_clock (Datatypes.S (clock s1)) s1) <? Answered)) as (a & rest & RA). rewrite RA, !upd_seq. unfold popRoute, look. cbn [routes set_dest set_routes set_req]. match goal with |- context[pop_route cfg _ ?z] => set (s2 := z) end.
  assert (TR : the_request s2 = m) by (unfold s2, the_request; destruct which; cbn; [reflexivity|auto]).
  destruct (pop_faultless a rest s2) as (s' & k & x & n & -> & P1 & P2 & PC & P3 & P4 & P5 & P6 & P7 & P8 & P9).
  { destruct SG as [G1 G2]. split; unfold s2; cbn [so cso set_dest set_routes set_req set_clock]; rewrite ?F1, ?F2; assumption. }
  { rewrite TR. exact RG. }
  change (st (set_clock (Datatypes.S (clock s1)) s1)) with (st s1) in RA. rewrite F3 in RA. destruct PC as (PC1 & PC2 & PC3 & PC4 & PC5 & PC6). rewrite TR in P2, PC1, PC2, P3. change (st s2) with (st s1) in P7, P9. rewrite F3 in P7, P9. exists s', k, x, n. split; [reflexivity|]. split; [exact P1|]. split; [exact P2|]. split; [repeat (split; [assumption|]); exists (clock s1); rewrite NH, PC5, PC6; exact RA|]. repeat (split; [assumption|]). split; [|exact P9]. intros ->. apply P8. reflexivity.
Qed.

(** ** The turns *)
Lemma progress_turn s m : matching s m -> 100 <= status m < 200 -> has_audio m ->
  handle cfg (EMsg m) s = mkres (set_st (last_state (progress (status m)) (st s)) (set_rtimer false (set_routes [] s))) (media m ++ progress (status m)) Cont.
Proof.
  intros MA S AU. rewrite (matching_split _ _ _ MA) by lia. destruct (Z.leb_spec 200 (status m)); [lia|]. cbn [andb]. rewrite !upd_seq.
  destruct (Z.leb_spec (status m) 200); [|lia]. rewrite seq_eq, (sdp_reported _ _ AU). fold (media m). cbn [r_v r_state r_out]. rewrite (after_provisional _ _ _ S). reflexivity.
Qed.
(** the ACK of the answer can be read by the peer *)
Definition acked (x : msg) (u : option uri) (text : bytes) : Prop := exists a, parse_msg text = MOk a /\ method a = B "ACK" /\ request a = u /\ callid a = callid x /\ cseq a = cseq x /\ addrs a From = map written_addr (addrs x From).
Lemma ack_made x m c cs u v : fit cfg x -> callid m = callid x -> cseq m = cseq x -> addrs m Contact = c :: cs -> a_uri c = Some u -> (forall f, Forall addr_ok (addrs m f)) -> addrs m To <> [] -> addrs m From = map written_addr (addrs x From) -> vias m = [v] -> via_ok v ->
  exists ack, NewAck m x = Ok ack /\ (forall rid, msg_ok rid ack) /\ maxforwards ack = 0 /\ method ack = B "ACK" /\ callid ack = callid x /\ cseq ack = cseq x /\ addrs ack From = map written_addr (addrs x From) /\ vias ack = [v] /\ request ack = Some u /\ status ack = 0.
Proof.
  intros FX MC MQ CT CU AO NT EF VV VO. unfold NewAck. rewrite CT, VV. cbn [uri_of via_Detach rbind]. eexists. split; [reflexivity|]. split; [intros rid|rewrite <- MC, <- MQ, <- EF; repeat split; exact CU]. set (ack := set_method _ _).
  destruct FX as (OK & _). specialize (OK 0%nat). destruct OK as (_ & _ & _ & NF' & _ & _ & _ & CI & CQ & _ & _ & _ & _ & ST & _). 
  cbn [written addrs callid cseq strs] in NF', CI, CQ, ST.
  split; [left; split; [reflexivity|]; split; [split; [discriminate|reflexivity]|]; exists u; split; [exact CU|]|].
  { specialize (AO Contact). rewrite CT in AO. inversion AO as [|? ? ((u' & E' & UK) & _) _]; subst. rewrite CU in E'. injection E' as <-. exact UK. }
  split; [cbn; lia|]. split; [cbn; lia|]. split; [change (addrs m From <> []); rewrite EF; exact NF'|]. split; [exact NT|].
  split; [intros f; destruct f; try exact (Forall_nil _); try apply (AO From); try apply (AO To)|].
  { change (addrs ack Route) with (addr_Reversed (addrs m RecordRoute)). rewrite addr_reversed_rev. apply Forall_rev. apply AO. }
  split; [change (vias ack) with [v]; auto|]. split; [change (callid_text (callid m)); rewrite MC; exact CI|]. split; [change (0 <= cseq m < 2 ^ 63); rewrite MQ; exact CQ|].
  split; [split; [discriminate|reflexivity]|]. split; [cbn; lia|]. split; [cbn; lia|]. split; [cbn; lia|].
  split; [intros f; destruct f; try exact header_val_nil; try apply (ST Authorization); try apply (ST ProxyAuthorization)|]. { split; [repeat (constructor; [reflexivity|]); constructor|]. intros z r E. injection E as <- _. reflexivity. }
  split; [constructor|]. intros p E. discriminate.
Qed.
Lemma ack_sent s k x ack u v : so s = Some k -> (forall rid, msg_ok rid ack) -> maxforwards ack = 0 -> method ack = B "ACK" -> callid ack = callid x -> cseq ack = cseq x -> addrs ack From = map written_addr (addrs x From) -> vias ack = [v] -> via_ok v -> request ack = Some u -> status ack = 0 ->
  exists n vs text, acked x (Some u) text /\ forall b, (send cfg ack drop ;; b) s = mkres (r_state (b (set_clock n s))) (OSend (so_remote k) (set_vias vs ack) text :: r_out (b (set_clock n s))) (r_v (b (set_clock n s))).
Proof.
  intros K OKA MF A1 A2 A3 A4 A5 VO A6 A7. destruct (NF (clock s)) as (_ & _ & _ & WR & TS & _). set (w := c_world cfg (clock s)) in *.
  assert (X : exists v', addTimestamp ack (w_stamp w) = Ok (set_vias [v'] ack) /\ via_ok v').
  { unfold addTimestamp. destruct (w_stamp w) as [t|]; [|exists v; split; [rewrite <- A5; destruct ack; reflexivity|exact VO]]. rewrite A5. eexists. split; [reflexivity|]. destruct VO as (V1 & V2 & V3 & V4 & V5 & V6 & V7). repeat (split; [assumption|]). constructor; [|exact V7]. split; [split; [discriminate|reflexivity]|]. right. left. apply TS. reflexivity. }
  destruct X as (v' & ES & VO'). exists (Datatypes.S (clock s)), [v'], (msg_append (w_rid w) (set_vias [v'] ack)). split.
  - destruct (msg_round_trip_partial (w_rid w) (set_vias [v'] ack)) as (a & PA & (RQ & _ & _ & EA & EC & EQ & _)); [apply msg_ok_set_vias; [apply OKA|auto]|]. destruct RQ as (RQ1 & RQ2 & _); [unfold IsResponse; change (status (set_vias [v'] ack)) with (status ack); rewrite A7; reflexivity|].
    exists a. split; [exact PA|]. cbn [set_vias method request callid cseq] in *. repeat (split; [congruence|]). rewrite EA. change (addrs (set_vias [v'] ack) From) with (addrs ack From). congruence.
  - intros b. rewrite seq_eq, send_eq. cbv zeta. rewrite MF, (lowered_zero _ MF). cbn [Z.eqb drop]. unfold drop. fold w. rewrite ES. cbn [so set_clock]. rewrite K, WR. reflexivity.
Qed.
Lemma answer_turn s m k c cs u v : so s = Some k -> matching s m -> method (the_request s) = B "INVITE" -> status m = 200 -> addrs m Contact = c :: cs -> a_uri c = Some u -> has_audio m -> remote s = None -> fit cfg (the_request s) ->
  (forall f, Forall addr_ok (addrs m f)) -> addrs m To <> [] -> addrs m From = map written_addr (addrs (the_request s) From) -> vias m = [v] -> via_ok v ->
  exists n ack text, method ack = B "ACK" /\ acked (the_request s) (Some u) text /\
  handle cfg (EMsg m) s = mkres (set_remote (Some m) (set_st Answered (set_rtimer false (set_routes [] (set_clock n s))))) (OSend (so_remote k) ack text :: media m ++ [OState Answered]) Cont.
Proof.
  intros K MA I S CT CU AU RN FX AO NT EF VV VO. pose proof MA as (_ & MC & M). apply response_match_spec in M. destruct M as (_ & MQ & _).
  destruct (ack_made _ _ _ _ _ _ FX MC MQ CT CU AO NT EF VV VO) as (ack & EA & OKA & MF & A1 & A2 & A3 & A4 & A5 & A6 & A7).
  destruct (ack_sent s k (the_request s) ack u v K OKA MF A1 A2 A3 A4 A5 VO A6 A7) as (n & vs & text & AK & SND). exists n, (set_vias vs ack), text. split; [exact A1|]. split; [exact AK|].
  rewrite (matching_split _ _ _ MA) by lia. rewrite I, bseq_refl, CT, S, EA. cbn [Z.leb Z.compare Pos.compare Pos.compare_cont andb val]. rewrite SND. clear SND. rewrite !upd_seq. rewrite seq_eq, (sdp_reported _ _ AU). fold (media m). cbn [r_v r_state r_out].
  rewrite (after_answer cfg m _ S) by (rewrite (matching_method _ _ MA); exact I). cbn [r_v r_state r_out]. change (remote (set_rtimer false (set_routes [] (set_clock n s)))) with (remote s). rewrite RN. reflexivity.
Qed.
Lemma run_app r es r1 es' r' : run cfg r es r1 -> run cfg r1 es' r' -> run cfg r (es ++ es') r'.
Proof. induction 1; intros R; [exact R|]. cbn [app]. apply run_step; auto. Qed.
(** what the application is told of a reply *)
Definition media_of (p : option payload) : list out := match p with Some (PSdp d) => match s_audio d with Some a => [OPeer (s_addr d) (m_port a)] | None => [] end | _ => [] end.
Definition told (x : reply) : list out := media_of (rp_pay x) ++ progress (rp_status x).
(** the call is waiting for its answer: the INVITE [x] has been sent over [k] *)
Definition calling (k : sock) (x : msg) (s : dstate) : Prop :=
  so s = Some k /\ sockets_good cfg s /\ req s = None /\ invite s = x /\ remote s = None /\ lseq s = cseq x /\ rseq s = 0 /\ (st s = Proceeding \/ st s = Ringing).
Lemma calling_request k x s : calling k x s -> the_request s = x. Proof. intros (_ & _ & R & I & _). unfold the_request. rewrite R. exact I. Qed.
Lemma has_audio_reply m x : reply_ok x -> pay m = rp_pay x -> has_audio m. Proof. intros (_ & _ & _ & _ & _ & _ & _ & _ & A & _) E d D. rewrite E in D. exact (A d D). Qed.
Lemma progress_run k x n ps : fit cfg x -> Forall (fun p => reply_ok p /\ rp_status p < 200) ps -> forall s out, calling k x s ->
  exists rs s', Forall2 (answered k (msg_append (w_rid (c_world cfg n)) x)) ps rs /\ calling k x s' /\ run cfg (mkres s out Cont) (map EMsg rs) (mkres s' (out ++ concat (map told ps)) Cont).
Proof.
  intros FX. induction 1 as [|p ps [RO LT] _ IH]; intros s out C.
  - exists [], s. split; [constructor|]. split; [exact C|]. cbn. rewrite app_nil_r. constructor.
  - destruct (reply_comes cfg x k n p FX RO) as (r & AN & S2 & MT & EC & EQ & ES & EP & _). pose proof (calling_request _ _ _ C) as TR.
    assert (MA : matching s r) by (split; [exact S2|]; rewrite TR; auto). assert (RP : 100 <= status r < 200) by (destruct RO as (R & _); lia).
    pose proof (progress_turn s r MA RP (has_audio_reply _ _ RO EP)) as T. set (s1 := set_st _ _) in T.
    assert (C1 : calling k x s1). { destruct C as (C1 & C2 & C3 & C4 & C5 & C6 & C7 & C8). repeat (split; [assumption|]). change (st s1) with (last_state (progress (status r)) (st s)). unfold progress. destruct (_ =? 100); [left; reflexivity|]. destruct (_ || _)%bool; [right; reflexivity|exact C8]. } destruct (IH s1 (out ++ media r ++ progress (status r)) C1) as (rs & s' & F & C' & R). exists (r :: rs), s'. split; [constructor; assumption|]. split; [exact C'|].
    cbn [map concat]. apply run_step; [reflexivity|reflexivity|]. cbn [r_state r_out]. rewrite T. cbn [r_state r_out r_v].
    assert (TE : told p = media r ++ progress (status r)) by (unfold told, media_of, media; rewrite EP, ES; reflexivity). rewrite TE, (app_assoc out _ (concat _)). exact R.
Qed.
(** hanging up: the BYE *)
Lemma hangup_sends s x r : st s = Answered -> invite s = x -> fit cfg x -> lseq s = cseq x -> cseq x < 2 ^ 63 - 1 -> remote s = Some r ->
  (forall f, Forall addr_ok (addrs r f)) -> addrs r To <> [] -> Forall loose (addrs r RecordRoute) -> forall c cs u, addrs r Contact = c :: cs -> a_uri c = Some u ->
  exists bye, handle cfg EHangup s = sendRequest cfg (Some bye) (set_lseq (cseq bye) s) /\ request_given cfg bye /\ method bye = B "BYE" /\ request bye = Some u /\ callid bye = callid x /\ callid x <> [] /\ cseq bye = cseq x + 1 /\ cseq bye <> 0 /\ addrs bye From = addrs x From /\ addrs bye To = addrs r To /\
    maxforwards bye = 0 /\ (addrs bye Route = [] \/ exists a l, addrs bye Route = a :: l /\ loose a) /\ next_hop bye = way_back (addrs r RecordRoute) (addrs r Contact).
Proof.
  intros ST IX FX LS CB RM AO NT LO c cs u CT CU. cbn [handle]. unfold sendHangup, look. rewrite ST. cbn [Z.eqb orb Proceeding Ringing Answered Pos.eqb]. rewrite RM. unfold NewBye. rewrite CT. cbn [uri_of rbind val]. rewrite upd_seq, LS, IX.
  pose proof FX as (OK & _ & _ & (fa & fl & FF & FT) & _). specialize (OK 0%nat). destruct OK as (_ & _ & _ & _ & _ & AX & _ & CI & CQ & _). cbn [written addrs callid cseq] in AX, CI, CQ.
  rewrite (i64_id (cseq x + 1)) by lia. set (bye := set_method _ _). exists bye. split; [reflexivity|].
  assert (BR : addrs bye Route = rev (addrs r RecordRoute)) by apply addr_reversed_rev. split.
  { split; [reflexivity|]. split; [split; [discriminate|reflexivity]|]. split.
    { exists u. split; [exact CU|]. apply uri_ok_given. specialize (AO Contact). rewrite CT in AO. inversion AO as [|? ? ((u' & E' & UK) & _) _]; subst. rewrite CU in E'. injection E' as <-. exact UK. }
    split; [cbn; lia|]. split; [cbn; lia|]. split.
    { intros f. destruct f; try exact (Forall_nil _); try exact (addrs_written_given _ (AX From)); try exact (addrs_ok_given _ (AO To)). apply addrs_ok_given. rewrite BR. apply Forall_rev. apply AO. }
    split; [left; reflexivity|]. split; [right; exact CI|]. split; [change (0 <= cseq x + 1 < 2 ^ 63); lia|]. split; [right; reflexivity|]. split; [left; reflexivity|]. split; [cbn; lia|]. split; [cbn; lia|]. split; [intros f; destruct f; exact header_val_nil|]. split; [constructor|]. intros p E. discriminate. }
  split; [reflexivity|]. split; [exact CU|]. split; [reflexivity|]. split; [destruct CI as (ca & cb & -> & NE & _); destruct ca; [congruence|discriminate]|]. split; [reflexivity|]. split; [change (cseq x + 1 <> 0); lia|]. do 3 (split; [reflexivity|]). split.
  { rewrite BR. apply Forall_rev in LO. destruct (rev (addrs r RecordRoute)) as [|a l]; [left; reflexivity|]. right. exists a, l. split; [reflexivity|]. inversion LO; assumption. }
  unfold next_hop, way_back. rewrite BR. change (request bye) with (a_uri c). destruct (rev (addrs r RecordRoute)); reflexivity.
Qed.
(** requests within a call have one address *)
Lemma one_route d h p a l : RouteAddress d h p false = Some (a :: l) -> l = [].
Proof. unfold RouteAddress. destruct (parse_ip d h); [intros E; injection E as _ <-; reflexivity|]. destruct (p =? 0); (destruct (resolve_udp _ _); [intros E; injection E as _ <-; reflexivity|discriminate]). Qed.
Lemma hangup_turn s k x r : st s = Answered -> so s = Some k -> sockets_good cfg s -> invite s = x -> fit cfg x -> lseq s = cseq x -> cseq x < 2 ^ 63 - 1 -> remote s = Some r ->
  (forall f, Forall addr_ok (addrs r f)) -> addrs r To <> [] -> Forall loose (addrs r RecordRoute) -> forall c cs u, addrs r Contact = c :: cs -> a_uri c = Some u ->
  exists s' k' b n, handle cfg EHangup s = mkres s' [OSend (so_remote k') b (msg_append (w_rid (c_world cfg n)) b)] Cont /\ the_request s' = b /\ so s' = Some k' /\ fit cfg b /\
    method b = B "BYE" /\ request b = Some u /\ callid b = callid x /\ cseq b = cseq x + 1 /\ addrs b From = addrs x From /\ addrs b To = addrs r To /\ sockets_good cfg s' /\ maxforwards b = 69 /\ rtimer s' = true /\ resends s' = 0 /\
    first_address cfg (way_back (addrs r RecordRoute) (addrs r Contact)) false (so_remote k').
Proof.
  intros ST K SG IX FX LS CB RM AO NT LO c cs u CT CU. destruct (hangup_sends s x r ST IX FX LS CB RM AO NT LO c cs u CT CU) as (bye & -> & BG & B1 & B2 & B3 & NC & B4 & NQ & B5 & B6 & BM & BL & NH).
  destruct (sent_faultless (Some bye) (set_lseq (cseq bye) s) SG BG) as (s' & k' & b & n & E & FB & (D1 & D2 & D3 & D4 & D5 & D6 & D7) & (_ & M' & T' & N' & n' & W') & _ & K' & SG' & TR & _); [rewrite B1; discriminate|exact BL|].
  exists s', k', b, n. split; [exact E|]. split; [exact TR|]. split; [exact K'|]. split; [exact FB|]. split; [congruence|]. split; [congruence|]. split; [rewrite D2; [exact B3|congruence]|].
  split; [rewrite D3; [exact B4|exact NQ]|]. split; [|split; [rewrite D5; [exact B6|rewrite B6; exact NT]|split; [exact SG'|split; [rewrite M', BM; reflexivity|split; [exact T'|split; [exact N'|]]]]]].
  2: { exists n', (routes s'). change (st (set_lseq (cseq bye) s)) with (st s) in W'. rewrite ST, NH in W'. exact W'. }
  pose proof FX as (_ & _ & _ & (fa & fl & FF & FT) & _). destruct D7 as (a' & l' & t & E1 & E2 & E3); [rewrite B5, FF; discriminate|]. rewrite B5, FF in E1. injection E1 as <- <-. rewrite E2, E3 by exact FT. rewrite FF. destruct fa; reflexivity.
Qed.
End Faultless.

(** The stages of a call. *)
Lemma call_stages : forall cfg m ps a b c cs,
  (forall n, faultless (c_world cfg n)) -> invite_given cfg m ->
  Forall (fun p => reply_ok p /\ rp_status p < 200) ps -> reply_ok a -> rp_status a = 200 -> rp_contact a = c :: cs -> reply_ok b -> rp_status b = 200 -> rp_pay b = None ->
  exists k inv inv_text rs answer ack ack_text k' bye bye_text confirm s,
    method inv = B "INVITE" /\ request inv = request m /\ (callid m <> [] -> callid inv = callid m) /\ (cseq m <> 0 -> cseq inv = cseq m) /\
    Forall2 (answered k inv_text) ps rs /\ answered k inv_text a answer /\
    method ack = B "ACK" /\ acked inv (a_uri c) ack_text /\
    method bye = B "BYE" /\ request bye = a_uri c /\ callid bye = callid inv /\ cseq bye = cseq inv + 1 /\ addrs bye From = addrs inv From /\ addrs bye To = addrs answer To /\
    answered k' bye_text b confirm /\
    first_address cfg (next_hop m) true (so_remote k) /\ first_address cfg (way_back (rp_rr a) (rp_contact a)) false (so_remote k') /\
    dialog cfg m (map EMsg rs ++ [EMsg answer]) (mkres s (OSend (so_remote k) inv inv_text :: concat (map told ps) ++ [OSend (so_remote k) ack ack_text] ++ media_of (rp_pay a) ++ [OState Answered]) Cont) /\
    exists s1 s2, handle cfg EHangup s = mkres s1 [OSend (so_remote k') bye bye_text] Cont /\ handle cfg (EMsg confirm) s1 = mkres s2 [OState Hangup] Halt.
Proof.
  intros cfg m ps a b c cs NF (RG & MI & RR & LR & CB) PS AO A200 AC BO B200 BP.
  destruct (sent_faultless cfg NF None (init m)) as (s0 & k & x & n & E0 & FX & (D1 & D2 & D3 & D4 & _ & D6 & _) & (_ & _ & _ & _ & n0 & W0) & _ & K0 & SG0 & _ & ST0 & RI & LS); [split; discriminate|exact RG|change (method m <> B "REGISTER"); rewrite MI; discriminate|exact LR|].
  destruct (RI eq_refl) as [R0 I0]. destruct LS as (RM0 & LS0 & RS0); [reflexivity|]. change (match None with Some b => b | None => invite (init m) end) with m in *. cbn [invite init] in D1, D2, D3, D4, D6.
  assert (C0 : calling cfg k x s0) by (unfold calling; repeat (split; [assumption|]); left; exact ST0). set (t := msg_append (w_rid (c_world cfg n)) x) in *.
  destruct (progress_run cfg NF k x n ps FX PS s0 [OSend (so_remote k) x t] C0) as (rs & s1 & F & C1 & R1).
  destruct (reply_comes cfg x k n a FX AO) as (r & AN & S2 & MT & EC & EQ & ES & EP & ET & ER & EF & AA & NT & v & VV & VO).
  pose proof C1 as (K1 & SG1 & Q1 & I1 & RM1 & LS1 & _). pose proof (calling_request _ _ _ _ C1) as TR.
  assert (MA : matching s1 r) by (split; [exact S2|]; rewrite TR; auto). rewrite AC in ET.
  assert (CU : exists u, a_uri c = Some u). { destruct AO as (_ & _ & _ & _ & CO & _). rewrite AC in CO. inversion CO as [|? ? ((u & U & _) & _) _]; subst. eauto. } destruct CU as [u CU].
  destruct (answer_turn cfg NF s1 r k c cs u v K1 MA) as (n1 & ack & at_ & AM & AK & T1); [rewrite TR, D1; exact MI|congruence|exact ET|exact CU|exact (has_audio_reply _ _ AO EP)|exact RM1|rewrite TR; exact FX|exact AA|exact NT|rewrite TR; exact EF|exact VV|exact VO|].
  rewrite TR in AK. set (s2 := set_remote _ _) in T1.
  destruct (hangup_turn cfg NF s2 k x r eq_refl K1 SG1 I1 FX LS1) with (c := c) (cs := cs) (u := u) as (s3 & k' & y & n2 & T2 & TR3 & K3 & FY & Y1 & Y2 & Y3 & Y4 & Y5 & Y6 & _ & _ & _ & _ & W3); [lia|reflexivity|exact AA|exact NT|rewrite ER; destruct AO as (_ & _ & _ & _ & _ & _ & L & _); exact L|exact ET|exact CU|].
  set (t2 := msg_append (w_rid (c_world cfg n2)) y) in *. destruct (reply_comes cfg y k' n2 b FY BO) as (r2 & AN2 & S22 & MT2 & EC2 & EQ2 & ES2 & EP2 & _).
  destruct (bye_confirmed cfg s3 r2) as [O3 V3]; [exact S22|rewrite TR3; exact EC2|rewrite TR3; exact MT2|rewrite TR3; exact Y1|congruence|congruence|].
  exists k, x, t, rs, r, ack, at_, k', y, t2, r2, s2.
  split; [congruence|]. split; [exact D6|]. split; [exact D2|]. split; [exact D3|]. split; [exact F|]. split; [exact AN|]. split; [exact AM|]. split; [rewrite CU; exact AK|]. split; [exact Y1|]. split; [congruence|]. split; [exact Y3|]. split; [exact Y4|]. split; [exact Y5|]. split; [exact Y6|]. split; [exact AN2|]. split; [exists n0, (routes s0); exact W0|]. split; [rewrite AC, <- ET, <- ER; exact W3|].
  assert (ME : media r = media_of (rp_pay a)) by (unfold media, media_of; rewrite EP; reflexivity). split; [|exists s3, (r_state (handle cfg (EMsg r2) s3)); split; [exact T2|]; rewrite <- O3, <- V3; destruct (handle cfg (EMsg r2) s3); reflexivity].
  unfold dialog, start. rewrite E0. eapply run_app; [exact R1|]. apply run_step; [reflexivity|reflexivity|]. cbn [r_state]. rewrite T1. cbn [r_state r_out r_v]. rewrite ME. repeat (rewrite <- ?app_assoc; cbn [app]). apply run_nil.
Qed.

(** * C77 *)
(** The call: the INVITE, progress as the peer reports it, the answer and the ACK the peer can read, the application's wish to hang up and the
    confirmed BYE. *)
Theorem call_goes_through : forall cfg m ps a b c cs,
  (forall n, faultless (c_world cfg n)) -> invite_given cfg m ->
  Forall (fun p => reply_ok p /\ rp_status p < 200) ps -> reply_ok a -> rp_status a = 200 -> rp_contact a = c :: cs -> reply_ok b -> rp_status b = 200 -> rp_pay b = None ->
  exists k inv inv_text rs answer ack ack_text k' bye bye_text confirm s,
    method inv = B "INVITE" /\ request inv = request m /\ (callid m <> [] -> callid inv = callid m) /\ (cseq m <> 0 -> cseq inv = cseq m) /\
    Forall2 (answered k inv_text) ps rs /\ answered k inv_text a answer /\
    method ack = B "ACK" /\ acked inv (a_uri c) ack_text /\
    method bye = B "BYE" /\ request bye = a_uri c /\ callid bye = callid inv /\ cseq bye = cseq inv + 1 /\ addrs bye From = addrs inv From /\ addrs bye To = addrs answer To /\
    answered k' bye_text b confirm /\
    first_address cfg (next_hop m) true (so_remote k) /\ first_address cfg (way_back (rp_rr a) (rp_contact a)) false (so_remote k') /\
    dialog cfg m (map EMsg rs ++ [EMsg answer; EHangup; EMsg confirm])
      (mkres s (OSend (so_remote k) inv inv_text :: concat (map told ps) ++ [OSend (so_remote k) ack ack_text] ++ media_of (rp_pay a) ++ [OState Answered; OSend (so_remote k') bye bye_text; OState Hangup]) Halt).
Proof.
  intros cfg m ps a b c cs NF IG PS AO A200 AC BO B200 BP. destruct (call_stages cfg m ps a b c cs NF IG PS AO A200 AC BO B200 BP) as (k & x & t & rs & r & ack & at_ & k' & y & t2 & r2 & s & H1 & H2 & H3 & H4 & H5 & H6 & H7 & H8 & H9 & H10 & H11 & H12 & H13 & H14 & H15 & H16 & H17 & D & s1 & s2 & T2 & T3).
  exists k, x, t, rs, r, ack, at_, k', y, t2, r2, s2. do 17 (split; [assumption|]).
  change [EMsg r; EHangup; EMsg r2] with ([EMsg r] ++ [EHangup; EMsg r2]). rewrite app_assoc. eapply run_app; [exact D|]. apply run_step; [reflexivity|reflexivity|]. cbn [r_state]. rewrite T2. cbn [r_state r_out r_v].
  apply run_step; [reflexivity|reflexivity|]. cbn [r_state r_out]. rewrite T3. cbn [r_state r_out r_v]. repeat (rewrite <- ?app_assoc; cbn [app]). apply run_nil.
Qed.

(** ** Example: a call with early media through a proxy, and its confirmation *)
Definition ex_sdp : sdp := mksdp (mkorigin (B "-") [] (B "1") []) [] (Some (mkmedia (B "RTP/AVP") 4000 [mkcodec 0 (B "PCMU") 8000 [] []])) None (B "call") (B "0 0") 20 false false [] [].
Definition ex_call : msg := set_pay (Some (PSdp ex_sdp)) ex_invite.
Definition ex_reply (n : Z) (contact : list addr) (p : option payload) : reply :=
  mkreply n [(B "received", B "10.0.0.9")] [(B "tag", B "xyz")] contact [mkaddr (Some (mkuri (B "sip") [] [] (B "proxy.example.org") 0 [(B "lr", [])] [])) [] []] p (B "7") (B "10.0.0.1", 5060) (Some (B "123")).
Definition peer_sdp : sdp := filled_sdp (B "10.0.0.1") (B "42") ex_sdp.
Lemma ex_sdp_ok h id rid : h = B "10.0.0.1" \/ h = B "10.0.0.9" -> id = B "42" \/ id = B "99" -> Z.of_nat (length rid) < 1000 -> payload_ok rid (PSdp (filled_sdp h id ex_sdp)).
Proof.
  intros H I L. split.
  - destruct H as [-> | ->], I as [-> | ->]; vm_compute; reflexivity.
  - destruct H as [-> | ->], I as [-> | ->]; (split; [reflexivity|]; split; [reflexivity|]; split; [reflexivity|]; split; [reflexivity|]; split; [left; discriminate|]; split; [intros m [E|E]; [injection E as <-; reflexivity|discriminate]|]; split; [intros c d [<-|[]] [<-|[]] _; reflexivity|]; split; [cbn; lia|]; split; [reflexivity|]; split; reflexivity).
Qed.
Example call_example : (forall n, faultless (c_world (ex_cfg 1) n)) /\ invite_given (ex_cfg 1) ex_call /\
  Forall (fun p => reply_ok p /\ rp_status p < 200) [ex_reply 100 [] None; ex_reply 180 [] None; ex_reply 183 [] (Some (PSdp peer_sdp))] /\
  reply_ok (ex_reply 200 (at_ (B "10.0.0.2")) (Some (PSdp peer_sdp))) /\ reply_ok (ex_reply 200 [] None).
Proof.
  assert (T : forall b, forallb token_class b = true -> b <> [] -> token b) by (split; assumption).
  assert (AT : addr_ok (hd (mkaddr None [] []) (at_ (B "10.0.0.2")))).
  { split; [eexists; split; [reflexivity|]|split; [left; reflexivity|constructor]]. split; [|constructor]. split; [eexists _, _; split; [reflexivity|]; repeat split|]. split; [discriminate|]. split; [split; [discriminate|]; split; reflexivity|]. split; [cbn; lia|]. split; constructor. }
  assert (RP : forall n c p, 100 <= n <= 999 -> Forall addr_ok c -> (p = None \/ p = Some (PSdp peer_sdp)) -> reply_ok (ex_reply n c p)).
  { intros n c p N C P. split; [exact N|]. split; [constructor; [|constructor]; split; [apply T; [reflexivity|discriminate]|right; left; apply T; [reflexivity|discriminate]]|]. split; [constructor; [reflexivity|constructor]|].
    split; [constructor; [|constructor]; split; [apply T; [reflexivity|discriminate]|right; left; apply T; [reflexivity|discriminate]]|]. split; [exact C|]. split.
    { constructor; [|constructor]. split; [eexists; split; [reflexivity|]|split; [left; reflexivity|constructor]]. split; [|constructor]. split; [eexists _, _; split; [reflexivity|]; repeat split|]. split; [reflexivity|]. split; [split; [discriminate|]; split; reflexivity|]. split; [cbn; lia|]. split; [constructor; [discriminate|constructor]|constructor]. }
    split; [constructor; [|constructor]; eexists; split; [reflexivity|]; discriminate|]. split; [intros q E; destruct P as [P|P]; cbn in E; rewrite P in E; [discriminate|]; injection E as <-; apply ex_sdp_ok; [left; reflexivity|left; reflexivity|reflexivity]|].
    split; [intros d E; destruct P as [P|P]; cbn in E; rewrite P in E; [discriminate|]; injection E as <-; discriminate|]. intros t E. injection E as <-. apply T; [reflexivity|discriminate]. }
  split; [|split; [|split; [|split; apply RP; try lia; auto; constructor; [exact AT|constructor]]]].
  - intros n. split; [discriminate|]. split; [intros a; eexists; split; [reflexivity|]; split; [reflexivity|]; split; [split; [discriminate|]; split; [reflexivity|]; split; reflexivity|]; split; [unfold port_ok; cbn; lia|discriminate]|].
    split; [eexists; split; [reflexivity|]; unfold port_ok; lia|]. split; [reflexivity|]. split; [discriminate|]. repeat (split; [reflexivity|]). discriminate.
  - split; [|split; [reflexivity|]; split; [reflexivity|]; split; [left; reflexivity|cbn; lia]]. split; [reflexivity|]. split; [split; [discriminate|reflexivity]|]. split.
    { exists bob. split; [reflexivity|]. split; [|constructor]. split; [eexists _, _; split; [reflexivity|]; repeat split|]. split; [reflexivity|]. split; [split; [discriminate|]; split; reflexivity|]. split; [cbn; lia|]. split; constructor. }
    split; [cbn; lia|]. split; [cbn; lia|]. split; [intros f; constructor|]. split; [left; reflexivity|]. split; [left; reflexivity|]. split; [cbn; lia|]. split; [left; reflexivity|]. split; [left; reflexivity|]. split; [cbn; lia|]. split; [cbn; lia|].
    split; [intros f; exact header_val_nil|]. split; [constructor|]. intros p E. injection E as <-. split; [reflexivity|]. intros n i a k j D. injection D as <-. apply ex_sdp_ok; [right; reflexivity|right; reflexivity|reflexivity].
  - repeat (constructor; [split; [apply RP; [lia|constructor|auto]|cbn; lia]|]). constructor.
Qed.
