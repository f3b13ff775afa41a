(** C79: two transports talk. A request sent through one transport is received by the other, its answer goes back to where the
    request came from, is received there and belongs to the request. *)
From Verif Require Import Bytes BytesLemmas GoLib GoLibLemmas SdpModel SdpProofs SipText SipTypes SipAppend UtilModel P_Text P_Lists UriSpec P_Uri MsgModel MsgSpec MsgGrammar P_MsgText MsgWf MsgRound P_MsgRound
  DialogMsg P_DialogMsg P_DialogWire TransportModel P_Transport P_TransportAt P_Received DialogModel P_DialogCount P_Written P_Call.
Local Open Scope Z_scope.

(** ** The transports and the network *)
(** A Via entry to which answers can come: a port other than 5060 (see C39), and no "received" or "rport" value that would direct them elsewhere (see C45). *)
Definition via_site (v : via) : Prop :=
  via_given v /\ port_ok (v_port v) /\ v_port v <> 5060 /\ value_of (B "received") (v_param v) = None /\
  (value_of (B "rport") (v_param v) = None \/ value_of (B "rport") (v_param v) = Some []).
Definition site_ok (tp : transport) : Prop := via_site (tp_via tp) /\ exists c, tp_contact tp = [c] /\ addr_ok c.
(** Names resolve, sockets accept datagrams, enough random bytes are drawn, the CSeq number drawn is not 0 (see C44). *)
Definition net_ok (w : net) : Prop :=
  (forall a, n_resolve w a <> None) /\ (forall a t, n_write w a t = true) /\ (forall t, n_stamp w = Some t -> token t) /\
  length (dr_branch (n_draws w)) = 6%nat /\ length (dr_tag (n_draws w)) = 6%nat /\ length (dr_callid (n_draws w)) = 15%nat /\ GenerateCSeq (dr_cseq (n_draws w)) <> 0.
(** A request without Route, in which what is given can be written. *)
Definition request_via (Q : via -> Prop) (rid : bytes) (m : msg) : Prop :=
  status m = 0 /\ token (method m) /\ (exists u, request m = Some u /\ uri_given u) /\ 0 <= vmaj m < 256 /\ 0 <= vmin m < 256 /\
  (forall f, Forall addr_given (addrs m f)) /\ addrs m Route = [] /\ (vias m = [] \/ exists v, vias m = [v] /\ Q v) /\
  some_or_empty callid_text (callid m) /\ 0 <= cseq m < 2 ^ 63 /\ (cseqmethod m = [] \/ cseqmethod m = method m) /\
  0 <= maxforwards m < 2 ^ 63 /\ 0 <= expires m < 2 ^ 63 /\ 0 <= minexpires m < 2 ^ 63 /\
  (forall f, header_val (strs m f)) /\ Forall xheader_ok (xheader m) /\ (forall p, pay m = Some p -> payload_ok rid (written_payload rid p)).
(** Its Via entry, if it has one, is one to which answers can come. *)
Definition request_ok : bytes -> msg -> Prop := request_via via_site.
(** The address a datagram comes from: an IP address as text, and a port. *)
Definition source_ok (src : bytes * Z) : Prop := (token (fst src) \/ quotable (fst src)) /\ 0 <= snd src < 65536.

(** ** Sending the request *)
Definition on_its_way_via (Q : via -> Prop) (rid : bytes) (m : msg) (v : via) (b : bytes) : Prop :=
  msg_ok rid (written rid m) /\ status m = 0 /\ cseqmethod m = method m /\ addrs m Route = [] /\ vias m = [v] /\ Q v /\ value_of (B "branch") (v_param v) = Some b /\
  token (method m) /\ request m <> None.
Definition on_its_way : bytes -> msg -> via -> bytes -> Prop := on_its_way_via via_site.
(** a Via entry that can be written, at a port other than 5060 *)
Definition via_plain (v : via) : Prop := via_given v /\ port_ok (v_port v) /\ v_port v <> 5060.
(** a class of Via entries to which a branch or a time can be added *)
Definition via_kind (Q : via -> Prop) : Prop := (forall v, Q v -> via_plain v) /\
  (forall v n x, Q v -> token n -> token x -> equal_fold n (B "received") = false -> equal_fold n (B "rport") = false -> Q (set_vparam ((n, x) :: v_param v) v)).
(** what the request says is what the application said *)
Definition says (m req : msg) : Prop :=
  method req = method m /\ request req = request m /\ (callid m <> [] -> callid req = callid m) /\ (cseq m <> 0 -> cseq req = cseq m) /\
  (addrs m To <> [] -> addrs req To = addrs m To) /\ (addrs m Contact <> [] -> addrs req Contact = addrs m Contact) /\
  (forall f, f <> UserAgent -> strs req f = strs m f) /\ xheader req = xheader m /\ pay req = pay m /\ maxforwards req = (if maxforwards m =? 0 then 70 else maxforwards m) - 1.
Lemma via_written v : via_given v -> port_ok (v_port v) -> via_ok (written_via v).
Proof.
  intros (G1 & G2 & G3 & G4 & G5 & G6) PO. unfold via_ok. cbn [written_via v_protocol v_version v_transport v_host v_port v_param].
  split; [destruct G1 as [-> |G1]; [split; [discriminate|reflexivity]|]; destruct (v_protocol v); [destruct G1; congruence|exact G1]|].
  split; [destruct G2 as [-> |G2]; [split; [discriminate|reflexivity]|]; destruct (v_version v); [destruct G2; congruence|exact G2]|].
  split; [destruct G3 as [-> |G3]; [split; [discriminate|reflexivity]|]; destruct (v_transport v); [destruct G3; congruence|exact G3]|]. auto.
Qed.
(** adding a parameter of another name *)
Lemma site_cons v n x : via_site v -> token n -> token x -> equal_fold n (B "received") = false -> equal_fold n (B "rport") = false -> via_site (set_vparam ((n, x) :: v_param v) v).
Proof.
  intros ((G1 & G2 & G3 & G4 & G5 & G6) & P & N5 & R1 & R2) TN TX E1 E2. unfold via_site, via_given. cbn [set_vparam v_protocol v_version v_transport v_host v_port v_param].
  split; [repeat (split; [assumption|]); constructor; [split; [exact TN|right; left; exact TX]|exact G6]|]. split; [exact P|]. split; [exact N5|]. rewrite !value_skip by assumption. auto.
Qed.
Lemma site_kind : via_kind via_site.
Proof. split; [intros v (A & B' & C & _); exact (conj A (conj B' C))|exact site_cons]. Qed.
Lemma plain_kind : via_kind via_plain.
Proof.
  split; [auto|]. intros v n x ((G1 & G2 & G3 & G4 & G5 & G6) & P & N5) TN TX _ _. unfold via_plain, via_given. cbn [set_vparam v_protocol v_version v_transport v_host v_port v_param].
  split; [repeat (split; [assumption|]); constructor; [split; [exact TN|right; left; exact TX]|exact G6]|]. auto.
Qed.
Lemma send_request_via Q tp w m : via_kind Q -> (vias m = [] -> Q (tp_via tp)) -> site_ok tp -> net_ok w -> request_via Q (n_rid w) m ->
  exists s u a req v b, Send tp (mkheld m false) w = Ok s /\ request m = Some u /\ n_resolve w (host_port (u_host u) (Portstr (u_port u))) = Some a /\
    sd_wire s = [(a, req, msg_append (n_rid w) req)] /\ sd_ok s = true /\ on_its_way_via Q (n_rid w) req v b /\ says m req /\
    (vias m = [] -> v_host v = v_host (tp_via tp) /\ v_port v = v_port (tp_via tp)) /\ (forall v0, vias m = [v0] -> v_host v = v_host v0 /\ v_port v = v_port v0) /\
    sd_held s = mkheld req (match vias m with [] => true | _ => false end) /\ (strs m UserAgent <> [] -> strs req UserAgent = strs m UserAgent) /\
    (forall f l t, addrs m From = f :: l -> value_of (B "tag") (a_param f) = Some t -> addrs req From = addrs m From) /\ (forall v0 b0, vias m = [v0] -> value_of (B "branch") (v_param v0) = Some b0 -> b = b0) /\
    (exists f l t, addrs req From = f :: l /\ value_of (B "tag") (a_param f) = Some t).
Proof.
  intros (QK & QC) QT (_ & c & TC & CO) (NR & NW & NS & LB & LT & LC & CQ) (S & TM & (u0 & RQ & UO) & VA & VI & AD & RT & VG & CI & CS & CM & MF & EX & ME & ST & XH & PG).
  destruct (branch_token _ LB) as [TB _]. destruct (branch_token _ LT) as [_ TT]. destruct (callid_drawn _ LC) as (cid & EC & TCI).
  assert (V0 : exists v, or_else (vias m) [tp_via tp] = [v] /\ Q v /\ (vias m = [] -> v = tp_via tp) /\ (forall v0, vias m = [v0] -> v = v0)).
  { destruct VG as [V|(v & V & G)]; rewrite V; [exists (tp_via tp)|exists v]; (split; [reflexivity|]); (split; [first [assumption|apply QT; exact V]|]); (split; [try reflexivity; discriminate|]); intros v0 E; congruence. }
  destruct V0 as (v & OV & VS & VE1 & VE2).
  assert (C0 : exists c0 cl, or_else (addrs m Contact) (tp_contact tp) = c0 :: cl /\ Forall addr_given (c0 :: cl)).
  { pose proof (AD Contact) as AC. destruct (addrs m Contact) as [|x l] eqn:E; [exists c, []|exists x, l]; (split; [cbn; rewrite ?TC; reflexivity|]); [constructor; [apply addr_ok_given; exact CO|constructor]|exact AC]. }
  destruct C0 as (c0 & cl & OC & CK). pose proof (Forall_inv CK) as ((uc & CU & UK) & CD & CP).
  destruct (populate_result [tp_via tp] (tp_contact tp) m (n_draws w) v [] c0 cl cid) as (m' & f & fl & PM & Q1 & Q2 & Q3 & Q4 & Q5 & Q6 & Q7 & Q8 & Q9 & Q10 & Q11 & Q12 & Q13 & Q14 & Q15 & Q16 & Q17 & Q18 & Q19 & Q20 & Q21 & Q22 & Q23);
    [lia|exact LC|exact EC|exact OV|exact OC|intros _; congruence|]. set (b0 := GenerateBranch (dr_branch (n_draws w))) in *.
  set (v1 := set_vparam (with_value (B "branch") b0 (v_param v)) v) in *.
  assert (VS1 : Q v1 /\ exists b, value_of (B "branch") (v_param v1) = Some b /\ forall b0, value_of (B "branch") (v_param v) = Some b0 -> b = b0).
  { unfold v1, with_value. destruct (value_of (B "branch") (v_param v)) as [b|] eqn:BV.
    - replace (set_vparam (v_param v) v) with v by (destruct v; reflexivity). split; [exact VS|]. exists b. split; [exact BV|congruence].
    - split; [apply QC; [exact VS|split; [discriminate|reflexivity]|exact TB|reflexivity|reflexivity]|]. exists b0. split; [apply value_head; reflexivity|congruence]. }
  assert (VH : v_host v1 = v_host v /\ v_port v1 = v_port v) by (split; reflexivity). clearbody v1. destruct VS1 as (VS1 & b & BV & BS).
  assert (BO : Forall addr_given (bare (c0 :: cl))).
  { unfold bare. cbn [map]. constructor.
    - split; [|split; [left; reflexivity|exact CP]]. cbn [nameless set_auri a_uri]. rewrite ?CU. cbn [option_map]. exists (set_uparam [] uc). split; [reflexivity|]. destruct UK as ((W1 & W2 & W3 & W4 & W5 & W6) & W7). split; [|exact W7]. repeat (split; [assumption|]). split; [constructor|assumption].
    - apply Forall_map. eapply Forall_impl; [|exact (Forall_inv_tail CK)]. intros z (Z1 & _ & Z3). split; [exact Z1|]. split; [left; reflexivity|exact Z3]. }
  assert (FO : Forall addr_given (f :: fl)) by (rewrite <- Q4; apply or_else_if; [intros _; apply AD|intros _; exact BO]).
  assert (AO : forall g, Forall addr_given (addrs m' g)).
  { intros g. destruct g; try (rewrite Q11 by discriminate; apply AD).
    - rewrite Q2. exact CK.
    - rewrite Q5. pose proof (Forall_inv FO) as (F1 & F2 & F3). pose proof (Forall_inv_tail FO) as FR. constructor; [|exact FR]. split; [exact F1|]. split; [exact F2|]. cbn [set_aparam a_param]. apply params_with; [split; [discriminate|reflexivity]|exact TT|exact F3].
    - rewrite Q3, RQ. apply or_else_if; [intros _; apply AD|intros _]. constructor; [|constructor]. split; [exists u0; auto|]. split; [left; reflexivity|constructor]. }
  assert (C8 : cseqmethod m' = method m) by (rewrite Q8; destruct CM as [-> | ->]; [reflexivity|]; destruct (method m); reflexivity).
  assert (R0 : addrs m' Route = []) by (rewrite Q11 by discriminate; exact RT).
  assert (OK : msg_ok (n_rid w) (written (n_rid w) m')).
  { split; [left; split; [exact (eq_trans Q17 S)|]; split; [cbn [written method]; rewrite Q15; destruct (method m); [split; [discriminate|reflexivity]|exact TM]|exists (written_uri u0); cbn [written request]; rewrite Q16, RQ; split; [reflexivity|exact UO]]|].
    cbn [written vmaj vmin addrs callid cseq cseqmethod maxforwards expires minexpires strs xheader pay vias].
    split; [lia|]. split; [lia|]. split; [rewrite Q5; discriminate|]. split; [rewrite Q3; intros X; apply map_eq_nil in X; revert X; apply or_else_some; discriminate|]. split; [intros g; apply addrs_given_written, AO|]. split; [rewrite Q1; constructor; [apply via_written; apply (QK _ VS1)|constructor]|].
    split; [rewrite Q6; destruct CI as [-> |CI]; [exact TCI|]; apply or_else_if; [intros _; exact CI|intros X; exact TCI]|].
    split; [rewrite Q7; destruct (cseq m =? 0); [destruct (cseq_and_origin (dr_cseq (n_draws w))); lia|exact CS]|]. split; [rewrite C8; exact TM|]. split; [rewrite Q9; destruct (Z.eqb_spec (maxforwards m) 0); lia|]. split; [lia|]. split; [lia|].
    split; [intros g; assert (D : g = UserAgent \/ g <> UserAgent) by (destruct g; first [left; reflexivity|right; discriminate]); destruct D as [-> |N]; [rewrite Q10; apply or_else_if; [intros _; apply ST|intros _]|rewrite Q12 by exact N; apply ST]|].
    { split; [repeat (constructor; [reflexivity|]); constructor|]. intros z r E. injection E as <- _. reflexivity. }
    split; [rewrite Q23; exact XH|]. intros q QQ. rewrite Q19 in QQ. destruct (pay m) as [q0|]; [|discriminate]. injection QQ as <-. exact (PG q0 eq_refl). }
  assert (SY : forall x, (method x = method m' /\ request x = request m' /\ callid x = callid m' /\ cseq x = cseq m' /\ addrs x = addrs m' /\ strs x = strs m' /\ xheader x = xheader m' /\ pay x = pay m' /\ maxforwards x = maxforwards m' - 1) -> says m x).
  { intros x (X1 & X2 & X3 & X4 & X5 & X6 & X7 & X8 & X9). unfold says. rewrite X1, X2, X3, X4, X5, X6, X7, X8, X9. split; [congruence|]. split; [congruence|]. split; [intros N; rewrite Q6; destruct (callid m); [congruence|reflexivity]|].
    split; [intros N; rewrite Q7; destruct (Z.eqb_spec (cseq m) 0); congruence|]. split; [intros N; rewrite Q3; destruct (addrs m To); [congruence|reflexivity]|]. split; [intros N; rewrite Q2, <- OC; destruct (addrs m Contact); [congruence|reflexivity]|].
    split; [exact Q12|]. split; [exact Q23|]. split; [exact Q19|]. rewrite Q9. reflexivity. }
  unfold Send. change (view tp (mkheld m false)) with m. cbv zeta. rewrite PM. cbn [rbind h_shared]. assert (SH : false || (negb (IsResponse m) && match vias m with [] => true | _ => false end) = match vias m with [] => true | _ => false end) by (unfold IsResponse; rewrite S; reflexivity). rewrite SH.
  assert (TAIL : forall q, addrs q = addrs m' -> strs q = strs m' -> (strs m UserAgent <> [] -> strs q UserAgent = strs m UserAgent) /\
    (forall f l t, addrs m From = f :: l -> value_of (B "tag") (a_param f) = Some t -> addrs q From = addrs m From) /\ (forall v0 b1, vias m = [v0] -> value_of (B "branch") (v_param v0) = Some b1 -> b = b1) /\
    (exists f l t, addrs q From = f :: l /\ value_of (B "tag") (a_param f) = Some t)).
  { intros q A1 A2. rewrite A1, A2. split; [intros N; rewrite Q10; destruct (strs m UserAgent); [congruence|reflexivity]|]. split; [|split].
    - intros f1 l t E T. rewrite Q5. rewrite E in Q4 |- *. injection Q4 as <- <-. unfold with_value. rewrite T. destruct f1; reflexivity.
    - intros v0 b1 E T. apply BS. rewrite (VE2 _ E). exact T.
    - rewrite Q5. cbn [set_aparam a_param]. unfold with_value. destruct (value_of (B "tag") (a_param f)) as [t|] eqn:T; [exists (set_aparam (a_param f) f), fl, t; split; [reflexivity|exact T]|]. eexists _, _, _. split; [reflexivity|]. apply value_head. reflexivity. }

  assert (RM : RouteMessage [tp_via tp] (tp_contact tp) m' = Ok (m', inl (u_host u0, u_port u0))).
  { unfold RouteMessage. replace (IsResponse m') with false by (symmetry; unfold IsResponse; apply Z.ltb_ge; lia). rewrite R0. replace (addr_CompareHostPort (tp_contact tp) []) with false by (rewrite TC; reflexivity). rewrite R0, Q16, RQ. reflexivity. }
  rewrite RM. cbn [rbind]. rewrite joined. specialize (NR (host_port (u_host u0) (Portstr (u_port u0)))). destruct (n_resolve w (host_port (u_host u0) (Portstr (u_port u0)))) as [a|] eqn:ER; [|congruence]. cbv iota.
  assert (MP : 0 <? maxforwards m' = true) by (apply Z.ltb_lt; rewrite Q9; destruct (Z.eqb_spec (maxforwards m) 0); lia). rewrite MP. set (x := set_maxforwards (maxforwards m' - 1) m').
  assert (OKX : msg_ok (n_rid w) (written (n_rid w) x)). { apply (msg_ok_set_maxf _ (maxforwards m' - 1) _ OK). rewrite Q9. destruct (Z.eqb_spec (maxforwards m) 0); lia. }
  assert (TR : token (method m') /\ request m' <> None) by (rewrite Q15, Q16, RQ; split; [exact TM|discriminate]).
  assert (VX : vias x = [v1]) by exact Q1. unfold addTimestamp. destruct (n_stamp w) as [t|] eqn:ET.
  - rewrite VX. cbn [rbind]. set (v2 := set_vparam ((B "usi", t) :: v_param v1) v1). set (y := set_vias [v2] x). exists (left_behind tp (match vias m with [] => true | _ => false end) y [(a, y, msg_append (n_rid w) y)] (n_write w a (msg_append (n_rid w) y))), u0, a, y, v2, b.
    assert (VS2 : Q v2) by (apply QC; [exact VS1|split; [discriminate|reflexivity]|apply NS; reflexivity|reflexivity|reflexivity]).
    split; [reflexivity|]. split; [exact RQ|]. split; [exact ER|]. split; [reflexivity|]. split; [apply NW|]. split.
    { split; [|split; [exact (eq_trans Q17 S)|]; split; [change (cseqmethod m' = method m'); congruence|]; split; [exact R0|]; split; [reflexivity|]; split; [exact VS2|]; split; [unfold v2; cbn [set_vparam v_param]; rewrite value_skip by reflexivity; exact BV|exact TR]].
      change (written (n_rid w) y) with (set_vias [written_via v2] (written (n_rid w) x)). apply msg_ok_set_vias; [exact OKX|]. constructor; [|constructor]. apply via_written; apply (QK _ VS2). }
    split; [apply SY; repeat split|]. destruct VH as [VH1 VH2]. cbn [v2 set_vparam v_host v_port]. split; [intros E; rewrite <- (VE1 E); auto|]. split; [intros v0 E; rewrite <- (VE2 v0 E); auto|]. split; [reflexivity|]. apply TAIL; reflexivity.
  - cbn [rbind]. exists (left_behind tp (match vias m with [] => true | _ => false end) x [(a, x, msg_append (n_rid w) x)] (n_write w a (msg_append (n_rid w) x))), u0, a, x, v1, b.
    split; [reflexivity|]. split; [exact RQ|]. split; [exact ER|]. split; [reflexivity|]. split; [apply NW|]. split.
    { split; [exact OKX|split; [exact (eq_trans Q17 S)|]; split; [change (cseqmethod m' = method m'); congruence|]; split; [exact R0|]; split; [exact VX|]; split; [exact VS1|]; split; [exact BV|exact TR]]. }
    split; [apply SY; repeat split|]. destruct VH as [VH1 VH2]. split; [intros E; rewrite <- (VE1 E); auto|]. split; [intros v0 E; rewrite <- (VE2 v0 E); auto|]. split; [reflexivity|]. apply TAIL; reflexivity.
Qed.
Lemma send_request_ok tp w m : site_ok tp -> net_ok w -> request_ok (n_rid w) m ->
  exists s u a req v b, Send tp (mkheld m false) w = Ok s /\ request m = Some u /\ n_resolve w (host_port (u_host u) (Portstr (u_port u))) = Some a /\
    sd_wire s = [(a, req, msg_append (n_rid w) req)] /\ sd_ok s = true /\ on_its_way (n_rid w) req v b /\ says m req /\
    (vias m = [] -> v_host v = v_host (tp_via tp) /\ v_port v = v_port (tp_via tp)) /\ (forall v0, vias m = [v0] -> v_host v = v_host v0 /\ v_port v = v_port v0).
Proof.
  intros SA NW RQ. destruct (send_request_via via_site tp w m site_kind (fun _ => proj1 SA) SA NW RQ) as (s & u & a & req & v & b & H1 & H2 & H3 & H4 & H5 & H6 & H7 & H8 & H9 & _). exists s, u, a, req, v, b. auto 10.
Qed.

(** ** Receiving it *)
Lemma kept_value n rsp src l k : (forall a, equal_fold a (B "rport") = true -> equal_fold a n = false) -> Forall2 (same_param rsp src) l k -> value_of n k = value_of n l.
Proof.
  intros D. induction 1 as [|[a x] [a' y] l k (E & H) F IH]; [reflexivity|]. cbn [fst snd] in E, H. subst a'. destruct (equal_fold a n) eqn:EA.
  - destruct H as [-> |(_ & _ & R & _)]; [|rewrite (D a R) in EA; discriminate]. unfold value_of, param_get; rewrite EA; reflexivity.
  - rewrite !value_skip by exact EA. exact IH.
Qed.
Definition port_said (src : bytes * Z) (o : option bytes) : Prop := o = None \/ o = Some [] \/ o = Some (itoa (snd src)).
Lemma kept_rport rsp src l k : Forall2 (same_param rsp src) l k -> value_of (B "rport") l = None \/ value_of (B "rport") l = Some [] -> port_said src (value_of (B "rport") k).
Proof.
  induction 1 as [|[a x] [a' y] l k (E & H) F IH]; [left; reflexivity|]. cbn [fst snd] in E, H. subst a'. destruct (equal_fold a (B "rport")) eqn:EA.
  - unfold value_of, param_get. rewrite EA. cbn [option_map snd]. intros [X|X]; [discriminate|]. injection X as ->. right. destruct H as [-> |(_ & _ & _ & ->)]; auto.
  - rewrite !value_skip by exact EA. exact IH.
Qed.
Lemma annotated_rport rsp src stamp v v' : annotated rsp src stamp v v' -> value_of (B "rport") (v_param v) = None \/ value_of (B "rport") (v_param v) = Some [] -> port_said src (value_of (B "rport") (v_param v')).
Proof.
  intros (_ & _ & _ & _ & _ & (ad & k & E & N & F) & _) R. rewrite E. pose proof (kept_rport _ _ _ _ F R) as K. clear E F. induction N as [|p ad P N IH]; [exact K|]. cbn [app].
  destruct P as [(_ & [-> | ->])|(t & _ & ->)]; [|rewrite value_skip by reflexivity; exact IH|rewrite value_skip by reflexivity; exact IH]. rewrite value_head by reflexivity. right. auto.
Qed.
Lemma annotated_branch rsp src stamp v v' : annotated rsp src stamp v v' -> value_of (B "branch") (v_param v') = value_of (B "branch") (v_param v).
Proof.
  intros (_ & _ & _ & _ & _ & (ad & k & E & N & F) & _). rewrite E, value_app.
  - apply (kept_value _ rsp src); [|exact F]. apply fold_disjoint; [reflexivity|reflexivity|discriminate].
  - eapply Forall_impl; [|exact N]. intros p [(_ & [-> | ->])|(t & _ & ->)]; reflexivity.
Qed.
(** the value of a parameter which was not there can only be the one the receiver adds *)
Lemma annotated_new rsp src stamp v v' n x : (forall p, noted rsp src stamp p -> equal_fold (fst p) n = true -> snd p = x) -> annotated rsp src stamp v v' ->
  (forall k, Forall2 (same_param rsp src) (v_param v) k -> value_of n k = None) -> value_of n (v_param v') = None \/ value_of n (v_param v') = Some x.
Proof.
  intros H (_ & _ & _ & _ & _ & (ad & k & E & N & F) & _) K. rewrite E. specialize (K k F). clear E F. induction N as [|[a y] ad P N IH]; [left; exact K|]. cbn [app]. destruct (equal_fold a n) eqn:EA.
  - right. pose proof (H (a, y) P EA) as X. cbn [snd] in X. subst y. unfold value_of, param_get. rewrite EA. reflexivity.
  - rewrite value_skip by exact EA. exact IH.
Qed.
Lemma digits_token n : 0 <= n -> token (itoa n).
Proof. intros H. split; [apply itoa_some; exact H|]. rewrite itoa_nonneg by exact H. eapply forallb_byte_impl; [|apply utoa_digits; exact H]. vm_compute. reflexivity. Qed.
(** the receiver notes in the Via of a request where it came from *)
Lemma prepare_request lhost lport src stamp m v : status m = 0 -> addrs m Route = [] -> vias m = [v] -> source_ok src -> (forall t, stamp = Some t -> token t) -> Forall param_ok (v_param v) ->
  exists v', prepare lhost lport src stamp m = Ok (set_vias [v'] m) /\ annotated false src stamp v v' /\ Forall param_ok (v_param v').
Proof.
  intros S R V (SO & SP) TK PK. unfold prepare, addReceived, IsResponse. destruct (Z.ltb_spec 0 (status m)); [lia|]. rewrite V. pose proof (annotated_via src false v stamp) as AV. cbv zeta iota in AV.
  set (v1 := if v_port v =? snd src then v else _) in *. set (v2 := if bseq (v_host v1) (fst src) then v1 else _) in *.
  assert (P1 : Forall param_ok (v_param v1)).
  { unfold v1. destruct (_ =? _); [exact PK|]. destruct (param_get (v_param v) (B "rport")) as [[n [|c x]]|]; [| exact PK |]; cbn [set_vparam v_param].
    - apply params_set; [apply digits_token; lia|exact PK].
    - constructor; [|exact PK]. split; [split; [discriminate|reflexivity]|]. right. left. apply digits_token. lia. }
  assert (P2 : Forall param_ok (v_param v2)).
  { unfold v2. destruct (bseq _ _); [exact P1|]. destruct (param_get (v_param v1) (B "received")); [exact P1|]. cbn [set_vparam v_param]. constructor; [|exact P1]. split; [split; [discriminate|reflexivity]|]. right. exact SO. }
  clearbody v2. cbn [rbind]. unfold addTimestamp, pop_own_route, fixMessagesFromStrictRouters. destruct stamp as [t|]; cbn [rbind vias set_vias addrs request].
  - exists (set_vparam ((B "usi", t) :: v_param v2) v2). split; [|split; [exact AV|]].
    + rewrite R. cbn [rbind addrs set_vias request]. rewrite R. cbn [addr_Last rev hd_error]. destruct (request m) as [u|]; [|reflexivity]. destruct (param_get (u_param u) (B "lr")); reflexivity.
    + cbn [set_vparam v_param]. constructor; [|exact P2]. split; [split; [discriminate|reflexivity]|]. right. left. apply TK. reflexivity.
  - exists v2. split; [|split; [exact AV|exact P2]]. rewrite R. cbn [rbind addrs set_vias request]. rewrite R. cbn [addr_Last rev hd_error]. destruct (request m) as [u|]; [|reflexivity]. destruct (param_get (u_param u) (B "lr")); reflexivity.
Qed.
(** the message [m] is delivered when [text] arrives and fits the buffer *)
Definition delivers (lhost : bytes) (lport : Z) (text : bytes) (src : bytes * Z) (stamp : option bytes) (m : msg) : Prop :=
  forall buf, (length text <= length buf)%nat -> exists buf' d, TransportModel.receive lhost lport buf text src stamp = Ok (buf', Some d) /\ seen buf' d = m.
Lemma delivers_prepared lhost lport text src stamp m m' : parse_msg text = MOk m -> prepare lhost lport src stamp m = Ok m' -> delivers lhost lport text src stamp m'.
Proof.
  intros P E buf L. assert (H : exists buf' d, TransportModel.receive lhost lport buf text src stamp = Ok (buf', Some d)) by (unfold TransportModel.receive; rewrite firstn_all2 by exact L; rewrite P, E; cbn [rbind]; eauto).
  destruct H as (buf' & d & H). exists buf', d. split; [exact H|]. destruct (delivered_at_first _ _ _ _ _ _ _ _ H) as (m1 & m2 & P1 & E1 & S1). rewrite firstn_all2 in P1 by exact L. congruence.
Qed.
(** what the other side gets is what was sent, with what was left empty as it is written; if no hop is left, it reads 70 (see last_hop_restarts_refuted) *)
Definition gets (rid : bytes) (req r : msg) : Prop :=
  method r = method req /\ request r = option_map written_uri (request req) /\ status r = 0 /\ callid r = callid req /\ cseq r = cseq req /\ cseqmethod r = cseqmethod req /\ (forall f, addrs r f = map written_addr (addrs req f)) /\
  (forall f, f <> AcceptContact -> f <> RetryAfter -> strs r f = strs req f) /\ xheader r = xheader req ++ retry_x (strs req RetryAfter) /\ pay r = option_map (written_payload rid) (pay req) /\ maxforwards r = (if maxforwards req =? 0 then 70 else maxforwards req).
Lemma request_arrives_via Q rid req v b lhost lport src stamp : via_kind Q -> on_its_way_via Q rid req v b -> source_ok src -> (forall t, stamp = Some t -> token t) ->
  exists r v', delivers lhost lport (msg_append rid req) src stamp r /\ gets rid req r /\ vias r = [v'] /\ annotated false src stamp (written_via v) v' /\
    msg_ok rid (set_vias [v'] (written rid req)) /\ survives (set_vias [v'] (written rid req)) r.
Proof.
  intros [QK _] (OK & S & CM & RT & V & VS & BV & TM & RN) SO TK. destruct (msg_round_trip_partial _ _ OK) as (m1 & P & SV). rewrite written_text in P.
  destruct SV as (RQ & RS & EV & EA & EC & EQ & EM & EX & EN & ES & XH & PY & VJ & VN). change (vias (written rid req)) with (map written_via (vias req)) in EV. rewrite V in EV. cbn [map] in EV. pose proof (QK _ VS) as (VG & VP & N5). rewrite (dropped_id (written_via v)) in EV by exact N5.
  assert (IR : IsResponse (written rid req) = false) by (unfold IsResponse; apply Z.ltb_ge; change (status (written rid req)) with (status req); lia). destruct (RQ IR) as (M1 & M2 & M3 & M4).
  pose proof (via_written v VG VP) as (V1 & V2 & V3 & V4 & V5 & V6 & V7).
  destruct (prepare_request lhost lport src stamp m1 (written_via v) M3) as (v' & PR & AN & PK); [rewrite EA; cbn [written addrs]; rewrite RT; reflexivity|exact EV|exact SO|exact TK|exact V7|].
  exists (set_vias [v'] m1), v'. split; [exact (delivers_prepared _ _ _ _ _ _ _ P PR)|]. pose proof AN as (A1 & A2 & A3 & A4 & A5 & _).
  split. { unfold gets. cbn [method request status callid cseq cseqmethod addrs strs xheader pay maxforwards set_vias]. cbn [written method request status callid cseq cseqmethod addrs strs xheader pay maxforwards] in M1, M2, EC, EQ, EM, EA, ES, XH, PY, M4.
    destruct (request req) as [u|]; [|congruence]. assert (M0 : method m1 = method req) by (rewrite M1; destruct TM as [TM _]; destruct (method req); [congruence|reflexivity]). repeat (split; [assumption|]). rewrite M4. reflexivity. }
  split; [reflexivity|]. split; [exact AN|].
  split; [apply msg_ok_set_vias; [exact OK|]; constructor; [|constructor]; unfold via_ok; rewrite A1, A2, A3, A4, A5; auto 10|].
  unfold survives. cbn [method request status callid cseq cseqmethod addrs strs xheader pay maxforwards set_vias vias expires minexpires vmaj vmin phrase written map].
  split; [exact RQ|]. split; [exact RS|]. split; [rewrite dropped_id; [reflexivity|]; rewrite A5; exact N5|]. repeat (split; [assumption|]). assumption.
Qed.
Lemma request_arrives rid req v b lhost lport src stamp : on_its_way rid req v b -> source_ok src -> (forall t, stamp = Some t -> token t) ->
  exists r v', delivers lhost lport (msg_append rid req) src stamp r /\ gets rid req r /\ vias r = [v'] /\ annotated false src stamp (written_via v) v' /\
    msg_ok rid (set_vias [v'] (written rid req)) /\ survives (set_vias [v'] (written rid req)) r.
Proof. exact (request_arrives_via via_site rid req v b lhost lport src stamp site_kind). Qed.

(** ** Answering *)
Lemma back_to_source tvia tcontact m src stamp v v' : 0 < status m -> vias m = [v'] -> annotated false src stamp v v' -> 0 <= snd src < 65536 ->
  value_of (B "received") (v_param v) = None -> (value_of (B "rport") (v_param v) = None \/ value_of (B "rport") (v_param v) = Some []) ->
  via_CompareHostPort [tvia] [v] = false -> RouteMessage [tvia] tcontact m = Ok (m, inl src).
Proof.
  intros S V AN SP NR RP NT. pose proof AN as (_ & _ & _ & A4 & A5 & (ad & kp & EP & _ & FK) & _ & _ & A8 & A9 & _). assert (NT' : via_CompareHostPort [tvia] [v'] = false) by (cbn in *; rewrite A4, A5; exact NT).
  rewrite (route_response [tvia] tcontact m v' [] S V NT'). cbv zeta.
  assert (HO : match param_get (v_param v') (B "received") with Some (_, x) => x | None => v_host v' end = fst src).
  { pose proof (annotated_new false src stamp v v' (B "received") (fst src)) as W. rewrite (value_get _ (v_param v')) in A8, W. destruct W as [W|W].
    - intros p [(_ & [-> | ->])|(t & _ & ->)]; [discriminate|reflexivity|discriminate].
    - exact AN.
    - intros k F. rewrite (kept_value (B "received") false src (v_param v) k); [exact NR| |exact F]. apply fold_disjoint; [reflexivity|reflexivity|discriminate].
    - destruct (param_get (v_param v') (B "received")) as [[? ?]|]; [discriminate|]. rewrite A4. destruct (bseq_reflect (v_host v) (fst src)) as [|N]; [assumption|]. discriminate (A8 eq_refl N NR).
    - destruct (param_get (v_param v') (B "received")) as [[? ?]|]; [|discriminate]. injection W as ->. reflexivity. }
  rewrite HO. pose proof (itoa_some (snd src) ltac:(lia)) as IN. pose proof (atoi_itoa (snd src) ltac:(lia)) as IA. clear HO A8 A4.
  pose proof (annotated_rport _ _ _ _ _ AN RP) as PS. rewrite (value_get _ (v_param v')) in A9, PS.
  assert (PV : (exists n, param_get (v_param v') (B "rport") = Some (n, itoa (snd src))) \/ (v_port v' = snd src /\ (param_get (v_param v') (B "rport") = None \/ exists n, param_get (v_param v') (B "rport") = Some (n, [])))).
  { destruct (Z.eq_dec (v_port v) (snd src)) as [E|N].
    - rewrite A5. destruct (param_get (v_param v') (B "rport")) as [[n x]|]; [|auto]. destruct PS as [PS|[PS|PS]]; [discriminate|injection PS as ->|injection PS as ->]; [right; split; [exact E|]; right; eauto|left; eauto].
    - left. specialize (A9 eq_refl N RP). destruct (param_get (v_param v') (B "rport")) as [[n x]|]; [|discriminate]. injection A9 as ->. eauto. }
  destruct src as [ip port]. cbn [fst snd] in *. destruct PV as [(n & ->)|(-> & [-> |(n & ->)])]; [|reflexivity|reflexivity].
  destruct (itoa port) as [|c y] eqn:EI; [congruence|]. rewrite IA, u16_id by lia. reflexivity.
Qed.
Definition elsewhere_than (tp : transport) (v : via) : Prop := v_host v <> v_host (tp_via tp) \/ v_port v <> v_port (tp_via tp).
Lemma elsewhere_compare tp v : elsewhere_than tp v -> via_CompareHostPort [tp_via tp] [v] = false.
Proof. intros E. apply not_true_iff_false. rewrite via_compare_spec. intros (x & l & y & k & E1 & E2 & H1 & H2). injection E1 as <- <-. injection E2 as <- <-. destruct E; congruence. Qed.
(** the answer as the first transport gets it *)
Definition answers (req : msg) (x : reply) (y : msg) : Prop :=
  ResponseMatch req y = true /\ status y = rp_status x /\ callid y = callid req /\ cseq y = cseq req /\ addrs y From = map written_addr (addrs req From) /\
  addrs y To = with_first (fun a => set_aparam (rp_to x ++ a_param a) a) (map written_addr (addrs req To)) /\ addrs y Contact = rp_contact x /\ addrs y RecordRoute = rp_rr x /\ pay y = rp_pay x.
(** what matters of an answer *)
Definition answer_of (r : msg) (x : reply) (m : msg) : Prop :=
  status m = rp_status x /\ callid m = callid r /\ cseq m = cseq r /\ cseqmethod m = cseqmethod r /\ pay m = rp_pay x /\ maxforwards m = 0 /\ vias m = vias r /\
  addrs m Route = [] /\ addrs m From = addrs r From /\ addrs m Contact = rp_contact x /\ addrs m RecordRoute = rp_rr x /\ addrs m To = with_first (fun a => set_aparam (rp_to x ++ a_param a) a) (addrs r To).
Lemma reply_is_answer r x : rp_via x = [] -> answer_of r x (reply_msg r x).
Proof.
  intros NV. destruct (reply_other r x) as (H1 & H2 & H3 & H4 & H5 & _). unfold answer_of. split; [exact H1|]. split; [exact H2|]. split; [exact H3|]. split; [exact H4|]. split; [exact H5|]. split; [reflexivity|]. split.
  - rewrite reply_vias, NV. destruct (vias r) as [|v l]; [reflexivity|]. cbn [with_first app]. destruct v; reflexivity.
  - split; [apply reply_route|]. split; [apply reply_from|]. split; [apply reply_contact|]. split; [apply reply_rr|]. reflexivity.
Qed.
(** the Via the answer has where it is received *)
Definition via_back (v : via) (b : bytes) (y : msg) : Prop := exists z, vias y = [z] /\ via_plain z /\ v_host z = v_host v /\ v_port z = v_port v /\ value_of (B "branch") (v_param z) = Some b.
(** the answer, written, is read by the first transport *)
Lemma answer_read rid req v b src stamp r v' x rid2 m p : on_its_way rid req v b -> gets rid req r -> vias r = [v'] -> annotated false src stamp (written_via v) v' -> 0 < rp_status x ->
  answer_of r x m -> msg_ok rid2 m -> value_of (B "branch") p = Some b -> Forall param_ok p ->
  forall lhost lport, exists y, delivers lhost lport (msg_append rid2 (set_vias [set_vparam p v'] m)) (rp_src x) (rp_stamp x) y /\ answers req x y /\ ((forall t, rp_stamp x = Some t -> token t) -> via_back v b y).
Proof.
  intros (OK & S & CM & RT & V & VS & BV & _ & _) (G1 & G2 & G3 & G4 & G5 & G6 & G7 & G8 & _) RV AN RR (H1 & H2 & H3 & H4 & H5 & M0 & HV & MR & MF & MC & MRR & MT) RK PB PP lhost lport.
  pose proof VS as (VG & VP & N5 & R1 & R2). pose proof AN as (A1 & A2 & A3 & A4 & A5 & _). assert (ST : 0 < status m) by lia. set (rsp := set_vias _ m).
  set (v2 := set_vparam p v') in *. assert (VO : via_ok v2). { pose proof (via_written v VG VP) as (V1 & V2 & V3 & V4 & V5 & V6 & _). unfold via_ok, v2. cbn [set_vparam v_protocol v_version v_transport v_host v_port v_param]. rewrite A1, A2, A3, A4, A5. auto 10. }
  assert (RK2 : msg_ok rid2 rsp) by (apply msg_ok_set_vias; [exact RK|constructor; [exact VO|constructor]]).
  destruct (msg_round_trip_partial _ _ RK2) as (r0 & P2 & SV2). destruct SV2 as (_ & RS & FV & FA & FC & FQ & FM & _ & _ & _ & _ & FP & _).
  assert (N52 : v_port v2 <> 5060) by (change (v_port v' <> 5060); rewrite A5; exact N5).
  assert (EQ : status rsp = status m /\ callid rsp = callid m /\ cseq rsp = cseq m /\ cseqmethod rsp = cseqmethod m /\ addrs rsp = addrs m /\ pay rsp = pay m /\ vias rsp = [v2]) by (repeat split; reflexivity). clearbody rsp. destruct EQ as (Q1 & Q2 & Q3 & Q4 & Q5 & Q6 & Q7).
  rewrite Q7 in FV. cbn [map] in FV. rewrite dropped_id in FV by exact N52. destruct RS as [ST0 _]; [unfold IsResponse; rewrite Q1; apply Z.ltb_lt; exact ST|].
  destruct (prepare_response lhost lport (rp_src x) (rp_stamp x) r0 v2 []) as (p2 & PR & PV); [lia|rewrite FA, Q5; exact MR|exact FV|].
  exists (set_vias [set_vparam p2 v2] r0). split; [exact (delivers_prepared _ _ _ _ _ _ _ P2 PR)|].
  assert (B2 : value_of (B "branch") p2 = Some b) by (destruct PV as [-> |(t & _ & ->)]; [exact PB|rewrite value_skip by reflexivity; exact PB]).
  split; [|intros TS; exists (set_vparam p2 v2); split; [reflexivity|]; pose proof (via_written v VG VP) as (V1 & V2 & V3 & V4 & V5 & V6 & _); split; [|split; [exact A4|]; split; [exact A5|exact B2]];
    split; [|split; [change (port_ok (v_port v')); rewrite A5; exact V6|exact N52]]; unfold via_given; cbn [set_vparam v_protocol v_version v_transport v_host v_port v_param v2]; rewrite A1, A2, A3, A4;
    split; [right; exact V1|]; split; [right; exact V2|]; split; [right; exact V3|]; split; [exact V4|]; split; [exact V5|]; destruct PV as [-> |(t & ET & ->)]; [exact PP|]; constructor; [split; [split; [discriminate|reflexivity]|]; right; left; apply TS; exact ET|exact PP]].
  unfold answers. cbn [status set_vias cseq cseqmethod vias callid pay addrs]. rewrite !FA, Q5. split.
  { apply response_match_spec. cbn [status set_vias cseq cseqmethod vias]. split; [lia|]. split; [congruence|]. split; [congruence|]. exists [], (set_vparam p2 v2), v, []. split; [reflexivity|]. split; [exact V|]. split; [exact A4|]. split; [exact A5|]. exists b. split; [exact B2|exact BV]. }
  split; [congruence|]. split; [congruence|]. split; [congruence|]. split; [rewrite MF; apply G7|]. split; [rewrite <- (G7 To); exact MT|]. split; [exact MC|]. split; [exact MRR|]. congruence.
Qed.
(** the answer with the time of sending *)
Lemma answer_stamped v' m stamp b rid : vias m = [v'] -> msg_ok rid m -> value_of (B "branch") (v_param v') = Some b -> (forall t, stamp = Some t -> token t) ->
  exists p, addTimestamp m stamp = Ok (set_vias [set_vparam p v'] m) /\ value_of (B "branch") p = Some b /\ Forall param_ok p.
Proof.
  intros HV RK BV NS. pose proof RK as (_ & _ & _ & _ & _ & _ & RVS & _). rewrite HV in RVS. pose proof (Forall_inv RVS) as (_ & _ & _ & _ & _ & _ & PK). unfold addTimestamp. destruct stamp as [t|] eqn:ET.
  - rewrite HV. exists ((B "usi", t) :: v_param v'). split; [reflexivity|]. split; [rewrite value_skip by reflexivity; exact BV|]. constructor; [|exact PK]. split; [split; [discriminate|reflexivity]|]. right. left. apply NS. reflexivity.
  - exists (v_param v'). split; [|split; [exact BV|exact PK]]. replace (set_vparam (v_param v') v') with v' by (destruct v'; reflexivity). rewrite <- HV. destruct m; reflexivity.
Qed.
Lemma answer_sent_of rid req v b tp src stamp r v' x w m : on_its_way rid req v b -> 0 <= snd src < 65536 -> elsewhere_than tp v -> net_ok w ->
  gets rid req r -> vias r = [v'] -> annotated false src stamp (written_via v) v' -> reply_ok x -> answer_of r x m -> msg_ok (n_rid w) m ->
  exists s a rsp, Send tp (mkheld m false) w = Ok s /\ n_resolve w (host_port (fst src) (Portstr (snd src))) = Some a /\
    sd_wire s = [(a, rsp, msg_append (n_rid w) rsp)] /\ sd_ok s = true /\
    forall lhost lport, exists y, delivers lhost lport (msg_append (n_rid w) rsp) (rp_src x) (rp_stamp x) y /\ answers req x y /\ via_back v b y.
Proof.
  intros OW SP EL (NR & NW & NS & _) GT RV AN RO AO RK. pose proof OW as (OK & S & CM & RT & V & VS & BV & _ & _). pose proof AO as (H1 & _ & _ & _ & _ & M0 & HV & _).
  rewrite RV in HV.
  pose proof RO as (RR & _ & _ & _ & _ & _ & _ & _ & _ & TK). pose proof VS as (VG & VP & N5 & R1 & R2). pose proof AN as (A1 & A2 & A3 & A4 & A5 & _). pose proof (annotated_branch _ _ _ _ _ AN) as BV'. cbn [written_via v_param] in BV'. rewrite BV in BV'.
  assert (ST : 0 < status m) by lia. assert (IR : IsResponse m = true) by (apply Z.ltb_lt; exact ST).
  assert (RM : RouteMessage [tp_via tp] (tp_contact tp) m = Ok (m, inl src)) by (apply (back_to_source _ _ m src stamp (written_via v) v' ST HV AN SP R1 R2); apply elsewhere_compare; exact EL).
  specialize (NR (host_port (fst src) (Portstr (snd src)))). destruct (n_resolve w (host_port (fst src) (Portstr (snd src)))) as [a|] eqn:ER; [|congruence].
  destruct (answer_stamped v' m (n_stamp w) b (n_rid w) HV RK BV' NS) as (p & ET & PB & PP). set (rsp := set_vias _ m) in ET.
  exists (left_behind tp false rsp [(a, rsp, msg_append (n_rid w) rsp)] (n_write w a (msg_append (n_rid w) rsp))), a, rsp. split.
  { unfold Send. assert (EM : view tp (mkheld m false) = m) by reflexivity. rewrite EM. clear EM. cbn [h_shared]. cbv zeta. unfold PopulateMessage. rewrite IR. cbn [rbind negb andb orb]. rewrite RM. cbn [rbind]. destruct src as [ip port]. cbn [fst snd] in ER. rewrite joined, ER. rewrite M0. change (0 <? 0) with false. cbv iota. rewrite ET. reflexivity. }
  split; [reflexivity|]. split; [reflexivity|]. split; [apply NW|].
  intros lhost lport. destruct (answer_read _ _ _ _ _ _ _ _ x (n_rid w) m p OW GT RV AN ltac:(lia) AO RK PB PP lhost lport) as (y & Y1 & Y2 & Y3). exists y. auto.
Qed.
Lemma answer_sent rid req v b tp src stamp r v' x w : on_its_way rid req v b -> 0 <= snd src < 65536 -> elsewhere_than tp v -> net_ok w ->
  gets rid req r -> vias r = [v'] -> annotated false src stamp (written_via v) v' -> msg_ok rid (set_vias [v'] (written rid req)) -> survives (set_vias [v'] (written rid req)) r ->
  reply_ok x -> rp_via x = [] -> rp_rid x = n_rid w ->
  exists s a rsp, Send tp (mkheld (reply_msg r x) false) w = Ok s /\ n_resolve w (host_port (fst src) (Portstr (snd src))) = Some a /\
    sd_wire s = [(a, rsp, msg_append (n_rid w) rsp)] /\ sd_ok s = true /\
    forall lhost lport, exists y, delivers lhost lport (msg_append (n_rid w) rsp) (rp_src x) (rp_stamp x) y /\ answers req x y /\ via_back v b y.
Proof.
  intros OW SP EL NW GT RV AN OK2 SV RO NV RID. pose proof (reply_msg_ok _ _ _ x OK2 SV RO) as RK. rewrite RID in RK.
  exact (answer_sent_of _ _ _ _ tp _ _ _ _ x _ _ OW SP EL NW GT RV AN RO (reply_is_answer r x NV) RK).
Qed.

(** * C79 *)
(** Transport [ta] sends the request [m]; it travels to transport [tb], which sees it come from [src]; the application there answers
    with NewResponse and the additions in [x], and sends that. [stb] is the time of the arrival there, and [x] says when and from where the
    answer comes. *)
Theorem transports_talk : forall ta tb wa wb m src stb x,
  site_ok ta -> net_ok wa -> request_ok (n_rid wa) m -> source_ok src -> (forall t, stb = Some t -> token t) ->
  (forall v, vias m = [v] \/ vias m = [] /\ v = tp_via ta -> elsewhere_than tb v) ->
  net_ok wb -> reply_ok x -> rp_via x = [] -> rp_rid x = n_rid wb ->
  exists s u a req text, Send ta (mkheld m false) wa = Ok s /\ sd_ok s = true /\ sd_wire s = [(a, req, text)] /\
    request m = Some u /\ n_resolve wa (host_port (u_host u) (Portstr (u_port u))) = Some a /\ says m req /\
  forall lhost lport, exists r, delivers lhost lport text src stb r /\ gets (n_rid wa) req r /\
  exists s2 b rsp text2, Send tb (mkheld (reply_msg r x) false) wb = Ok s2 /\ sd_ok s2 = true /\ sd_wire s2 = [(b, rsp, text2)] /\
    n_resolve wb (host_port (fst src) (Portstr (snd src))) = Some b /\
  forall lhost' lport', exists y, delivers lhost' lport' text2 (rp_src x) (rp_stamp x) y /\ answers req x y.
Proof.
  intros ta tb wa wb m src stb x SA NA RQ SO TK EL NB RO NV RID. destruct (send_request_ok ta wa m SA NA RQ) as (s & u & a & req & v & b & ES & EU & ER & EW & EO & OW & SY & E1 & E2).
  exists s, u, a, req, (msg_append (n_rid wa) req). split; [exact ES|]. split; [exact EO|]. split; [exact EW|]. split; [exact EU|]. split; [exact ER|]. split; [exact SY|]. intros lhost lport.
  destruct (request_arrives _ _ _ _ lhost lport src stb OW SO TK) as (r & v' & DL & GT & RV & AN & OK2 & SV). exists r. split; [exact DL|]. split; [exact GT|].
  assert (EV : elsewhere_than tb v).
  { destruct RQ as (_ & _ & _ & _ & _ & _ & _ & VG & _). unfold elsewhere_than. destruct VG as [V0|(v0 & V0 & _)].
    - destruct (E1 V0) as [-> ->]. exact (EL _ (or_intror (conj V0 eq_refl))).
    - destruct (E2 _ V0) as [-> ->]. exact (EL _ (or_introl V0)). }
  destruct (answer_sent _ _ _ _ tb src stb r v' x wb OW (proj2 SO) EV NB GT RV AN OK2 SV RO NV RID) as (s2 & a2 & rsp & T1 & T2 & T3 & T4 & T5).
  exists s2, a2, rsp, (msg_append (n_rid wb) rsp). repeat (split; [assumption|]). intros h p. destruct (T5 h p) as (y & Y1 & Y2 & _). eauto.
Qed.

(** ** Transports that have been used *)
Lemma populate_vias tv tc m r : IsResponse m = false -> all_ok (fun x => exists v vl, or_else (vias m) tv = v :: vl /\ vias x = set_vparam (with_value (B "branch") (GenerateBranch (dr_branch r)) (v_param v)) v :: vl) (PopulateMessage tv tc m r).
Proof.
  intros IR. cbv delta [PopulateMessage] beta. rewrite IR. cbv iota. pose (R := fun x : msg => vias x = or_else (vias m) tv).
  atstep R; [unfold R; destruct (vias m) eqn:E; cbn; congruence|].
  atstep R; [destruct (addrs _ Contact); exact y|]. clear y. atstep R; [destruct (addrs _ To); exact y0|]. clear y0.
  atstep R. { destruct (addrs _ From) eqn:E; [|apply all_ok_ok; exact y]. destruct (addr_Copy _) as [|a l]; [apply all_ok_panic|]. apply all_ok_bind'. intros u. apply all_ok_ok. exact y. }
  clear y. atstep R. { destruct (callid _) eqn:E; [|apply all_ok_ok; exact y0]. apply all_ok_bind'. intros c. apply all_ok_ok. exact y0. }
  clear y0. atstep R; [destruct (Z.eqb_spec (cseq x0) 0); exact y|]. clear y.
  atstep R; [destruct (cseqmethod _) eqn:E; exact y0|]. clear y0.
  atstep R; [destruct (maxforwards _ =? 0); exact y|]. clear y.
  atstep R; [destruct (strs _ UserAgent) eqn:E; exact y0|]. clear y0.
  atstep (fun x => exists v vl, or_else (vias m) tv = v :: vl /\ vias x = set_vparam (with_value (B "branch") (GenerateBranch (dr_branch r)) (v_param v)) v :: vl).
  { unfold R in y. clear R. rewrite <- y. match goal with |- context [match vias ?z with [] => Panic | _ => _ end] => destruct (vias z) as [|v l] eqn:E end; [apply all_ok_panic|]. destruct (param_get _ _) as [[z1 z2]|] eqn:G; apply all_ok_ok; exists v, l; (split; [reflexivity|]); unfold with_value; rewrite value_get, G; [rewrite E; destruct v; reflexivity|reflexivity]. }
  clear y. destruct (addrs _ From) as [|a l] eqn:E; [apply all_ok_panic|]. destruct (param_get (a_param a) (B "tag")) eqn:G; apply all_ok_ok; exact y0.
Qed.
Lemma site_populated v b : via_site v -> token b -> via_site (set_vparam (with_value (B "branch") b (v_param v)) v).
Proof.
  intros V T. unfold with_value. destruct (value_of (B "branch") (v_param v)); [destruct v; exact V|]. apply site_cons; [exact V|split; [discriminate|reflexivity]|exact T|reflexivity|reflexivity].
Qed.
(** Whatever is sent through it, a transport stays fit. *)
Lemma site_kept tp h w s : site_ok tp -> net_ok w -> Send tp h w = Ok s -> site_ok (sd_tp s).
Proof.
  intros (SV & C) (_ & _ & NS & LB & _). destruct (IsResponse (view tp h)) eqn:IR; [intros S; rewrite (send_response_at _ _ _ _ IR S); split; assumption|].
  destruct (branch_token _ LB) as [TB _]. unfold Send. rewrite IR. cbv zeta. cbn [negb andb]. set (shared := h_shared h || match vias (view tp h) with [] => true | _ => false end).
  assert (SH : shared = true -> or_else (vias (view tp h)) [tp_via tp] = [tp_via tp]).
  { unfold shared. destruct (vias (view tp h)) eqn:E; [reflexivity|]. rewrite orb_false_r. intros X. revert E. unfold view. rewrite X. cbn. intros E. rewrite <- E. reflexivity. }
  clearbody shared. intros H. apply rbind_ok in H. destruct H as (m1 & P & H). destruct (populate_vias _ _ _ _ IR _ P) as (v & vl & EV & V1). destruct (populate_at _ _ _ _ IR _ P) as (_ & _ & _ & _ & ST). clear P.
  apply rbind_ok in H. destruct H as ([m2 r] & R & H). assert (IR1 : IsResponse m1 = false) by (unfold IsResponse in *; rewrite ST; exact IR).
  destruct (route_at _ _ _ _ _ IR1 R) as (V2 & _). rewrite V1 in V2. clear V1 R IR1.
  assert (L : forall m' wire ok, (shared = true -> exists v' l', vias m' = v' :: l' /\ via_site v') -> site_ok (sd_tp (left_behind tp shared m' wire ok))).
  { intros m' wire ok K. unfold left_behind. cbn [sd_tp]. destruct shared; [|split; assumption]. destruct (K eq_refl) as (v' & l' & -> & VS). split; [exact VS|exact C]. }
  assert (V3 : shared = true -> exists v' l', vias m2 = v' :: l' /\ via_site v').
  { intros X. rewrite (SH X) in EV. injection EV as <- <-. eexists _, _. split; [exact V2|]. apply site_populated; assumption. }
  destruct r as [[host port]|e]; [|injection H as <-; apply L; exact V3]. destruct (n_resolve w _) as [a|]; [|injection H as <-; apply L; exact V3].
  set (m3 := if 0 <? maxforwards m2 then _ else _) in *. assert (E3 : vias m3 = vias m2) by (unfold m3; destruct (0 <? maxforwards m2); reflexivity). clearbody m3. rewrite <- E3 in V3.
  apply rbind_ok in H. destruct H as (m4 & T & H). injection H as <-. apply L. intros X. destruct (V3 X) as (v' & l' & E & VS). unfold addTimestamp in T. destruct (n_stamp w) as [t|] eqn:ET.
  - rewrite E in T. injection T as <-. eexists _, _. split; [reflexivity|]. apply site_cons; [exact VS|split; [discriminate|reflexivity]|apply NS; reflexivity|reflexivity|reflexivity].
  - injection T as <-. eauto.
Qed.
(** The transports an application gets from one by sending any messages through it, on a network like that above. *)
Inductive used_ok : transport -> transport -> Prop :=
| unused_ok tp : used_ok tp tp
| once_more_ok tp h w s tp' : net_ok w -> Send tp h w = Ok s -> used_ok (sd_tp s) tp' -> used_ok tp tp'.
Lemma used_site tp tp' : used_ok tp tp' -> site_ok tp -> site_ok tp' /\ v_host (tp_via tp') = v_host (tp_via tp) /\ v_port (tp_via tp') = v_port (tp_via tp).
Proof.
  induction 1 as [tp|tp h w s tp' N S U IH]; intros SO; [auto|]. destruct (IH (site_kept _ _ _ _ SO N S)) as (K & H1 & H2). split; [exact K|].
  destruct (used_at _ _ (used_once_more _ _ _ _ _ S (unused _))) as (UA & _). cbn in UA. injection UA as U1 U2. split; congruence.
Qed.
(** A transport made for a Contact that can be written, at a local address. *)
Lemma made_site a l lhost lport tp : NewTransport (a :: l) lhost lport = Ok tp -> addr_ok a -> lhost <> [] -> forallb viahost_class lhost = true -> port_ok lport -> lport <> 5060 ->
  site_ok tp /\ v_host (tp_via tp) = lhost /\ v_port (tp_via tp) = lport.
Proof.
  intros N ((u & U & UO) & AD & AP) H1 H2 P N5. unfold NewTransport in N. cbn [addr_Copy a_uri] in N. rewrite U in N. cbn [deref rbind] in N. injection N as <-. split; [|split; reflexivity]. split.
  - split; [|split; [exact P|]; split; [exact N5|]; split; [reflexivity|left; reflexivity]]. split; [left; reflexivity|]. split; [left; reflexivity|]. split; [left; reflexivity|]. split; [exact H1|]. split; [exact H2|constructor].
  - eexists. split; [reflexivity|]. split; [|split; [left; reflexivity|exact AP]]. eexists. split; [reflexivity|]. destruct UO as ((W1 & W2 & W3 & W4 & W5 & W6) & W7). split; [|exact W7]. split; [exact W1|]. split; [exact W2|]. split; [exact W3|]. split; [exact P|]. split; [|exact W6]. constructor; [discriminate|exact W5].
Qed.

(** * C79, for the transports an application makes *)
(** Both transports may have been used before, for any messages. *)
Theorem made_transports_talk : forall ca la ta0 ta cb lb tb0 tb ha pa hb pb wa wb m src stb x,
  NewTransport (ca :: la) ha pa = Ok ta0 -> addr_ok ca -> ha <> [] -> forallb viahost_class ha = true -> port_ok pa -> pa <> 5060 -> used_ok ta0 ta ->
  NewTransport (cb :: lb) hb pb = Ok tb0 -> used tb0 tb -> (hb, pb) <> (ha, pa) ->
  net_ok wa -> request_ok (n_rid wa) m -> vias m = [] -> source_ok src -> (forall t, stb = Some t -> token t) ->
  net_ok wb -> reply_ok x -> rp_via x = [] -> rp_rid x = n_rid wb ->
  exists s u a req text, Send ta (mkheld m false) wa = Ok s /\ sd_ok s = true /\ sd_wire s = [(a, req, text)] /\
    request m = Some u /\ n_resolve wa (host_port (u_host u) (Portstr (u_port u))) = Some a /\ says m req /\
  forall lhost lport, exists r, delivers lhost lport text src stb r /\ gets (n_rid wa) req r /\
  exists s2 b rsp text2, Send tb (mkheld (reply_msg r x) false) wb = Ok s2 /\ sd_ok s2 = true /\ sd_wire s2 = [(b, rsp, text2)] /\
    n_resolve wb (host_port (fst src) (Portstr (snd src))) = Some b /\
  forall lhost' lport', exists y, delivers lhost' lport' text2 (rp_src x) (rp_stamp x) y /\ answers req x y.
Proof.
  intros ca la ta0 ta cb lb tb0 tb ha pa hb pb wa wb m src stb x NA CA H1 H2 PA N5 UA NB UB NE WA RQ VM SO TK WB RO NV RID.
  destruct (made_site _ _ _ _ _ NA CA H1 H2 PA N5) as (S0 & E1 & E2). destruct (used_site _ _ UA S0) as (SA & E3 & E4).
  destruct (transport_advertises _ _ _ _ NB) as (VB & _). destruct (used_at _ _ UB) as (UV & _). rewrite VB in UV. cbn in UV. injection UV as V1 V2.
  apply (transports_talk ta tb wa wb m src stb x SA WA RQ SO TK); [|exact WB|exact RO|exact NV|exact RID].
  intros v [E|[_ ->]]; [congruence|]. unfold elsewhere_than. rewrite E3, E4, E1, E2, V1, V2. destruct (list_eq_dec Byte.byte_eq_dec ha hb) as [->|D]; [right; congruence|left; exact D].
Qed.

(** ** Example: a text message and its confirmation, between transports of which the first has sent one before *)
Definition ex_peer : transport := match NewTransport ex_app (B "5.6.7.8") 40001 with Ok tp => tp | Panic => ex_tp end.
Definition ex_message : msg := set_pay (Some (Misc (B "text/plain") (B "hello"))) (set_method (B "MESSAGE") (set_request (Some (mkuri (B "sip") (B "bob") [] (B "5.6.7.8") 40001 [] [])) msg0)).
Definition ex_confirm : P_Call.reply := mkreply 200 [] [(B "tag", B "xyz")] [] [] None (B "1") (B "5.6.7.8", 40001) (Some (B "123")).
Example talk_example : NewTransport ex_app (B "1.2.3.4") 40000 = Ok ex_made /\ NewTransport ex_app (B "5.6.7.8") 40001 = Ok ex_peer /\ Forall addr_ok ex_app /\
  used_ok ex_made (after (Send ex_made (mkheld ex_message false) (ex_wnet "a"))) /\ net_ok (ex_wnet "b") /\ request_ok (n_rid (ex_wnet "b")) ex_message /\ vias ex_message = [] /\
  source_ok (B "1.2.3.4", 40000) /\ reply_ok ex_confirm /\ rp_rid ex_confirm = n_rid (ex_wnet "b").
Proof.
  assert (T : forall b, forallb token_class b = true -> b <> [] -> token b) by (split; assumption).
  assert (N : forall c, net_ok (ex_wnet c)) by (intros c; split; [discriminate|]; split; [reflexivity|]; split; [discriminate|]; repeat (split; [reflexivity|]); discriminate).
  split; [reflexivity|]. split; [reflexivity|]. split; [|split; [|split; [apply N|]]].
  - constructor; [|constructor]. split; [eexists; split; [reflexivity|]|split; [right; left; split; [discriminate|reflexivity] || (right; right; split; [constructor; apply T; [reflexivity|discriminate]|reflexivity])|constructor; [split; [apply T; [reflexivity|discriminate]|right; left; apply T; [reflexivity|discriminate]]|constructor]]].
    split; [|constructor]. split; [eexists _, _; split; [reflexivity|]; repeat split|]. split; [discriminate|]. split; [split; [discriminate|]; split; reflexivity|]. split; [cbn; lia|]. split; [constructor; [discriminate|constructor]|constructor].
  - remember (Send ex_made (mkheld ex_message false) (ex_wnet "a")) as r eqn:E. destruct r as [s|]; [|vm_compute in E; discriminate]. eapply once_more_ok; [apply N|symmetry; exact E|]. apply unused_ok.
  - split; [|split; [reflexivity|]; split; [split; [left; apply T; [reflexivity|discriminate]|cbn; lia]|]; split; [|reflexivity]].
    + split; [reflexivity|]. split; [apply T; [reflexivity|discriminate]|]. split.
      { eexists. split; [reflexivity|]. split; [|constructor]. split; [eexists _, _; split; [reflexivity|]; repeat split|]. split; [discriminate|]. split; [split; [discriminate|]; split; reflexivity|]. split; [cbn; lia|]. split; constructor. }
      split; [cbn; lia|]. split; [cbn; lia|]. split; [intros f; constructor|]. split; [reflexivity|]. split; [left; reflexivity|]. split; [left; reflexivity|]. split; [cbn; lia|]. split; [left; reflexivity|]. split; [cbn; lia|]. split; [cbn; lia|]. split; [cbn; lia|].
      split; [intros f; split; [constructor|discriminate]|]. split; [constructor|]. intros p E. injection E as <-. split; [reflexivity|]. split; [exists (B "text"), (B "plain"); split; [reflexivity|]; split; apply T; reflexivity || discriminate|]. split; [discriminate|]. split; [discriminate|reflexivity].
    + split; [cbn; lia|]. split; [constructor|]. split; [constructor|]. split; [constructor; [split; [|right; left]; apply T; reflexivity || discriminate|constructor]|]. split; [constructor|]. split; [constructor|]. split; [constructor|]. split; [discriminate|]. split; [discriminate|]. intros t E. injection E as <-. apply T; [reflexivity|discriminate].
Qed.

(** * C60 *)
(** A request with one hop left is transmitted, and where it arrives it has 70 hops: the limit never stops a request that goes round through transports. *)
Theorem last_hop_restarts_refuted : forall tp w m src stb, site_ok tp -> net_ok w -> request_ok (n_rid w) m -> maxforwards m = 1 -> source_ok src -> (forall t, stb = Some t -> token t) ->
  exists s a req text, Send tp (mkheld m false) w = Ok s /\ sd_ok s = true /\ sd_wire s = [(a, req, text)] /\
  forall lhost lport, exists r, delivers lhost lport text src stb r /\ method r = method m /\ request r = option_map written_uri (request m) /\ maxforwards r = 70.
Proof.
  intros tp w m src stb SA NA RQ M1 SO TK. destruct (send_request_ok tp w m SA NA RQ) as (s & u & a & req & v & b & ES & EU & ER & EW & EO & OW & SY & E1 & E2).
  exists s, a, req, (msg_append (n_rid w) req). split; [exact ES|]. split; [exact EO|]. split; [exact EW|]. intros lhost lport.
  destruct (request_arrives _ _ _ _ lhost lport src stb OW SO TK) as (r & v' & DL & GT & _). exists r. split; [exact DL|].
  destruct SY as (Y1 & Y2 & _ & _ & _ & _ & _ & _ & _ & YM). destruct GT as (G1 & G2 & _ & _ & _ & _ & _ & _ & _ & _ & GM). rewrite M1 in YM. change (maxforwards req = 0) in YM. rewrite YM in GM. split; [congruence|]. split; [congruence|exact GM].
Qed.
Example last_hop_example : request_ok (B "1") (set_maxforwards 1 ex_message) /\ maxforwards (set_maxforwards 1 ex_message) = 1.
Proof.
  split; [|reflexivity]. destruct talk_example as (_ & _ & _ & _ & _ & (S & TM & RQ & VA & VI & AD & RT & VG & CI & CS & CM & MF & R) & _).
  split; [exact S|]. split; [exact TM|]. split; [exact RQ|]. split; [exact VA|]. split; [exact VI|]. split; [exact AD|]. split; [exact RT|]. split; [exact VG|]. split; [exact CI|]. split; [exact CS|]. split; [exact CM|]. split; [cbn; lia|exact R].
Qed.
