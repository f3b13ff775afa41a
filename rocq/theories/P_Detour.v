(** C92: a call reaches its callee over dead servers and redirects. *)
From Verif Require Import Bytes BytesLemmas GoLib GoLibLemmas SdpModel SdpProofs SipText SipTypes SipAppend UtilModel P_Text P_Lists UriSpec P_Uri MsgModel MsgSpec MsgGrammar P_MsgText MsgWf MsgRound P_MsgRound
  DialogMsg P_DialogMsg P_DialogWire TransportModel DialogModel P_DialogEnd P_Dialog P_DialogSafe P_DialogFail P_DialogPeer P_DialogRuns P_DialogCount P_DialogCall P_DialogTell P_DialogWhere P_Written P_Call P_Loss.
Local Open Scope Z_scope.

(** ** Specification *)
(** the INVITE [y] is for the same call as [x], and carries the same; its URI, Via, Contact, Route and Max-Forwards may differ *)
Definition same_invite (x y : msg) : Prop :=
  method y = method x /\ callid y = callid x /\ cseq y = cseq x /\ addrs y From = addrs x From /\ addrs y To = addrs x To /\ pay y = pay x /\ xheader y = xheader x /\ expires y = expires x /\ (forall f, strs y f = strs x f).
(** the addresses a name has, in the order in which they are tried *)
Definition hop_of (u : option uri) : bytes * Z := match u with Some u => (u_host u, u_port u) | None => ([], 0) end.
Definition candidates (d : dns) (hop : bytes * Z) : list bytes := match RouteAddress d (fst hop) (snd hop) true with Some l => l | None => [] end.
(** What can happen on the way: a server says nothing; or it says [ps] and then [a], which sends us elsewhere. *)
Inductive leg := Silent | Moved (ps : list reply) (a : reply).
(** [left] are the addresses not yet tried, [f] the value of Max-Forwards sent last. A server is given up after c_max repetitions. *)
Fixpoint legs_ok (cfg : config) (d : dns) (left : list bytes) (f : Z) (ls : list leg) : Prop :=
  match ls with
  | [] => True
  | Silent :: ls => c_max cfg + 2 <= f /\ match left with [] => False | _ :: rest => legs_ok cfg d rest (f - c_max cfg - 1) ls end
  | Moved ps a :: ls => 2 <= f /\ Forall (fun p => reply_ok p /\ rp_status p < 200) ps /\ reply_ok a /\ (rp_status a = 301 \/ rp_status a = 302) /\
      match rp_contact a with [] => False | c :: _ => legs_ok cfg d (tl (candidates d (hop_of (a_uri c)))) (f - 1) ls end
  end.
(** What is sent, received and told on the way, from the moment when the INVITE [x] (its text: [t]) has been sent over [k], to the moment when
    [x'] (its text: [t']) has been sent over [k']. *)
Inductive legs_run (cfg : config) (d : dns) : list bytes -> sock -> msg -> bytes -> list leg -> sock -> msg -> bytes -> list event -> list out -> Prop :=
| here_left left k x t : legs_run cfg d left k x t [] k x t [] []
| silent_leg left k x t l k1 y t1 ls k' x' t' es o :
    copies x ((x, t) :: l) -> Z.of_nat (length l) = c_max cfg -> same_invite x y -> request y = request x ->
    legs_run cfg d left k1 y t1 ls k' x' t' es o ->
    legs_run cfg d (so_remote k1 :: left) k x t (Silent :: ls) k' x' t' (repeat EReqTimer (S (length l)) ++ es) (sent_to k l ++ OSend (so_remote k1) y t1 :: o)
| moved_leg left k x t ps rs a r c cs ack at_ k1 y t1 rest ls k' x' t' es o :
    Forall2 (answered k t) ps rs -> answered k t a r -> method ack = B "ACK" -> rp_contact a = c :: cs -> acked x (a_uri c) at_ ->
    same_invite x y -> request y = a_uri c -> addrs y Route = [] -> candidates d (hop_of (a_uri c)) = so_remote k1 :: rest ->
    legs_run cfg d rest k1 y t1 ls k' x' t' es o ->
    legs_run cfg d left k x t (Moved ps a :: ls) k' x' t' (map EMsg rs ++ EMsg r :: es) (concat (map told ps) ++ OSend (so_remote k) ack at_ :: OSend (so_remote k1) y t1 :: o).

(** ** An INVITE which has been sent can be sent again *)
Definition filled (m : msg) : Prop := forall d, pay m = Some (PSdp d) -> s_addr d <> [] /\ o_addr (s_origin d) <> [] /\ o_id (s_origin d) <> [].
Definition sendable (m : msg) : Prop :=
  method m = B "INVITE" /\ callid m <> [] /\ 0 < cseq m < 2 ^ 63 - 1 /\ addrs m To <> [] /\ (exists a l, addrs m From = a :: l /\ value_of (B "tag") (a_param a) <> None) /\ filled m /\ strs m UserAgent <> [] /\ exists u, request m = Some u.
Lemma filled_again h id d : s_addr d <> [] -> o_addr (s_origin d) <> [] -> o_id (s_origin d) <> [] -> filled_sdp h id d = d.
Proof. destruct d as [[ou [|oi oi'] ov [|oa oa']] [|da da'] s1 s2 s3 s4 s5 s6 s7 s8 s9]; cbn; congruence || reflexivity. Qed.
Lemma filled_once h id d : h <> [] -> id <> [] -> let e := filled_sdp h id d in s_addr e <> [] /\ o_addr (s_origin e) <> [] /\ o_id (s_origin e) <> [].
Proof. intros H I. destruct d as [[ou [|oi oi'] ov [|oa oa']] [|da da'] s1 s2 s3 s4 s5 s6 s7 s8 s9]; cbn; repeat split; congruence. Qed.
Lemma again_given cfg x : fit cfg x -> method x = B "INVITE" -> (exists u, request x = Some u) -> filled x -> 2 <= maxforwards x -> request_given cfg x.
Proof.
  intros (OK & S & CM & _ & v & b & V & _) MI (u & RQ) FI MF. pose proof (OK 0%nat) as (ST & VA & VI & _ & _ & AD & VS & CI & CQ & _ & MX & EX & ME & HV & XH & _). cbn [written method request status vmaj vmin addrs vias callid cseq maxforwards expires minexpires strs xheader] in *.
  split; [exact S|]. split; [rewrite MI; split; [discriminate|reflexivity]|]. split.
  { exists u. split; [exact RQ|]. destruct ST as [(_ & _ & u' & E & UK)|(X & _)]; [|cbn in X; lia]. cbn [written request] in E. rewrite RQ in E. injection E as <-. exact UK. }
  split; [exact VA|]. split; [exact VI|]. split; [intros f; apply addrs_written_given; apply AD|]. split.
  { right. exists v. split; [exact V|]. rewrite V in VS. inversion VS as [|? ? (V1 & V2 & V3 & V4 & V5 & V6 & V7) _]; subst. cbn [written_via v_protocol v_version v_transport v_host v_port v_param] in *. unfold via_given.
    split; [destruct (v_protocol v); [left; reflexivity|right; exact V1]|]. split; [destruct (v_version v); [left; reflexivity|right; exact V2]|]. split; [destruct (v_transport v); [left; reflexivity|right; exact V3]|]. split; [exact V4|]. split; [exact V5|exact V7]. }
  split; [right; exact CI|]. split; [exact CQ|]. split; [right; exact CM|]. split; [right; lia|]. split; [exact EX|]. split; [exact ME|]. split; [exact HV|]. split; [exact XH|].
  intros p E. split; [exact MI|]. destruct p as [ty dt|d].
  - destruct (OK 0%nat) as (_ & _ & _ & _ & _ & _ & _ & _ & _ & _ & _ & _ & _ & _ & _ & P). apply (P (Misc ty dt)). cbn [written pay]. rewrite E. reflexivity.
  - intros n i a k j D. destruct (FI d E) as (F1 & F2 & F3). rewrite filled_again by assumption. destruct (OK j) as (_ & _ & _ & _ & _ & _ & _ & _ & _ & _ & _ & _ & _ & _ & _ & P). apply P. cbn [written pay]. rewrite E. reflexivity.
Qed.
Lemma moved_given cfg x u : request_given cfg x -> uri_given u -> request_given cfg (set_addr Route [] (set_request (Some u) x)).
Proof.
  intros (A1 & A2 & _ & A4 & A5 & A6 & A7 & A8) U. split; [exact A1|]. split; [exact A2|]. split; [exists u; split; [reflexivity|exact U]|]. split; [exact A4|]. split; [exact A5|]. split; [intros f; rewrite addr_set; destruct (afield_eqb Route f); [constructor|apply A6]|]. split; [exact A7|exact A8].
Qed.
Lemma again_same k cp m x : sendable m -> completed m x -> carries k cp m x -> cseq x < 2 ^ 63 - 1 -> same_invite m x /\ request x = request m /\ sendable x /\ addrs x Route = addrs m Route.
Proof.
  intros (S1 & S2 & S3 & S4 & (a & l & S5 & S6) & S7 & S8 & u & S9) (D1 & D2 & D3 & D4 & D5 & D6 & D7) (Q1 & Q2 & Q3 & Q4 & Q5 & Q6 & Q7 & Q8 & Q9 & (id & NI & Q10) & _) CB.
  destruct D7 as (a' & l' & t & E1 & E2 & E3); [rewrite S5; discriminate|]. rewrite S5 in E1. injection E1 as <- <-. rewrite E3 in E2 by exact S6. assert (EF : addrs x From = addrs m From) by (rewrite E2, S5; destruct a; reflexivity).
  assert (EP : pay x = pay m). { rewrite Q10. destruct (pay m) as [[|d]|] eqn:P; try reflexivity. rewrite S1, bseq_refl. destruct (S7 d P) as (F1 & F2 & F3). rewrite filled_again by assumption. reflexivity. }
  assert (EU : strs x UserAgent = strs m UserAgent) by (rewrite Q3; destruct (strs m UserAgent); [congruence|reflexivity]).
  assert (ES : forall f, strs x f = strs m f) by (intros f; assert (D : f = UserAgent \/ f <> UserAgent) by (destruct f; first [left; reflexivity|right; discriminate]); destruct D as [-> |N]; [exact EU|apply Q2; exact N]).
  assert (CQ : cseq x = cseq m) by (apply D3; lia). split.
  - split; [exact D1|]. split; [apply D2; exact S2|]. split; [exact CQ|]. split; [exact EF|]. split; [apply D5; exact S4|]. split; [exact EP|]. split; [exact Q6|]. split; [exact Q4|exact ES].
  - split; [exact D6|]. split; [|apply Q1; discriminate]. split; [congruence|]. split; [rewrite D2 by exact S2; exact S2|]. split; [lia|]. split; [rewrite D5 by exact S4; exact S4|]. split; [exists a, l; rewrite EF; auto|]. split; [intros d; rewrite EP; apply S7|]. split; [congruence|]. exists u. congruence.
Qed.
Lemma first_sendable cfg k cp m x : fit cfg x -> invite_given cfg m -> good_sock cfg k -> completed m x -> carries k cp m x -> sendable x.
Proof.
  intros FX (RG & MI & _ & _ & CB) (_ & (LH & _) & _) (D1 & D2 & D3 & D4 & D5 & D6 & D7) (Q1 & Q2 & Q3 & Q4 & Q5 & Q6 & Q7 & Q8 & Q9 & (id & NI & Q10) & _). pose proof FX as (OK & _ & _ & TG & _). destruct (OK 0%nat) as (_ & _ & _ & _ & NT & _ & _ & CI & _). cbn [written addrs callid] in NT, CI.
  destruct RG as (_ & _ & (u & RQ & _) & _). split; [congruence|]. split; [intros N; rewrite N in CI; destruct CI as ([|a0 a] & r & CI & NA & _); [congruence|discriminate CI]|]. split; [lia|]. split; [intros N; rewrite N in NT; apply NT; reflexivity|]. split; [exact TG|].
  split; [|split; [rewrite Q3; destruct (strs m UserAgent); discriminate|exists u; congruence]]. intros d E. rewrite Q10 in E. destruct (pay m) as [[|d0]|]; try discriminate. rewrite MI, bseq_refl in E. injection E as <-. apply filled_once; assumption.
Qed.
Lemma copy_sendable x y : copy_of x y -> sendable x -> sendable y.
Proof. intros (C1 & C2 & C3 & C4 & C5 & C6 & C7 & C8 & C9 & _) S. unfold sendable, filled. rewrite C1, C2, C3, C4, C6, C7, C8. exact S. Qed.
Lemma same_trans x y z : same_invite x y -> same_invite y z -> same_invite x z.
Proof. intros (A1 & A2 & A3 & A4 & A5 & A6 & A7 & A8 & A9) (B1 & B2 & B3 & B4 & B5 & B6 & B7 & B8 & B9). unfold same_invite. repeat (split; [congruence|]). intros f. rewrite B9. apply A9. Qed.
Lemma copy_same x y : copy_of x y -> same_invite x y.
Proof. intros (C1 & C2 & C3 & C4 & C5 & C6 & C7 & C8 & (C9 & C10 & _) & _). unfold same_invite. rewrite C6, C7. repeat (split; [congruence|]). reflexivity. Qed.

(** ** The legs *)
Section Legs.
Variable cfg : config.
Variable d : dns.
Hypothesis NF : forall n, faultless (c_world cfg n).
Hypothesis DN : forall n, w_dns (c_world cfg n) = d.
Hypothesis MX : 0 <= c_max cfg.
(** the INVITE [x] has just been sent over [k]; its text is [t] *)
Definition trying (left : list bytes) (f : Z) (k : sock) (x : msg) (t : bytes) (s : dstate) : Prop :=
  calling cfg k x s /\ fit cfg x /\ sendable x /\ rtimer s = true /\ resends s = 0 /\ routes s = left /\ maxforwards x = f /\ exists n, t = msg_append (w_rid (c_world cfg n)) x.
Lemma silent_stages a left f k x t s out : trying (a :: left) f k x t s -> c_max cfg + 2 <= f ->
  exists l k1 y t1 s1 s', copies x ((x, t) :: l) /\ Z.of_nat (length l) = c_max cfg /\ same_invite x y /\ request y = request x /\ so_remote k1 = a /\ trying left (f - c_max cfg - 1) k1 y t1 s' /\
    run cfg (mkres s out Cont) (repeat EReqTimer (length l)) (mkres s1 (out ++ sent_to k l) Cont) /\ rtimer s1 = true /\ handle cfg EReqTimer s1 = mkres s' [OSend (so_remote k1) y t1] Cont.
Proof.
  intros (CA & FX & SX & RT & RS & RO & MF & n & TE) HF. pose proof (calling_request _ _ _ _ CA) as TR. pose proof CA as (K & SG & RN & IV & RM & LS & RQ & ST).
  destruct (resend_run cfg NF k (Z.to_nat (c_max cfg)) s out) as (l & s1 & LL & RU & GL & CL & CT & FT & (E1 & E2 & E3 & E4 & E5 & E6 & ER & E7) & RT1 & RS1 & MF1); [exact K|rewrite TR; exact FX|exact RT|lia|rewrite TR; lia|]. rewrite TR in *. destruct (E7 RN) as [R1 I1]. set (z := the_request s1) in *.
  rewrite RS, Z2Nat.id in RS1 by lia. rewrite Z2Nat.id in MF1 by lia.
  assert (SG1 : sockets_good cfg (set_rtimer false s1)) by (destruct SG as [G1 G2]; split; cbn [so cso set_rtimer]; [rewrite E1; exact G1|rewrite E2; exact G2]).
  pose proof (copy_sendable _ _ CT SX) as SZ. assert (RG : request_given cfg z) by (pose proof SZ as (Z1 & _ & _ & _ & _ & Z6 & _ & Z8); apply again_given; auto; lia).
  destruct (pop_faultless cfg NF a left (set_rtimer false s1) SG1 RG) as (s' & k1 & y & n1 & E & FY & CP & (CR & MY & T' & N' & KA & RO') & _ & K' & SG' & TR' & ST' & RI & LS'). change (the_request (set_rtimer false s1)) with z in CP, CR, MY. change (st (set_rtimer false s1)) with (st s1) in ST', LS'.
  destruct (RI R1) as [RN' IV']. assert (SA : st s1 < Answered) by (rewrite E3; destruct ST as [-> | ->]; reflexivity). destruct (LS' SA) as (RM' & LQ' & RQ').
  assert (CQ : cseq y < 2 ^ 63 - 1) by (destruct SZ as (_ & _ & Z3 & _); destruct CP as (_ & _ & C3 & _); lia).
  destruct (again_same _ _ _ _ SZ CP CR CQ) as (SI & RY & SY & _).
  exists l, k1, y, (msg_append (w_rid (c_world cfg n1)) y), s1, s'. split.
  { split; [exists t, l; reflexivity|]. intros [|i] q Q; cbn in Q; [injection Q as <-; cbn [fst]; split; [exact (copy_fit _ _ FX)|lia]|]. destruct (CL i q Q) as [Q1 Q2]. split; [exact Q1|lia]. }
  split; [rewrite LL; lia|]. split; [exact (same_trans _ _ _ (copy_same _ _ CT) SI)|]. split; [destruct CT as (_ & C2 & _); congruence|]. split; [exact KA|]. split.
  { split; [|split; [exact FY|split; [exact SY|split; [exact T'|split; [exact N'|split; [exact RO'|split; [rewrite MY; destruct (Z.eqb_spec (maxforwards z) 0); lia|exists n1; reflexivity]]]]]]].
    split; [exact K'|]. split; [exact SG'|]. split; [exact RN'|]. split; [exact IV'|]. split; [exact RM'|]. split; [exact LQ'|]. split; [exact RQ'|]. rewrite ST', E3. exact ST. }
  rewrite LL. split; [exact RU|]. split; [exact RT1|]. rewrite <- E.
  cbn [handle]. rewrite upd_seq. unfold resendRequest, look. cbn [resends so routes set_rtimer]. rewrite RS1. destruct (Z.ltb_spec (0 + c_max cfg) (c_max cfg)); [lia|]. 
  change (so (set_rtimer false s1)) with (so s1). rewrite E1, K. unfold popRoute, look. change (routes (set_rtimer false s1)) with (routes s1). rewrite ER, RO. reflexivity.
Qed.
Lemma silent_turns a left f k x t s out : trying (a :: left) f k x t s -> c_max cfg + 2 <= f ->
  exists l k1 y t1 s', copies x ((x, t) :: l) /\ Z.of_nat (length l) = c_max cfg /\ same_invite x y /\ request y = request x /\ so_remote k1 = a /\ trying left (f - c_max cfg - 1) k1 y t1 s' /\
    run cfg (mkres s out Cont) (repeat EReqTimer (S (length l))) (mkres s' (out ++ sent_to k l ++ [OSend (so_remote k1) y t1]) Cont).
Proof.
  intros T F. destruct (silent_stages a left f k x t s out T F) as (l & k1 & y & t1 & s1 & s' & H1 & H2 & H3 & H4 & H5 & H6 & R & RT & E). exists l, k1, y, t1, s'. do 6 (split; [assumption|]).
  change (repeat EReqTimer (S (length l))) with (EReqTimer :: repeat EReqTimer (length l)). rewrite repeat_cons. eapply run_app; [exact R|]. apply run_step; [reflexivity|exact RT|]. cbn [r_state r_out]. rewrite E. cbn [r_state r_out r_v]. rewrite <- app_assoc. apply run_nil.
Qed.
Lemma moved_stages left f k x t s out ps a c cs : trying left f k x t s -> 2 <= f -> Forall (fun p => reply_ok p /\ rp_status p < 200) ps -> reply_ok a -> rp_status a = 301 \/ rp_status a = 302 -> rp_contact a = c :: cs ->
  exists rs r ack at_ k1 y t1 s1 s' rest, Forall2 (answered k t) ps rs /\ answered k t a r /\ method ack = B "ACK" /\ acked x (a_uri c) at_ /\
    same_invite x y /\ request y = a_uri c /\ addrs y Route = [] /\ candidates d (hop_of (a_uri c)) = so_remote k1 :: rest /\ trying rest (f - 1) k1 y t1 s' /\
    run cfg (mkres s out Cont) (map EMsg rs) (mkres s1 (out ++ concat (map told ps)) Cont) /\ handle cfg (EMsg r) s1 = mkres s' [OSend (so_remote k) ack at_; OSend (so_remote k1) y t1] Cont /\
    forall cfg', (forall m keep s, send cfg' m keep s = send cfg m keep s) -> exists later, r_out (handle cfg' (EMsg r) s1) = OSend (so_remote k) ack at_ :: later.
Proof.
  intros (CA & FX & SX & RT & RS & RO & MF & n & TE) HF PS AO AS AC. rewrite TE.
  destruct (progress_run cfg NF k x n ps FX PS s out CA) as (rs & s1 & F & C1 & R1).
  destruct (reply_comes cfg x k n a FX AO) as (r & AN & S2 & MT & EC & EQ & ES & EP & ET & ER & EF & AA & NT & v & VV & VO).
  pose proof C1 as (K1 & SG1 & RN1 & I1 & RM1 & LS1 & RQ1 & ST1). pose proof (calling_request _ _ _ _ C1) as TR.
  assert (MA : matching s1 r) by (split; [exact S2|]; rewrite TR; auto). rewrite AC in ET.
  assert (CU : exists u, a_uri c = Some u /\ uri_given u). { destruct AO as (_ & _ & _ & _ & CO & _). rewrite AC in CO. inversion CO as [|? ? ((u & U & UK) & _) _]; subst. exists u. split; [exact U|apply uri_ok_given; exact UK]. } destruct CU as (u & CU & UG).
  destruct (ack_made cfg _ _ _ _ _ _ FX EC EQ ET CU AA NT EF VV VO) as (ack & EA & OKA & MFA & A1 & A2 & A3 & A4 & A5 & A6 & A7).
  destruct (ack_sent cfg NF s1 k x ack u v K1 OKA MFA A1 A2 A3 A4 A5 VO A6 A7) as (n1 & vs & at_ & AK & SND).
  set (s2 := set_rtimer false (set_routes [] (set_clock n1 s1))). set (q := set_addr Route [] (set_request (Some u) x)).
  pose proof SX as (X1 & X2 & X3 & X4 & X5 & X6 & X7 & X8).
  assert (RG : request_given cfg q) by (apply moved_given; [apply again_given; auto; lia|exact UG]).
  assert (SQ : sendable q). { split; [exact X1|]. split; [exact X2|]. split; [exact X3|]. split; [exact X4|]. split; [exact X5|]. split; [exact X6|]. split; [exact X7|]. exists u. reflexivity. }
  destruct (sent_faultless cfg NF None (set_invite q s2)) as (s' & k1 & y & n2 & E & FY & CP & (CR & MY & T' & N' & n3 & RA) & _ & K' & SG' & TR' & ST' & RI & LS'); [exact SG1|exact RG|change (method x <> B "REGISTER"); rewrite X1; discriminate|left; reflexivity|].
  destruct (RI eq_refl) as [RN' IV']. change (st (set_invite q s2)) with (st s1) in *. change (match None with Some b => b | None => invite (set_invite q s2) end) with q in *.
  change (completed q y) in CP. change (carries k1 (cso s') q y) in CR. change (maxforwards y = (if maxforwards x =? 0 then 70 else maxforwards x) - 1) in MY. 
  assert (SA : st s1 < Answered) by (destruct ST1 as [-> | ->]; reflexivity). destruct (LS' SA) as (RM' & LQ' & RQ').
  assert (CQ : cseq y < 2 ^ 63 - 1) by (destruct SQ as (_ & _ & Z3 & _); destruct CP as (_ & _ & C3 & _); lia).
  destruct (again_same _ _ _ _ SQ CP CR CQ) as (SI & RY & SY & RT').
  exists rs, r, (set_vias vs ack), at_, k1, y, (msg_append (w_rid (c_world cfg n2)) y), s1, s', (routes s'). split; [exact F|]. split; [exact AN|]. split; [exact A1|]. split; [rewrite CU; exact AK|].
  split; [exact SI|]. split; [rewrite CU; exact RY|]. split; [exact RT'|]. split.
  { rewrite DN in RA. destruct (Z.ltb_spec (st s1) Answered); [|lia]. unfold candidates. rewrite CU. change (next_hop (invite (set_invite q s2))) with (u_host u, u_port u) in RA. unfold hop_of. rewrite RA. reflexivity. }
  split.
  { split; [|split; [exact FY|split; [exact SY|split; [exact T'|split; [exact N'|split; [reflexivity|split; [rewrite MY; destruct (Z.eqb_spec (maxforwards x) 0); lia|exists n2; reflexivity]]]]]]].
    split; [exact K'|]. split; [exact SG'|]. split; [exact RN'|]. split; [exact IV'|]. split; [exact RM'|]. split; [exact LQ'|]. split; [exact RQ'|]. rewrite ST'. exact ST1. }
  split; [exact R1|]. split.
  2: { intros cfg' SS. rewrite (matching_split cfg' _ _ MA) by lia. rewrite TR, X1, bseq_refl, ET, EA. rewrite <- ES in AS. replace (200 <=? status r) with true by (symmetry; apply Z.leb_le; lia). cbn [andb val]. match goal with |- context[(send cfg' ack drop ;; ?R) s1] => replace ((send cfg' ack drop ;; R) s1) with ((send cfg ack drop ;; R) s1) by (unfold seq; rewrite SS; reflexivity) end. rewrite SND. eexists. reflexivity. }
  rewrite (matching_split _ _ _ MA) by lia. rewrite TR, X1, bseq_refl, ET, EA. rewrite <- ES in AS. replace (200 <=? status r) with true by (symmetry; apply Z.leb_le; lia). cbn [andb val]. rewrite SND. clear SND. rewrite !upd_seq. fold s2.
  replace (status r <=? 200) with false by (symmetry; apply Z.leb_gt; lia). rewrite upd_seq. unfold after_ack. rewrite ET. cbn [uri_of val]. rewrite CU.
  replace (upd (fun s3 : dstate => set_invite (set_addr Route [] (set_request (Some u) (invite s3))) s3) s2) with (upd (fun s3 : dstate => set_invite q s3) s2) by (unfold upd; change (invite s2) with (invite s1); rewrite I1; reflexivity).
  destruct AS as [-> | ->]; cbn [Z.eqb Pos.eqb orb]; rewrite upd_seq; change (invite s2) with (invite s1); rewrite I1; fold q; rewrite E; reflexivity.
Qed.
Lemma moved_turns left f k x t s out ps a c cs : trying left f k x t s -> 2 <= f -> Forall (fun p => reply_ok p /\ rp_status p < 200) ps -> reply_ok a -> rp_status a = 301 \/ rp_status a = 302 -> rp_contact a = c :: cs ->
  exists rs r ack at_ k1 y t1 s' rest, Forall2 (answered k t) ps rs /\ answered k t a r /\ method ack = B "ACK" /\ acked x (a_uri c) at_ /\
    same_invite x y /\ request y = a_uri c /\ addrs y Route = [] /\ candidates d (hop_of (a_uri c)) = so_remote k1 :: rest /\ trying rest (f - 1) k1 y t1 s' /\
    run cfg (mkres s out Cont) (map EMsg rs ++ [EMsg r]) (mkres s' (out ++ concat (map told ps) ++ [OSend (so_remote k) ack at_; OSend (so_remote k1) y t1]) Cont).
Proof.
  intros T F PS AO AS AC. destruct (moved_stages left f k x t s out ps a c cs T F PS AO AS AC) as (rs & r & ack & at_ & k1 & y & t1 & s1 & s' & rest & H1 & H2 & H3 & H4 & H5 & H6 & H7 & H8 & H9 & R & E & _). exists rs, r, ack, at_, k1, y, t1, s', rest. do 9 (split; [assumption|]).
  eapply run_app; [exact R|]. apply run_step; [reflexivity|reflexivity|]. cbn [r_state r_out]. rewrite E. cbn [r_state r_out r_v]. rewrite <- app_assoc. apply run_nil.
Qed.
Lemma legs_go ls : forall left f k x t s out, trying left f k x t s -> legs_ok cfg d left f ls -> exists k' x' t' es o s' left' f',
  legs_run cfg d left k x t ls k' x' t' es o /\ same_invite x x' /\ trying left' f' k' x' t' s' /\ run cfg (mkres s out Cont) es (mkres s' (out ++ o) Cont).
Proof.
  induction ls as [|[|ps a] ls IH]; intros left f k x t s out T L; cbn [legs_ok] in L.
  - exists k, x, t, [], [], s, left, f. split; [constructor|]. split; [repeat split|]. split; [exact T|]. rewrite app_nil_r. constructor.
  - destruct L as [HF L]. destruct left as [|a left]; [contradiction|]. destruct (silent_turns a left f k x t s out T HF) as (l & k1 & y & t1 & s1 & CX & LL & SI & RY & KA & T1 & R1).
    destruct (IH _ _ _ _ _ _ (out ++ sent_to k l ++ [OSend (so_remote k1) y t1]) T1 L) as (k' & x' & t' & es & o & s' & left' & f' & LR & SI' & T' & R'). rewrite <- KA.
    exists k', x', t', (repeat EReqTimer (S (length l)) ++ es), (sent_to k l ++ OSend (so_remote k1) y t1 :: o), s', left', f'. split; [econstructor; eassumption|]. split; [exact (same_trans _ _ _ SI SI')|]. split; [exact T'|].
    eapply run_app; [exact R1|]. rewrite <- !app_assoc in R'. exact R'.
  - destruct L as (HF & PS & AO & AS & L). destruct (rp_contact a) as [|c cs] eqn:AC; [contradiction|].
    destruct (moved_turns left f k x t s out ps a c cs T HF PS AO AS AC) as (rs & r & ack & at_ & k1 & y & t1 & s1 & rest & F & AN & AM & AK & SI & RY & RT & CD & T1 & R1). rewrite CD in L. cbn [tl] in L.
    destruct (IH _ _ _ _ _ _ (out ++ concat (map told ps) ++ [OSend (so_remote k) ack at_; OSend (so_remote k1) y t1]) T1 L) as (k' & x' & t' & es & o & s' & left' & f' & LR & SI' & T' & R').
    exists k', x', t', (map EMsg rs ++ EMsg r :: es), (concat (map told ps) ++ OSend (so_remote k) ack at_ :: OSend (so_remote k1) y t1 :: o), s', left', f'. split; [econstructor; eassumption|]. split; [exact (same_trans _ _ _ SI SI')|]. split; [exact T'|].
    change (EMsg r :: es) with ([EMsg r] ++ es). rewrite app_assoc. eapply run_app; [exact R1|]. rewrite <- !app_assoc in R'. exact R'.
Qed.
End Legs.
(** ** The rest of the call *)
Lemma call_ends cfg k x n ps a b c cs s out : (forall n, faultless (c_world cfg n)) -> calling cfg k x s -> fit cfg x -> method x = B "INVITE" -> cseq x < 2 ^ 63 - 1 ->
  Forall (fun p => reply_ok p /\ rp_status p < 200) ps -> reply_ok a -> rp_status a = 200 -> rp_contact a = c :: cs -> reply_ok b -> rp_status b = 200 -> rp_pay b = None -> let t := msg_append (w_rid (c_world cfg n)) x in
  exists rs answer ack ack_text k' bye bye_text confirm s', Forall2 (answered k t) ps rs /\ answered k t a answer /\ method ack = B "ACK" /\ acked x (a_uri c) ack_text /\
    method bye = B "BYE" /\ request bye = a_uri c /\ callid bye = callid x /\ cseq bye = cseq x + 1 /\ addrs bye From = addrs x From /\ addrs bye To = addrs answer To /\ answered k' bye_text b confirm /\ first_address cfg (way_back (rp_rr a) (rp_contact a)) false (so_remote k') /\
    run cfg (mkres s out Cont) (map EMsg rs ++ [EMsg answer; EHangup; EMsg confirm])
      (mkres s' (out ++ concat (map told ps) ++ [OSend (so_remote k) ack ack_text] ++ media_of (rp_pay a) ++ [OState Answered; OSend (so_remote k') bye bye_text; OState Hangup]) Halt).
Proof.
  intros NF CA FX MI CB PS AO A200 AC BO B200 BP t. destruct (progress_run cfg NF k x n ps FX PS s out CA) as (rs & s1 & F & C1 & R1).
  destruct (reply_comes cfg x k n a FX AO) as (r & AN & S2 & MT & EC & EQ & ES & EP & ET & ER & EF & AA & NT & v & VV & VO).
  pose proof C1 as (K1 & SG1 & Q1 & I1 & RM1 & LS1 & _). pose proof (calling_request _ _ _ _ C1) as TR.
  assert (MA : matching s1 r) by (split; [exact S2|]; rewrite TR; auto). rewrite AC in ET.
  assert (CU : exists u, a_uri c = Some u). { destruct AO as (_ & _ & _ & _ & CO & _). rewrite AC in CO. inversion CO as [|? ? ((u & U & _) & _) _]; subst. eauto. } destruct CU as [u CU].
  destruct (answer_turn cfg NF s1 r k c cs u v K1 MA) as (n1 & ack & at_ & AM & AK & T1); [rewrite TR; exact MI|congruence|exact ET|exact CU|exact (has_audio_reply _ _ AO EP)|exact RM1|rewrite TR; exact FX|exact AA|exact NT|rewrite TR; exact EF|exact VV|exact VO|].
  rewrite TR in AK. set (s2 := set_remote _ _) in T1.
  destruct (hangup_turn cfg NF s2 k x r eq_refl K1 SG1 I1 FX LS1) with (c := c) (cs := cs) (u := u) as (s3 & k' & y & n2 & T2 & TR3 & K3 & FY & Y1 & Y2 & Y3 & Y4 & Y5 & Y6 & _ & _ & _ & _ & W3); [lia|reflexivity|exact AA|exact NT|rewrite ER; destruct AO as (_ & _ & _ & _ & _ & _ & L & _); exact L|exact ET|exact CU|].
  set (t2 := msg_append (w_rid (c_world cfg n2)) y) in *. destruct (reply_comes cfg y k' n2 b FY BO) as (r2 & AN2 & S22 & MT2 & EC2 & EQ2 & ES2 & EP2 & _).
  destruct (bye_confirmed cfg s3 r2) as [O3 V3]; [exact S22|rewrite TR3; exact EC2|rewrite TR3; exact MT2|rewrite TR3; exact Y1|congruence|congruence|].
  exists rs, r, ack, at_, k', y, t2, r2, (r_state (handle cfg (EMsg r2) s3)). split; [exact F|]. split; [exact AN|]. split; [exact AM|]. split; [rewrite CU; exact AK|]. split; [exact Y1|]. split; [congruence|]. split; [exact Y3|]. split; [exact Y4|]. split; [exact Y5|]. split; [exact Y6|]. split; [exact AN2|]. split; [rewrite AC, <- ET, <- ER; exact W3|].
  eapply run_app; [exact R1|]. apply run_step; [reflexivity|reflexivity|]. cbn [r_state]. rewrite T1. cbn [r_state r_out r_v]. apply run_step; [reflexivity|reflexivity|]. cbn [r_state]. rewrite T2. cbn [r_state r_out r_v].
  apply run_step; [reflexivity|reflexivity|]. cbn [r_state r_out]. rewrite O3, V3. assert (ME : media r = media_of (rp_pay a)) by (unfold media, media_of; rewrite EP; reflexivity). rewrite ME. repeat (rewrite <- ?app_assoc; cbn [app]). apply run_nil.
Qed.

(** * C92 *)
(** The INVITE goes to the first address of its next hop; then whatever [legs] happens, to the callee who answers; the call goes through as if
    nothing had happened: the INVITE answered carries what the first one carried, and the BYE belongs to it. *)
Theorem call_reaches_callee : forall cfg d m legs ps a b c cs,
  (forall n, faultless (c_world cfg n)) -> (forall n, w_dns (c_world cfg n) = d) -> 0 <= c_max cfg -> invite_given cfg m ->
  legs_ok cfg d (tl (candidates d (next_hop m))) (hops m - 1) legs ->
  Forall (fun p => reply_ok p /\ rp_status p < 200) ps -> reply_ok a -> rp_status a = 200 -> rp_contact a = c :: cs -> reply_ok b -> rp_status b = 200 -> rp_pay b = None ->
  exists k inv inv_text rest k1 inv1 text1 es o rs answer ack ack_text k' bye bye_text confirm s,
    method inv = B "INVITE" /\ request inv = request m /\ (callid m <> [] -> callid inv = callid m) /\ (cseq m <> 0 -> cseq inv = cseq m) /\
    candidates d (next_hop m) = so_remote k :: rest /\ legs_run cfg d rest k inv inv_text legs k1 inv1 text1 es o /\ same_invite inv inv1 /\
    Forall2 (answered k1 text1) ps rs /\ answered k1 text1 a answer /\ method ack = B "ACK" /\ acked inv1 (a_uri c) ack_text /\
    method bye = B "BYE" /\ request bye = a_uri c /\ callid bye = callid inv /\ cseq bye = cseq inv + 1 /\ addrs bye From = addrs inv From /\ addrs bye To = addrs answer To /\ answered k' bye_text b confirm /\ first_address cfg (way_back (rp_rr a) (rp_contact a)) false (so_remote k') /\
    dialog cfg m (es ++ map EMsg rs ++ [EMsg answer; EHangup; EMsg confirm])
      (mkres s (OSend (so_remote k) inv inv_text :: o ++ concat (map told ps) ++ [OSend (so_remote k1) ack ack_text] ++ media_of (rp_pay a) ++ [OState Answered; OSend (so_remote k') bye bye_text; OState Hangup]) Halt).
Proof.
  intros cfg d m legs ps a b c cs NF DN MX IG LO PS AO A200 AC BO B200 BP. pose proof IG as (RG & MI & RR & LR & CB).
  destruct (sent_faultless cfg NF None (init m)) as (s0 & k & x & n & E0 & FX & CP & (CR & MF & T0 & N0 & n' & RA) & _ & K0 & SG0 & TR0 & ST0 & RI & LS); [split; discriminate|exact RG|change (method m <> B "REGISTER"); rewrite MI; discriminate|exact LR|].
  destruct (RI eq_refl) as [R0 I0]. destruct LS as (RM0 & LS0 & RS0); [reflexivity|]. change (match None with Some b => b | None => invite (init m) end) with m in *. change (completed m x) in CP. change (carries k (cso s0) m x) in CR. change (maxforwards x = hops m - 1) in MF. change (RouteAddress (w_dns (c_world cfg n')) (fst (next_hop m)) (snd (next_hop m)) true = Some (so_remote k :: routes s0)) in RA. rewrite DN in RA.
  assert (CD : candidates d (next_hop m) = so_remote k :: routes s0) by (unfold candidates; rewrite RA; reflexivity). rewrite CD in LO. cbn [tl] in LO.
  pose proof (first_sendable cfg k _ _ _ FX IG (proj1 SG0 _ K0) CP CR) as SX. destruct CP as (D1 & D2 & D3 & D4 & _ & D6 & _). set (t := msg_append (w_rid (c_world cfg n)) x) in *.
  assert (TY : trying cfg (routes s0) (hops m - 1) k x t s0). { split; [|repeat (split; [first [assumption|reflexivity]|]); exists n; reflexivity]. unfold calling. repeat (split; [assumption|]). left. exact ST0. }
  destruct (legs_go cfg d NF DN MX legs _ _ _ _ _ _ [OSend (so_remote k) x t] TY LO) as (k1 & x1 & t1 & es & o & s1 & left1 & f1 & LG & SI & (CA1 & FX1 & SX1 & _ & _ & _ & _ & n1 & TE1) & R1).
  pose proof SX1 as (MI1 & _ & CB1 & _). destruct (call_ends cfg k1 x1 n1 ps a b c cs s1 ([OSend (so_remote k) x t] ++ o) NF CA1 FX1 MI1) as (rs & r & ack & at_ & k' & y & t2 & r2 & s2 & F & AN & AM & AK & Y1 & Y2 & Y3 & Y4 & Y5 & Y6 & AN2 & W3 & R2); try assumption; [lia|]. rewrite <- TE1 in F, AN.
  destruct SI as (I1 & I2 & I3 & I4 & I5). exists k, x, t, (routes s0), k1, x1, t1, es, o, rs, r, ack, at_, k', y, t2, r2, s2.
  split; [congruence|]. split; [exact D6|]. split; [exact D2|]. split; [exact D3|]. split; [exact CD|]. split; [exact LG|]. split; [repeat (split; [assumption|]); exact I5|]. split; [exact F|]. split; [exact AN|]. split; [exact AM|]. split; [exact AK|]. split; [exact Y1|]. split; [exact Y2|]. split; [congruence|]. split; [congruence|]. split; [congruence|]. split; [exact Y6|]. split; [exact AN2|]. split; [exact W3|].
  unfold dialog, start. rewrite E0. eapply run_app; [exact R1|]. rewrite <- app_assoc in R2. exact R2.
Qed.

(** ** Example: the first server is silent; the second rings and sends us to 10.0.0.2, where the call is answered *)
Example detour_example : let moved := Moved [ex_reply 180 [] None] (ex_reply 302 (at_ (B "10.0.0.2")) (Some (PSdp peer_sdp))) in
  candidates ex_dns (next_hop ex_call) = [B "10.0.0.1:5060"; B "10.0.0.2:5060"] /\ candidates ex_dns (B "10.0.0.2", 5060) = [B "10.0.0.2:5060"] /\
  exists k inv inv_text k1 inv1 text1 es o rs answer ack ack_text k' bye bye_text confirm s, so_remote k = B "10.0.0.1:5060" /\
    legs_run (ex_cfg 2) ex_dns [B "10.0.0.2:5060"] k inv inv_text [Silent; moved] k1 inv1 text1 es o /\ same_invite inv inv1 /\ method inv = B "INVITE" /\ method ack = B "ACK" /\ method bye = B "BYE" /\
    dialog (ex_cfg 2) ex_call (es ++ map EMsg rs ++ [EMsg answer; EHangup; EMsg confirm])
      (mkres s (OSend (so_remote k) inv inv_text :: o ++ [OState Ringing] ++ [OSend (so_remote k1) ack ack_text] ++ [OPeer (s_addr peer_sdp) 4000] ++ [OState Answered; OSend (so_remote k') bye bye_text; OState Hangup]) Halt).
Proof.
  destruct call_example as (C1 & C2 & C3 & C4 & C5). inversion C3 as [|? ? _ C6]; subst. inversion C6 as [|? ? C7 _]; subst. cbv zeta. split; [reflexivity|]. split; [reflexivity|].
  assert (CD : candidates ex_dns (next_hop ex_call) = [B "10.0.0.1:5060"; B "10.0.0.2:5060"]) by reflexivity.
  destruct (call_reaches_callee (ex_cfg 2) ex_dns ex_call [Silent; Moved [ex_reply 180 [] None] (ex_reply 302 (at_ (B "10.0.0.2")) (Some (PSdp peer_sdp)))] [ex_reply 180 [] None] (ex_reply 200 (at_ (B "10.0.0.2")) (Some (PSdp peer_sdp))) (ex_reply 200 [] None) (hd (mkaddr None [] []) (at_ (B "10.0.0.2"))) []) as
    (k & inv & inv_text & rest & k1 & inv1 & text1 & es & o & rs & answer & ack & ack_text & k' & bye & bye_text & confirm & s & M1 & _ & _ & _ & CK & LG & SI & _ & _ & M2 & _ & M3 & _ & _ & _ & _ & _ & _ & _ & D);
    [exact C1|reflexivity|cbn; lia|exact C2| |constructor; [exact C7|constructor]|exact C4|reflexivity|reflexivity|exact C5|reflexivity|reflexivity|].
  { rewrite CD. cbn [tl legs_ok]. split; [cbn; lia|]. split; [cbn; lia|]. split; [constructor; [exact C7|constructor]|]. split; [|split; [right; reflexivity|exact I]]. destruct C4 as (_ & R). split; [cbn; lia|exact R]. }
  rewrite CD in CK. injection CK as CK <-. exists k, inv, inv_text, k1, inv1, text1, es, o, rs, answer, ack, ack_text, k', bye, bye_text, confirm, s. split; [symmetry; exact CK|]. do 5 (split; [assumption|]). exact D.
Qed.
