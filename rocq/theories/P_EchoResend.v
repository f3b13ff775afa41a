(** C94: what the timer of the example program sends again. *)
From Verif Require Import Bytes BytesLemmas GoLib GoLibLemmas SdpModel SdpProofs SipText SipTypes SipAppend UtilModel P_Text P_Lists UriSpec P_Uri MsgModel MsgSpec MsgGrammar P_MsgText MsgWf MsgRound P_MsgRound
  DialogMsg P_DialogMsg P_DialogWire TransportModel P_Transport P_TransportAt P_Received DialogModel P_DialogCount P_Written P_Call P_Talk FoneModel P_FoneCall P_PeerCall EchoModel P_Echo.
Local Open Scope Z_scope.

(** ** A request that is sent again through a transport *)
(** the message [q'] is the request [q] sent once more: only the hops and the Via parameters other than the branch differ *)
Definition once_more (q q' : msg) : Prop :=
  method q' = method q /\ request q' = request q /\ callid q' = callid q /\ cseq q' = cseq q /\ cseqmethod q' = cseqmethod q /\
  addrs q' From = addrs q From /\ addrs q' To = addrs q To /\ addrs q' Contact = addrs q Contact /\ (forall f, strs q' f = strs q f) /\ xheader q' = xheader q /\ pay q' = pay q /\
  maxforwards q' = (if maxforwards q =? 0 then 70 else maxforwards q) - 1 /\
  exists v v' b, vias q = [v] /\ vias q' = [v'] /\ v_host v' = v_host v /\ v_port v' = v_port v /\ value_of (B "branch") (v_param v) = Some b /\ value_of (B "branch") (v_param v') = Some b.
(** a request in which nothing is left to fill in *)
Definition whole (q : msg) : Prop :=
  (forall rid, request_ok rid q) /\ callid q <> [] /\ cseq q <> 0 /\ cseqmethod q = method q /\ addrs q To <> [] /\ addrs q Contact <> [] /\ strs q UserAgent <> [] /\
  (exists f l t, addrs q From = f :: l /\ value_of (B "tag") (a_param f) = Some t) /\ exists v b, vias q = [v] /\ value_of (B "branch") (v_param v) = Some b.

Lemma written_given l : Forall addr_ok (map written_addr l) -> Forall addr_given l.
Proof.
  induction l as [|a l IH]; intros F; constructor; [|exact (IH (Forall_inv_tail F))]. apply Forall_inv in F. destruct F as ((u & E & O) & R). cbn in E. destruct (a_uri a) as [u0|] eqn:A; [|discriminate]. injection E as <-.
  split; [exists u0; split; [exact A|exact O]|exact R].
Qed.
Lemma sent_request_ok Q rid q v b : on_its_way_via Q rid q v b -> (forall rid p, pay q = Some p -> payload_ok rid (written_payload rid p)) -> forall rid', request_via Q rid' q.
Proof.
  intros (OK & S & CM & RT & V & VQ & BV & TM & RN) PG rid'. destruct OK as (OS & VA & VI & AF & AT & AD & _ & CI & CS & _ & MF & EX & ME & ST & XH & _).
  split; [exact S|]. split; [exact TM|]. split.
  { destruct (request q) as [u|] eqn:E; [|congruence]. exists u. split; [reflexivity|]. destruct OS as [(_ & _ & u1 & E1 & O1)|(X & _)]; [|cbn [written status] in X; lia]. cbn [written request] in E1. rewrite E in E1. injection E1 as <-. exact O1. }
  split; [exact VA|]. split; [exact VI|]. split; [intros f; apply written_given; exact (AD f)|]. split; [exact RT|]. split; [right; eauto|]. split; [right; exact CI|]. split; [exact CS|]. split; [right; exact CM|].
  split; [exact MF|]. split; [exact EX|]. split; [exact ME|]. split; [exact ST|]. split; [exact XH|]. intros p E. exact (PG rid' p E).
Qed.
Lemma sfield_cases (g : sfield) : g = UserAgent \/ g <> UserAgent.
Proof. destruct g; first [left; reflexivity|right; discriminate]. Qed.
Lemma sent_once_more_own tp w q : site_ok tp -> net_ok w -> whole q ->
  exists s u a q', Send tp (mkheld q false) w = Ok s /\ sd_ok s = true /\ sd_wire s = [(a, q', msg_append (n_rid w) q')] /\ sd_held s = mkheld q' false /\
    request q = Some u /\ n_resolve w (host_port (u_host u) (Portstr (u_port u))) = Some a /\ once_more q q' /\ whole q'.
Proof.
  intros SO NO (RO & CI & CS & CM & AT & AC & UA & (f & l & t & EF & ET) & (v & b & EV & EB)).
  destruct (send_request_via via_site tp w q) as (s & u & a & q' & v' & b' & ES & RQ & NA & SW & SK & W & SA & _ & V1 & SH & UE & FE & BE & FT); [exact site_kind|intros X; congruence|exact SO|exact NO|exact (RO _)|].
  destruct SA as (M1 & M2 & M3 & M4 & M5 & M6 & M7 & M8 & M9 & M10). pose proof (BE v b EV EB) as ->. destruct (V1 v EV) as (H1 & H2).
  pose proof W as (_ & S' & CM' & RT' & V' & VQ' & BV' & _).
  assert (ST : forall g, strs q' g = strs q g).
  { intros g. destruct (sfield_cases g) as [-> |N]; [exact (UE UA)|exact (M7 g N)]. }
  exists s, u, a, q'. split; [exact ES|]. split; [exact SK|]. split; [exact SW|]. split; [rewrite SH, EV; reflexivity|]. split; [exact RQ|]. split; [exact NA|]. split.
  - unfold once_more. rewrite (M3 CI), (M4 CS), (M5 AT), (M6 AC), (FE f l t EF ET), CM', M1, CM. repeat (split; [first [reflexivity|assumption]|]). exists v, v', b. auto 10.
  - unfold whole. rewrite (M3 CI), (M4 CS), (M5 AT), (M6 AC), (ST UserAgent), CM'. split; [|repeat (split; [first [reflexivity|assumption]|]); exists v', b; split; assumption].
    intros rid. apply (sent_request_ok via_site (n_rid w) q' v' b W). intros rid0 p. rewrite M9. intros EP. destruct (RO rid0) as (_ & _ & _ & _ & _ & _ & _ & _ & _ & _ & _ & _ & _ & _ & _ & _ & PG). exact (PG p EP).
Qed.

(** a message whose Via object is the transport's is sent as it is seen now *)
Lemma send_view tp h w : vias (view tp h) <> [] ->
  Send tp h w = match Send tp (mkheld (view tp h) false) w with Ok s => Ok (left_behind tp (h_shared h) (h_msg (sd_held s)) (sd_wire s) (sd_ok s)) | Panic => Panic end.
Proof.
  intros V. unfold Send. change (view tp (mkheld (view tp h) false)) with (view tp h). cbv zeta. cbn [h_shared]. set (m := view tp h) in *.
  assert (E : (negb (IsResponse m) && match vias m with [] => true | _ => false end) = false) by (destruct (vias m); [congruence|apply andb_false_r]). rewrite E, orb_false_r. cbn [orb].
  destruct (PopulateMessage _ _ _ _) as [m1|]; [|reflexivity]. cbn [rbind]. destruct (RouteMessage _ _ _) as [[m2 [[ho po]|er]]|]; cbn [rbind]; [|reflexivity|reflexivity].
  destruct (n_resolve _ _); [|reflexivity]. destruct (addTimestamp _ _); reflexivity.
Qed.
(** A request in which nothing is left to fill in is sent, and what the application then holds can be sent again. *)
Lemma sent_once_more tp h w : site_ok tp -> net_ok w -> whole (view tp h) ->
  exists s u a q, Send tp h w = Ok s /\ sd_ok s = true /\ sd_wire s = [(a, q, msg_append (n_rid w) q)] /\ view (sd_tp s) (sd_held s) = q /\
    request (view tp h) = Some u /\ n_resolve w (host_port (u_host u) (Portstr (u_port u))) = Some a /\ once_more (view tp h) q /\ whole q.
Proof.
  intros SO NO W. destruct (sent_once_more_own tp w (view tp h) SO NO W) as (s & u & a & q & ES & SK & SW & SH & RQ & NA & OM & W'). pose proof W as (_ & _ & _ & _ & _ & _ & _ & _ & (v & b & EV & _)).
  eexists _, u, a, q. rewrite send_view, ES by (rewrite EV; discriminate). split; [reflexivity|]. cbn [left_behind sd_ok sd_wire sd_tp sd_held]. rewrite SH. cbn [h_msg]. split; [exact SK|]. split; [exact SW|]. split; [|auto].
  destruct W' as (_ & _ & _ & _ & _ & _ & _ & _ & (v' & b' & EV' & _)). unfold view. cbn [h_shared h_msg]. destruct (h_shared h); [|reflexivity]. rewrite EV'. cbn [tp_via]. rewrite <- EV'. destruct q; reflexivity.
Qed.
(** What Send fills in: a Contact and a User-Agent. *)
Lemma send_fills tp w m s a q text : site_ok tp -> net_ok w -> request_ok (n_rid w) m -> Send tp (mkheld m false) w = Ok s -> sd_wire s = [(a, q, text)] -> addrs q Contact <> [] /\ strs q UserAgent <> [].
Proof.
  intros (VS & c & TC & CO) (NR & NW & NS & LB & LT & LC & CQ) (S & TM & (u0 & RQ & UO) & VA & VI & AD & RT & VG & CI & _) ES EW. destruct (callid_drawn _ LC) as (cid & EC & TCI).
  assert (V0 : exists v, or_else (vias m) [tp_via tp] = [v]) by (destruct VG as [V|(v & V & G)]; rewrite V; eexists; reflexivity). destruct V0 as (v & OV).
  assert (C0 : exists c0 cl, or_else (addrs m Contact) (tp_contact tp) = c0 :: cl /\ addr_given c0).
  { pose proof (AD Contact) as AC. destruct (addrs m Contact) as [|x l] eqn:E; [exists c, []|exists x, l]; (split; [cbn; rewrite ?TC; reflexivity|]); [apply addr_ok_given; exact CO|exact (Forall_inv AC)]. }
  destruct C0 as (c0 & cl & OC & (uc & CU & _) & _).
  destruct (populate_result [tp_via tp] (tp_contact tp) m (n_draws w) v [] c0 cl cid) as (m' & f & fl & PM & Q1 & Q2 & Q3 & Q4 & Q5 & Q6 & Q7 & Q8 & Q9 & Q10 & Q11 & Q12 & Q13 & Q14 & Q15 & Q16 & Q17 & Q18 & _);
    [lia|exact LC|exact EC|exact OV|exact OC|intros _; congruence|]. revert ES. unfold Send. change (view tp (mkheld m false)) with m. cbv zeta. rewrite PM. cbn [rbind].
  assert (R0 : addrs m' Route = []) by (rewrite Q11 by discriminate; exact RT).
  assert (RM : RouteMessage [tp_via tp] (tp_contact tp) m' = Ok (m', inl (u_host u0, u_port u0))).
  { unfold RouteMessage. replace (IsResponse m') with false by (symmetry; unfold IsResponse; apply Z.ltb_ge; lia). rewrite R0. replace (addr_CompareHostPort (tp_contact tp) []) with false by (rewrite TC; reflexivity). rewrite R0, Q16, RQ. reflexivity. }
  rewrite RM. cbn [rbind]. destruct (n_resolve _ _) as [a0|]; [|intros H; injection H as <-; discriminate].
  set (x := if 0 <? maxforwards m' then _ else m'). assert (X : addrs x = addrs m' /\ strs x = strs m') by (unfold x; destruct (0 <? _); split; reflexivity). destruct X as (X1 & X2). clearbody x.
  assert (ND : addrs m' Contact <> [] /\ strs m' UserAgent <> []). { split; [rewrite Q2; discriminate|rewrite Q10; destruct (strs m UserAgent); discriminate]. }
  rewrite <- X1, <- X2 in ND. unfold addTimestamp. destruct (n_stamp w) as [ts|]; [destruct (vias x) as [|y l]; [discriminate|]|]; cbn [rbind]; intros H; injection H as <-; cbn [left_behind sd_wire] in EW; injection EW as _ <- _; exact ND.
Qed.


(** A request that can be sent: what the application holds after Send is one in which nothing is left to fill in. *)
Lemma sent_whole tp w m : site_ok tp -> net_ok w -> (forall rid, request_ok rid m) -> cseq m <> 0 ->
  exists s u a q, Send tp (mkheld m false) w = Ok s /\ sd_ok s = true /\ sd_wire s = [(a, q, msg_append (n_rid w) q)] /\ view (sd_tp s) (sd_held s) = q /\
    request m = Some u /\ n_resolve w (host_port (u_host u) (Portstr (u_port u))) = Some a /\ says m q /\ whole q /\
    (forall f l t, addrs m From = f :: l -> value_of (B "tag") (a_param f) = Some t -> addrs q From = addrs m From) /\
    forall v0 b0, vias m = [v0] -> value_of (B "branch") (v_param v0) = Some b0 -> exists v, vias q = [v] /\ value_of (B "branch") (v_param v) = Some b0.
Proof.
  intros SO NO RO CS. destruct (send_request_via via_site tp w m site_kind (fun _ => proj1 SO) SO NO (RO _)) as (s & u & a & q & v & b & ES & RQ & NA & SW & SK & W & SA & _ & V1 & SH & UE & FEQ & BE & FT).
  destruct (send_fills tp w m s a q _ SO NO (RO _) ES SW) as (AC & UA). pose proof SA as (M1 & M2 & M3 & M4 & M5 & M6 & M7 & M8 & M9 & M10). pose proof W as ((_ & _ & _ & _ & AT & _ & _ & CI & _) & S' & CM' & RT' & V' & VQ' & BV' & _).
  exists s, u, a, q. split; [exact ES|]. split; [exact SK|]. split; [exact SW|]. split.
  { revert ES SW. unfold Send. change (view tp (mkheld m false)) with m. cbv zeta. cbn [h_shared orb]. set (sh := negb (IsResponse m) && _). destruct (PopulateMessage _ _ _ _) as [m1|]; [|discriminate]. cbn [rbind]. destruct (RouteMessage _ _ _) as [[m2 [[ho po]|er]]|]; cbn [rbind]; [|intros H; injection H as <-; discriminate|discriminate].
    destruct (n_resolve w (JoinHostPort ho (Portstr po))); [|intros H; injection H as <-; discriminate].
    destruct (addTimestamp _ _) as [m3|]; [|discriminate]. cbn [rbind]. intros H; injection H as <-. cbn [left_behind sd_wire sd_tp sd_held]. intros H; injection H as _ -> _. unfold view. cbn [h_shared h_msg]. destruct sh; [|reflexivity].
    rewrite V'. cbn [tp_via]. rewrite <- V'. destruct q; reflexivity. }
  split; [exact RQ|]. split; [exact NA|]. split; [exact SA|]. split; [|split; [exact FEQ|intros v0 b0 E1 E2; exists v; split; [exact V'|]; rewrite (BE v0 b0 E1 E2) in BV'; exact BV']].
  split; [intros rid; apply (sent_request_ok via_site (n_rid w) q v b W); intros rid0 p0; rewrite M9; intros E; destruct (RO rid0) as (_ & _ & _ & _ & _ & _ & _ & _ & _ & _ & _ & _ & _ & _ & _ & _ & PG); exact (PG p0 E)|].
  split; [exact (callid_some _ CI)|]. split; [rewrite (M4 CS); exact CS|]. split; [exact CM'|]. split; [intros X; apply AT; cbn [written addrs]; rewrite X; reflexivity|]. split; [exact AC|]. split; [exact UA|]. split; [exact FT|]. exists v, b. auto.
Qed.

(** ** The program *)
(** the message which the timer sends again *)
Definition repeated (e : echo) : msg := view (e_tp e) (match e_resend e with Some h => h | None => e_invite e end).
(** the timer is armed, and the message was sent again [n] times *)
Definition repeating (n : Z) (e : echo) : Prop := site_ok (e_tp e) /\ whole (repeated e) /\ e_resends e = n /\ e_timer e = true.
Lemma resend_turn n e w : repeating n e -> n <> 2 -> net_ok w ->
  exists e' u a, echo_turn ResendTimer w e = (Going e', [(a, repeated e', msg_append (n_rid w) (repeated e'))]) /\ request (repeated e) = Some u /\ n_resolve w (host_port (u_host u) (Portstr (u_port u))) = Some a /\
    once_more (repeated e) (repeated e') /\ repeating (n + 1) e' /\ e_answered e' = e_answered e /\ e_death e' = e_death e /\ e_failed e' = e_failed e.
Proof.
  intros (SO & WQ & EN & ET) N NO. destruct (sent_once_more _ _ w SO NO WQ) as (s & u & a & q & ES & SK & SW & SV & RQ & NA & OM & WQ'). fold (repeated e) in RQ, OM.
  destruct (used_site (e_tp e) (sd_tp s) (once_more_ok _ _ _ _ _ NO ES (unused_ok _)) SO) as (K & _).
  cbn [echo_turn]. rewrite ET. unfold take_timer. rewrite EN. replace (n =? 2) with false by (symmetry; apply Z.eqb_neq; exact N). rewrite ES, SK, SW. cbv zeta.
  match goal with |- exists e' u a, (Going ?x, _) = _ /\ _ => set (e1 := x) end. assert (R : repeated e1 = q) by (unfold repeated, e1, sent_again; destruct (e_resend e); exact SV).
  exists e1, u, a. rewrite R. split; [reflexivity|]. split; [exact RQ|]. split; [exact NA|]. split; [exact OM|]. split.
  - split; [unfold e1, sent_again; destruct (e_resend e); exact K|]. split; [rewrite R; exact WQ'|]. split; [unfold e1, sent_again; destruct (e_resend e); cbn [e_resends]; rewrite EN; reflexivity|]. reflexivity.
  - unfold e1, sent_again. destruct (e_resend e); repeat split.
Qed.
(** Whatever request the timer sends again: as long as nothing is heard it is sent again twice, to where its request URI says; the third time the program gives up and sends nothing. *)
Definition sent_twice_more (q0 : msg) (e0 : echo) : Prop :=
  forall w1 w2 w3, net_ok w1 -> net_ok w2 ->
  exists u a1 q1 a2 q2 e1 e2, request q0 = Some u /\ n_resolve w1 (host_port (u_host u) (Portstr (u_port u))) = Some a1 /\ n_resolve w2 (host_port (u_host u) (Portstr (u_port u))) = Some a2 /\
    echo_turn ResendTimer w1 e0 = (Going e1, [(a1, q1, msg_append (n_rid w1) q1)]) /\ once_more q0 q1 /\
    echo_turn ResendTimer w2 e1 = (Going e2, [(a2, q2, msg_append (n_rid w2) q2)]) /\ once_more q1 q2 /\ echo_turn ResendTimer w3 e2 = (Fatal, []).
Lemma sends_twice_more e : repeating 0 e -> sent_twice_more (repeated e) e.
Proof.
  intros R w1 w2 w3 N1 N2. destruct (resend_turn 0 e w1 R ltac:(lia) N1) as (e1 & u1 & a1 & T1 & R1 & A1 & O1 & W1 & _). destruct (resend_turn (0 + 1) e1 w2 W1 ltac:(lia) N2) as (e2 & u2 & a2 & T2 & R2 & A2 & O2 & W2 & _).
  pose proof O1 as (_ & RE & _). assert (u2 = u1) by congruence. subst u2. exists u1, a1, (repeated e1), a2, (repeated e2), e1, e2. repeat (split; [assumption|]).
  destruct W2 as (_ & _ & EN2 & ET2). cbn [echo_turn]. rewrite ET2. unfold take_timer. rewrite EN2. reflexivity.
Qed.
(** the INVITE *)
Theorem echo_repeats_invite : forall tp t tl from d ip port od w,
  site_ok tp -> Forall addr_given (t :: tl) -> Forall addr_given from -> draws_ok d -> public_host ip -> port_ok port -> net_ok w ->
  exists u a q e, a_uri t = Some u /\ n_resolve w (host_port (u_host u) (Portstr (u_port u))) = Some a /\
    echo_start tp (t :: tl) from ip port (GenerateOriginID od) d w = (Going e, [(a, q, msg_append (n_rid w) q)]) /\ method q = B "INVITE" /\ request q = Some u /\ maxforwards q = 69 /\ sent_twice_more q e.
Proof.
  intros tp t tl from d ip port od w SO FT FF DO PI PP NO. set (p := PSdp (sdp_new ip port (GenerateOriginID od) [ULAWCodec; DTMFCodec])).
  assert (PO : forall rid, payload_ok rid (written_payload rid p)). { intros rid. unfold p. rewrite (echo_sdp_ok rid ip od port PI PP). apply fone_sdp_ok; assumption. }
  destruct (new_invite tp t tl from d (n_rid w) p SO FT FF DO (PO _)) as (u & inv & v & EN & TU & RO & MI & RI & VI & _ & _ & CS & CI & _).
  assert (RA : forall rid, request_ok rid (set_pay (Some p) inv)). { intros rid. destruct RO as (X1 & X2 & X3 & X4 & X5 & X6 & X7 & X8 & X9 & X10 & X11 & X12 & X13 & X14 & X15 & X16 & _). repeat (split; [assumption|]). intros p0 E. injection E as <-. apply PO. }
  assert (MF : maxforwards inv = 0). { revert EN. unfold NewRequest. destruct (uri_of _) as [ut|]; [|discriminate]. cbn [rbind]. destruct (via_Copy _) as [|v1 vl]; [discriminate|]. destruct (addr_Copy (addr_Or _ _)) as [|f1 fl]; [discriminate|]. destruct (GenerateCallID _) as [cid|]; [|discriminate]. cbn [rbind]. intros H; injection H as <-. reflexivity. }
  destruct (sent_whole tp w (set_pay (Some p) inv) SO NO RA) as (s & u' & a & q & ES & SK & SW & SV & RQ & NA & SA & WQ & _); [change (cseq inv <> 0); lia|]. change (request inv = Some u') in RQ. assert (u' = u) by congruence. subst u'.
  set (e := mkecho (sd_tp s) (sd_held s) false None None false 0 true true None false). exists u, a, q, e. destruct SA as (M1 & M2 & _ & _ & _ & _ & _ & _ & _ & M10).
  split; [exact TU|]. split; [exact NA|]. split; [unfold echo_start; rewrite EN; fold p; rewrite ES, SK, SW; reflexivity|]. split; [rewrite M1; exact MI|]. split; [rewrite M2; exact RQ|]. split; [rewrite M10; change (maxforwards (set_pay (Some p) inv)) with (maxforwards inv); rewrite MF; reflexivity|].
  assert (R : repeated e = q) by exact SV. rewrite <- R. apply sends_twice_more. split; [exact (proj1 (used_site tp (sd_tp s) (once_more_ok _ _ _ _ _ NO ES (unused_ok _)) SO))|]. split; [rewrite R; exact WQ|]. split; reflexivity.
Qed.
(** the BYE, when the call was answered: [y] is the message that came last *)
Theorem echo_repeats_bye : forall e q y c cl uc w,
  site_ok (e_tp e) -> view (e_tp e) (e_invite e) = q -> whole q -> cseq q + 1 < 2 ^ 63 -> e_death e = true -> e_answered e = true -> e_msg e = Some y ->
  addrs y To <> [] -> Forall addr_given (addrs y To) -> addrs y Contact = c :: cl -> a_uri c = Some uc -> uri_given uc -> addrs y RecordRoute = [] -> net_ok w ->
  exists a b e', n_resolve w (host_port (u_host uc) (Portstr (u_port uc))) = Some a /\ echo_turn DeathTimer w e = (Going e', [(a, b, msg_append (n_rid w) b)]) /\
    method b = B "BYE" /\ request b = Some uc /\ callid b = callid q /\ cseq b = cseq q + 1 /\ addrs b From = addrs q From /\ addrs b To = addrs y To /\ maxforwards b = 69 /\ sent_twice_more b e'.
Proof.
  intros e q y c cl uc w SO EV (RO & CI & CS & CM & AT & AC & UA & (f & l & t & EF & ET) & _) SM ED EA EM YT YG YC YU UG YR NO.
  assert (MB : NewBye q y None = Ok (set_method (B "BYE") (set_request (Some uc) (set_addr From (addrs q From) (set_addr To (addrs y To) (set_callid (callid q) (set_cseq (cseq q + 1) (set_cseqmethod (B "BYE") (set_addr Route [] msg0))))))), cseq q + 1)).
  { pose proof (RO []) as (_ & _ & _ & _ & _ & _ & _ & _ & _ & CB & _). unfold NewBye. rewrite YC. cbn [uri_of rbind]. rewrite YU, YR, i64_id by lia. reflexivity. }
  set (m := set_method (B "BYE") _) in MB.
  assert (RB : forall rid, request_ok rid m).
  { intros rid. pose proof (RO rid) as (_ & _ & _ & _ & _ & AD & _ & _ & CX & CB & _ & _ & _ & _ & _). split; [reflexivity|]. split; [split; [discriminate|reflexivity]|]. split; [exists uc; split; [reflexivity|exact UG]|]. split; [cbn; lia|]. split; [cbn; lia|].
    split; [intros g; destruct g; try constructor; first [exact YG|exact (AD From)]|]. split; [reflexivity|]. split; [left; reflexivity|]. split; [exact CX|]. split; [change (0 <= cseq q + 1 < 2 ^ 63); lia|].
    split; [right; reflexivity|]. split; [change (0 <= 0 < 2 ^ 63); lia|]. split; [change (0 <= 0 < 2 ^ 63); lia|]. split; [change (0 <= 0 < 2 ^ 63); lia|]. split; [intros g; apply empty_text|]. split; [constructor|]. discriminate. }
  assert (C1 : cseq m <> 0). { pose proof (RO []) as (_ & _ & _ & _ & _ & _ & _ & _ & _ & CB & _). change (cseq q + 1 <> 0). lia. }
  destruct (sent_whole (e_tp e) w m SO NO RB C1) as (s & u & a & b & ES & SK & SW & SV & RQ & NA & SA & WB & FE & _). change (Some uc = Some u) in RQ. injection RQ as <-.
  destruct SA as (M1 & M2 & M3 & M4 & M5 & _ & _ & _ & _ & M10).
  set (e' := mkecho (sd_tp s) (e_invite e) true (Some y) (Some (sd_held s)) false 0 true false (e_peer e) (e_failed e)).
  exists a, b, e'. split; [exact NA|]. split.
  { cbn [echo_turn]. rewrite ED. unfold take_death. rewrite EA, EM, EV, MB, ES, SW, SK. unfold sent_again. cbn [e_resend e_tp e_invite e_answered e_msg e_cancel e_resends e_timer e_death e_peer e_failed negb]. rewrite orb_false_r. reflexivity. }
  split; [exact M1|]. split; [exact M2|]. split; [exact (M3 CI)|]. split; [exact (M4 C1)|]. split; [exact (FE f l t EF ET)|]. split; [exact (M5 YT)|]. split; [exact M10|].
  assert (R : repeated e' = b) by exact SV. rewrite <- R. apply sends_twice_more. split; [exact (proj1 (used_site (e_tp e) (sd_tp s) (once_more_ok _ _ _ _ _ NO ES (unused_ok _)) SO))|]. split; [rewrite R; exact WB|]. split; reflexivity.
Qed.
(** the CANCEL, when it was not: it has the branch of the INVITE *)
Theorem echo_repeats_cancel : forall e q v br w,
  site_ok (e_tp e) -> e_invite e = mkheld q false -> whole q -> e_death e = true -> e_answered e = false -> vias q = [v] -> value_of (B "branch") (v_param v) = Some br -> net_ok w ->
  exists u a b e', request q = Some u /\ n_resolve w (host_port (u_host u) (Portstr (u_port u))) = Some a /\ echo_turn DeathTimer w e = (Going e', [(a, b, msg_append (n_rid w) b)]) /\
    method b = B "CANCEL" /\ request b = request q /\ callid b = callid q /\ cseq b = cseq q /\ addrs b From = addrs q From /\ addrs b To = addrs q To /\ maxforwards b = 69 /\
    (exists v', vias b = [v'] /\ value_of (B "branch") (v_param v') = Some br) /\ sent_twice_more b e'.
Proof.
  intros e q v br w SO EI (RO & CI & CS & CM & AT & AC & UA & (f & l & t & EF & ET) & _) ED EA EV EB NO. set (m := NewCancel q).
  assert (RB : forall rid, request_ok rid m).
  { intros rid. pose proof (RO rid) as (_ & _ & RQ & _ & _ & AD & RT & VG & CX & CB & _). split; [reflexivity|]. split; [split; [discriminate|reflexivity]|]. split; [exact RQ|]. split; [cbn; lia|]. split; [cbn; lia|].
    split; [intros g; destruct g; try constructor; first [exact (AD To)|exact (AD From)|exact (AD Route)]|]. split; [exact RT|]. split; [exact VG|]. split; [exact CX|]. split; [exact CB|].
    split; [right; reflexivity|]. split; [change (0 <= 0 < 2 ^ 63); lia|]. split; [change (0 <= 0 < 2 ^ 63); lia|]. split; [change (0 <= 0 < 2 ^ 63); lia|]. split; [intros g; apply empty_text|]. split; [constructor|]. discriminate. }
  destruct (sent_whole (e_tp e) w m SO NO RB CS) as (s & u & a & b & ES & SK & SW & SV & RQ & NA & SA & WB & FE & BE).
  destruct SA as (M1 & M2 & M3 & M4 & M5 & _ & _ & _ & _ & M10).
  eexists u, a, b, _. split; [exact RQ|]. split; [exact NA|]. split.
  { cbn [echo_turn]. rewrite ED. unfold take_death. rewrite EA, EI. change (view (e_tp e) (mkheld q false)) with q. cbn [h_shared]. fold m. rewrite ES, SW, SK. unfold sent_again. cbn [e_resend e_tp e_invite e_answered e_msg e_cancel e_resends e_timer e_death e_peer e_failed negb h_msg h_shared]. reflexivity. }
  split; [exact M1|]. split; [exact M2|]. split; [exact (M3 CI)|]. split; [exact (M4 CS)|]. split; [exact (FE f l t EF ET)|]. split; [exact (M5 AT)|]. split; [exact M10|]. split; [exact (BE v br EV EB)|].
  match goal with |- sent_twice_more b ?x => set (e' := x) end. assert (R : repeated e' = b) by exact SV. rewrite <- R. apply sends_twice_more. split; [exact (proj1 (used_site (e_tp e) (sd_tp s) (once_more_ok _ _ _ _ _ NO ES (unused_ok _)) SO))|]. split; [rewrite R; exact WB|]. split; reflexivity.
Qed.
(** The examples of P_Echo.v: the INVITE three times; the BYE three times after an answer; the CANCEL three times without one. *)
Definition ex_said (hs : list (happening * net)) : list (bytes * Z * Z) := map (fun x => (method (snd (fst x)), cseq (snd (fst x)) - cseq ex_sent, maxforwards (snd (fst x)))) (snd ex_echo_start ++ snd (echo_run hs (fst ex_echo_start))).
Definition ex_timer : happening * net := (ResendTimer, ex_w).
Example echo_repeats_example :
  ex_said [ex_timer; ex_timer; ex_timer] = [(B "INVITE", 0, 69); (B "INVITE", 0, 68); (B "INVITE", 0, 67)] /\
  ex_said [(Message ex_yes, ex_w); (DeathTimer, ex_w); ex_timer; ex_timer; ex_timer] = [(B "INVITE", 0, 69); (B "ACK", 0, 69); (B "BYE", 1, 69); (B "BYE", 1, 68); (B "BYE", 1, 67)] /\
  ex_said [(DeathTimer, ex_w); ex_timer; ex_timer; ex_timer] = [(B "INVITE", 0, 69); (B "CANCEL", 0, 69); (B "CANCEL", 0, 68); (B "CANCEL", 0, 67)].
Proof. vm_compute. repeat split. Qed.
(** the hypotheses of the three theorems *)
Example echo_repeats_hypotheses : site_ok ex_made /\ net_ok ex_w /\
  (exists a q e, echo_start ex_made [ex_bob] [ex_alice] (B "1.2.3.4") 5004 (GenerateOriginID 77) ex_draws (ex_wnet "a") = (Going e, [(a, q, msg_append (n_rid (ex_wnet "a")) q)]) /\ sent_twice_more q e).
Proof.
  assert (SO : site_ok ex_made). { destruct talk_example as (M & _ & A & _). exact (proj1 (made_site _ _ (B "1.2.3.4") 40000 ex_made M (Forall_inv A) ltac:(discriminate) eq_refl ltac:(unfold port_ok; lia) ltac:(discriminate))). }
  assert (NO : forall x, net_ok (ex_wnet x)). { intros x. destruct talk_example as (_ & _ & _ & _ & N & _). exact N. }
  split; [exact SO|]. split; [apply NO|]. destruct echo_call_example as (FT & PI & PP & _).
  destruct (echo_repeats_invite ex_made ex_bob [] [ex_alice] ex_draws (B "1.2.3.4") 5004 77 (ex_wnet "a") SO FT) as (u & a & q & e & _ & _ & ES & _ & _ & _ & T); [apply peer_call_example|apply peer_call_example|exact PI|exact PP|apply NO|].
  exists a, q, e. split; assumption.
Qed.
Print Assumptions echo_repeats_invite.
Print Assumptions echo_repeats_bye.
Print Assumptions echo_repeats_cancel.
