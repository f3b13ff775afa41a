(** C93: a call between two transports, made with NewRequest, NewResponse, NewAck and NewBye alone: the INVITE arrives, every answer comes
    back and belongs to it, the acknowledgement and the BYE arrive in the same dialog, and the answer to the BYE comes back. *)
From Verif Require Import Bytes BytesLemmas GoLib GoLibLemmas SdpModel SdpProofs SipText SipTypes SipAppend UtilModel P_Text P_Lists UriSpec P_Uri MsgModel MsgSpec MsgGrammar P_MsgText MsgWf MsgRound P_MsgRound
  DialogMsg P_DialogMsg P_DialogWire TransportModel P_Transport P_TransportAt P_Received DialogModel P_DialogCount P_Written P_Call P_Talk.
Local Open Scope Z_scope.

(** ** Specification *)
(** [tp] sends [h]: one datagram [text], the message [q], goes to the host and port of [u], and nil is returned. *)
Definition carried (tp : transport) (h : held) (w : net) (u : uri) (s : sending) (q : msg) (text : bytes) : Prop :=
  Send tp h w = Ok s /\ sd_ok s = true /\ exists a, sd_wire s = [(a, q, text)] /\ n_resolve w (host_port (u_host u) (Portstr (u_port u))) = Some a.
(** the random bytes for a new request *)
Definition draws_ok (d : draws) : Prop :=
  length (dr_branch d) = 6%nat /\ length (dr_tag d) = 6%nat /\ length (dr_callid d) = 15%nat /\ GenerateCSeq (dr_cseq d) <> 0.
(** the request [q] is in the dialog of the INVITE [r] and the answer [x] to it, as its receiver sees them *)
Definition in_dialog (r : msg) (x : reply) (q : msg) : Prop :=
  callid q = callid r /\ addrs q From = addrs r From /\ addrs q To = addrs (reply_msg r x) To.

(** ** NewRequest *)
Lemma given_shares_contact tp : site_ok tp -> exists c, tp_contact tp = [c] /\ addr_given c.
Proof. intros (_ & c & E & O). exists c. split; [exact E|apply addr_ok_given; exact O]. Qed.
Lemma copy_given l : Forall addr_given l -> Forall addr_given (addr_Copy l).
Proof. intros F. rewrite copy_map. apply Forall_map. eapply Forall_impl; [|exact F]. intros a (U & _ & P). split; [exact U|]. split; [left; reflexivity|exact P]. Qed.
Lemma gosip_texts : header_val GosipUA /\ header_val GosipAllow.
Proof. split; (split; [repeat (constructor; [reflexivity|]); constructor|intros z r E; injection E as <- _; reflexivity]). Qed.
Lemma empty_text : header_val [].
Proof. split; [constructor|discriminate]. Qed.
Lemma callid_some c : callid_text c -> c <> [].
Proof. intros (a & b & -> & N & _). destruct a; [congruence|discriminate]. Qed.
Lemma new_invite tp t tl from d rid p : site_ok tp -> Forall addr_given (t :: tl) -> Forall addr_given from -> draws_ok d -> payload_ok rid (written_payload rid p) ->
  exists u inv v, NewRequest [tp_via tp] (tp_contact tp) (B "INVITE") (t :: tl) from d = Ok inv /\ a_uri t = Some u /\ request_ok rid (set_pay (Some p) inv) /\
    method inv = B "INVITE" /\ request inv = Some u /\ vias inv = [v] /\ v_host v = v_host (tp_via tp) /\ v_port v = v_port (tp_via tp) /\ 0 < cseq inv < 2 ^ 31 /\ callid inv <> [] /\
    (exists f l, addrs inv From = f :: l /\ value_of (B "tag") (a_param f) <> None).
Proof.
  intros SO FT FF (LB & LT & LC & CQ) PO. destruct (given_shares_contact _ SO) as (c & TC & CG). destruct (callid_drawn _ LC) as (cid & EC & TCI). destruct (branch_token _ LB) as [TB _]. destruct (branch_token _ LT) as [_ TT].
  pose proof (Forall_inv FT) as ((u & TU & UG) & _).
  assert (OF : exists f l, addr_Or from (tp_contact tp) = f :: l /\ Forall addr_given (f :: l)) by (destruct from as [|f l]; [exists c, []; rewrite TC; split; [reflexivity|constructor; [exact CG|constructor]]|exists f, l; split; [reflexivity|exact FF]]).
  destruct OF as (f & l & OF & FG). pose proof (copy_given _ FT) as CT. pose proof (copy_given _ FG) as CF. unfold NewRequest. cbn [uri_of]. rewrite TU. cbn [rbind]. rewrite OF, EC. destruct SO as [VS _].
  replace (via_Copy [tp_via tp]) with [tp_via tp] by (destruct (tp_via tp); reflexivity). destruct (addr_Copy (f :: l)) as [|f' l'] eqn:CE; [rewrite copy_map in CE; discriminate|]. cbn [rbind].
  exists u. eexists _, _. split; [reflexivity|]. split; [reflexivity|].
  destruct (cseq_and_origin (dr_cseq d)) as (CB & _). pose proof (Forall_inv CF) as (F1 & F2 & F3).
  split; [|cbn; split; [reflexivity|]; split; [reflexivity|]; split; [reflexivity|]; split; [reflexivity|]; split; [reflexivity|]; split; [lia|]; split; [exact (callid_some _ TCI)|]; exists (addr_Tag (GenerateTag (dr_tag d)) f'), l'; split; [reflexivity|]; cbn [addr_Tag a_param]; rewrite value_head by reflexivity; discriminate].
  split; [reflexivity|]. split; [split; [discriminate|reflexivity]|]. split; [exists u; split; [reflexivity|exact UG]|]. split; [cbn; lia|]. split; [cbn; lia|].
  split. { intros g. destruct g; try constructor; [|exact (Forall_inv_tail CF)|exact (Forall_inv CT)|exact (Forall_inv_tail CT)].
    split; [exact F1|]. split; [exact F2|]. constructor; [|exact F3]. split; [split; [discriminate|reflexivity]|]. right. left. exact TT. }
  split; [reflexivity|]. split; [right; eexists; split; [reflexivity|]; apply (proj2 site_kind (tp_via tp)); [exact VS|split; [discriminate|reflexivity]|exact TB|reflexivity|reflexivity]|].
  split; [right; exact TCI|]. split; [change (0 <= GenerateCSeq (dr_cseq d) < 2 ^ 63); lia|].
  split; [right; reflexivity|]. split; [change (0 <= 0 < 2 ^ 63); lia|]. split; [change (0 <= 0 < 2 ^ 63); lia|]. split; [change (0 <= 0 < 2 ^ 63); lia|]. split; [intros g; destruct g; try apply empty_text; apply gosip_texts|]. split; [constructor|]. intros q E. injection E as <-. exact PO.
Qed.

(** ** NewAck and NewBye *)
Lemma reply_to_ok r x : Forall addr_ok (addrs r To) -> Forall param_ok (rp_to x) -> Forall addr_ok (with_first (fun a => set_aparam (rp_to x ++ a_param a) a) (addrs r To)).
Proof.
  intros F P. destruct (addrs r To) as [|a l]; [constructor|]. cbn [with_first]. constructor; [|exact (Forall_inv_tail F)]. destruct (Forall_inv F) as (A & B' & C). split; [exact A|]. split; [exact B'|]. cbn [set_aparam a_param]. apply Forall_app. auto.
Qed.
Lemma oks_given l : Forall addr_ok l -> Forall addr_given l.
Proof. apply Forall_impl. exact addr_ok_given. Qed.
Lemma oks_kept l : Forall addr_ok l -> map written_addr l = l.
Proof. induction 1 as [|a l A F IH]; [reflexivity|]. cbn [map]. rewrite IH, (addr_ok_kept _ A). reflexivity. Qed.
Section Answered.
Context (rid : bytes) (req : msg) (v : via) (b : bytes) (x : reply) (y : msg) (c : addr) (cl : list addr) (uc : uri).
Context (OW : on_its_way rid req v b) (AN : answers req x y) (VB : via_back v b y) (RO : reply_ok x) (RC : rp_contact x = c :: cl) (RR : rp_rr x = []) (CU : a_uri c = Some uc) (SM : cseq req + 1 < 2 ^ 63) (SP : 0 < cseq req).
Context (f0 : addr) (l0 : list addr) (t0 : bytes) (RF : addrs req From = f0 :: l0) (FT : value_of (B "tag") (a_param f0) = Some t0).
Lemma answer_addrs : Forall addr_ok (addrs y From) /\ addrs y From <> [] /\ Forall addr_ok (addrs y To) /\ addrs y To <> [] /\ callid_text (callid y) /\ uri_ok uc.
Proof.
  destruct OW as ((_ & _ & _ & FN & TN & FA & _ & CI & _) & _). destruct AN as (_ & _ & A3 & _ & A5 & A6 & _). destruct RO as (_ & _ & _ & PT & PC & _). rewrite A5, A6, A3.
  split; [exact (FA From)|]. split; [exact FN|]. pose proof (FA To) as FTO. change (addrs (written rid req) To) with (map written_addr (addrs req To)) in *.
  split. { pose proof (reply_to_ok (set_addr To (map written_addr (addrs req To)) msg0) x FTO PT) as K. exact K. }
  split; [destruct (map written_addr (addrs req To)); [congruence|discriminate]|]. split; [exact CI|]. rewrite RC in PC. destruct (Forall_inv PC) as ((u & E & U) & _). congruence.
Qed.
Lemma ack_fits rid' : exists ack z, NewAck y req = Ok ack /\ request_via via_plain rid' ack /\ method ack = B "ACK" /\ request ack = Some uc /\ callid ack = callid req /\ cseq ack = cseq req /\ vias ack = [z] /\ v_host z = v_host v /\ v_port z = v_port v /\
  addrs ack From = addrs y From /\ addrs ack To = addrs y To.
Proof.
  destruct answer_addrs as (FF & FN & TT & TN & CI & UO). destruct VB as (z & VY & VP & VH & VO & _). destruct AN as (_ & _ & A3 & A4 & A5 & A6 & A7 & A8 & _). destruct OW as ((_ & _ & _ & _ & _ & _ & _ & _ & CB & _ & _ & _ & _ & ST & _) & _).
  unfold NewAck. rewrite A7, RC. cbn [uri_of rbind]. rewrite VY, CU, A8, RR. cbn [via_Detach rbind]. eexists _, z. split; [reflexivity|]. split; [|cbn; repeat (split; [first [reflexivity|assumption]|]); first [reflexivity|assumption]].
  split; [reflexivity|]. split; [split; [discriminate|reflexivity]|]. split; [exists uc; split; [reflexivity|]; apply uri_ok_given; exact UO|]. split; [cbn; lia|]. split; [cbn; lia|].
  split; [intros g; destruct g; try constructor; apply oks_given; assumption|]. split; [reflexivity|]. split; [right; exists z; split; [reflexivity|exact VP]|]. split; [right; exact CI|]. split; [change (0 <= cseq y < 2 ^ 63); rewrite A4; exact CB|].
  split; [right; reflexivity|]. split; [change (0 <= 0 < 2 ^ 63); lia|]. split; [change (0 <= 0 < 2 ^ 63); lia|]. split; [change (0 <= 0 < 2 ^ 63); lia|]. split; [intros g; pose proof (ST g) as SG; destruct g; try apply empty_text; first [apply gosip_texts|exact SG]|]. split; [constructor|]. discriminate.
Qed.
Lemma bye_fits rid' : exists bye, NewBye req y None = Ok (bye, cseq req + 1) /\ request_ok rid' bye /\ method bye = B "BYE" /\ request bye = Some uc /\ callid bye = callid req /\ cseq bye = cseq req + 1 /\ vias bye = [] /\
  addrs bye From = addrs req From /\ addrs bye To = addrs y To.
Proof.
  destruct answer_addrs as (_ & _ & TT & TN & CI & UO). destruct AN as (_ & _ & A3 & A4 & A5 & A6 & A7 & A8 & _). destruct OW as ((_ & _ & _ & _ & _ & FA & _ & CIR & CB & _ & _ & _ & _ & ST & _) & _).
  unfold NewBye. rewrite A7, RC. cbn [uri_of rbind]. rewrite CU, A8, RR. cbn [rbind]. rewrite i64_id by lia. eexists. split; [reflexivity|]. split; [|cbn; repeat (split; [first [reflexivity|assumption]|]); first [reflexivity|assumption]].
  split; [reflexivity|]. split; [split; [discriminate|reflexivity]|]. split; [exists uc; split; [reflexivity|]; apply uri_ok_given; exact UO|]. split; [cbn; lia|]. split; [cbn; lia|].
  split; [intros g; destruct g; try constructor; first [apply oks_given; assumption|apply addrs_written_given; exact (FA From)]|]. split; [reflexivity|]. split; [left; reflexivity|]. split; [right; exact CIR|]. split; [change (0 <= cseq req + 1 < 2 ^ 63); lia|].
  split; [right; reflexivity|]. split; [change (0 <= 0 < 2 ^ 63); lia|]. split; [change (0 <= 0 < 2 ^ 63); lia|]. split; [change (0 <= 0 < 2 ^ 63); lia|]. split; [intros g; apply empty_text|]. split; [constructor|]. discriminate.
Qed.
End Answered.

(** ** The call *)
(** what the receiver of a request reads, in terms of what was given to Send *)
Lemma arrived_addrs rid q v b r Q : on_its_way_via Q rid q v b -> gets rid q r -> forall f, Forall addr_ok (addrs r f) /\ addrs r f = map written_addr (addrs q f).
Proof. intros ((_ & _ & _ & _ & _ & FA & _) & _) (_ & _ & _ & _ & _ & _ & G & _) f. rewrite G. split; [exact (FA f)|reflexivity]. Qed.
Lemma request_kept u : uri_ok u -> written_uri u = u.
Proof. intros (((c & x & E & _) & _) & _). apply uri_scheme_kept. rewrite E. discriminate. Qed.

Section Call.
Context (rid : bytes) (req : msg) (v : via) (b : bytes) (r : msg) (v' : via) (x : reply) (y : msg) (c : addr) (cl : list addr) (uc : uri) (ha : bytes) (pa : Z).
Context (OW : on_its_way rid req v b) (GT : gets rid req r) (RV : vias r = [v']) (VE : v_host v' = v_host v /\ v_port v' = v_port v).
Context (AN : answers req x y) (VB : via_back v b y) (RO : reply_ok x) (RC : rp_contact x = c :: cl) (RR : rp_rr x = []) (CU : a_uri c = Some uc) (SM : cseq req + 1 < 2 ^ 63) (SP : 0 < cseq req).
Context (f0 : addr) (l0 : list addr) (t0 : bytes) (RF : addrs req From = f0 :: l0) (FT : value_of (B "tag") (a_param f0) = Some t0).
Lemma reply_dialog : addrs (reply_msg r x) To = addrs y To /\ addrs r From = addrs y From.
Proof. destruct AN as (_ & _ & _ & _ & A5 & A6 & _). destruct GT as (_ & _ & _ & _ & _ & _ & G7 & _). rewrite A5, A6, <- !G7. split; reflexivity. Qed.
Lemma call_ack ta w : site_ok ta -> net_ok w ->
  exists ack s q text, NewAck y req = Ok ack /\ carried ta (mkheld ack false) w uc s q text /\ method q = B "ACK" /\ cseq q = cseq req /\
  forall lhost lport src stamp, source_ok src -> (forall t, stamp = Some t -> token t) -> exists k, delivers lhost lport text src stamp k /\ AckMatch r k = true /\ in_dialog r x k /\ request k = Some uc.
Proof.
  intros SA NA. destruct (answer_addrs _ _ _ _ _ _ _ _ _ OW AN RO RC CU) as (FF & FN & TT & TN & CI & UO). destruct (ack_fits _ _ _ _ _ _ _ _ _ OW AN VB RO RC RR CU (n_rid w)) as (ack & z & EA & RQ & MA & RA & CA & QA & VA & ZH & ZP & FA & TA).
  destruct (send_request_via via_plain ta w ack plain_kind (fun E => ltac:(rewrite VA in E; discriminate E)) SA NA RQ) as (s & u & a & q & vq & bq & ES & EU & ER & EW & EO & OQ & SY & _ & VS & _ & _ & FS & _ & _).
  assert (u = uc) by congruence. subst u. exists ack, s, q, (msg_append (n_rid w) q). split; [exact EA|]. split; [split; [exact ES|]; split; [exact EO|]; exists a; split; [exact EW|exact ER]|].
  destruct SY as (Y1 & Y2 & Y3 & Y4 & Y5 & _). assert (QN : cseq ack <> 0) by lia. split; [congruence|]. split; [rewrite (Y4 QN); exact QA|].
  intros lhost lport src stamp SO TK. destruct (request_arrives_via via_plain _ _ _ _ lhost lport src stamp plain_kind OQ SO TK) as (k & vk & DL & GK & KV & ANK & _ & _). exists k. split; [exact DL|].
  pose proof GK as (K1 & K2 & K3 & K4 & K5 & K6 & K7 & _). destruct GT as (G1 & G2 & G3 & G4 & G5 & G6 & G7 & _). destruct (VS z VA) as [WH WP]. pose proof ANK as (_ & _ & _ & A4 & A5 & _). destruct VE as [VE1 VE2].
  assert (CN : callid ack <> []) by (rewrite CA; destruct AN as (_ & _ & A3 & _); rewrite <- A3; exact (callid_some _ CI)).
  assert (F1 : addrs q From = addrs ack From). { destruct AN as (_ & _ & _ & _ & A6 & _). assert (E0 : addrs ack From = written_addr f0 :: map written_addr l0) by (rewrite FA, A6, RF; reflexivity). exact (FS _ _ _ E0 FT). }
  destruct OQ as (_ & _ & CQ & _).
  split. { unfold AckMatch, IsResponse. rewrite K3, K1, Y1, MA, K5, (Y4 QN), QA, G5, K6, CQ, Y1, MA, KV, RV, Z.eqb_refl. cbn [via_Last rev app hd_error at_ptr].
    replace (bseq (B "ACK") (B "ACK")) with true by reflexivity. change (0 <? 0) with false. cbn [negb andb]. apply via_compare_spec. exists vk, [], v', []. split; [reflexivity|]. split; [reflexivity|].
    cbn [written_via v_host v_port] in A4, A5. split; congruence. }
  destruct reply_dialog as [D1 D2]. split.
  { split; [rewrite K4, (Y3 CN), CA, G4; reflexivity|]. rewrite !K7. split; [rewrite F1, FA, D2; apply oks_kept; exact FF|]. rewrite Y5 by (rewrite TA; exact TN). rewrite TA, D1. apply oks_kept. exact TT. }
  rewrite K2, Y2, RA. cbn [option_map]. rewrite request_kept by exact UO. reflexivity.
Qed.
Lemma call_bye ta w : site_ok ta -> v_host (tp_via ta) = ha -> v_port (tp_via ta) = pa -> net_ok w ->
  exists bye s q text, NewBye req y None = Ok (bye, cseq req + 1) /\ carried ta (mkheld bye false) w uc s q text /\ method q = B "BYE" /\ cseq q = cseq req + 1 /\
  forall lhost lport src stamp, source_ok src -> (forall t, stamp = Some t -> token t) -> exists k, delivers lhost lport text src stamp k /\ method k = B "BYE" /\ cseq k = cseq r + 1 /\ in_dialog r x k /\ request k = Some uc /\
  forall tb wb x2, v_host (tp_via tb) <> ha \/ v_port (tp_via tb) <> pa -> net_ok wb -> reply_ok x2 -> rp_via x2 = [] -> rp_rid x2 = n_rid wb -> exists s2 a2 rsp text2, Send tb (mkheld (reply_msg k x2) false) wb = Ok s2 /\ sd_ok s2 = true /\ sd_wire s2 = [(a2, rsp, text2)] /\
    n_resolve wb (host_port (fst src) (Portstr (snd src))) = Some a2 /\
  forall lhost' lport', exists z, delivers lhost' lport' text2 (rp_src x2) (rp_stamp x2) z /\ answers q x2 z.
Proof.
  intros SA EH EP NA. destruct (answer_addrs _ _ _ _ _ _ _ _ _ OW AN RO RC CU) as (FF & FN & TT & TN & CI & UO). destruct (bye_fits _ _ _ _ _ _ _ _ _ OW AN RO RC RR CU SM SP (n_rid w)) as (bye & EA & RQ & MA & RA & CA & QA & VA & FA & TA).
  destruct (send_request_via via_site ta w bye site_kind (fun _ => proj1 SA) SA NA RQ) as (s & u & a & q & vq & bq & ES & EU & ER & EW & EO & OQ & SY & VS & _ & _ & _ & FS & _ & _).
  assert (u = uc) by congruence. subst u. exists bye, s, q, (msg_append (n_rid w) q). split; [exact EA|]. split; [split; [exact ES|]; split; [exact EO|]; exists a; split; [exact EW|exact ER]|].
  destruct SY as (Y1 & Y2 & Y3 & Y4 & Y5 & _). assert (QN : cseq bye <> 0) by lia. split; [congruence|]. split; [rewrite (Y4 QN); exact QA|].
  intros lhost lport src stamp SO TK. destruct (request_arrives _ _ _ _ lhost lport src stamp OQ SO TK) as (k & vk & DL & GK & KV & ANK & OK2 & SV). exists k. split; [exact DL|].
  pose proof GK as (K1 & K2 & K3 & K4 & K5 & K6 & K7 & _). destruct GT as (G1 & G2 & G3 & G4 & G5 & G6 & G7 & _). destruct (VS VA) as [WH WP].
  assert (CN : callid bye <> []) by (rewrite CA; destruct AN as (_ & _ & A3 & _); rewrite <- A3; exact (callid_some _ CI)).
  assert (F1 : addrs q From = addrs bye From) by (rewrite RF in FA; rewrite (FS _ _ _ FA FT); reflexivity).
  destruct reply_dialog as [D1 D2]. split; [congruence|]. split; [rewrite K5, (Y4 QN), QA, G5; reflexivity|]. split.
  { split; [rewrite K4, (Y3 CN), CA, G4; reflexivity|]. rewrite !K7. split; [rewrite F1, FA, <- G7; reflexivity|]. rewrite Y5 by (rewrite TA; exact TN). rewrite TA, D1. apply oks_kept. exact TT. }
  split; [rewrite K2, Y2, RA; cbn [option_map]; rewrite request_kept by exact UO; reflexivity|].
  intros tb wb x2 NE NB RO2 NV RID. destruct (answer_sent _ _ _ _ tb src stamp k vk x2 wb OQ (proj2 SO)) as (s2 & a2 & rsp & T1 & T2 & T3 & T4 & T5); [unfold elsewhere_than; rewrite WH, WP, EH, EP; destruct NE; [left|right]; congruence|assumption..|].
  exists s2, a2, rsp, (msg_append (n_rid wb) rsp). repeat (split; [assumption|]). intros h p. destruct (T5 h p) as (z & Z1 & Z2 & _). eauto.
Qed.
End Call.

(** * C93 *)
(** The caller has a transport made for [ca] at [ha]:[pa], the callee one made for [cb] at [hb]:[pb]; both may have been used for other
    messages before and in between. The caller invites [t] with the payload [p]; [src] and [stb] are where and when the INVITE arrives, [x] is any answer
    of the callee. After an answer with a Contact and without Record-Route the caller acknowledges it and, at any time, hangs up. *)
Theorem call_over_transports : forall ca la ta0 ta cb lb tb0 ha pa hb pb wa t tl from d p,
  NewTransport (ca :: la) ha pa = Ok ta0 -> addr_ok ca -> ha <> [] -> forallb viahost_class ha = true -> port_ok pa -> pa <> 5060 -> used_ok ta0 ta ->
  NewTransport (cb :: lb) hb pb = Ok tb0 -> (hb, pb) <> (ha, pa) ->
  Forall addr_given (t :: tl) -> Forall addr_given from -> draws_ok d -> net_ok wa -> payload_ok (n_rid wa) (written_payload (n_rid wa) p) ->
  exists u inv s req text, a_uri t = Some u /\ NewRequest [tp_via ta] (tp_contact ta) (B "INVITE") (t :: tl) from d = Ok inv /\
    carried ta (mkheld (set_pay (Some p) inv) false) wa u s req text /\ sd_held s = mkheld req false /\ method req = B "INVITE" /\ callid req = callid inv /\ cseq req = cseq inv /\ 0 < cseq req /\ pay req = Some p /\
  forall lhost lport src stb, source_ok src -> (forall t, stb = Some t -> token t) ->
  exists r, delivers lhost lport text src stb r /\ method r = B "INVITE" /\ request r = Some (written_uri u) /\ callid r = callid inv /\ cseq r = cseq inv /\ pay r = Some (written_payload (n_rid wa) p) /\
  forall tb wb x, used tb0 tb -> net_ok wb -> reply_ok x -> rp_via x = [] -> rp_rid x = n_rid wb ->
  exists s2 a2 rsp text2, Send tb (mkheld (reply_msg r x) false) wb = Ok s2 /\ sd_ok s2 = true /\ sd_wire s2 = [(a2, rsp, text2)] /\ n_resolve wb (host_port (fst src) (Portstr (snd src))) = Some a2 /\
  forall lhost' lport', exists y, delivers lhost' lport' text2 (rp_src x) (rp_stamp x) y /\ answers req x y /\
  forall c cl, rp_contact x = c :: cl -> rp_rr x = [] -> exists uc, a_uri c = Some uc /\
  (forall ta' w, used_ok (sd_tp s) ta' -> net_ok w ->
    exists ack sk q textk, NewAck y req = Ok ack /\ carried ta' (mkheld ack false) w uc sk q textk /\ method q = B "ACK" /\ cseq q = cseq req /\
    forall lhost lport src stamp, source_ok src -> (forall t, stamp = Some t -> token t) -> exists k, delivers lhost lport textk src stamp k /\ AckMatch r k = true /\ in_dialog r x k /\ request k = Some uc) /\
  (forall ta' w, used_ok (sd_tp s) ta' -> net_ok w ->
    exists bye sk q textk, NewBye req y None = Ok (bye, cseq req + 1) /\ carried ta' (mkheld bye false) w uc sk q textk /\ method q = B "BYE" /\ cseq q = cseq req + 1 /\
    forall lhost lport src stamp, source_ok src -> (forall t, stamp = Some t -> token t) -> exists k, delivers lhost lport textk src stamp k /\ method k = B "BYE" /\ cseq k = cseq r + 1 /\ in_dialog r x k /\ request k = Some uc /\
    forall tb' wb x2, used tb0 tb' -> net_ok wb -> reply_ok x2 -> rp_via x2 = [] -> rp_rid x2 = n_rid wb ->
    exists s3 a3 rsp2 text3, Send tb' (mkheld (reply_msg k x2) false) wb = Ok s3 /\ sd_ok s3 = true /\ sd_wire s3 = [(a3, rsp2, text3)] /\ n_resolve wb (host_port (fst src) (Portstr (snd src))) = Some a3 /\
    forall lhost' lport', exists z, delivers lhost' lport' text3 (rp_src x2) (rp_stamp x2) z /\ answers q x2 z).
Proof.
  intros ca la ta0 ta cb lb tb0 ha pa hb pb wa t tl from d p MA CA H1 H2 PA N5 UA MB NE FT FF DO WA PO.
  destruct (made_site _ _ _ _ _ MA CA H1 H2 PA N5) as (S0 & E1 & E2). destruct (used_site _ _ UA S0) as (SA & E3 & E4).
  assert (EB : forall tb, used tb0 tb -> v_host (tp_via tb) = hb /\ v_port (tp_via tb) = pb).
  { intros tb UB. destruct (transport_advertises _ _ _ _ MB) as (VB & _). destruct (used_at _ _ UB) as (UV & _). rewrite VB in UV. cbn in UV. injection UV as V1 V2. auto. }
  assert (ND : forall tb, used tb0 tb -> v_host (tp_via tb) <> ha \/ v_port (tp_via tb) <> pa).
  { intros tb UB. destruct (EB tb UB) as [-> ->]. destruct (list_eq_dec Byte.byte_eq_dec hb ha) as [->|D]; [right; congruence|left; exact D]. }
  destruct (new_invite ta t tl from d (n_rid wa) p SA FT FF DO PO) as (u & inv & v0 & EI & TU & RQ & MI & RI & VI & VH & VP & CB & CN & (f & l & IF & TG)).
  set (m := set_pay (Some p) inv) in *. destruct (value_of (B "tag") (a_param f)) as [tg|] eqn:ETG; [|congruence].
  destruct (send_request_via via_site ta wa m site_kind (fun _ => proj1 SA) SA WA RQ) as (s & u' & a & req & v & b & ES & EU & ER & EW & EO & OW & SY & _ & VS & HD & _ & FS & _ & _).
  assert (u' = u) by (change (request inv = Some u') in EU; congruence). subst u'. change (vias m) with (vias inv) in *. change (addrs m) with (addrs inv) in *. rewrite VI in HD. destruct (VS v0 VI) as [WH WP]. pose proof SY as (Y1 & Y2 & Y3 & Y4 & _ & _ & _ & _ & Y9 & _).
  change (method m) with (method inv) in Y1. change (request m) with (request inv) in Y2. change (callid m) with (callid inv) in Y3. change (cseq m) with (cseq inv) in Y4. change (pay m) with (Some p) in Y9.
  assert (QN : cseq inv <> 0) by lia. specialize (Y3 CN). specialize (Y4 QN). assert (RF : addrs req From = f :: l) by (rewrite <- IF; exact (FS _ _ _ IF ETG)).
  exists u, inv, s, req, (msg_append (n_rid wa) req). split; [exact TU|]. split; [exact EI|]. split; [split; [exact ES|]; split; [exact EO|]; exists a; split; [exact EW|exact ER]|]. split; [exact HD|]. split; [congruence|]. split; [exact Y3|]. split; [exact Y4|]. split; [lia|]. split; [exact Y9|].
  intros lhost lport src stb SO TK. destruct (request_arrives _ _ _ _ lhost lport src stb OW SO TK) as (r & v' & DL & GT & RV & AN & OK2 & SV). exists r. split; [exact DL|].
  pose proof GT as (G1 & G2 & G3 & G4 & G5 & G6 & G7 & G8 & G9 & G10 & _). split; [congruence|]. split; [rewrite G2, Y2, RI; reflexivity|]. split; [congruence|]. split; [congruence|]. split; [rewrite G10, Y9; reflexivity|].
  intros tb wb x UB NB RO NV RID.
  assert (EL : forall tb, used tb0 tb -> elsewhere_than tb v) by (intros tb1 U1; unfold elsewhere_than; rewrite WH, WP, VH, VP, E3, E4, E1, E2; destruct (ND tb1 U1); [left|right]; congruence).
  destruct (answer_sent _ _ _ _ tb src stb r v' x wb OW (proj2 SO) (EL tb UB) NB GT RV AN OK2 SV RO NV RID) as (s2 & a2 & rsp & T1 & T2 & T3 & T4 & T5).
  exists s2, a2, rsp, (msg_append (n_rid wb) rsp). split; [exact T1|]. split; [exact T4|]. split; [exact T3|]. split; [exact T2|]. intros lhost' lport'. destruct (T5 lhost' lport') as (y & DY & AY & VB). exists y. split; [exact DY|]. split; [exact AY|].
  intros c cl RC RR. assert (UC : exists uc, a_uri c = Some uc) by (destruct RO as (_ & _ & _ & _ & PC & _); rewrite RC in PC; destruct (Forall_inv PC) as ((u0 & E & _) & _); eauto). destruct UC as (uc & UC). exists uc. split; [exact UC|].
  pose proof AN as (_ & _ & _ & A4 & A5 & _). cbn [written_via v_host v_port] in A4, A5.
  assert (SS : forall ta', used_ok (sd_tp s) ta' -> site_ok ta' /\ v_host (tp_via ta') = ha /\ v_port (tp_via ta') = pa).
  { intros ta' U. destruct (used_site ta ta' (once_more_ok _ _ _ _ _ WA ES U) SA) as (K1 & K2 & K3). split; [exact K1|]. split; congruence. }
  assert (CQ : 0 < cseq req /\ cseq req + 1 < 2 ^ 63) by lia. destruct CQ as [CQ1 CQ2]. split.
  - intros ta' w U NW. destruct (SS ta' U) as (K1 & _). exact (call_ack _ _ _ _ _ _ _ _ _ _ _ OW GT RV (conj A4 A5) AY VB RO RC RR UC CQ1 _ _ _ RF ETG ta' w K1 NW).
  - intros ta' w U NW. destruct (SS ta' U) as (K1 & K2 & K3).
    destruct (call_bye _ _ _ _ _ _ _ _ _ _ ha pa OW GT AY RO RC RR UC CQ2 CQ1 _ _ _ RF ETG ta' w K1 K2 K3 NW) as (bye & sk & q & textk & B1 & B2 & BM & BC & B3).
    exists bye, sk, q, textk. split; [exact B1|]. split; [exact B2|]. split; [exact BM|]. split; [exact BC|]. intros lh lp src' st' SO' TK'. destruct (B3 lh lp src' st' SO' TK') as (k & B4 & B5 & B6 & B7 & B8 & B9). exists k. repeat (split; [assumption|]). intros tb' wb' x2 U' NB' RO2 NV2 RID2. exact (B9 tb' wb' x2 (ND tb' U') NB' RO2 NV2 RID2).
Qed.

(** ** Example: a call from 1.2.3.4:40000 to bob at 5.6.7.8:40001, who answers with a Contact *)
Definition ex_bob : addr := mkaddr (Some (mkuri (B "sip") (B "bob") [] (B "5.6.7.8") 40001 [] [])) (B "Bob") [].
Definition ex_alice : addr := mkaddr (Some (mkuri [] (B "alice") [] (B "1.2.3.4") 0 [] [])) [] [].
Definition ex_draws : draws := n_draws (ex_wnet "a").
Definition ex_taken : P_Call.reply := mkreply 200 [] [(B "tag", B "xyz")] [ex_bob] [] None (B "1") (B "5.6.7.8", 40001) (Some (B "123")).
Example peer_call_example : Forall addr_given [ex_bob] /\ Forall addr_given [ex_alice] /\ draws_ok ex_draws /\ payload_ok (B "1") (written_payload (B "1") (Misc (B "text/plain") (B "hello"))) /\
  reply_ok ex_taken /\ rp_contact ex_taken = [ex_bob] /\ rp_rr ex_taken = [] /\ rp_via ex_taken = [] /\ rp_rid ex_taken = n_rid (ex_wnet "b") /\ (B "5.6.7.8", 40001) <> (B "1.2.3.4", 40000).
Proof.
  assert (T : forall b, forallb token_class b = true -> b <> [] -> token b) by (split; assumption).
  assert (UB : addr_ok ex_bob). { split; [eexists; split; [reflexivity|]|split; [right; left; split; [discriminate|reflexivity] || (right; right; split; [constructor; apply T; [reflexivity|discriminate]|reflexivity])|constructor]].
    split; [|constructor]. split; [eexists _, _; split; [reflexivity|]; repeat split|]. split; [discriminate|]. split; [split; [discriminate|]; split; reflexivity|]. split; [cbn; lia|]. split; constructor. }
  split; [constructor; [apply addr_ok_given; exact UB|constructor]|]. split.
  { constructor; [|constructor]. split; [eexists; split; [reflexivity|]|split; [left; reflexivity|constructor]]. split; [|constructor]. split; [eexists _, _; split; [reflexivity|]; repeat split|]. split; [discriminate|]. split; [split; [discriminate|]; split; reflexivity|]. split; [cbn; lia|]. split; constructor. }
  split; [split; [reflexivity|]; split; [reflexivity|]; split; [reflexivity|discriminate]|].
  split; [split; [reflexivity|]; split; [exists (B "text"), (B "plain"); split; [reflexivity|]; split; apply T; reflexivity || discriminate|]; split; [discriminate|]; split; [discriminate|reflexivity]|].
  split; [|split; [reflexivity|]; split; [reflexivity|]; split; [reflexivity|]; split; [reflexivity|discriminate]].
  split; [cbn; lia|]. split; [constructor|]. split; [constructor|]. split; [constructor; [split; [|right; left]; apply T; reflexivity || discriminate|constructor]|]. split; [constructor; [exact UB|constructor]|]. split; [constructor|]. split; [constructor|]. split; [discriminate|]. split; [discriminate|]. intros t E. injection E as <-. apply T; [reflexivity|discriminate].
Qed.
Print Assumptions call_over_transports.
