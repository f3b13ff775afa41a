(** C91: a call survives lost datagrams. The INVITE, the BYE, their replies and the ACK may be lost: the requests are sent again when the
    timer of the dialog fires, with the same identity, and the ACK is sent again when the answer comes again. *)
From Verif Require Import Bytes BytesLemmas GoLib GoLibLemmas SdpModel SdpProofs SipText SipTypes SipAppend UtilModel P_Text P_Lists UriSpec P_Uri MsgModel MsgSpec MsgGrammar P_MsgText MsgWf MsgRound P_MsgRound
  DialogMsg P_DialogMsg P_DialogWire TransportModel DialogModel P_DialogEnd P_Dialog P_DialogSafe P_DialogFail P_DialogPeer P_DialogRuns P_DialogCount P_DialogCall P_DialogTell P_DialogWhere P_Written P_Call.
Local Open Scope Z_scope.

(** ** Specification *)
(** [y] is the request [x] once more: everything the peer identifies a request by is the same, and so is all it carries; only the time stamp
    in the Via and Max-Forwards may differ. *)
Definition copy_of (x y : msg) : Prop :=
  method y = method x /\ request y = request x /\ callid y = callid x /\ cseq y = cseq x /\ cseqmethod y = cseqmethod x /\ addrs y = addrs x /\ strs y = strs x /\ pay y = pay x /\ (xheader y = xheader x /\ expires y = expires x /\ minexpires y = minexpires x) /\
  exists v w b, vias x = [v] /\ vias y = [w] /\ v_host w = v_host v /\ v_port w = v_port v /\ value_of (B "branch") (v_param v) = Some b /\ value_of (B "branch") (v_param w) = Some b.
(** datagrams: what was sent, and its text *)
Definition sent_to (k : sock) (l : list (msg * bytes)) : list out := map (fun c => OSend (so_remote k) (fst c) (snd c)) l.
(** The datagrams [l] are the request [x] and its copies; each has one hop less than the one before. *)
Definition copies (x : msg) (l : list (msg * bytes)) : Prop :=
  (exists t l', l = (x, t) :: l') /\ forall i c, nth_error l i = Some c -> copy_of x (fst c) /\ maxforwards (fst c) = maxforwards x - Z.of_nat i.
(** the peer has answered one of the datagrams, the [i]-th *)
Definition answered_copy (k : sock) (l : list (msg * bytes)) (p : nat * reply) (r : msg) : Prop := exists c, nth_error l (fst p) = Some c /\ answered k (snd c) (snd p) r.
(** the hops the application allows *)
Definition hops (m : msg) : Z := if maxforwards m =? 0 then 70 else maxforwards m.

Lemma copy_refl x v b : vias x = [v] -> value_of (B "branch") (v_param v) = Some b -> copy_of x x.
Proof. intros V W. unfold copy_of. repeat (split; [repeat split; reflexivity|]). exists v, v, b. repeat split; assumption. Qed.
Lemma copy_sym x y : copy_of x y -> copy_of y x.
Proof. intros (C1 & C2 & C3 & C4 & C5 & C6 & C7 & C8 & C9 & v & w & b & V1 & V2 & V3 & V4 & V5 & V6). destruct C9 as (? & ? & ?). unfold copy_of. do 8 (split; [congruence|]). split; [repeat split; congruence|]. exists w, v, b. repeat split; congruence. Qed.
Lemma copy_trans x y z : copy_of x y -> copy_of y z -> copy_of x z.
Proof.
  intros (C1 & C2 & C3 & C4 & C5 & C6 & C7 & C8 & C9 & v & w & b & V1 & V2 & V3 & V4 & V5 & V6) (D1 & D2 & D3 & D4 & D5 & D6 & D7 & D8 & D9 & v' & w' & b' & W1 & W2 & W3 & W4 & W5 & W6). destruct C9 as (? & ? & ?), D9 as (? & ? & ?). unfold copy_of. do 8 (split; [congruence|]). split; [repeat split; congruence|].
  rewrite V2 in W1. injection W1 as <-. exists v, w', b. split; [exact V1|]. split; [exact W2|]. split; [congruence|]. split; [congruence|]. split; congruence.
Qed.
Lemma copy_fit cfg x : fit cfg x -> copy_of x x.
Proof. intros (_ & _ & _ & _ & v & b & V & _ & W). eapply copy_refl; eassumption. Qed.
(** A response to one copy is a response to the other. *)
Lemma copy_match x y r : copy_of x y -> ResponseMatch x r = true -> ResponseMatch y r = true.
Proof.
  intros (C1 & C2 & C3 & C4 & C5 & C6 & C7 & C8 & C9 & v & w & b & V1 & V2 & V3 & V4 & V5 & V6) M. apply response_match_spec in M. apply response_match_spec. destruct M as (M1 & M2 & M3 & pre & w1 & w2 & post & M4 & M5 & (A1 & A2 & z & A3 & A4)).
  split; [exact M1|]. split; [congruence|]. split; [congruence|]. rewrite V1 in M5. injection M5 as <- <-. exists pre, w1, w, []. split; [exact M4|]. split; [exact V2|]. split; [congruence|]. split; [congruence|]. exists z. split; [exact A3|congruence].
Qed.

Lemma stamp_branch m t v l p : vias m = v :: l -> addTimestamp m t = Ok (set_vias (set_vparam p v :: l) m) -> value_of (B "branch") p = value_of (B "branch") (v_param v).
Proof.
  intros V E. unfold addTimestamp in E. destruct t as [x|].
  - rewrite V in E. injection E as <-. apply value_skip. reflexivity.
  - apply (f_equal (fun z => match z with Ok q => vias q | Panic => [] end)) in E. cbn [vias set_vias] in E. rewrite V in E. injection E as E. rewrite E. reflexivity.
Qed.
Section Lossy.
Variable cfg : config.
Hypothesis NF : forall n, faultless (c_world cfg n).
Definition genuine (c : msg * bytes) : Prop := fit cfg (fst c) /\ exists n, snd c = msg_append (w_rid (c_world cfg n)) (fst c).
(** ** The timer *)
Definition resent (s s' : dstate) : Prop := so s' = so s /\ cso s' = cso s /\ st s' = st s /\ remote s' = remote s /\ lseq s' = lseq s /\ rseq s' = rseq s /\ routes s' = routes s /\ (req s = None -> req s' = None /\ invite s' = the_request s').
Lemma resend_turn s k : so s = Some k -> fit cfg (the_request s) -> resends s < c_max cfg -> 2 <= maxforwards (the_request s) ->
  exists s' y n, handle cfg EReqTimer s = mkres s' [OSend (so_remote k) y (msg_append (w_rid (c_world cfg n)) y)] Cont /\ the_request s' = y /\ fit cfg y /\ copy_of (the_request s) y /\ maxforwards y = maxforwards (the_request s) - 1 /\
    rtimer s' = true /\ resends s' = resends s + 1 /\ resent s s'.
Proof.
  intros K FX RS MF. cbn [handle]. rewrite upd_seq. unfold resendRequest, look at 1. change (resends (set_rtimer false s)) with (resends s). destruct (Z.ltb_spec (resends s) (c_max cfg)); [|lia].
  rewrite seq_eq. unfold look. change (the_request (set_rtimer false s)) with (the_request s). set (s0 := set_rtimer false s). set (x := the_request s) in *. rewrite send_eq. cbv zeta. destruct (Z.eqb_spec (maxforwards x) 1); [lia|].
  destruct (the_request_timer (lowered x) s0) as [T1 N1]. pose proof (the_request_routes (lowered x) s0) as P1. destruct (the_request_kept (lowered x) s0) as (A1 & A2 & A3 & A4 & A5 & A6 & A7 & A8 & AR). set (s1 := set_the_request (lowered x) s0) in *. clearbody s1.
  destruct (NF (clock s1)) as (_ & _ & _ & WR & TS & _). destruct (fit_stamp cfg (lowered x) (w_stamp (c_world cfg (clock s1))) (fit_lowered _ _ FX) TS) as (y & EY & FY & (vx & vl & vp & VX & EX)). rewrite EY.
  destruct (the_request_timer y (set_clock (Datatypes.S (clock s1)) s1)) as [T2 N2]. pose proof (the_request_routes y (set_clock (Datatypes.S (clock s1)) s1)) as P2. destruct (the_request_kept y (set_clock (Datatypes.S (clock s1)) s1)) as (B1 & B2 & B3 & B4 & B5 & B6 & B7 & B8 & BR). pose proof (the_request_set y (set_clock (Datatypes.S (clock s1)) s1)) as B9. set (s2 := set_the_request y _) in *. clearbody s2.
  cbn [so cso st remote lseq req invite rseq rtimer resends routes set_clock] in B1, B2, B3, B4, B5, B6, B7, B8, BR, T2, N2, P2. replace (so s2) with (Some k) by (rewrite B1, A1; symmetry; exact K). rewrite WR. cbn [r_v r_state r_out]. rewrite upd_seq. unfold upd, go. cbn [r_v r_state r_out app].
  assert (LW : lowered x = set_maxforwards (maxforwards x - 1) x) by (unfold lowered; destruct (Z.ltb_spec 0 (maxforwards x)); [reflexivity|lia]).
  eexists _, y, (clock s1). split; [reflexivity|]. split; [exact B9|]. split; [exact FY|]. split.
  { pose proof FX as (_ & _ & _ & _ & v & b & V & _ & HB). destruct FY as (_ & _ & _ & _ & w & b' & W & _ & HB'). rewrite EX, LW. unfold copy_of. cbn [method request callid cseq cseqmethod addrs strs pay xheader expires minexpires vias set_vias set_maxforwards]. do 8 (split; [reflexivity|]). split; [repeat split|].
    rewrite EX in EY. pose proof (stamp_branch _ _ _ _ _ VX EY) as SB. rewrite LW in VX. cbn [vias set_maxforwards] in VX. rewrite V in VX. injection VX as <- <-. rewrite EX in W. cbn [vias set_vias] in W. injection W as W. exists v, w, b. split; [exact V|]. split; [rewrite W; reflexivity|]. split; [rewrite <- W; reflexivity|]. split; [rewrite <- W; reflexivity|]. split; [exact HB|].
    rewrite <- W. cbn [set_vparam v_param]. congruence. }
  split; [rewrite EX, LW; reflexivity|]. split; [reflexivity|]. split; [reflexivity|].
  assert (TQ : the_request (set_rtimer true (set_resends (resends s + 1) s2)) = the_request s2) by reflexivity.
  change (so s0) with (so s) in A1. change (cso s0) with (cso s) in A2. change (st s0) with (st s) in A3. change (remote s0) with (remote s) in A4. change (lseq s0) with (lseq s) in A5. change (rseq s0) with (rseq s) in AR. change (routes s0) with (routes s) in P1.
  unfold resent. cbn [so cso st remote lseq rseq routes req invite set_rtimer set_resends]. split; [congruence|]. split; [congruence|]. split; [congruence|]. split; [congruence|]. split; [congruence|]. split; [congruence|]. split; [congruence|].
  intros RN. assert (R1 : req s1 = None) by (rewrite A6; change (req s0) with (req s); rewrite RN; reflexivity). split; [cbn; rewrite B6, R1; reflexivity|]. rewrite TQ, B9. cbn. apply B7. exact R1.
Qed.
Lemma resent_refl s : (req s = None -> invite s = the_request s) -> resent s s.
Proof. intros H. unfold resent. repeat (split; [reflexivity|]). intros RN. auto. Qed.
Lemma resent_trans s s' s'' : resent s s' -> resent s' s'' -> resent s s''.
Proof. intros (A1 & A2 & A3 & A4 & A5 & A6 & A7 & A8) (B1 & B2 & B3 & B4 & B5 & B6 & B7 & B8). unfold resent. repeat (split; [congruence|]). intros RN. apply B8. apply A8. exact RN. Qed.
Lemma the_invite s : req s = None -> invite s = the_request s. Proof. intros E. unfold the_request. rewrite E. reflexivity. Qed.
Lemma resend_run k j : forall s out, so s = Some k -> fit cfg (the_request s) -> rtimer s = true -> resends s + Z.of_nat j <= c_max cfg -> Z.of_nat j + 1 <= maxforwards (the_request s) ->
  exists l s', length l = j /\ run cfg (mkres s out Cont) (repeat EReqTimer j) (mkres s' (out ++ sent_to k l) Cont) /\ Forall genuine l /\ (forall i c, nth_error l i = Some c -> copy_of (the_request s) (fst c) /\ maxforwards (fst c) = maxforwards (the_request s) - 1 - Z.of_nat i) /\
    copy_of (the_request s) (the_request s') /\ fit cfg (the_request s') /\ resent s s' /\ rtimer s' = true /\ resends s' = resends s + Z.of_nat j /\ maxforwards (the_request s') = maxforwards (the_request s) - Z.of_nat j.
Proof.
  induction j as [|j IH]; intros s out K FX RT RS MF.
  - exists [], s. split; [reflexivity|]. split; [cbn; rewrite app_nil_r; constructor|]. split; [constructor|]. split; [intros [|i] c; discriminate|]. split; [apply (copy_fit _ _ FX)|]. split; [exact FX|]. split; [apply resent_refl, the_invite|]. split; [exact RT|]. split; lia.
  - destruct (resend_turn s k K FX) as (s1 & y & n & T & TR & FY & CY & MY & RT1 & RS1 & RE); [lia|lia|]. pose proof RE as (K1 & _). rewrite K in K1.
    destruct (IH s1 (out ++ [OSend (so_remote k) y (msg_append (w_rid (c_world cfg n)) y)])) as (l & s' & LL & R & G & CP & CT & FT & RE' & RT' & RS' & MF'); [exact K1|rewrite TR; exact FY|exact RT1|lia|rewrite TR; lia|]. rewrite TR in CP, CT, MF'.
    exists ((y, msg_append (w_rid (c_world cfg n)) y) :: l), s'. split; [cbn; rewrite LL; reflexivity|]. split.
    { cbn [repeat]. apply run_step; [reflexivity|exact RT|]. cbn [r_state r_out]. rewrite T. cbn [r_state r_out r_v]. cbn [sent_to map fst snd]. rewrite <- app_assoc in R. exact R. }
    split; [constructor; [split; [exact FY|exists n; reflexivity]|exact G]|]. split.
    { intros [|i] c E; cbn [nth_error] in E; [injection E as <-; cbn [fst]; split; [exact CY|lia]|]. destruct (CP i c E) as [C1 C2]. split; [exact (copy_trans _ _ _ CY C1)|lia]. }
    split; [exact (copy_trans _ _ _ CY CT)|]. split; [exact FT|]. split; [exact (resent_trans _ _ _ RE RE')|]. split; [exact RT'|]. split; lia.
Qed.
(** ** Replies to any of the copies *)
Lemma copy_reply k l i p y : Forall genuine l -> (forall c, In c l -> copy_of y (fst c)) -> (i < length l)%nat -> reply_ok p -> exists r, answered_copy k l (i, p) r /\
  sip2 r /\ ResponseMatch y r = true /\ callid r = callid y /\ cseq r = cseq y /\ status r = rp_status p /\ pay r = rp_pay p /\ addrs r Contact = rp_contact p /\ addrs r RecordRoute = rp_rr p /\
  addrs r From = map written_addr (addrs y From) /\ (forall f, Forall addr_ok (addrs r f)) /\ addrs r To <> [] /\ exists v, vias r = [v] /\ via_ok v.
Proof.
  intros G CP LT RO. destruct (nth_error l i) as [c|] eqn:E; [|apply nth_error_None in E; lia]. pose proof (nth_error_In _ _ E) as I. rewrite Forall_forall in G. destruct (G c I) as [FC [n TC]]. pose proof (CP c I) as C.
  destruct (reply_comes cfg (fst c) k n p FC RO) as (r & AN & S2 & MT & EC & EQ & ES & EP & ET & ER & EF & R). exists r. split; [exists c; split; [exact E|]; rewrite TC; exact AN|]. split; [exact S2|]. split; [exact (copy_match _ _ _ (copy_sym _ _ C) MT)|].
  destruct C as (C1 & C2 & C3 & C4 & C5 & C6 & C7 & C8 & C9 & _). split; [congruence|]. split; [congruence|]. split; [exact ES|]. split; [exact EP|]. split; [exact ET|]. split; [exact ER|]. split; [congruence|exact R].
Qed.
Definition heard (ps : list (nat * reply)) : list out := concat (map (fun p => told (snd p)) ps).
Lemma progress_copies k l y ps : Forall genuine l -> (forall c, In c l -> copy_of y (fst c)) -> Forall (fun p => (fst p < length l)%nat /\ reply_ok (snd p) /\ rp_status (snd p) < 200) ps -> forall s out, calling cfg k y s ->
  exists rs s', Forall2 (answered_copy k l) ps rs /\ calling cfg k y s' /\ run cfg (mkres s out Cont) (map EMsg rs) (mkres s' (out ++ heard ps) Cont).
Proof.
  intros G CP. induction 1 as [|[i p] ps (IL & RO & LT) _ IH]; intros s out C.
  - exists [], s. split; [constructor|]. split; [exact C|]. cbn. rewrite app_nil_r. constructor.
  - cbn [fst snd] in *. destruct (copy_reply k l i p y G CP IL RO) as (r & AN & S2 & MT & EC & EQ & ES & EP & _). pose proof (calling_request _ _ _ _ C) as TR.
    assert (MA : matching s r) by (split; [exact S2|]; rewrite TR; auto). assert (RP : 100 <= status r < 200) by (destruct RO as (R & _); lia).
    pose proof (progress_turn cfg s r MA RP (has_audio_reply _ _ RO EP)) as T. set (s1 := set_st _ _) in T.
    assert (C1 : calling cfg k y s1). { destruct C as (C1 & C2 & C3 & C4 & C5 & C6 & C7 & C8). repeat (split; [assumption|]). change (st s1) with (last_state (progress (status r)) (st s)). unfold progress. destruct (_ =? 100); [left; reflexivity|]. destruct (_ || _)%bool; [right; reflexivity|exact C8]. }
    destruct (IH s1 (out ++ media r ++ progress (status r)) C1) as (rs & s' & F & C' & R). exists (r :: rs), s'. split; [constructor; assumption|]. split; [exact C'|].
    cbn [map]. apply run_step; [reflexivity|reflexivity|]. cbn [r_state r_out]. rewrite T. cbn [r_state r_out r_v]. unfold heard. cbn [map concat snd].
    assert (TE : told p = media r ++ progress (status r)) by (unfold told, media_of, media; rewrite EP, ES; reflexivity). rewrite TE, (app_assoc out _ (concat _)). exact R.
Qed.
(** ** The answer comes again *)
Lemma again_turn s m k c cs u v : so s = Some k -> matching s m -> method (the_request s) = B "INVITE" -> status m = 200 -> addrs m Contact = c :: cs -> a_uri c = Some u -> has_audio m -> remote s <> None -> fit cfg (the_request s) ->
  (forall f, Forall addr_ok (addrs m f)) -> addrs m To <> [] -> addrs m From = map written_addr (addrs (the_request s) From) -> vias m = [v] -> via_ok v ->
  exists n ack text, method ack = B "ACK" /\ acked (the_request s) (Some u) text /\
  handle cfg (EMsg m) s = mkres (set_remote (Some m) (set_st (st s) (set_rtimer false (set_routes [] (set_clock n s))))) (OSend (so_remote k) ack text :: media m) Cont.
Proof.
  intros K MA I S CT CU AU RN FX AO NT EF VV VO. pose proof MA as (_ & MC & M). apply response_match_spec in M. destruct M as (_ & MQ & _).
  destruct (ack_made cfg _ _ _ _ _ _ FX MC MQ CT CU AO NT EF VV VO) as (ack & EA & OKA & MF & A1 & A2 & A3 & A4 & A5 & A6 & A7).
  destruct (ack_sent cfg NF s k (the_request s) ack u v K OKA MF A1 A2 A3 A4 A5 VO A6 A7) as (n & vs & text & AK & SND). exists n, (set_vias vs ack), text. split; [exact A1|]. split; [exact AK|].
  rewrite (matching_split _ _ _ MA) by lia. rewrite I, bseq_refl, CT, S, EA. cbn [Z.leb Z.compare Pos.compare Pos.compare_cont andb val]. rewrite SND. clear SND. rewrite !upd_seq. rewrite seq_eq, (sdp_reported _ _ AU). fold (media m). cbn [r_v r_state r_out].
  rewrite (after_answer cfg m _ S) by (rewrite (matching_method _ _ MA); exact I). cbn [r_v r_state r_out]. change (remote (set_rtimer false (set_routes [] (set_clock n s)))) with (remote s). destruct (remote s); [|congruence]. rewrite app_nil_r. reflexivity.
Qed.
(** the call is going on: the INVITE [y] was answered with [r] *)
Definition talking (k : sock) (y r : msg) (s : dstate) : Prop := so s = Some k /\ sockets_good cfg s /\ req s = None /\ invite s = y /\ remote s = Some r /\ lseq s = cseq y /\ st s = Answered.
Definition acks_again (k : sock) (p : option payload) (l : list (msg * bytes)) : list out := concat (map (fun c => OSend (so_remote k) (fst c) (snd c) :: media_of p) l).
Lemma again_run k y r p c cs u v d : fit cfg y -> method y = B "INVITE" -> sip2 r -> callid r = callid y -> ResponseMatch y r = true -> status r = 200 -> addrs r Contact = c :: cs -> a_uri c = Some u -> has_audio r -> pay r = p ->
  (forall f, Forall addr_ok (addrs r f)) -> addrs r To <> [] -> addrs r From = map written_addr (addrs y From) -> vias r = [v] -> via_ok v -> forall s out, talking k y r s ->
  exists l s', length l = d /\ Forall (fun c => method (fst c) = B "ACK" /\ acked y (Some u) (snd c)) l /\ talking k y r s' /\ run cfg (mkres s out Cont) (repeat (EMsg r) d) (mkres s' (out ++ acks_again k p l) Cont).
Proof.
  intros FY MI S2 EC MT ST CT CU AU EP AO NT EF VV VO. induction d as [|d IH]; intros s out T.
  - exists [], s. split; [reflexivity|]. split; [constructor|]. split; [exact T|]. cbn. rewrite app_nil_r. constructor.
  - pose proof T as (K & SG & RQ & IN & RM & LS & SA). assert (TR : the_request s = y) by (unfold the_request; rewrite RQ; exact IN).
    destruct (again_turn s r k c cs u v K) as (n & ack & text & AM & AK & H); try assumption; try (rewrite TR; assumption); [split; [exact S2|rewrite TR; auto]|rewrite RM; discriminate|]. rewrite TR in AK. set (s1 := set_remote _ _) in H.
    destruct (IH s1 (out ++ OSend (so_remote k) ack text :: media r)) as (l & s' & LL & F & T' & R); [repeat (split; [assumption|]); split; [reflexivity|split; assumption]|]. exists ((ack, text) :: l), s'. split; [cbn; congruence|]. split; [constructor; [split; assumption|exact F]|]. split; [exact T'|].
    cbn [repeat]. apply run_step; [reflexivity|reflexivity|]. cbn [r_state r_out]. rewrite H. cbn [r_state r_out r_v]. unfold acks_again. cbn [map concat fst snd].
    assert (ME : media r = media_of p) by (unfold media, media_of; rewrite EP; reflexivity). rewrite <- ME. rewrite <- app_assoc in R. rewrite ME in R |- *. exact R.
Qed.
(** an answer to the INVITE which comes after the BYE was sent is passed over *)
Lemma late_run r e : forall s out, sip2 r -> callid r = callid (the_request s) -> 0 < status r -> cseqmethod r <> method (the_request s) -> run cfg (mkres s out Cont) (repeat (EMsg r) e) (mkres s out Cont).
Proof.
  intros s out S2 EC SP NE. assert (H : handle cfg (EMsg r) s = go s).
  { cbn [handle]. unfold handleMessage. destruct S2 as [-> ->]. cbn [negb Z.eqb Pos.eqb orb]. unfold look. rewrite EC, bseq_refl. cbn [negb]. unfold IsResponse. destruct (Z.ltb_spec 0 (status r)); [|lia]. unfold handleResponse, look.
    replace (ResponseMatch (the_request s) r) with false; [reflexivity|]. symmetry. apply not_true_is_false. intros M. apply response_match_spec in M. destruct M as (_ & _ & M & _). contradiction. }
  induction e as [|e IH]; [constructor|]. cbn [repeat]. apply run_step; [reflexivity|reflexivity|]. cbn [r_state r_out]. rewrite H. cbn [go r_state r_out r_v]. rewrite app_nil_r. exact IH.
Qed.
End Lossy.

(** * C91 *)
(** [j0] is how often the timer fires before a reply to the INVITE comes, [j1] before one to the BYE comes: each time, the request or every
    reply to it was lost. The replies [ps], [a] and [b] answer any of the copies sent, in any order and any number of times. The answer comes
    [d] times more, since its ACK was lost, and [e] times after the application has hung up. *)
Theorem call_survives_loss : forall cfg m j0 ps ia a d j1 e ib b c cs,
  (forall n, faultless (c_world cfg n)) -> invite_given cfg m ->
  Z.of_nat j0 <= c_max cfg -> Z.of_nat j0 + 2 <= hops m -> Z.of_nat j1 <= c_max cfg -> Z.of_nat j1 + 2 <= 70 ->
  Forall (fun p => (fst p <= j0)%nat /\ reply_ok (snd p) /\ rp_status (snd p) < 200) ps -> (ia <= j0)%nat -> reply_ok a -> rp_status a = 200 -> rp_contact a = c :: cs ->
  (ib <= j1)%nat -> reply_ok b -> rp_status b = 200 -> rp_pay b = None ->
  exists k inv invs rs answer ack ack_text acks k' bye byes confirm s,
    method inv = B "INVITE" /\ request inv = request m /\ (callid m <> [] -> callid inv = callid m) /\ (cseq m <> 0 -> cseq inv = cseq m) /\ maxforwards inv = hops m - 1 /\
    length invs = S j0 /\ copies inv invs /\ Forall2 (answered_copy k invs) ps rs /\ answered_copy k invs (ia, a) answer /\
    method ack = B "ACK" /\ acked inv (a_uri c) ack_text /\ length acks = d /\ Forall (fun x => method (fst x) = B "ACK" /\ acked inv (a_uri c) (snd x)) acks /\
    method bye = B "BYE" /\ request bye = a_uri c /\ callid bye = callid inv /\ cseq bye = cseq inv + 1 /\ addrs bye From = addrs inv From /\ addrs bye To = addrs answer To /\ maxforwards bye = 69 /\
    length byes = S j1 /\ copies bye byes /\ answered_copy k' byes (ib, b) confirm /\
    first_address cfg (next_hop m) true (so_remote k) /\ first_address cfg (way_back (rp_rr a) (rp_contact a)) false (so_remote k') /\
    dialog cfg m (repeat EReqTimer j0 ++ map EMsg rs ++ EMsg answer :: repeat (EMsg answer) d ++ EHangup :: repeat EReqTimer j1 ++ repeat (EMsg answer) e ++ [EMsg confirm])
      (mkres s (sent_to k invs ++ heard ps ++ OSend (so_remote k) ack ack_text :: media_of (rp_pay a) ++ OState Answered :: acks_again k (rp_pay a) acks ++ sent_to k' byes ++ [OState Hangup]) Halt).
Proof.
  intros cfg m j0 ps ia a d j1 e ib b c cs NF (RG & MI & RR & LR & CB) J0 H0 J1 H1 PS IA AO A200 AC IB BO B200 BP.
  destruct (sent_faultless cfg NF None (init m)) as (s0 & k & x & n & E0 & FX & (D1 & D2 & D3 & D4 & _ & D6 & _) & (_ & MX & T0 & N0 & n0 & W0) & _ & K0 & SG0 & TR0 & ST0 & RI & LS); [split; discriminate|exact RG|change (method m <> B "REGISTER"); rewrite MI; discriminate|exact LR|].
  destruct (RI eq_refl) as [R0 I0]. destruct LS as (RM0 & LS0 & RS0); [reflexivity|]. change (match None with Some b => b | None => invite (init m) end) with m in *. cbn [invite init] in D1, D2, D3, D4, D6, MX.
  fold (hops m) in MX. set (t := msg_append (w_rid (c_world cfg n)) x) in *.
  destruct (resend_run cfg NF k j0 s0 [OSend (so_remote k) x t]) as (l & s1 & LL & RU & GL & CL & CT & FT & (E1 & E2 & E3 & E4 & E5 & E6 & _ & E7) & _); [exact K0|rewrite TR0; exact FX|exact T0|lia|rewrite TR0; lia|]. rewrite TR0 in CL, CT. destruct (E7 R0) as [R1 I1]. set (y := the_request s1) in *.
  assert (C1 : calling cfg k y s1). { pose proof CT as (_ & _ & _ & Q & _). split; [congruence|]. split; [destruct SG0 as [G1 G2]; split; [rewrite E1; exact G1|rewrite E2; exact G2]|]. split; [exact R1|]. split; [exact I1|]. split; [congruence|]. split; [congruence|]. split; [congruence|]. left. rewrite E3. exact ST0. }
  set (invs := (x, t) :: l). assert (GI : Forall (genuine cfg) invs) by (constructor; [split; [exact FX|exists n; reflexivity]|exact GL]).
  assert (CX : copies x invs). { split; [exists t, l; reflexivity|]. intros [|i] q Q; cbn in Q; [injection Q as <-; cbn [fst]; split; [exact (copy_fit _ _ FX)|lia]|]. destruct (CL i q Q) as [Q1 Q2]. split; [exact Q1|lia]. }
  assert (CI : forall q, In q invs -> copy_of y (fst q)). { intros q I. apply In_nth_error in I. destruct I as [i I]. apply (copy_trans _ x); [apply copy_sym; exact CT|]. apply (proj2 CX i q I). }
  assert (LI : length invs = S j0) by (cbn; congruence).
  destruct (progress_copies cfg NF k invs y ps GI CI) with (s := s1) (out := [OSend (so_remote k) x t] ++ sent_to k l) as (rs & s2 & F & C2 & R2); [|exact C1|]. { rewrite LI. eapply Forall_impl; [|exact PS]. intros p (P1 & P2). split; [lia|exact P2]. }
  destruct (copy_reply cfg NF k invs ia a y GI CI) as (r & AN & S2 & MT & EC & EQ & ES & EP & ET & ER & EF & AA & NT & v & VV & VO); [rewrite LI; lia|exact AO|].
  pose proof C2 as (K2 & SG2 & Q2 & I2 & RM2 & LS2 & _). pose proof (calling_request _ _ _ _ C2) as TR2. pose proof CT as (CT1 & CT2 & CT3 & CT4 & _ & CT6 & _).
  assert (MA : matching s2 r) by (split; [exact S2|]; rewrite TR2; auto). rewrite AC in ET.
  assert (CU : exists u, a_uri c = Some u). { destruct AO as (_ & _ & _ & _ & CO & _). rewrite AC in CO. inversion CO as [|? ? ((u & U & _) & _) _]; subst. eauto. } destruct CU as [u CU].
  assert (MY : method y = B "INVITE") by congruence.
  destruct (answer_turn cfg NF s2 r k c cs u v K2 MA) as (n1 & ack & at_ & AM & AK & T1); [rewrite TR2; exact MY|congruence|exact ET|exact CU|exact (has_audio_reply _ _ AO EP)|exact RM2|rewrite TR2; exact FT|exact AA|exact NT|rewrite TR2; exact EF|exact VV|exact VO|].
  rewrite TR2 in AK. set (s3 := set_remote _ _) in T1. assert (TK : talking cfg k y r s3) by (repeat (split; [first [assumption|reflexivity]|]); reflexivity).
  assert (AX : forall z w, acked y z w -> acked x z w) by (intros z w (q & W1 & W2 & W3 & W4 & W5 & W6); exists q; rewrite <- CT3, <- CT4, <- CT6; auto 10).
  set (o3 := (([OSend (so_remote k) x t] ++ sent_to k l) ++ heard ps) ++ OSend (so_remote k) ack at_ :: media r ++ [OState Answered]) in *.
  destruct (again_run cfg NF k y r (rp_pay a) c cs u v d) with (s := s3) (out := o3) as (acks & s4 & LA & FA & TK4 & R4); try assumption; [congruence|exact (has_audio_reply _ _ AO EP)|].
  destruct TK4 as (K4 & SG4 & Q4 & I4 & RM4 & LS4 & ST4).
  destruct (hangup_turn cfg NF s4 k y r ST4 K4 SG4 I4 FT LS4) with (c := c) (cs := cs) (u := u) as (s5 & k' & z & n2 & T2 & TR5 & K5 & FZ & Y1 & Y2 & Y3 & Y4 & Y5 & Y6 & SG5 & Y7 & T5 & N5 & W5); [lia|exact RM4|exact AA|exact NT|rewrite ER; destruct AO as (_ & _ & _ & _ & _ & _ & L & _); exact L|exact ET|exact CU|].
  set (t2 := msg_append (w_rid (c_world cfg n2)) z) in *. set (o5 := (o3 ++ acks_again k (rp_pay a) acks) ++ [OSend (so_remote k') z t2]).
  destruct (resend_run cfg NF k' j1 s5 o5) as (l2 & s6 & LL2 & RU2 & GL2 & CL2 & CZ & FZ6 & _); [exact K5|rewrite TR5; exact FZ|exact T5|lia|rewrite TR5; lia|]. rewrite TR5 in CL2, CZ. set (z6 := the_request s6) in *.
  set (byes := (z, t2) :: l2). assert (GB : Forall (genuine cfg) byes) by (constructor; [split; [exact FZ|exists n2; reflexivity]|exact GL2]).
  assert (CB2 : copies z byes). { split; [exists t2, l2; reflexivity|]. intros [|i] q Q; cbn in Q; [injection Q as <-; cbn [fst]; split; [exact (copy_fit _ _ FZ)|lia]|]. destruct (CL2 i q Q) as [W1 W2]. split; [exact W1|lia]. }
  assert (CI2 : forall q, In q byes -> copy_of z6 (fst q)). { intros q I. apply In_nth_error in I. destruct I as [i I]. apply (copy_trans _ z); [apply copy_sym; exact CZ|]. apply (proj2 CB2 i q I). }
  assert (LB : length byes = S j1) by (cbn; congruence).
  destruct (copy_reply cfg NF k' byes ib b z6 GB CI2) as (r2 & AN2 & S22 & MT2 & EC2 & EQ2 & ES2 & EP2 & _); [rewrite LB; lia|exact BO|]. pose proof CZ as (CZ1 & _ & CZ3 & _).
  destruct (bye_confirmed cfg s6 r2) as [O6 V6]; [exact S22|exact EC2|exact MT2|fold z6; congruence|congruence|congruence|].
  assert (RM : cseqmethod r = B "INVITE") by (rewrite (matching_method _ _ MA), TR2; exact MY).
  pose proof (late_run cfg NF r e s6 (o5 ++ sent_to k' l2) S2) as R6.
  exists k, x, invs, rs, r, ack, at_, acks, k', z, byes, r2, (r_state (handle cfg (EMsg r2) s6)).
  split; [congruence|]. split; [exact D6|]. split; [exact D2|]. split; [exact D3|]. split; [exact MX|]. split; [exact LI|]. split; [exact CX|]. split; [exact F|]. split; [exact AN|]. split; [exact AM|]. split; [rewrite CU; apply AX; exact AK|]. split; [exact LA|]. split; [eapply Forall_impl; [|exact FA]; intros q [W1 W2]; split; [exact W1|]; rewrite CU; apply AX; exact W2|].
  split; [exact Y1|]. split; [congruence|]. split; [congruence|]. split; [congruence|]. split; [congruence|]. split; [exact Y6|]. split; [exact Y7|]. split; [exact LB|]. split; [exact CB2|]. split; [exact AN2|]. split; [exists n0, (routes s0); exact W0|]. split; [rewrite AC, <- ET, <- ER; exact W5|].
  unfold dialog, start. rewrite E0. eapply run_app; [exact RU|]. eapply run_app; [exact R2|]. apply run_step; [reflexivity|reflexivity|]. cbn [r_state]. rewrite T1. cbn [r_state r_out r_v]. fold o3. eapply run_app; [exact R4|].
  apply run_step; [reflexivity|reflexivity|]. cbn [r_state]. rewrite T2. cbn [r_state r_out r_v]. fold o5. eapply run_app; [exact RU2|]. eapply run_app; [apply R6; [fold z6; congruence|lia|fold z6; rewrite RM, CZ1, Y1; discriminate]|].
  apply run_step; [reflexivity|reflexivity|]. cbn [r_state r_out]. rewrite O6, V6. unfold o5, o3, invs, byes. assert (ME : media r = media_of (rp_pay a)) by (unfold media, media_of; rewrite EP; reflexivity). rewrite ME. unfold sent_to. cbn [map fst snd]. repeat (rewrite <- ?app_assoc; cbn [app]). apply run_nil.
Qed.

(** ** Example: the INVITE is sent three times, the first copy rings and the last is answered; the answer comes three times in all, once after
    the BYE; the BYE is sent twice, and its first copy is confirmed *)
Example loss_example : exists k inv invs rs answer ack ack_text acks k' bye byes confirm s,
  length invs = 3%nat /\ copies inv invs /\ method inv = B "INVITE" /\ length acks = 1%nat /\ length byes = 2%nat /\ copies bye byes /\ method bye = B "BYE" /\
  dialog (ex_cfg 2) ex_call (EReqTimer :: EReqTimer :: map EMsg rs ++ [EMsg answer; EMsg answer; EHangup; EReqTimer; EMsg answer; EMsg confirm])
    (mkres s (sent_to k invs ++ OState Ringing :: OSend (so_remote k) ack ack_text :: OPeer (s_addr peer_sdp) 4000 :: OState Answered :: acks_again k (Some (PSdp peer_sdp)) acks ++ sent_to k' byes ++ [OState Hangup]) Halt).
Proof.
  destruct call_example as (C1 & C2 & C3 & C4 & C5). inversion C3 as [|? ? _ C6]; subst. inversion C6 as [|? ? [C7 _] _]; subst.
  destruct (call_survives_loss (ex_cfg 2) ex_call 2 [(0%nat, ex_reply 180 [] None)] 2 (ex_reply 200 (at_ (B "10.0.0.2")) (Some (PSdp peer_sdp))) 1 1 1 0 (ex_reply 200 [] None) (hd (mkaddr None [] []) (at_ (B "10.0.0.2"))) []) as
    (k & inv & invs & rs & answer & ack & ack_text & acks & k' & bye & byes & confirm & s & M1 & _ & _ & _ & _ & L1 & P1 & _ & _ & _ & _ & L2 & _ & M2 & _ & _ & _ & _ & _ & _ & L3 & P2 & _ & _ & _ & D);
    [exact C1|exact C2|cbn; lia|cbn; lia|cbn; lia|cbn; lia|constructor; [split; [cbn; lia|split; [exact C7|cbn; lia]]|constructor]|lia|exact C4|reflexivity|reflexivity|lia|exact C5|reflexivity|reflexivity|].
  exists k, inv, invs, rs, answer, ack, ack_text, acks, k', bye, byes, confirm, s. do 7 (split; [assumption|]). exact D.
Qed.
