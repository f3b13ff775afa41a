(** C63 and C64: hanging up, and the requests of the peer. *)
From Verif Require Import Bytes BytesLemmas GoLib GoLibLemmas SdpModel SipText SipTypes SipAppend UtilModel P_Text P_Lists DialogMsg P_DialogMsg DialogModel P_DialogEnd P_Dialog P_DialogSafe P_DialogFail P_DialogRuns.
Local Open Scope Z_scope.

Lemma seq_eq a b s : (a ;; b) s = match r_v (a s) with Cont => mkres (r_state (b (r_state (a s)))) (r_out (a s) ++ r_out (b (r_state (a s)))) (r_v (b (r_state (a s)))) | _ => a s end.
Proof. reflexivity. Qed.
Lemma response_fields m n : exists a, NewResponse m n = a /\ maxforwards a = 0 /\ vias a = vias m /\ status a = n /\ callid a = callid m /\ cseq a = cseq m /\ cseqmethod a = cseqmethod m /\ addrs a From = addrs m From /\ addrs a To = addrs m To.
Proof. eexists. split; [reflexivity|]. repeat split; reflexivity. Qed.
(** * C64 *)
(** The answer is sent, or the socket fails and the dialog ends. [s'] is the state afterwards. *)
Inductive answered_with (m : msg) (n : Z) (k : sock) (s' : dstate) (before : list out) : result -> Prop :=
| aw_sent c a t : status a = n -> callid a = callid m -> cseq a = cseq m -> cseqmethod a = cseqmethod m -> addrs a From = addrs m From -> addrs a To = addrs m To ->
    answered_with m n k s' before (mkres (set_clock c s') (before ++ [OSend (so_remote k) a t]) Cont)
| aw_failed s2 : answered_with m n k s' before (mkres s2 (before ++ [OErr DSocket]) Halt).
Lemma send_answer cfg m n s k : so s = Some k -> vias m <> [] -> answered_with m n k s [] (send cfg (NewResponse m n) drop s).
Proof.
  intros K V. rewrite send_eq. unfold drop. cbv zeta. change (maxforwards (NewResponse m n)) with 0. cbn [Z.eqb]. rewrite (lowered_zero (NewResponse m n) eq_refl). cbn [so set_clock]. rewrite K.
  destruct (stamp_vias (NewResponse m n) (w_stamp (c_world cfg (clock s))) V) as (v & _ & ->). destruct (w_write _ _); [apply (aw_sent _ _ _ _ []); reflexivity|apply (aw_failed _ _ _ _ [])].
Qed.
Theorem options_answered : forall cfg s m k, so s = Some k -> vias m <> [] -> current_request s m -> method m = B "OPTIONS" ->
  answered_with m 200 k (set_rseq (cseq m) s) [] (handle cfg (EMsg m) s).
Proof. intros cfg s m k K V R M. rewrite (current_split _ _ _ R), M. apply (send_answer cfg m 200 (set_rseq (cseq m) s) k K V). Qed.
Theorem unknown_refused : forall cfg s m k, so s = Some k -> vias m <> [] -> current_request s m -> method m <> B "BYE" -> method m <> B "OPTIONS" -> method m <> B "INVITE" -> method m <> B "ACK" ->
  answered_with m 405 k (set_rseq (cseq m) s) [] (handle cfg (EMsg m) s).
Proof.
  intros cfg s m k K V R M1 M2 M3 M4. rewrite (current_split _ _ _ R). do 4 (match goal with |- context[bseq (method m) ?x] => destruct (bseq_reflect (method m) x); [contradiction|] end). apply (send_answer cfg m 405 (set_rseq (cseq m) s) k K V).
Qed.
(** A BYE is answered, Hangup is reported, and the dialog ends. *)
Theorem bye_answered : forall cfg s m k, so s = Some k -> vias m <> [] -> current_request s m -> method m = B "BYE" -> let r := handle cfg (EMsg m) s in
  r_v r = Halt /\ (r_out r = [OErr DSocket] \/ exists a t, r_out r = [OSend (so_remote k) a t; OState Hangup] /\ status a = 200 /\ callid a = callid m /\ cseq a = cseq m /\ cseqmethod a = cseqmethod m).
Proof.
  intros cfg s m k K V R M. cbv zeta. rewrite (current_split _ _ _ R), M. pose proof (send_answer cfg m 200 (set_rseq (cseq m) s) k K V) as A. change (bseq (B "BYE") (B "BYE")) with true. cbv iota.
  rewrite seq_eq. set (r := send cfg (NewResponse m 200) drop (set_rseq (cseq m) s)) in *. clearbody r. destruct A as [c a t F1 F2 F3 F4 F5 F6|s2]; cbn [r_v r_out r_state app]; [|split; [reflexivity|left; reflexivity]]. split; [reflexivity|]. right. exists a, t. auto.
Qed.
Lemma kept_sent cfg a s k : so s = Some k -> vias a <> [] -> maxforwards a = 0 -> exists s', sendResponse cfg a s = mkres s' [OErr DSocket] Halt \/
  exists v t, sendResponse cfg a s = mkres s' [OSend (so_remote k) (set_vias v a) t] Cont /\ response s' = Some (set_vias v a) /\ rspresends s' = 0 /\ rsptimer s' = true /\ st s' = st s.
Proof.
  intros K V MF. unfold sendResponse. rewrite !upd_seq. set (s2 := set_rsptimer true _). assert (H : so s2 = Some k /\ st s2 = st s /\ rspresends s2 = 0 /\ rsptimer s2 = true) by auto. clearbody s2. destruct H as (H1 & H2 & H3 & H4).
  rewrite send_eq. cbv zeta. rewrite MF, (lowered_zero a MF). unfold keep_response. cbn [Z.eqb so set_clock set_response clock]. rewrite H1.
  destruct (stamp_vias a (w_stamp (c_world cfg (clock s2))) V) as (v & _ & ->). destruct (w_write _ _); eexists; [right|left; reflexivity]. do 2 eexists. split; [reflexivity|]. repeat split; assumption.
Qed.
Lemma reinvite_split cfg s m : current_request s m -> method m = B "INVITE" -> handle cfg (EMsg m) s = (checkSDP m ;; sendResponse cfg (NewResponse m 200)) (set_remote (Some m) (set_rseq (cseq m) s)).
Proof. intros R M. rewrite (current_split _ _ _ R), M. apply (upd_seq (set_remote (Some m)) (checkSDP m ;; sendResponse cfg (NewResponse m 200))). Qed.
Lemma sdp_reported m s : (forall d, pay m = Some (PSdp d) -> s_audio d <> None) ->
  checkSDP m s = mkres s (match pay m with Some (PSdp d) => match s_audio d with Some a => [OPeer (s_addr d) (m_port a)] | None => [] end | _ => [] end) Cont.
Proof. intros AU. unfold checkSDP. destruct (pay m) as [p|]; [|reflexivity]. destruct p; [reflexivity|]. specialize (AU _ eq_refl). destruct (s_audio _); [reflexivity|congruence]. Qed.
(** what is true of the outcome of such an INVITE *)
Definition kept_answer (m : msg) (k : sock) (n : Z) (media : list out) (r : result) : Prop :=
  (r_v r = Halt /\ r_out r = media ++ [OErr DSocket]) \/
  (r_v r = Cont /\ exists a t, r_out r = media ++ [OSend (so_remote k) a t] /\ status a = 200 /\ callid a = callid m /\ cseq a = cseq m /\ cseqmethod a = cseqmethod m /\
    response (r_state r) = Some a /\ rspresends (r_state r) = 0 /\ rsptimer (r_state r) = true /\ st (r_state r) = n).
Lemma kept_answered cfg s m k media : so s = Some k -> vias m <> [] -> checkSDP m s = mkres s media Cont -> kept_answer m k (st s) media ((checkSDP m ;; sendResponse cfg (NewResponse m 200)) s).
Proof.
  intros K V C. rewrite seq_eq, C. cbn [r_v r_state r_out]. clear C. destruct (response_fields m 200) as (a & -> & G1 & G2 & G3 & G4 & G5 & G6 & _).
  destruct (kept_sent cfg a s k K) as (s' & [->|(v & t & -> & F1 & F2 & F3 & F4)]); [rewrite G2; exact V|exact G1|left; split; reflexivity|right]. cbn [r_v r_state r_out]. split; [reflexivity|]. do 2 eexists. split; [reflexivity|]. cbn [status callid cseq cseqmethod set_vias]. repeat split; assumption.
Qed.
(** An INVITE is answered with 200, which is kept and repeated until an ACK arrives. The media address is reported. *)
Theorem reinvite_answered : forall cfg s m k, so s = Some k -> vias m <> [] -> current_request s m -> method m = B "INVITE" -> (forall d, pay m = Some (PSdp d) -> s_audio d <> None) ->
  kept_answer m k (st s) (match pay m with Some (PSdp d) => match s_audio d with Some a => [OPeer (s_addr d) (m_port a)] | None => [] end | _ => [] end) (handle cfg (EMsg m) s).
Proof.
  intros cfg s m k K V R M AU. rewrite (reinvite_split _ _ _ R M). apply (kept_answered cfg (set_remote (Some m) (set_rseq (cseq m) s)) m k); [exact K|exact V|]. apply sdp_reported. exact AU.
Qed.
(** Refuted: the answer to the INVITE carries no session description, whatever the INVITE offered. *)
Theorem answer_without_description_refuted : forall m n, pay (NewResponse m n) = None.
Proof. reflexivity. Qed.
Theorem response_repeated : forall cfg s k a, so s = Some k -> response s = Some a -> vias a <> [] -> maxforwards a = 0 -> rspresends s < c_max cfg -> let r := handle cfg ERspTimer s in
  (r_v r = Halt /\ r_out r = [OErr DSocket]) \/
  (r_v r = Cont /\ rspresends (r_state r) = rspresends s + 1 /\ rsptimer (r_state r) = true /\ exists v t, r_out r = [OSend (so_remote k) (set_vias v a) t] /\ response (r_state r) = Some (set_vias v a)).
Proof.
  intros cfg s k a K R V MF L. cbv zeta. cbn [handle]. rewrite upd_seq. unfold resendResponse, look. change (response (set_rsptimer false s)) with (response s). rewrite R. change (rspresends (set_rsptimer false s)) with (rspresends s).
  destruct (Z.ltb_spec (rspresends s) (c_max cfg)); [|lia]. rewrite seq_eq, send_eq. cbv zeta. rewrite MF, (lowered_zero _ MF). unfold keep_response. cbn [Z.eqb so set_clock set_response set_rsptimer clock]. rewrite K.
  destruct (stamp_vias a (w_stamp (c_world cfg (clock s))) V) as (v & _ & ->). destruct (w_write _ _); [right|left; split; reflexivity]. cbn [r_v r_state r_out]. rewrite upd_seq. cbn [r_v r_state r_out upd go app]. repeat split. do 2 eexists. split; reflexivity.
Qed.
Theorem ack_stops_repetition : forall cfg s m, current_request s m -> method m = B "ACK" ->
  handle cfg (EMsg m) s = mkres (set_rsptimer false (set_response None (set_rseq (cseq m) s))) [] Cont.
Proof.
  intros cfg s m R M. rewrite (current_split _ _ _ R), M. change (bseq (B "ACK") (B "BYE")) with false. change (bseq (B "ACK") (B "OPTIONS")) with false. change (bseq (B "ACK") (B "INVITE")) with false. change (bseq (B "ACK") (B "ACK")) with true. cbv iota. rewrite upd_seq. reflexivity.
Qed.
(** Refuted: an answer which is not acknowledged in time makes the dialog look for another address of the last request and, as there is
    none, report that the peer cannot be contacted. *)
Theorem unacknowledged_refuted : forall cfg s k a, so s = Some k -> response s = Some a -> c_max cfg <= rspresends s -> routes s = [] ->
  r_out (handle cfg ERspTimer s) = [OErr (DContact (dest s))] /\ r_v (handle cfg ERspTimer s) = Halt.
Proof.
  intros cfg s k a K R L RS. cbn [handle]. rewrite upd_seq. unfold resendResponse, look. change (response (set_rsptimer false s)) with (response s). rewrite R. change (rspresends (set_rsptimer false s)) with (rspresends s). destruct (Z.ltb_spec (rspresends s) (c_max cfg)); [lia|].
  change (so (set_rsptimer false s)) with (so s). rewrite K. unfold popRoute, look. change (routes (set_rsptimer false s)) with (routes s). rewrite RS. cbn [pop_route]. rewrite upd_seq. split; reflexivity.
Qed.

(** * C63 *)
(** Before the answer: a CANCEL with the identity of the INVITE. *)
Theorem hangup_cancels : forall cfg s k, so s = Some k -> vias (invite s) <> [] -> st s = Proceeding \/ st s = Ringing -> let r := handle cfg EHangup s in
  (r_v r = Halt /\ r_out r = [OErr DSocket]) \/
  (r_v r = Cont /\ st (r_state r) = st s /\ exists c t, r_out r = [OSend (so_remote k) c t] /\ method c = B "CANCEL" /\ status c = 0 /\ request c = request (invite s) /\ callid c = callid (invite s) /\
    cseq c = cseq (invite s) /\ cseqmethod c = B "CANCEL" /\ addrs c From = addrs (invite s) From /\ addrs c To = addrs (invite s) To /\ addrs c Route = addrs (invite s) Route).
Proof.
  intros cfg s k K V ST. cbv zeta. cbn [handle]. unfold sendHangup, look. replace ((st s =? Proceeding) || (st s =? Ringing)) with true by (destruct ST as [->| ->]; reflexivity).
  rewrite send_eq. cbv zeta. change (maxforwards (NewCancel (invite s))) with 0. rewrite (lowered_zero (NewCancel (invite s)) eq_refl). cbn [Z.eqb so set_clock set_invite clock]. rewrite K.
  destruct (stamp_vias (NewCancel (invite s)) (w_stamp (c_world cfg (clock s))) V) as (v & _ & ->). destruct (w_write _ _); [right|left; split; reflexivity]. cbn [r_v r_state r_out]. split; [reflexivity|]. split; [reflexivity|]. do 2 eexists. split; [reflexivity|]. repeat split.
Qed.
(** The confirmation of a BYE: Hangup is reported and the dialog ends. *)
Theorem bye_confirmed : forall cfg s m, sip2 m -> callid m = callid (the_request s) -> ResponseMatch (the_request s) m = true -> method (the_request s) = B "BYE" -> status m = 200 -> pay m = None ->
  r_out (handle cfg (EMsg m) s) = [OState Hangup] /\ r_v (handle cfg (EMsg m) s) = Halt.
Proof.
  intros cfg s m V C M MB S P. cbn [handle]. unfold handleMessage. rewrite (version_ok _ V). unfold look. rewrite C, bseq_refl. unfold IsResponse. rewrite S. cbn [negb Z.ltb Z.compare].
  assert (CM : cseqmethod m = B "BYE") by (unfold ResponseMatch in M; rewrite !andb_true_iff in M; destruct M as ((((_ & _) & M) & _) & _); destruct (bseq_reflect (cseqmethod m) (method (the_request s))); congruence).
  unfold handleResponse, look. rewrite M, MB, S, CM. change (bseq (B "BYE") (B "INVITE")) with false. change (bseq (B "BYE") (B "BYE")) with true. rewrite andb_false_r. cbn [negb Z.eqb Z.leb Z.compare Pos.compare Pos.compare_cont orb Pos.eqb]. unfold checkSDP. rewrite P.
  rewrite !upd_seq. unfold transition, seq, upd, go, emit, halt. cbn. split; reflexivity.
Qed.
(** The confirmation of a CANCEL is not recognised: nothing happens. The 487 that ends the INVITE is reported as an error, see
    cancel_run_refuted. *)
Theorem cancel_confirmation_refuted : forall cfg s m, sip2 m -> callid m = callid (the_request s) -> method (the_request s) = B "INVITE" -> cseqmethod m = B "CANCEL" -> status m = 200 ->
  handle cfg (EMsg m) s = mkres s [] Cont.
Proof.
  intros cfg s m V C MI CM S. cbn [handle]. unfold handleMessage. rewrite (version_ok _ V). unfold look at 1. rewrite C, bseq_refl. unfold IsResponse. rewrite S. cbn [negb Z.ltb Z.compare].
  unfold handleResponse, look at 1. replace (ResponseMatch (the_request s) m) with false; [reflexivity|]. unfold ResponseMatch. rewrite MI, CM. change (bseq (B "CANCEL") (B "INVITE")) with false. rewrite andb_false_r. reflexivity.
Qed.
