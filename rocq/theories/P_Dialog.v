(** C48, C49, C52, C53 and C60 (dialog part): what one turn of the event loop does. *)
From Verif Require Import Bytes BytesLemmas GoLib GoLibLemmas SdpModel SipText SipTypes SipAppend UtilModel P_Text P_Lists DialogMsg P_DialogMsg DialogModel P_DialogEnd.
Local Open Scope Z_scope.

(** ** Sending *)
Definition lowered (m : msg) : msg := if 0 <? maxforwards m then set_maxforwards (maxforwards m - 1) m else m.
Lemma send_eq cfg m keep s : send cfg m keep s =
  let s1 := keep (lowered m) s in if maxforwards m =? 1 then mkres s1 [OErr DLocalLoop] Halt else
  let w := c_world cfg (clock s1) in let s2 := set_clock (S (clock s1)) s1 in
  match addTimestamp (lowered m) (w_stamp w) with
  | Panic => mkres s2 [] Crash
  | Ok m2 => let s3 := keep m2 s2 in
    match so s3 with
    | None => mkres s3 [] Crash
    | Some k => if w_write w (msg_append (w_rid w) m2) then mkres s3 [OSend (so_remote k) m2 (msg_append (w_rid w) m2)] Cont else mkres s3 [OErr DSocket] Halt
    end
  end.
Proof.
  unfold send, lowered. destruct (0 <? maxforwards m) eqn:E; cbn [andb].
  - cbn [maxforwards set_maxforwards]. apply Z.ltb_lt in E. destruct (maxforwards m =? 1) eqn:F.
    + apply Z.eqb_eq in F. rewrite F. reflexivity.
    + apply Z.eqb_neq in F. destruct (maxforwards m - 1 =? 0) eqn:G; [apply Z.eqb_eq in G; lia|]. unfold seq, upd, go, ask, look, val, crash, fail, emit, halt. cbn [r_v r_state r_out app].
      destruct (addTimestamp _ _) as [m2|]; [|reflexivity]. cbn [r_v r_state r_out app]. destruct (so _) as [k|]; [|reflexivity]. cbv zeta. destruct (w_write _ _); reflexivity.
  - destruct (maxforwards m =? 1) eqn:F; [apply Z.eqb_eq in F; apply Z.ltb_ge in E; lia|]. unfold seq, upd, go, ask, look, val, crash, fail, emit, halt. cbn [r_v r_state r_out app].
    destruct (addTimestamp _ _) as [m2|]; [|reflexivity]. cbn [r_v r_state r_out app]. destruct (so _) as [k|]; [|reflexivity]. cbv zeta. destruct (w_write _ _); reflexivity.
Qed.
Lemma lowered_zero m : maxforwards m = 0 -> lowered m = m. Proof. intros E. unfold lowered. rewrite E. reflexivity. Qed.
Lemma upd_seq f a s : (upd f ;; a) s = a (f s). Proof. unfold seq, upd, go. cbv zeta. cbn [r_v r_state r_out app]. destruct (a (f s)). reflexivity. Qed.
Lemma seq_go a b s s' : a s = go s' -> (a ;; b) s = b s'. Proof. intros E. unfold seq. rewrite E. cbv zeta. cbn [go r_v r_state r_out app]. destruct (b s'). reflexivity. Qed.
Definition unchanged (s s' : dstate) : Prop := exists n, s' = set_clock n s.
(** The outcome of an answer: it is sent to the peer and the dialog goes on; or the socket reports an error, which ends the dialog; or
    the message had no Via, or there is no socket. The dialog has not changed. *)
Inductive only_answered (m : msg) (n : Z) (s : dstate) : result -> Prop :=
| answered s' k a t : unchanged s s' -> so s = Some k -> status a = n -> callid a = callid m -> cseq a = cseq m -> cseqmethod a = cseqmethod m -> only_answered m n s (mkres s' [OSend (so_remote k) a t] Cont)
| not_written s' : unchanged s s' -> only_answered m n s (mkres s' [OErr DSocket] Halt)
| no_via s' : vias m = [] \/ so s = None -> only_answered m n s (mkres s' [] Crash).
Lemma same_clock n s : unchanged s (set_clock n s). Proof. exists n. reflexivity. Qed.
Lemma same_refl s : unchanged s s. Proof. exists (clock s). destruct s. reflexivity. Qed.
Lemma stamp_ok m t m2 : addTimestamp m t = Ok m2 -> exists v, m2 = set_vias v m.
Proof.
  unfold addTimestamp. destruct t as [t|]; [|intros E; injection E as <-; exists (vias m); destruct m; reflexivity]. destruct (vias m); [discriminate|]. intros E. injection E as <-. eauto.
Qed.
Lemma stamp_panic m t : addTimestamp m t = Panic -> vias m = [].
Proof. unfold addTimestamp. destruct t; [|discriminate]. destruct (vias m); [reflexivity|discriminate]. Qed.
Lemma answer_ok cfg m n s : only_answered m n s (send cfg (NewResponse m n) drop s).
Proof.
  rewrite send_eq. unfold drop. cbv zeta. change (maxforwards (NewResponse m n)) with 0. cbn [Z.eqb]. rewrite (lowered_zero (NewResponse m n) eq_refl). cbn [so set_clock].
  destruct (addTimestamp _ _) as [a|] eqn:E; [|apply no_via; left; exact (stamp_panic _ _ E)]. destruct (so s) as [k|] eqn:K; [|apply no_via; right; exact K].
  destruct (w_write _ _); [|apply not_written; apply same_clock]. apply stamp_ok in E. destruct E as [v ->]. apply answered; [apply same_clock|exact K|reflexivity..].
Qed.

(** * C49 *)
(** The version is looked at first. *)
Definition sip2 (m : msg) : Prop := vmaj m = 2 /\ vmin m = 0.
Lemma version_ok m : sip2 m -> negb (vmaj m =? 2) || negb (vmin m =? 0) = false.
Proof. intros [-> ->]. reflexivity. Qed.
(** What is missing: messages of another version end the dialog, whatever their Call-ID. *)
Theorem other_calls_refused_partial : forall cfg m s, sip2 m -> callid m <> callid (the_request s) -> only_answered m 481 s (handle cfg (EMsg m) s).
Proof.
  intros cfg m s V C. cbn [handle]. unfold handleMessage. rewrite (version_ok _ V). unfold look. destruct (bseq_reflect (callid m) (callid (the_request s))) as [E|E]; [contradiction|]. apply answer_ok.
Qed.
Theorem other_calls_version_refuted : forall cfg m s, ~ sip2 m -> r_v (handle cfg (EMsg m) s) <> Cont.
Proof.
  intros cfg m s V. cbn [handle]. unfold handleMessage. replace (negb (vmaj m =? 2) || negb (vmin m =? 0)) with true.
  - unfold seq. cbv zeta. destruct (r_v (send cfg (NewResponse m 505) drop s)) eqn:E; [discriminate|rewrite E; discriminate|rewrite E; discriminate].
  - symmetry. unfold sip2 in V. destruct (Z.eqb_spec (vmaj m) 2), (Z.eqb_spec (vmin m) 0); try reflexivity. tauto.
Qed.

(** * C48 *)
(** What is missing: an old request with Max-Forwards 0 or without Max-Forwards ends the dialog. *)
Theorem old_request_refused_partial : forall cfg m s, sip2 m -> callid m = callid (the_request s) -> IsResponse m = false -> 0 < maxforwards m ->
  rseq s <> 0 -> cseq m < rseq s -> only_answered m 500 s (handle cfg (EMsg m) s).
Proof.
  intros cfg m s V C Q F N L. cbn [handle]. unfold handleMessage. rewrite (version_ok _ V). unfold look. rewrite C, bseq_refl, Q. cbn [negb]. unfold handleRequest, look. destruct (Z.leb_spec (maxforwards m) 0); [lia|].
  destruct (Z.eqb_spec (rseq s) 0); [contradiction|]. cbn [negb andb]. destruct (Z.ltb_spec (cseq m) (rseq s)); [|lia]. apply answer_ok.
Qed.
Theorem old_request_ends_refuted : forall cfg m s, sip2 m -> callid m = callid (the_request s) -> IsResponse m = false -> maxforwards m = 0 -> r_v (handle cfg (EMsg m) s) <> Cont.
Proof.
  intros cfg m s V C Q F. cbn [handle]. unfold handleMessage. rewrite (version_ok _ V). unfold look. rewrite C, bseq_refl, Q. cbn [negb]. unfold handleRequest. rewrite F. cbn [Z.leb Z.compare].
  unfold seq. cbv zeta. destruct (r_v (send cfg (NewResponse m 483) drop s)) eqn:E; [discriminate|rewrite E; discriminate|rewrite E; discriminate].
Qed.
(** the remembered CSeq does not decrease, except that it is forgotten while the call is not answered *)
Definition rseq_step (s s' : dstate) : Prop := st s' = st s /\ (rseq s' = rseq s \/ (rseq s' = 0 /\ st s < Answered)).
Lemma rs_refl s : rseq_step s s. Proof. split; auto. Qed.
Lemma rs_trans a b c : rseq_step a b -> rseq_step b c -> rseq_step a c.
Proof. unfold rseq_step. intros [A1 A2] [C1 C2]. rewrite C1, A1. split; [reflexivity|]. rewrite A1 in C2. destruct C2 as [->|C2]; auto. Qed.
Lemma rs_same s s' : st s' = st s -> rseq s' = rseq s -> rseq_step s s'. Proof. intros A C. split; auto. Qed.
Lemma rs_clock n s : rseq_step s (set_clock n s). Proof. apply rs_same; reflexivity. Qed.
Lemma rs_keep m s : rseq_step s (set_the_request m s). Proof. unfold set_the_request. destruct (req s); apply rs_same; reflexivity. Qed.
Ltac rs_do := repeat first [apply (does_seq _ rs_trans)|apply does_upd; intros; first [apply rs_keep|apply rs_same; reflexivity]].
Lemma rs_connect cfg w s : rseq_step s (fst (connect cfg w s)).
Proof. unfold connect. destruct (match so s with Some _ => _ | None => _ end); [apply rs_refl|]. destruct (w_dial w _); [|apply rs_same; reflexivity]. destruct (cso _); [apply rs_same; reflexivity|]. destruct (c_loose cfg); [|apply rs_same; reflexivity]. destruct (w_listen w); apply rs_same; reflexivity. Qed.
Lemma rs_pop cfg rs : does rseq_step (pop_route cfg rs).
Proof.
  induction rs as [|a rest IH]; cbn [pop_route]; [apply (does_seq _ rs_trans); [apply does_upd; intros; apply rs_same; reflexivity|]; apply does_look; intros; apply (does_fail _ rs_refl)|].
  apply (does_seq _ rs_trans); [apply does_upd; intros; apply rs_same; reflexivity|]. apply (does_seq _ rs_trans); [apply does_upd; intros; apply rs_same; reflexivity|].
  apply (does_ask _ rs_trans rs_clock). intros w s. pose proof (rs_connect cfg w s) as K. destruct (connect cfg w s) as [s1 ok]. cbn [fst] in K. eapply rs_trans; [exact K|]. clear K. destruct ok; [|exact (IH s1)]. cbn [negb].
  destruct (so s1) as [k|]; [|apply rs_refl]. match goal with |- rseq_step s1 (r_state (?a s1)) => enough (T : does rseq_step a) by exact (T s1) end.
  apply (does_val _ rs_refl). intros m. apply (does_seq _ rs_trans); [apply does_upd; intros; apply rs_keep|]. apply (does_seq _ rs_trans).
  - intros z. unfold look. destruct (Z.ltb_spec (st z) Answered); [|apply rs_refl]. cbn. split; [reflexivity|]. right. auto.
  - do 2 (apply (does_seq _ rs_trans); [apply does_upd; intros; apply rs_same; reflexivity|]). apply (does_send _ rs_refl rs_trans rs_clock). apply rs_keep.
Qed.
Lemma rs_popRoute cfg : does rseq_step (popRoute cfg). Proof. apply does_look. apply rs_pop. Qed.
Lemma rs_sendRequest cfg w : does rseq_step (sendRequest cfg w).
Proof.
  apply does_look. intros m. apply (does_val _ rs_refl). intros [m' r]. apply (does_seq _ rs_trans); [apply does_upd; intros s; destruct w; apply rs_same; reflexivity|].
  destruct r as [[host port]|e]; [|apply (does_fail _ rs_refl)]. apply (does_ask _ rs_trans rs_clock). intros x. apply does_look. intros n.
  destruct (RouteAddress _ _ _ _); [|apply (does_fail _ rs_refl)]. do 3 (apply (does_seq _ rs_trans); [apply does_upd; intros; apply rs_same; reflexivity|]). apply rs_popRoute.
Qed.
Definition rseq_turn (s s' : dstate) : Prop := rseq s' = rseq s \/ (rseq s' = 0 /\ st s < Answered).
Definition rseq_same (s s' : dstate) : Prop := rseq s' = rseq s.
Lemma rq_refl s : rseq_same s s. Proof. reflexivity. Qed.
Lemma rq_trans a b c : rseq_same a b -> rseq_same b c -> rseq_same a c. Proof. unfold rseq_same. congruence. Qed.
Lemma rq_clock n s : rseq_same s (set_clock n s). Proof. reflexivity. Qed.
Lemma turn_same a : does rseq_same a -> does rseq_turn a. Proof. intros H s. left. apply H. Qed.
Lemma turn_step a : does rseq_step a -> does rseq_turn a. Proof. intros H s. destruct (H s) as [_ E]. exact E. Qed.
Lemma turn_seq a b : does rseq_step a -> does rseq_turn b -> does rseq_turn (a ;; b).
Proof.
  intros A C s. unfold seq. cbv zeta. destruct (r_v (a s)); [|apply turn_step; exact A|apply turn_step; exact A]. cbn [r_state]. destruct (A s) as [A1 A2]. destruct (C (r_state (a s))) as [C1|[C1 C2]].
  - destruct A2 as [A2|[A2 A3]]; [left; congruence|right]. split; [congruence|exact A3].
  - right. split; [exact C1|congruence].
Qed.
Ltac rq1 := match goal with
  | |- does _ (upd _) => apply does_upd; intros; reflexivity
  | |- does _ crash => apply (does_crash _ rq_refl)
  | |- does _ halt => apply (does_halt _ rq_refl)
  | |- does _ (fail _) => apply (does_fail _ rq_refl)
  | |- does _ (emit _) => apply (does_emit _ rq_refl)
  | |- does _ (send _ _ _) => apply (does_send _ rq_refl rq_trans rq_clock); intros; reflexivity
  | |- does _ (checkSDP _) => apply (does_checkSDP _ rq_refl)
  | |- does _ (look _ _) => apply does_look; intros
  | |- does _ (val _ _) => apply (does_val _ rq_refl); intros
  | |- does _ (_ ;; _) => apply (does_seq _ rq_trans)
  | |- does _ (transition _) => unfold transition
  | |- does _ (if ?b then _ else _) => destruct b
  | |- does _ (match ?x with _ => _ end) => destruct x end.
Ltac rs1 := match goal with
  | |- does _ (upd _) => apply does_upd; intros; first [apply rs_refl|apply rs_same; reflexivity]
  | |- does _ crash => apply (does_crash _ rs_refl)
  | |- does _ (fail _) => apply (does_fail _ rs_refl)
  | |- does _ (send _ _ _) => apply (does_send _ rs_refl rs_trans rs_clock); intros; first [apply rs_refl|apply rs_keep|apply rs_same; reflexivity]
  | |- does _ (checkSDP _) => apply (does_checkSDP _ rs_refl)
  | |- does _ (sendRequest _ _) => apply rs_sendRequest
  | |- does _ (popRoute _) => apply rs_popRoute
  | |- does _ (look _ _) => apply does_look; intros
  | |- does _ (val _ _) => apply (does_val _ rs_refl); intros
  | |- does _ (_ ;; _) => apply (does_seq _ rs_trans)
  | |- does _ (if ?b then _ else _) => destruct b
  | |- does _ (match ?x with _ => _ end) => destruct x end.
Lemma turn_response cfg m : does rseq_turn (handleResponse cfg m).
Proof.
  unfold handleResponse. apply does_look. intros q. destruct (negb _); [apply turn_same; rq1|]. apply turn_seq; [repeat rs1|]. apply turn_seq; [rs1|]. apply turn_seq; [rs1|]. apply turn_seq; [repeat rs1|].
  destruct (status m =? 100); [apply turn_same; repeat rq1|]. destruct (_ || _); [apply turn_same; repeat rq1|]. destruct (status m =? 200); [apply turn_same; repeat rq1|].
  destruct (status m =? 503); [apply turn_step; repeat rs1|]. destruct (_ || _); [apply turn_step; repeat rs1|]. apply turn_same. repeat rq1.
Qed.
(** One turn of the loop: the remembered CSeq stays or grows, unless it was 0, or becomes 0 while the call is not answered. *)
Theorem remembered_cseq_partial : forall cfg e s, rseq s <= rseq (r_state (handle cfg e s)) \/ rseq s = 0 \/ (rseq (r_state (handle cfg e s)) = 0 /\ st s < Answered).
Proof.
  intros cfg e s. assert (T : forall a, does rseq_turn a -> rseq s <= rseq (r_state (a s)) \/ rseq s = 0 \/ (rseq (r_state (a s)) = 0 /\ st s < Answered)) by (intros a H; destruct (H s) as [E|E]; [left; lia|auto]).
  destruct e as [[|]| | | |m|]; cbn [handle].
  - apply T. apply turn_step. repeat rs1.
  - apply T. apply turn_step. repeat rs1.
  - apply T. apply turn_step. repeat rs1.
  - apply T. apply turn_step. unfold resendRequest. repeat rs1.
  - apply T. apply turn_step. unfold resendResponse. repeat rs1.
  - unfold handleMessage. destruct (_ || _); [apply T; apply turn_same; repeat rq1|]. unfold look. destruct (negb _); [apply T; apply turn_same; repeat rq1|]. destruct (IsResponse m); [apply T; apply turn_response|].
    unfold handleRequest. destruct (maxforwards m <=? 0); [apply T; apply turn_same; repeat rq1|]. unfold look. destruct (negb (rseq s =? 0) && (cseq m <? rseq s)) eqn:E; [apply T; apply turn_same; repeat rq1|].
    match goal with |- context[(upd (set_rseq (cseq m)) ;; ?a) s] => assert (D : does rseq_same a); [unfold sendResponse; repeat rq1|change (r_state ((upd (set_rseq (cseq m));; a) s)) with (r_state (a (set_rseq (cseq m) s))); specialize (D (set_rseq (cseq m) s)); cbv beta delta [rseq_same] in D; rewrite D] end.
    cbn [rseq set_rseq]. apply andb_false_iff in E. destruct E as [E|E]; [right; left; destruct (Z.eqb_spec (rseq s) 0); [assumption|discriminate]|left; apply Z.ltb_ge in E; exact E].
  - unfold sendHangup. apply T. unfold look at 1. intros x. destruct (_ || _); [apply turn_step; repeat rs1|]. destruct (_ =? Answered); [apply turn_step; repeat rs1|]. destruct (_ =? Hangup); [apply turn_same; repeat rq1|apply turn_same; repeat rq1].
Qed.

(** * C52 *)
(** the states reported, and the states the dialog moves to, are among P *)
Definition moves (P : Z -> Prop) (a : action) : Prop := forall s, (st (r_state (a s)) = st s \/ P (st (r_state (a s)))) /\ (forall n, In (OState n) (r_out (a s)) -> P n).
Lemma moves_seq P a b : moves P a -> moves P b -> moves P (a ;; b).
Proof.
  intros A C s. unfold seq. cbv zeta. destruct (A s) as [A1 A2]. destruct (r_v (a s)); [|split; assumption|split; assumption]. destruct (C (r_state (a s))) as [C1 C2]. cbn [r_state r_out]. split.
  - destruct C1 as [->|C1]; [exact A1|right; exact C1].
  - intros n I. apply in_app_or in I. destruct I; auto.
Qed.
Lemma moves_upd P f : (forall s, st (f s) = st s) -> moves P (upd f). Proof. intros H s. split; [left; apply H|intros n []]. Qed.
Lemma moves_crash P : moves P crash. Proof. intros s. split; [left; reflexivity|intros n []]. Qed.
Lemma moves_halt P : moves P halt. Proof. intros s. split; [left; reflexivity|intros n []]. Qed.
Lemma moves_emit P o : (forall n, o <> OState n) -> moves P (emit o). Proof. intros H s. split; [left; reflexivity|intros n [E|[]]; destruct (H n E)]. Qed.
Lemma moves_fail P e : moves P (fail e). Proof. intros s. split; [left; reflexivity|intros n [E|[]]; discriminate]. Qed.
Lemma moves_look {A} P (f : dstate -> A) k : (forall x, moves P (k x)) -> moves P (look f k). Proof. intros H s. apply H. Qed.
Lemma moves_val {A} P (x : res A) k : (forall a, moves P (k a)) -> moves P (val x k). Proof. intros H. destruct x; [apply H|apply moves_crash]. Qed.
Lemma moves_ask P cfg k : (forall w, moves P (k w)) -> moves P (ask cfg k). Proof. intros H s. apply (H _ (set_clock _ s)). Qed.
Lemma moves_transition (P : Z -> Prop) n : P n -> moves P (transition n). Proof. intros H s. split; [right; exact H|intros k [E|[]]; injection E as <-; exact H]. Qed.
Lemma keep_st m s : st (set_the_request m s) = st s. Proof. unfold set_the_request. destruct (req s); reflexivity. Qed.
Lemma moves_send P cfg m keep : (forall m s, st (keep m s) = st s) -> moves P (send cfg m keep).
Proof.
  intros K. unfold send. apply moves_seq; [apply moves_upd; apply K|]. destruct (_ && _); [apply moves_fail|]. apply moves_ask. intros w. apply moves_val. intros m2. apply moves_seq; [apply moves_upd; apply K|].
  apply moves_look. intros [k|]; [|apply moves_crash]. destruct (w_write w _); [apply moves_emit; discriminate|apply moves_fail].
Qed.
Lemma moves_sdp P m : moves P (checkSDP m).
Proof. unfold checkSDP. destruct (pay m) as [[|d]|]; try (apply moves_upd; reflexivity). destruct (s_audio d); [apply moves_emit; discriminate|apply moves_crash]. Qed.
Lemma connect_st cfg w s : st (fst (connect cfg w s)) = st s. Proof. apply rs_connect. Qed.
Lemma moves_pop P cfg rs : moves P (pop_route cfg rs).
Proof.
  induction rs as [|a rest IH]; cbn [pop_route]; [apply moves_seq; [apply moves_upd; reflexivity|]; apply moves_look; intros; apply moves_fail|].
  apply moves_seq; [apply moves_upd; reflexivity|]. apply moves_seq; [apply moves_upd; reflexivity|]. apply moves_ask. intros w s. pose proof (connect_st cfg w s) as K. destruct (connect cfg w s) as [s1 ok]. cbn [fst] in K. rewrite <- K. clear K.
  destruct ok; [|exact (IH s1)]. cbn [negb]. destruct (so s1) as [k|]; [|exact (moves_crash P s1)].
  match goal with |- (st (r_state (?a s1)) = _ \/ _) /\ _ => enough (T : moves P a) by exact (T s1) end. apply moves_val. intros m. apply moves_seq; [apply moves_upd; intros; apply keep_st|].
  apply moves_seq; [apply moves_look; intros n; destruct (n <? Answered); repeat (apply moves_seq; [apply moves_upd; reflexivity|]); apply moves_upd; reflexivity|]. do 2 (apply moves_seq; [apply moves_upd; reflexivity|]). apply moves_send. apply keep_st.
Qed.
Lemma moves_popRoute P cfg : moves P (popRoute cfg). Proof. apply moves_look. apply moves_pop. Qed.
Lemma moves_sendRequest P cfg w : moves P (sendRequest cfg w).
Proof.
  apply moves_look. intros m. apply moves_val. intros [m' r]. apply moves_seq; [apply moves_upd; intros s; destruct w; reflexivity|].
  destruct r as [[host port]|e]; [|apply moves_fail]. apply moves_ask. intros x. apply moves_look. intros n. destruct (RouteAddress _ _ _ _); [|apply moves_fail]. do 3 (apply moves_seq; [apply moves_upd; reflexivity|]). apply moves_popRoute.
Qed.
Ltac mv1 := match goal with
  | |- moves _ (upd _) => apply moves_upd; intros; reflexivity
  | |- moves _ crash => apply moves_crash
  | |- moves _ halt => apply moves_halt
  | |- moves _ (fail _) => apply moves_fail
  | |- moves _ (send _ _ _) => apply moves_send; intros; first [apply keep_st|reflexivity]
  | |- moves _ (checkSDP _) => apply moves_sdp
  | |- moves _ (popRoute _) => apply moves_popRoute
  | |- moves _ (sendRequest _ _) => apply moves_sendRequest
  | |- moves _ (transition _) => apply moves_transition
  | |- moves _ (look _ _) => apply moves_look; intros
  | |- moves _ (val _ _) => apply moves_val; intros
  | |- moves _ (_ ;; _) => apply moves_seq
  | |- moves _ (if ?b then _ else _) => destruct b
  | |- moves _ (match ?x with _ => _ end) => destruct x end.
(** the provisional responses which the dialog reports *)
Definition provisional (n : Z) (m : msg) : Prop := (n = Proceeding /\ status m = 100) \/ (n = Ringing /\ (status m = 180 \/ status m = 183)).
(** What a turn can report, and what state it can lead to: Answered, Hangup, or the state of a provisional response which matches the
    request that is outstanding. What is missing: such a response undoes Answered. *)
Theorem going_back_partial : forall cfg e s n, In (OState n) (r_out (handle cfg e s)) \/ (st (r_state (handle cfg e s)) = n /\ st s <> n) ->
  n = Answered \/ n = Hangup \/ exists m, e = EMsg m /\ provisional n m /\ ResponseMatch (the_request s) m = true /\ callid m = callid (the_request s).
Proof.
  intros cfg e s n H. set (P n := n = Answered \/ n = Hangup \/ exists m, e = EMsg m /\ provisional n m /\ ResponseMatch (the_request s) m = true /\ callid m = callid (the_request s)). change (P n).
  assert (PA : P Answered) by (left; reflexivity). assert (PH : P Hangup) by (right; left; reflexivity).
  set (Q r := (st (r_state r) = st s \/ P (st (r_state r))) /\ (forall n, In (OState n) (r_out r) -> P n)). assert (QM : forall a : action, moves P a -> Q (a s)) by (intros a T; exact (T s)).
  assert (T : Q (handle cfg e s)).
  2:{ destruct T as [T1 T2]. destruct H as [H|[H1 H2]]; [apply T2; exact H|]. rewrite H1 in T1. destruct T1; [congruence|assumption]. }
  clear H n. destruct e as [[|]| | | |m|]; cbn [handle] in *; try solve [apply QM; clearbody P; unfold resendRequest, resendResponse, sendHangup; repeat (mv1 || assumption)].
  unfold handleMessage. destruct (_ || _); [apply QM; clearbody P; repeat (mv1 || assumption)|].
  unfold look at 1. destruct (bseq_reflect (callid m) (callid (the_request s))) as [C|C]; cbn [negb]; [|apply QM; clearbody P; repeat (mv1 || assumption)].
  destruct (IsResponse m); [|apply QM; clearbody P; unfold handleRequest, sendResponse; repeat (mv1 || assumption)].
  unfold handleResponse, look at 1. destruct (ResponseMatch (the_request s) m) eqn:M; cbn [negb]; [|apply QM; mv1].
  assert (PP : status m = 100 -> P Proceeding) by (intros E; right; right; exists m; unfold provisional; auto).
  assert (PR : status m = 180 \/ status m = 183 -> P Ringing) by (intros E; right; right; exists m; unfold provisional; auto).
  apply QM. clearbody P. mv1; [repeat mv1|]. do 2 (mv1; [mv1|]). mv1; [repeat mv1|].
  destruct (Z.eqb_spec (status m) 100); [mv1; auto|]. destruct (orb _ _) eqn:O.
  { mv1. apply PR. apply orb_true_iff in O. rewrite !Z.eqb_eq in O. exact O. }
  repeat (mv1 || assumption).
Qed.
(** A late provisional response takes an answered call back. *)
Theorem late_provisional_refuted : forall cfg s m, st s = Answered -> sip2 m -> callid m = callid (the_request s) -> ResponseMatch (the_request s) m = true -> status m = 180 -> pay m = None ->
  r_out (handle cfg (EMsg m) s) = [OState Ringing] /\ st (r_state (handle cfg (EMsg m) s)) = Ringing.
Proof.
  intros cfg s m A V C M S P. cbn [handle]. unfold handleMessage. rewrite (version_ok _ V). unfold look. rewrite C, bseq_refl. cbn [negb]. unfold IsResponse. rewrite S. cbn [Z.ltb Z.compare].
  unfold handleResponse, look. rewrite M, S. cbn [negb Z.leb Z.compare andb]. unfold checkSDP. rewrite P. split; reflexivity.
Qed.

(** * C53 *)
(** a final response to the INVITE which is outstanding *)
Definition final_response (s : dstate) (m : msg) : Prop :=
  sip2 m /\ callid m = callid (the_request s) /\ ResponseMatch (the_request s) m = true /\ method (the_request s) = B "INVITE" /\ 200 <= status m.
Lemma final_split cfg s m : final_response s m -> exists rest, handle cfg (EMsg m) s =
  (match addrs m Contact with [] => fail DNoContact | _ => val (NewAck m (the_request s)) (fun ack => send cfg ack drop) end ;; rest) s.
Proof.
  intros (V & C & M & I & S). cbn [handle]. unfold handleMessage. rewrite (version_ok _ V). unfold look at 1. rewrite C, bseq_refl. unfold IsResponse. destruct (Z.ltb_spec 0 (status m)); [|lia]. cbn [negb].
  unfold handleResponse, look at 1. rewrite M, I, bseq_refl. destruct (Z.leb_spec 200 (status m)); [|lia]. cbn [andb negb]. eexists. reflexivity.
Qed.
Lemma match_via q m : ResponseMatch q m = true -> exists v l, vias m = v :: l.
Proof.
  unfold ResponseMatch. intros H. apply andb_true_iff in H. destruct H as [_ H]. destruct (vias m) as [|v l]; [|eauto]. cbn in H. discriminate.
Qed.
Lemma new_ack m q c cs v vs : addrs m Contact = c :: cs -> vias m = v :: vs -> exists ack, NewAck m q = Ok ack /\ method ack = B "ACK" /\ status ack = 0 /\ request ack = a_uri c /\ callid ack = callid m /\
  cseq ack = cseq m /\ cseqmethod ack = B "ACK" /\ addrs ack From = addrs m From /\ addrs ack To = addrs m To /\ vias ack = [v] /\ maxforwards ack = 0.
Proof. intros C V. unfold NewAck. rewrite C, V. cbn [uri_of via_Detach rbind]. eexists. split; [reflexivity|]. repeat split; reflexivity. Qed.
Lemma sent_first cfg m s k v l rest : so s = Some k -> maxforwards m = 0 -> vias m = v :: l ->
  (exists l, r_out ((send cfg m drop ;; rest) s) = OErr DSocket :: l) \/ exists vs text l, r_out ((send cfg m drop ;; rest) s) = OSend (so_remote k) (set_vias vs m) text :: l.
Proof.
  intros K MF V. unfold seq. cbv zeta. rewrite send_eq. unfold drop. cbv zeta. rewrite MF, (lowered_zero _ MF). cbn [Z.eqb so set_clock]. rewrite K.
  destruct (addTimestamp m _) as [a2|] eqn:E; [|apply stamp_panic in E; congruence]. apply stamp_ok in E. destruct E as [vs ->]. destruct (w_write _ _); [right|left]; cbn [r_v r_out app]; eauto.
Qed.
(** The answer to a final response, first or repeated, is an ACK with its CSeq number, Call-ID, From and To, sent before anything
    else, unless the socket fails. What is missing: a response without Contact, and one that arrives after the BYE was sent. *)
Theorem final_acknowledged_partial : forall cfg s m k c cs, so s = Some k -> final_response s m -> addrs m Contact = c :: cs ->
  (exists l, r_out (handle cfg (EMsg m) s) = OErr DSocket :: l) \/
  exists ack text l, r_out (handle cfg (EMsg m) s) = OSend (so_remote k) ack text :: l /\
    method ack = B "ACK" /\ status ack = 0 /\ request ack = a_uri c /\ callid ack = callid m /\ cseq ack = cseq m /\ cseqmethod ack = B "ACK" /\ addrs ack From = addrs m From /\ addrs ack To = addrs m To.
Proof.
  intros cfg s m k c cs K F HC. destruct (final_split cfg s m F) as [rest ->]. destruct F as (_ & _ & M & _ & _). destruct (match_via _ _ M) as (v & l & V).
  destruct (new_ack m (the_request s) _ _ _ _ HC V) as (ack & EA & F1 & F2 & F3 & F4 & F5 & F6 & F7 & F8 & F9 & F10). rewrite HC, EA. cbn [val].
  destruct (sent_first cfg ack s k v [] rest K F10 F9) as [E|(vs & text & r & E)]; [left; exact E|right]. exists (set_vias vs ack), text, r. split; [exact E|]. repeat split; assumption.
Qed.
Theorem no_contact_refuted : forall cfg s m, final_response s m -> addrs m Contact = [] -> r_out (handle cfg (EMsg m) s) = [OErr DNoContact] /\ r_v (handle cfg (EMsg m) s) = Halt.
Proof.
  intros cfg s m F HC. destruct (final_split cfg s m F) as [rest ->]. rewrite HC. split; reflexivity.
Qed.
(** After the BYE was sent, a repeated answer to the INVITE is not acknowledged: nothing is sent. *)
Theorem repeated_answer_refuted : forall cfg s m, sip2 m -> callid m = callid (the_request s) -> method (the_request s) = B "BYE" -> cseqmethod m = B "INVITE" -> status m = 200 ->
  handle cfg (EMsg m) s = mkres s [] Cont.
Proof.
  intros cfg s m V C B I S. cbn [handle]. unfold handleMessage. rewrite (version_ok _ V). unfold look at 1. rewrite C, bseq_refl. unfold IsResponse. rewrite S. cbn [negb Z.ltb Z.compare].
  unfold handleResponse, look at 1. replace (ResponseMatch (the_request s) m) with false; [reflexivity|]. unfold ResponseMatch. rewrite B, I. change (bseq _ _) with false at 1. rewrite andb_false_r. reflexivity.
Qed.

(** * C60 in the dialog *)
Theorem dialog_hop_decrements : forall cfg m keep s to m' text, 0 < maxforwards m -> In (OSend to m' text) (r_out (send cfg m keep s)) -> 0 < maxforwards m' /\ maxforwards m' = maxforwards m - 1.
Proof.
  intros cfg m keep s to m' text P. rewrite send_eq. cbv zeta. destruct (Z.eqb_spec (maxforwards m) 1); [intros [H|[]]; discriminate|]. destruct (addTimestamp _ _) as [m2|] eqn:E; [|intros []]. destruct (so _) as [k|]; [|intros []].
  destruct (w_write _ _); [|intros [H|[]]; discriminate]. intros [H|[]]. injection H as <- <- _. apply stamp_ok in E. destruct E as [v ->]. unfold lowered. destruct (Z.ltb_spec 0 (maxforwards m)); [|lia]. cbn [maxforwards set_vias set_maxforwards]. lia.
Qed.
Theorem dialog_hop_stops : forall cfg m keep s, maxforwards m = 1 -> r_out (send cfg m keep s) = [OErr DLocalLoop] /\ r_v (send cfg m keep s) = Halt.
Proof. intros cfg m keep s E. rewrite send_eq, E. split; reflexivity. Qed.
(** Repeating a request counts as a hop each time. *)
Lemma the_request_set m s : the_request (set_the_request m s) = m. Proof. unfold the_request, set_the_request. destruct (req s) eqn:E; cbn; [reflexivity|]. rewrite E. reflexivity. Qed.
Lemma resend_eq cfg s : resends s < c_max cfg -> handle cfg EReqTimer s = (send cfg (the_request s) set_the_request ;; upd (set_resends (resends s + 1)) ;; upd (set_rtimer true)) (set_rtimer false s).
Proof.
  intros L. cbn [handle]. rewrite upd_seq. unfold resendRequest. unfold look at 1. change (resends (set_rtimer false s)) with (resends s). destruct (Z.ltb_spec (resends s) (c_max cfg)); [|lia]. reflexivity.
Qed.
Theorem dialog_resend_decrements : forall cfg s, 1 < maxforwards (the_request s) -> resends s < c_max cfg -> r_v (handle cfg EReqTimer s) = Cont ->
  maxforwards (the_request (r_state (handle cfg EReqTimer s))) = maxforwards (the_request s) - 1 /\
  exists to text, r_out (handle cfg EReqTimer s) = [OSend to (the_request (r_state (handle cfg EReqTimer s))) text].
Proof.
  intros cfg s P L. rewrite (resend_eq _ _ L). unfold seq, upd, go. cbv zeta. rewrite send_eq. cbv zeta.
  destruct (Z.eqb_spec (maxforwards (the_request s)) 1); [lia|]. destruct (addTimestamp _ _) as [m2|] eqn:E; [|discriminate]. destruct (so _) as [k|]; [|discriminate]. destruct (w_write _ _); [|discriminate]. intros _. cbn [r_v r_out r_state app].
  match goal with |- context[set_rtimer true (set_resends _ ?x)] => change (the_request (set_rtimer true (set_resends (resends s + 1) x))) with (the_request x) end. rewrite the_request_set. apply stamp_ok in E. destruct E as [v ->].
  split; [|eauto]. unfold lowered. destruct (Z.ltb_spec 0 (maxforwards (the_request s))); [|lia]. reflexivity.
Qed.
