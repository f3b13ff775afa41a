(** C110: a transport delivers what arrives, once and in order, and says when it ends. *)
From Coq Require Import List ZArith Lia.
From Verif Require Import Bytes BytesLemmas GoLib GoLibLemmas SdpModel SdpProofs SipText SipTypes SipAppend UtilModel P_Text P_Lists UriSpec P_Uri MsgModel MsgSpec MsgGrammar P_MsgText P_Msg MsgWf MsgRound P_MsgRound
  DialogMsg P_DialogMsg P_DialogWire TransportModel P_Transport P_Received DialogModel P_DialogSafe ReaderModel.
Import ListNotations.
Local Open Scope Z_scope.

(** ** Specification *)
(** the message in a datagram, as it is delivered: none if it, cut to 2048 bytes, is not a message *)
Definition message_in (lhost : bytes) (lport : Z) (x : gram) : list msg :=
  match x with
  | (data, src, stamp) => match parse_msg (firstn 2048 data) with MOk m => match prepare lhost lport src stamp m with Ok m' => [m'] | Panic => [] end | _ => [] end
  end.
(** what happened, in order *)
Definition arrived (l : list event) : list gram := flat_map (fun e => match e with Arrives x => [x] | _ => [] end) l.
Definition read (l : list event) : list gram := flat_map (fun e => match e with IsRead x => [x] | _ => [] end) l.
Definition taken (l : list event) : list msg := flat_map (fun e => match e with Taken m => [m] | _ => [] end) l.
Definition errors (l : list event) : nat := length (filter (fun e => match e with ErrorTaken => true | _ => false end) l).
(** the message the goroutine is holding out to the application *)
Definition held_out (r : reader) : list msg := match rd_at r with Offering d => [seen (rd_buf r) d] | _ => [] end.

(** ** What holds all along *)
Record sound (lhost : bytes) (lport : Z) (l : list event) (r : reader) : Prop := mksound {
  so_buf : length (rd_buf r) = 2048%nat;
  so_queue : arrived l = read l ++ rd_queue r;
  so_taken : flat_map (message_in lhost lport) (read l) = taken l ++ held_out r;
  so_errors : errors l = match rd_at r with LeftLoop | ClosedOne | Ended => 1%nat | _ => 0%nat end;
  so_c : rd_c r = match rd_at r with ClosedOne | Ended => false | _ => true end;
  so_e : rd_e r = match rd_at r with Ended => false | _ => true end;
  so_seen_c : In CSeenClosed l -> rd_c r = false;
  so_seen_e : In ESeenClosed l -> rd_e r = false }.

Lemma proj_snoc l e : arrived (l ++ [e]) = arrived l ++ arrived [e] /\ read (l ++ [e]) = read l ++ read [e] /\ taken (l ++ [e]) = taken l ++ taken [e] /\ errors (l ++ [e]) = (errors l + errors [e])%nat.
Proof. unfold arrived, read, taken, errors. rewrite !flat_map_app, filter_app, app_length. auto. Qed.

Lemma receive_length lhost lport buf data src stamp buf' o : TransportModel.receive lhost lport buf data src stamp = Ok (buf', o) -> length buf' = length buf.
Proof.
  unfold TransportModel.receive. destruct (parse_msg _); try discriminate; [|intros H; injection H as <- _; apply read_length]. intros H. apply rbind_ok in H. destruct H as (m' & _ & H). injection H as <- _. apply read_length.
Qed.
Lemma receive_is lhost lport buf data src stamp : length buf = 2048%nat ->
  message_in lhost lport (data, src, stamp) = match TransportModel.receive lhost lport buf data src stamp with Ok (buf', Some d) => [seen buf' d] | _ => [] end.
Proof.
  intros L. destruct (TransportModel.receive lhost lport buf data src stamp) as [[buf' [d|]]|] eqn:R.
  - destruct (delivered_at_first _ _ _ _ _ _ _ _ R) as (m & m' & P & PR & E). rewrite L in P. unfold message_in. rewrite P, PR, E. reflexivity.
  - unfold TransportModel.receive in R. rewrite L in R. unfold message_in. destruct (parse_msg (firstn 2048 data)) as [m| | |]; try reflexivity. destruct (prepare lhost lport src stamp m); [discriminate|reflexivity].
  - unfold TransportModel.receive in R. rewrite L in R. unfold message_in. destruct (parse_msg (firstn 2048 data)) as [m| | |]; try reflexivity. destruct (prepare lhost lport src stamp m); [discriminate|reflexivity].
Qed.

Lemma sound_step lhost lport l r e r' : sound lhost lport l r -> happens lhost lport r e r' -> sound lhost lport (l ++ [e]) r'.
Proof.
  intros [B Q T E C K SC SE] H. destruct (proj_snoc l e) as (PA & PR & PT & PE).
  assert (INC : forall x, In x (l ++ [e]) -> In x l \/ x = e) by (intros x I; apply in_app_or in I; destruct I as [I|[I|[]]]; auto).
  assert (TQ : flat_map (message_in lhost lport) (read l ++ read [e]) = (taken l ++ held_out r) ++ flat_map (message_in lhost lport) (read [e])) by (rewrite flat_map_app, T; reflexivity).
  destruct H as [r x O N|r x q A O EQ|r d A|r A|r A|r A|r A|r X|r X|r O N]; constructor; rewrite ?PA, ?PR, ?PT, ?PE, ?TQ; cbn [arrived read taken errors flat_map filter app length rd_at rd_buf rd_queue rd_c rd_e at_ held_out]; rewrite ?app_nil_r; try assumption.
  all: try (rewrite Nat.add_0_r; assumption).
  all: try (intros I; apply INC in I; destruct I as [I|I]; [auto|discriminate]).
  all: try (rewrite A in E, C, K; first [exact E|exact C|exact K|rewrite E; reflexivity]).
  all: try (unfold held_out; rewrite A; rewrite ?app_nil_r; reflexivity).
  all: try (intros I; apply INC in I; destruct I as [I|I]; [specialize (SC I)|discriminate]; rewrite A in C; congruence).
  all: try (intros I; apply INC in I; destruct I as [I|I]; [specialize (SE I)|discriminate]; rewrite A in K; congruence).
  all: try (intros I; apply INC in I; destruct I as [I|I]; auto; fail).
  all: try (rewrite Q, <- app_assoc; reflexivity).
  all: try reflexivity.
  all: try (exfalso; rewrite A in C, K; first [specialize (SC I); congruence|specialize (SE I); congruence]).
  all: destruct x as [[data src] stamp]; unfold after_read; pose proof (receive_is lhost lport (rd_buf r) data src stamp B) as RI; pose proof (receive_length lhost lport (rd_buf r) data src stamp) as RL.
  all: rewrite A in E, C, K; unfold held_out in *; rewrite A in *; rewrite ?app_nil_r in *.
  all: destruct (TransportModel.receive lhost lport (rd_buf r) data src stamp) as [[buf' [d|]]|]; cbn [rd_at rd_buf rd_queue rd_c rd_e] in *; rewrite ?RI, ?app_nil_r, ?Nat.add_0_r; try assumption; try reflexivity.
  all: try (rewrite (RL _ _ eq_refl); exact B).
  all: try (rewrite Q, EQ, <- app_assoc; reflexivity).
Qed.
Lemma sound_along lhost lport r l r' : history lhost lport r l r' -> forall past, sound lhost lport past r -> sound lhost lport (past ++ l) r'.
Proof.
  intros H. induction H as [r|r e r' l r'' H _ IH]; intros past P; [rewrite app_nil_r; exact P|]. change (e :: l) with ([e] ++ l). rewrite app_assoc. apply IH. eapply sound_step; eassumption.
Qed.
Lemma sound_started lhost lport : sound lhost lport [] started.
Proof. constructor; try reflexivity; try (intros []); unfold started; cbn [rd_buf]; apply repeat_length. Qed.
Lemma history_app lhost lport r l l' r'' : history lhost lport r (l ++ l') r'' -> exists r', history lhost lport r l r' /\ history lhost lport r' l' r''.
Proof.
  revert r. induction l as [|e l IH]; intros r H; [exists r; split; [constructor|exact H]|]. inversion H; subst. destruct (IH _ ltac:(eassumption)) as (x & H1 & H2). exists x. split; [econstructor; eassumption|exact H2].
Qed.

(** * C110 *)
(** In every history the application takes the messages which arrive, each once and in the order of their arrival; none is left out, and what it
    has not taken yet is in a datagram that was not read, or is the one the goroutine holds out. *)
Theorem reader_in_order : forall lhost lport l r, history lhost lport started l r ->
  exists rest, flat_map (message_in lhost lport) (arrived l) = taken l ++ rest /\
  (exists unread, arrived l = read l ++ unread /\ exists one, flat_map (message_in lhost lport) (read l) = taken l ++ one /\ (length one <= 1)%nat) /\
  (rd_at r = Reading -> rd_queue r = [] -> rest = []).
Proof.
  intros lhost lport l r H. destruct (sound_along _ _ _ _ _ H [] (sound_started _ _)) as [_ Q T _ _ _ _ _]. cbn [app] in Q, T. exists (held_out r ++ flat_map (message_in lhost lport) (rd_queue r)).
  split; [rewrite Q, flat_map_app, T, app_assoc; reflexivity|]. split; [exists (rd_queue r); split; [exact Q|]; exists (held_out r); split; [exact T|]; unfold held_out; destruct (rd_at r); cbn; lia|].
  intros A E. rewrite E. unfold held_out. rewrite A. reflexivity.
Qed.

(** after the error *)
Definition is_over (r : reader) : Prop := match rd_at r with LeftLoop | ClosedOne | Ended => True | _ => False end.
Lemma over_along lhost lport r l r' : history lhost lport r l r' -> is_over r -> is_over r' /\ taken l = [] /\ read l = [] /\ errors l = 0%nat.
Proof.
  intros H. induction H as [r|r e r' l r'' H _ IH]; intros O; [auto|]. unfold is_over in O.
  assert (X : is_over r' /\ taken [e] = [] /\ read [e] = [] /\ errors [e] = 0%nat).
  { destruct H as [r x P N|r x q A P EQ|r d A|r A|r A|r A|r A|r X|r X|r P N]; try rewrite A in O; try contradiction; (split; [|auto]); unfold is_over; cbn [rd_at]; auto. }
  destruct X as (X1 & X2 & X3 & X4). destruct (IH X1) as (I1 & I2 & I3 & I4). split; [exact I1|].
  change (e :: l) with ([e] ++ l). unfold taken, read, errors in *. rewrite !flat_map_app, filter_app, app_length, X2, X3, X4, I2, I3, I4. auto.
Qed.
(** The application hears of at most one error, and of no message and no error after it; that a channel is closed it sees only after the error. *)
Theorem reader_end_once : forall lhost lport l r, history lhost lport started l r -> (errors l <= 1)%nat /\
  (forall l1 l2, l = l1 ++ ErrorTaken :: l2 -> taken l2 = [] /\ read l2 = [] /\ errors l2 = 0%nat) /\
  (forall l1 l2, l = l1 ++ CSeenClosed :: l2 \/ l = l1 ++ ESeenClosed :: l2 -> In ErrorTaken l1 /\ taken l2 = []).
Proof.
  intros lhost lport l r H. split; [|split].
  - destruct (sound_along _ _ _ _ _ H [] (sound_started _ _)) as [_ _ _ E _ _ _ _]. cbn [app] in E. rewrite E. destruct (rd_at r); lia.
  - intros l1 l2 ->. destruct (history_app _ _ _ _ _ _ H) as (r1 & _ & H2). inversion H2; subst. match goal with X : happens _ _ _ ErrorTaken _ |- _ => inversion X; subst end. destruct (over_along _ _ _ _ _ ltac:(eassumption) I) as (_ & A & B & C). auto.
  - intros l1 l2 E.
    assert (G : forall e, (e = CSeenClosed \/ e = ESeenClosed) -> l = l1 ++ e :: l2 -> In ErrorTaken l1 /\ taken l2 = []).
    { intros e Ee ->. destruct (history_app _ _ _ _ _ _ H) as (r1 & H1 & H2). destruct (sound_along _ _ _ _ _ H1 [] (sound_started _ _)) as [_ _ _ ER C K _ _]. cbn [app] in ER. inversion H2 as [|r0 e0 r2 l0 r3 HP HH]; subst.
      assert (OV : is_over r1 /\ r2 = r1). { destruct Ee as [-> | ->]; inversion HP; subst; (split; [|reflexivity]); unfold is_over; destruct (rd_at r2); congruence || exact I. }
      destruct OV as (OV & ->). split; [|exact (proj1 (proj2 (over_along _ _ _ _ _ HH OV)))].
      assert (P : (0 < errors l1)%nat) by (rewrite ER; unfold is_over in OV; destruct (rd_at r1); try contradiction; lia). unfold errors in P. destruct (filter _ l1) as [|x k] eqn:F; [cbn in P; lia|].
      assert (IX : In x (filter (fun e => match e with ErrorTaken => true | _ => false end) l1)) by (rewrite F; left; reflexivity). apply filter_In in IX. destruct IX as (IX & Ex). destruct x; try discriminate. exact IX. }
    destruct E as [E|E]; [apply (G CSeenClosed)|apply (G ESeenClosed)]; auto.
Qed.

(** what the goroutine does, alone or with the application *)
Definition progress (e : event) : bool := match e with Taken _ | SocketFails | ErrorTaken | CloseC | CloseE => true | _ => false end.
Definition to_end (s : stage) : nat := match s with Offering _ => 5 | Reading => 4 | Reporting => 3 | LeftLoop => 2 | ClosedOne => 1 | Ended | Crashed => 0 end.
(** If the socket is closed, then the goroutine ends as soon as the application has taken what it has for it: at most five things happen until then, and one of them always can. *)
Theorem reader_ends : forall lhost lport r l r', rd_open r = false -> rd_at r <> Crashed -> history lhost lport r l r' ->
  (length (filter progress l) <= 5)%nat /\ (rd_at r' = Ended \/ exists e r'', progress e = true /\ happens lhost lport r' e r'').
Proof.
  intros lhost lport r l r' O N H.
  assert (K : (length (filter progress l) + to_end (rd_at r') <= to_end (rd_at r))%nat /\ rd_at r' <> Crashed).
  { induction H as [r|r e r' l r'' H _ IH]; [cbn; split; [lia|exact N]|].
    assert (X : rd_open r' = false /\ rd_at r' <> Crashed /\ (length (filter progress [e]) + to_end (rd_at r') <= to_end (rd_at r))%nat).
    { destruct H as [r x P M|r x q A P EQ|r d A|r A|r A|r A|r A|r X|r X|r P M]; cbn [rd_open rd_at at_ filter progress length to_end]; rewrite ?A; try congruence; (split; [exact O|]); (split; [first [exact N|discriminate]|cbn; lia]). }
    destruct X as (X1 & X2 & X3). destruct (IH X1 X2) as (I1 & I2). split; [|exact I2]. change (e :: l) with ([e] ++ l). rewrite filter_app, app_length. lia. }
  destruct K as (K1 & K2). split; [destruct (rd_at r); cbn [to_end] in K1; lia|].
  destruct (rd_at r') as [|d| | | | |] eqn:A; [right|right|right|right|right|left; reflexivity|congruence].
  - exists SocketFails. eexists. split; [reflexivity|apply it_fails; exact A].
  - eexists. eexists. split; [|apply it_is_taken; exact A]. reflexivity.
  - exists ErrorTaken. eexists. split; [reflexivity|apply error_is_taken; exact A].
  - exists CloseC. eexists. split; [reflexivity|apply it_closes_c; exact A].
  - exists CloseE. eexists. split; [reflexivity|apply it_closes_e; exact A].
Qed.

(** No datagram ends the program, unless it is a message without Via. *)
Theorem reader_no_crash_partial : forall lhost lport l r, history lhost lport started l r ->
  (forall data src stamp m, In (data, src, stamp) (read l) -> parse_msg (firstn 2048 data) = MOk m -> vias m <> []) -> rd_at r <> Crashed.
Proof.
  intros lhost lport l r H. assert (N : rd_at started <> Crashed) by discriminate. assert (LB : length (rd_buf started) = 2048%nat) by apply repeat_length. revert N LB. generalize dependent started. intros r0 H N LB V.
  induction H as [r|r e r' l r'' H _ IH]; [exact N|].
  assert (X : rd_at r' <> Crashed /\ length (rd_buf r') = 2048%nat).
  { destruct H as [r x P M|r x q A P EQ|r d A|r A|r A|r A|r A|r X|r X|r P M]; cbn [rd_at rd_buf at_]; try (split; [first [exact N|discriminate]|exact LB]).
    destruct x as [[data src] stamp]. unfold after_read. destruct (TransportModel.receive lhost lport (rd_buf r) data src stamp) as [[buf [d|]]|] eqn:R; cbn [rd_at rd_buf].
    - split; [discriminate|rewrite (receive_length _ _ _ _ _ _ _ _ R); exact LB].
    - split; [discriminate|rewrite (receive_length _ _ _ _ _ _ _ _ R); exact LB].
    - exfalso. unfold TransportModel.receive in R. rewrite LB in R. destruct (parse_msg (firstn 2048 data)) as [m|e| |] eqn:PM; try discriminate R.
      + destruct (receiver_no_crash_partial _ m lhost lport src stamp PM) as (m' & E & _); [apply (V data src stamp m); [left; reflexivity|exact PM]|]. rewrite E in R. discriminate.
      + exact (msg_parse_no_panic _ PM).
      + exact (msg_parse_stops _ PM). }
  destruct X as (X1 & X2). apply IH; [exact X1|exact X2|]. intros data src stamp m I. apply (V data src stamp m). change (e :: l) with ([e] ++ l). unfold read. rewrite flat_map_app. apply in_or_app. right. exact I.
Qed.

(** ** What is not so *)
(** One datagram, from anywhere, ends the program. *)
Theorem reader_crash_refuted : exists data, forall lhost lport src stamp, exists r, history lhost lport started [Arrives (data, src, stamp); IsRead (data, src, stamp)] r /\ rd_at r = Crashed.
Proof.
  destruct request_without_via_refuted as (P & _). exists (B "OPTIONS sip:a SIP/2.0" ++ CRLF ++ CRLF). intros lhost lport src stamp. eexists. split; [eapply and_then; [apply it_arrives; [reflexivity|discriminate]|]; eapply and_then; [apply it_is_read; reflexivity|]; apply nothing_yet|].
  unfold after_read. cbn [rd_buf]. unfold TransportModel.receive. assert (LB : length (rd_buf started) = 2048%nat) by apply repeat_length. rewrite LB. set (d := firstn 2048 _). assert (E : d = B "OPTIONS sip:a SIP/2.0" ++ CRLF ++ CRLF) by (apply firstn_all2; apply Nat.leb_le; reflexivity). rewrite E. clear d E.
  destruct (parse_msg (B "OPTIONS sip:a SIP/2.0" ++ CRLF ++ CRLF)) as [m| | |] eqn:E; vm_compute in E; try discriminate E. rewrite P; [reflexivity| |]; injection E as <-; [discriminate|reflexivity].
Qed.
(** An application that reads C until it is closed, and not E, waits for ever once the socket has failed: it may have closed it itself. *)
Theorem reader_c_never_closed_refuted : forall lhost lport r0 l r, rd_at r0 = Reporting -> rd_c r0 = true -> history lhost lport r0 l r -> ~ In ErrorTaken l ->
  rd_at r = Reporting /\ taken l = [] /\ ~ In CSeenClosed l.
Proof.
  intros lhost lport r0 l r A C H. induction H as [r|r e r' l r'' H _ IH]; intros N; [auto|].
  assert (X : rd_at r' = Reporting /\ rd_c r' = true /\ taken [e] = [] /\ e <> CSeenClosed).
  { destruct H as [r x P M|r x q A' P EQ|r d A'|r A'|r A'|r A'|r A'|r X|r X|r P M]; try congruence; cbn [rd_at rd_c]; try (repeat split; congruence). exfalso. apply N. left. reflexivity. }
  destruct X as (X1 & X2 & X3 & X4). destruct (IH X1 X2 ltac:(intros I; apply N; right; exact I)) as (I1 & I2 & I3). split; [exact I1|]. split.
  - change (e :: l) with ([e] ++ l). unfold taken in *. rewrite flat_map_app, X3, I2. reflexivity.
  - intros [E|I]; [exact (X4 E)|exact (I3 I)].
Qed.
(** An application that closes the socket and waits for the error, or for E to be closed, without reading C waits for ever if a message is held out. *)
Theorem reader_e_never_heard_refuted : forall lhost lport r0 d l r, rd_at r0 = Offering d -> rd_e r0 = true -> history lhost lport r0 l r -> taken l = [] ->
  rd_at r = Offering d /\ ~ In ErrorTaken l /\ ~ In ESeenClosed l.
Proof.
  intros lhost lport r0 d l r A C H. induction H as [r|r e r' l r'' H _ IH]; intros N; [auto|]. change (e :: l) with ([e] ++ l) in N. unfold taken in N. rewrite flat_map_app in N. apply app_eq_nil in N. destruct N as (N1 & N2).
  assert (X : rd_at r' = Offering d /\ rd_e r' = true /\ e <> ErrorTaken /\ e <> ESeenClosed).
  { destruct H as [r x P M|r x q A' P EQ|r d' A'|r A'|r A'|r A'|r A'|r X|r X|r P M]; try congruence; try discriminate N1; cbn [rd_at rd_e]; repeat split; congruence. }
  destruct X as (X1 & X2 & X3 & X4). destruct (IH X1 X2 N2) as (I1 & I2 & I3). split; [exact I1|]. split; (intros [E|I]; [congruence|auto]).
Qed.

(** ** Example: noise, then a message; the application takes it, closes the socket, takes the error and sees C closed. Another one closes the socket instead of taking the message. *)
Definition ex_gram : gram := (B "OPTIONS sip:a SIP/2.0" ++ CRLF ++ B "Via: SIP/2.0/UDP 1.2.3.4:5070;branch=z" ++ CRLF ++ CRLF, (B "1.2.3.4", 5070), None).
Definition ex_noise : gram := (B "hello", (B "1.2.3.4", 5070), None).
Lemma reads_message lhost lport x m b q q0 : length b = 2048%nat -> message_in lhost lport x = [m] ->
  exists b' d, seen b' d = m /\ after_read lhost lport x q (mkreader Reading b q0 true true true) = mkreader (Offering d) b' q true true true.
Proof.
  intros L E. destruct x as [[data src] stamp]. rewrite (receive_is _ _ b _ _ _ L) in E. unfold after_read. cbn [rd_buf rd_open rd_c rd_e]. destruct (TransportModel.receive lhost lport b data src stamp) as [[b' [d|]]|]; try discriminate. exists b', d. split; [congruence|reflexivity].
Qed.
Lemma reads_noise lhost lport x b q q0 e : length b = 2048%nat -> parse_msg (firstn 2048 (fst (fst x))) = MErr e ->
  exists b', length b' = 2048%nat /\ after_read lhost lport x q (mkreader Reading b q0 true true true) = mkreader Reading b' q true true true.
Proof.
  intros L E. destruct x as [[data src] stamp]. cbn [fst] in E. unfold after_read. cbn [rd_buf rd_open rd_c rd_e]. unfold TransportModel.receive. rewrite L, E. exists (read_into b data). split; [rewrite read_length; exact L|reflexivity].
Qed.
Lemma read_then lhost lport r x q r' : rd_at r = Reading -> rd_open r = true -> rd_queue r = x :: q -> after_read lhost lport x q r = r' -> happens lhost lport r (IsRead x) r'.
Proof. intros A O Q <-. apply it_is_read; assumption. Qed.
Lemma stories lhost lport x n m e : message_in lhost lport x = [m] -> parse_msg (firstn 2048 (fst (fst n))) = MErr e ->
  (exists r, history lhost lport started [Arrives n; Arrives x; IsRead n; IsRead x; Taken m; SocketClosed; SocketFails; ErrorTaken; CloseC; CSeenClosed; CloseE; ESeenClosed] r /\ rd_at r = Ended) /\
  (exists r d, history lhost lport started [Arrives x; IsRead x; SocketClosed] r /\ rd_at r = Offering d /\ rd_e r = true /\ rd_open r = false).
Proof.
  intros E P. unfold started. assert (LB : length (repeat "000"%byte 2048) = 2048%nat) by apply repeat_length. generalize dependent (repeat "000"%byte 2048). intros b0 LB. split.
  - destruct (reads_noise lhost lport n b0 [x] [n; x] e LB P) as (b & L & R1). destruct (reads_message lhost lport x m b [] [x] L E) as (b' & d & SE & R3). eexists. split.
    + eapply and_then; [apply it_arrives; [reflexivity|discriminate]|]. eapply and_then; [apply it_arrives; [reflexivity|discriminate]|]. eapply and_then; [eapply read_then; [reflexivity|reflexivity|reflexivity|exact R1]|].
      eapply and_then; [eapply read_then; [reflexivity|reflexivity|reflexivity|exact R3]|]. eapply and_then; [rewrite <- SE; apply it_is_taken; reflexivity|]. eapply and_then; [apply socket_is_closed; [reflexivity|discriminate]|]. eapply and_then; [apply it_fails; reflexivity|].
      eapply and_then; [apply error_is_taken; reflexivity|]. eapply and_then; [apply it_closes_c; reflexivity|]. eapply and_then; [apply c_is_closed; reflexivity|]. eapply and_then; [apply it_closes_e; reflexivity|]. eapply and_then; [apply e_is_closed; reflexivity|]. apply nothing_yet.
    + reflexivity.
  - destruct (reads_message lhost lport x m b0 [] [x] LB E) as (b' & d & SE & R3). eexists. exists d. split.
    + eapply and_then; [apply it_arrives; [reflexivity|discriminate]|]. eapply and_then; [eapply read_then; [reflexivity|reflexivity|reflexivity|exact R3]|]. eapply and_then; [apply socket_is_closed; [reflexivity|discriminate]|]. apply nothing_yet.
    + repeat split.
Qed.
Theorem reader_example : exists m, message_in (B "5.6.7.8") 5060 ex_gram = [m] /\ message_in (B "5.6.7.8") 5060 ex_noise = [] /\
  (exists r, history (B "5.6.7.8") 5060 started [Arrives ex_noise; Arrives ex_gram; IsRead ex_noise; IsRead ex_gram; Taken m; SocketClosed; SocketFails; ErrorTaken; CloseC; CSeenClosed; CloseE; ESeenClosed] r /\ rd_at r = Ended) /\
  (exists r d, history (B "5.6.7.8") 5060 started [Arrives ex_gram; IsRead ex_gram; SocketClosed] r /\ rd_at r = Offering d /\ rd_e r = true /\ rd_open r = false) /\
  (exists r, history (B "5.6.7.8") 5060 started [SocketClosed; SocketFails] r /\ rd_at r = Reporting /\ rd_c r = true).
Proof.
  assert (E : exists m, message_in (B "5.6.7.8") 5060 ex_gram = [m]) by (eexists; vm_compute; reflexivity). destruct E as (m & E). assert (P : exists e, parse_msg (firstn 2048 (fst (fst ex_noise))) = MErr e) by (eexists; vm_compute; reflexivity). destruct P as (e & P).
  exists m. split; [exact E|]. split; [vm_compute; reflexivity|]. destruct (stories _ _ _ _ _ _ E P) as (H1 & H2). split; [exact H1|]. split; [exact H2|].
  eexists. split; [eapply and_then; [apply socket_is_closed; [reflexivity|discriminate]|]; eapply and_then; [apply it_fails; reflexivity|]; apply nothing_yet|]. split; reflexivity.
Qed.

Print Assumptions reader_in_order.
Print Assumptions reader_end_once.
Print Assumptions reader_ends.
Print Assumptions reader_no_crash_partial.
Print Assumptions reader_crash_refuted.
Print Assumptions reader_c_never_closed_refuted.
Print Assumptions reader_e_never_heard_refuted.
Print Assumptions reader_example.
