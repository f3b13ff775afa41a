(** C100, over the network: what the receiver of a transport does with a datagram longer than its buffer, and that senders make them. *)
From Verif Require Import Bytes BytesLemmas GoLib GoLibLemmas SdpModel SdpProofs SipText SipTypes SipAppend UtilModel P_Text P_Lists UriSpec P_Uri MsgModel MsgSpec MsgGrammar MsgLines P_Msg P_MsgText MsgWf MsgRound P_MsgRound
  DialogMsg P_DialogMsg P_DialogWire TransportModel P_Transport P_TransportAt P_Received DialogModel P_DialogCount P_Written P_Call P_Talk P_Cut.
Local Open Scope Z_scope.

(** One turn of the receive loop when a datagram arrives which is a message with a payload and does not fit the buffer: nothing is delivered. *)
Theorem long_datagram_dropped : forall lhost lport buf text src stamp m, parse_msg text = MOk m -> pay m <> None -> (length buf < length text)%nat ->
  TransportModel.receive lhost lport buf text src stamp = Ok (firstn (length buf) text, None).
Proof.
  intros lhost lport buf text src stamp m P N L. unfold TransportModel.receive. rewrite <- (firstn_skipn (length buf) text) in P.
  assert (X : skipn (length buf) text <> []) by (intros E; apply (f_equal (@length byte)) in E; rewrite skipn_length in E; cbn in E; lia).
  destruct (cut_short_rejected _ _ _ X P N) as (e & ->).
  unfold read_into. rewrite firstn_length_le, skipn_all, app_nil_r by lia. reflexivity.
Qed.
(** Whatever arrives: if it is a message, then the receiver delivers that message, as it prepares it, or nothing. *)
Theorem long_datagram_not_misread : forall lhost lport buf text src stamp m buf' d, parse_msg text = MOk m ->
  TransportModel.receive lhost lport buf text src stamp = Ok (buf', Some d) -> prepare lhost lport src stamp m = Ok (dv_msg d).
Proof.
  intros lhost lport buf text src stamp m buf' d P R. unfold TransportModel.receive in R. rewrite <- (firstn_skipn (length buf) text) in P.
  destruct (cut_short_never_misread _ _ _ P) as [(e & E)|E]; rewrite E in R; [discriminate|]. destruct (prepare lhost lport src stamp m) as [m2|]; [|discriminate]. cbn [rbind] in R. injection R as _ <-. reflexivity.
Qed.

(** A transport sends what it is given, however long it is (the documented limit of 1450 bytes, dialog/prefs.go:30-32, is not looked at anywhere),
    and reports success; a receiver with a smaller buffer, and theirs has 2048 bytes, drops it. *)
Theorem long_message_lost_refuted : forall tp w m src stamp, site_ok tp -> net_ok w -> request_ok (n_rid w) m -> pay m <> None ->
  exists s a req text, Send tp (mkheld m false) w = Ok s /\ sd_ok s = true /\ sd_wire s = [(a, req, text)] /\
    (forall t d, pay m = Some (Misc t d) -> (length d < length text)%nat) /\
    forall lhost lport buf, (length buf < length text)%nat -> TransportModel.receive lhost lport buf text src stamp = Ok (firstn (length buf) text, None).
Proof.
  intros tp w m src stamp SA NA RQ N. destruct (send_request_ok tp w m SA NA RQ) as (s & u & a & req & v & b & ES & EU & ER & EW & EO & OW & SY & _).
  exists s, a, req, (msg_append (n_rid w) req). split; [exact ES|]. split; [exact EO|]. split; [exact EW|].
  destruct OW as (OK & _). destruct (defaults_round_trip_partial _ _ OK) as (r & PR & SV). destruct SV as (_ & _ & _ & _ & _ & _ & _ & _ & _ & _ & _ & FP & _).
  destruct SY as (_ & _ & _ & _ & _ & _ & _ & _ & PY & _).
  assert (EP : pay r = option_map (written_payload (n_rid w)) (pay m)) by (rewrite FP; cbn [written pay]; rewrite PY; reflexivity).
  split.
  - intros t d PM. rewrite PM in EP. cbn in EP. destruct (packet_lines _ _ PR) as (st & ts & body & E & FS & FL & (m0 & dr & S & H & SB & P)).
    rewrite E. assert (EB : body = d).
    { pose proof (steps_pay _ _ _ H) as SP. cbn in SP. rewrite (start_no_payload _ _ S) in SP. destruct P as [[_ ->]|(_ & _ & [(_ & p & _ & ->)|(_ & ->)])]; cbn in EP; congruence. }
    subst body. unfold packet. rewrite !app_length. cbn. lia.
  - intros lhost lport buf L. apply (long_datagram_dropped _ _ _ _ _ _ r PR); [|exact L]. rewrite EP. destruct (pay m); [discriminate|contradiction].
Qed.
(** There are such messages of every length that the serialiser can express. *)
Definition ex_long (n : nat) : msg := set_pay (Some (Misc (B "text/plain") (repeat "x"%byte (S n)))) ex_message.
Example long_example : forall n, Z.of_nat (S n) < 2 ^ 63 -> site_ok ex_made /\ net_ok (ex_wnet "a") /\ request_ok (n_rid (ex_wnet "a")) (ex_long n) /\ pay (ex_long n) = Some (Misc (B "text/plain") (repeat "x"%byte (S n))).
Proof.
  intros n L. destruct talk_example as (M & _ & A & U & NO & RQ & _).
  split; [|split; [|split; [|reflexivity]]].
  - exact (proj1 (made_site _ _ (B "1.2.3.4") 40000 ex_made M (Forall_inv A) ltac:(discriminate) eq_refl ltac:(unfold port_ok; lia) ltac:(discriminate))).
  - split; [discriminate|]. split; [reflexivity|]. split; [discriminate|]. repeat (split; [reflexivity|]). discriminate.
  - destruct RQ as (H1 & H2 & H3 & H4 & H5 & H6 & H7 & H8 & H9 & H10 & H11 & H12 & H13 & H14 & H15 & H16 & _).
    unfold request_ok, request_via. repeat (split; [assumption|]). intros p E. assert (Q : p = Misc (B "text/plain") (repeat "x"%byte (S n))) by (cbn [ex_long pay set_pay] in E; congruence). subst p. unfold written_payload. split; [change (Data (n_rid (ex_wnet "a")) (Misc (B "text/plain") (repeat "x"%byte (S n)))) with (repeat "x"%byte (S n)); rewrite repeat_length; exact L|].
    split; [exists (B "text"), (B "plain"); split; [reflexivity|]; split; (split; [discriminate|reflexivity])|]. split; [discriminate|]. split; [discriminate|]. reflexivity.
Qed.
