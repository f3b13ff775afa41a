(** C100: a message that arrives cut short. *)
From Verif Require Import Bytes BytesLemmas GoLib GoLibLemmas SdpModel SipText SipTypes SipAppend P_Text UriSpec UriModel P_Uri MsgModel MsgSafe MsgSpec MsgNames MsgMeaning MsgLines P_Msg P_MsgText.
Local Open Scope Z_scope.

Lemma length_line_dec t d d' : header_text t d d' -> (exists n, length_line t n) \/ (forall n, ~ length_line t n).
Proof.
  intros (n & b & w & v & -> & T & Hb & H).
  assert (D : (map lower n = B "content-length" \/ map lower n = B "l") \/ ~ (map lower n = B "content-length" \/ map lower n = B "l"))
    by (destruct (bseq_reflect (map lower n) (B "content-length")); destruct (bseq_reflect (map lower n) (B "l")); tauto).
  destruct D as [D|D].
  - left. destruct (length_find n D) as (k & K & KK). rewrite K in H. destruct KK as [->| ->]; destruct H as (SW & z & N & _); exists z, n, b, w, v; auto.
  - right. intros z (n1 & b1 & w1 & v1 & E & L & B1 & _). destruct (length_find n1 L) as (k & K & _).
    destruct (name_unique n1 n b1 b _ _ (known_lower_token _ _ K) T B1 Hb (eq_sym E)) as (<- & _). exact (D L).
Qed.
(** the declared length depends on the lines only *)
Lemma steps_length ts : forall d d' e e', steps ts d d' -> steps ts e e' -> d_len d = d_len e -> d_len d' = d_len e'.
Proof.
  induction ts as [|t ts IH]; intros d d' e e' H1 H2 E; inversion H1 as [|? ? ? d1 ? A1 B1]; inversion H2 as [|? ? ? e1 ? A2 B2]; subst; [exact E|].
  apply (IH d1 d' e1 e' B1 B2). destruct (length_line_dec _ _ _ A1) as [(n & L)|L].
  - rewrite (length_step _ _ _ _ L A1), (length_step _ _ _ _ L A2). reflexivity.
  - rewrite (no_length_step _ _ _ L A1), (no_length_step _ _ _ L A2). exact E.
Qed.
(** Two packets, one of which continues the other, are the same lines with two bodies. *)
Lemma continued p x m m' : parse_msg p = MOk m -> parse_msg (p ++ x) = MOk m' ->
  exists st ts body, p = packet st ts body /\ p ++ x = packet st ts (body ++ x) /\ denotes st ts body m /\ denotes st ts (body ++ x) m'.
Proof.
  intros H H'. destruct (packet_lines _ _ H) as (st & ts & body & E & FS & FL & D). exists st, ts, body.
  assert (E' : p ++ x = packet st ts (body ++ x)) by (rewrite E; unfold packet; rewrite <- !app_assoc; reflexivity).
  split; [exact E|]. split; [exact E'|]. split; [exact D|]. apply packet_exact; [exact FS|exact FL|]. rewrite <- E'. exact H'.
Qed.
Lemma start_no_payload st m0 : start_text st m0 -> pay m0 = None.
Proof. intros [(u & x & v & maj & min & _ & _ & _ & _ & ->)|(v & maj & min & y & k & x & _ & _ & _ & _ & _ & _ & ->)]; reflexivity. Qed.

(** If a text and its continuation are both accepted, they are the same message, and it has no payload. *)
Theorem continued_same : forall p x m m', x <> [] -> parse_msg p = MOk m -> parse_msg (p ++ x) = MOk m' -> m = m' /\ pay m = None.
Proof.
  intros p x m m' X H H'. destruct (continued p x m m' H H') as (st & ts & body & _ & _ & (m0 & d & S & H1 & SB & P) & (m1 & e & S' & H2 & SB' & P')).
  pose proof (steps_length _ _ _ _ _ H1 H2 eq_refl) as L.
  destruct P as [[N ->]|(N & N1 & _)].
  - destruct P' as [[N' ->]|(N' & _)]; [|lia]. split.
    + apply (msg_text_unambiguous (packet st ts [])).
      * exists st, m0, (join ts), d, []. repeat split; auto; [apply steps_lines; eauto|left; auto].
      * exists st, m1, (join ts), e, []. repeat split; auto; [apply steps_lines; eauto|left; auto].
    + rewrite (steps_pay _ _ _ H1). cbn. exact (start_no_payload _ _ S).
  - destruct P' as [[N' _]|(_ & N2 & _)]; [lia|]. rewrite app_length in N2. destruct x; [congruence|]. cbn [length] in N2. lia.
Qed.
(** So a message with a payload is read as it was written or not at all, however much of it is missing or added at its end... *)
Theorem cut_short_rejected : forall p x m, x <> [] -> parse_msg (p ++ x) = MOk m -> pay m <> None -> exists e, parse_msg p = MErr e.
Proof.
  intros p x m X H N. destruct (parse_msg p) as [m'|e| |] eqn:E; [|eauto|exfalso; exact (msg_parse_no_panic p E)|].
  - exfalso. destruct (continued_same p x m' m X E H) as [-> Q]. exact (N Q).
  - exfalso. exact (msg_parse_stops p E).
Qed.
Theorem run_on_rejected : forall p x m, x <> [] -> parse_msg p = MOk m -> pay m <> None -> exists e, parse_msg (p ++ x) = MErr e.
Proof.
  intros p x m X H N. destruct (parse_msg (p ++ x)) as [m'|e| |] eqn:E; [|eauto|exfalso; exact (msg_parse_no_panic _ E)|exfalso; exact (msg_parse_stops _ E)].
  exfalso. destruct (continued_same p x m m' X H E) as [_ Q]. exact (N Q).
Qed.
(** ... and a message without one is never read as another message. *)
Theorem cut_short_never_misread : forall p x m, parse_msg (p ++ x) = MOk m -> (exists e, parse_msg p = MErr e) \/ parse_msg p = MOk m.
Proof.
  intros p x m H. destruct x as [|c x]; [rewrite app_nil_r in H; auto|].
  destruct (parse_msg p) as [m'|e| |] eqn:E; [|eauto|exfalso; exact (msg_parse_no_panic p E)|exfalso; exact (msg_parse_stops p E)].
  right. destruct (continued_same p (c :: x) m' m ltac:(discriminate) E H) as [-> _]. reflexivity.
Qed.
