(** C78: writing a message leaves it as it is, and writing it again gives the same bytes. *)
From Verif Require Import Bytes BytesLemmas GoLib GoLibLemmas SdpModel SdpProofs SipText SipTypes SipAppend P_Text P_Sdp MsgRound P_MsgRound.
Local Open Scope Z_scope.

(** [msg_append_effect m] is the message after Append. Only the phrase can differ, only when there was none, and only in a
    response: then it is the phrase of the status. *)
Theorem append_changes_only_phrase : forall m,
  exists p, msg_append_effect m = set_phrase p m /\
    ((IsResponse m = false \/ phrase m <> []) -> p = phrase m) /\
    (IsResponse m = true -> phrase m = [] -> p = Phrase (status m)).
Proof.
  intros m. unfold msg_append_effect. destruct (IsResponse m) eqn:R.
  - destruct (phrase m) as [|c p] eqn:P.
    + eexists. split; [reflexivity|]. split; [|reflexivity]. intros [H|H]; congruence.
    + exists (c :: p). split; [|split; [reflexivity|discriminate]]. rewrite <- P. destruct m; reflexivity.
  - exists (phrase m). split; [destruct m; reflexivity|]. split; [reflexivity|discriminate].
Qed.
(** What is stored is what was written: the first line of a response is version, status and the phrase the message has
    afterwards. *)
Theorem append_phrase_stored : forall rid m, IsResponse m = true -> exists rest,
  msg_append rid m = version_append m ++ B " " ++ itoa (status m) ++ B " " ++ phrase (msg_append_effect m) ++ CRLF ++ rest.
Proof.
  intros rid m R. unfold msg_append, head_lines, start_line. rewrite R. cbn [negb].
  assert (E : phrase (msg_append_effect m) = match phrase m with [] => Phrase (status m) | x => x end).
  { unfold msg_append_effect. rewrite R. destruct (phrase m) eqn:P; [reflexivity|exact P]. }
  rewrite E. eexists. rewrite <- !app_assoc. reflexivity.
Qed.
Lemma append_effect_append rid m : msg_append rid (msg_append_effect m) = msg_append rid m.
Proof.
  unfold msg_append_effect. destruct (IsResponse m) eqn:R; [|reflexivity]. destruct (phrase m) eqn:P; [|reflexivity].
  unfold msg_append. f_equal. unfold head_lines. f_equal.
  unfold start_line. change (IsResponse (set_phrase (Phrase (status m)) m)) with (IsResponse m). rewrite R, P. cbn [negb].
    change (version_append (set_phrase (Phrase (status m)) m)) with (version_append m). cbn [phrase status set_phrase].
    destruct (Phrase (status m)); reflexivity.
Qed.
Lemma append_effect_pay m : pay (msg_append_effect m) = pay m.
Proof. unfold msg_append_effect. destruct (IsResponse m); [|reflexivity]. destruct (phrase m); reflexivity. Qed.

(** Writing a message, and writing it again: the second time other random bytes are drawn. The text is the same, unless the
    payload is a session description without an origin id. *)
Definition origin_named (m : msg) : Prop := forall s, pay m = Some (PSdp s) -> o_id (s_origin s) <> [].
Theorem append_again_partial : forall rid rid' m, origin_named m ->
  msg_append rid' (msg_append_effect m) = msg_append rid m /\
  msg_append_effect (msg_append_effect m) = msg_append_effect m.
Proof.
  intros rid rid' m N. split.
  - rewrite append_effect_append. unfold msg_append. f_equal. unfold tail_lines. destruct (pay m) as [[t d|s]|] eqn:P; [reflexivity| |reflexivity].
    assert (E : sdp_append rid' s = sdp_append rid s); [|cbn [Data]; rewrite E; reflexivity].
    unfold sdp_append, origin_append. specialize (N s P). destruct (o_id (s_origin s)); [congruence|reflexivity].
  - unfold msg_append_effect. destruct (IsResponse m) eqn:R; [|rewrite R; reflexivity].
    destruct (phrase m) as [|c p] eqn:P; [|rewrite R, P; reflexivity].
    change (IsResponse (set_phrase (Phrase (status m)) m)) with (IsResponse m). rewrite R. cbn [phrase status set_phrase].
    destruct (Phrase (status m)); reflexivity.
Qed.

Lemma digits_then_cr a b x y : forallb is_digit a = true -> forallb is_digit b = true ->
  a ++ CRLF ++ x = b ++ CRLF ++ y -> a = b /\ x = y.
Proof.
  revert b. induction a as [|c a IH]; intros [|d b] A Bd E.
  - split; [reflexivity|]. cbn in E. injection E. auto.
  - exfalso. cbn in E. injection E as E0 E1. subst d. discriminate Bd.
  - exfalso. cbn in E. injection E as E0 E1. subst c. discriminate A.
  - cbn [forallb] in A, Bd. apply andb_prop in A. apply andb_prop in Bd. cbn [app] in E. injection E as -> E.
    destruct (IH b (proj2 A) (proj2 Bd) E) as [-> ->]. auto.
Qed.
Lemma same_length_app {A} (a b x y : list A) : length a = length b -> a ++ x = b ++ y -> a = b.
Proof.
  revert b. induction a as [|c a IH]; intros [|d b] L E; try discriminate L; [reflexivity|].
  cbn in L, E. injection L as L. injection E as -> E. f_equal. eauto.
Qed.
(** With such a description it never is: two serialisations which draw different ids give different bytes. *)
Theorem append_origin_id_refuted : forall rid rid' m s, pay m = Some (PSdp s) -> o_id (s_origin s) = [] -> rid <> rid' ->
  msg_append rid' (msg_append_effect m) <> msg_append rid m.
Proof.
  intros rid rid' m s P I N E. rewrite append_effect_append in E. unfold msg_append in E. apply app_inv_head in E.
  unfold tail_lines in E. rewrite P in E. cbv zeta in E. cbn [Data] in E. repeat (rewrite <- ?app_assoc in E). do 4 apply app_inv_head in E.
  rewrite !itoa_nonneg in E by lia. apply digits_then_cr in E; [|apply utoa_digits; lia|apply utoa_digits; lia]. destruct E as [L E].
  apply utoa_inj in L; [|lia|lia]. apply app_inv_head in E. apply Nat2Z.inj in L. clear P m.
  unfold sdp_append, origin_append in E, L. rewrite I in E, L. rewrite <- ?app_assoc in E. do 5 apply app_inv_head in E.
  apply N. symmetry. refine (same_length_app _ _ _ _ _ E).
  rewrite ?app_length in L. destruct (o_version (s_origin s)); lia.
Qed.

(** Cases: a response without a phrase; a message whose description has an id, and one whose description has none. *)
Example append_example :
  let m := set_status 486 (set_pay (Some (PSdp sample)) msg0) in
  IsResponse m = true /\ phrase m = [] /\ origin_named m /\ phrase (msg_append_effect m) = B "Busy Here".
Proof. repeat split. intros s E. injection E as <-. discriminate. Qed.
Example append_origin_example :
  let s := mksdp (mkorigin [] [] [] (B "10.0.0.1")) (B "10.0.0.1") None None [] [] 0 false false [] [] in
  let m := set_pay (Some (PSdp s)) rt_msg in
  pay m = Some (PSdp s) /\ o_id (s_origin s) = [] /\ B "7" <> B "11".
Proof. repeat split. discriminate. Qed.
