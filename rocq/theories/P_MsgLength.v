(** C17: what any Content-Length does. *)
From Verif Require Import Bytes BytesLemmas GoLib GoLibLemmas SdpModel SipText SipTypes SipAppend P_Text UriSpec UriModel P_Uri MsgModel MsgSafe MsgSpec MsgNames MsgMeaning MsgLines P_Msg P_MsgText.
Local Open Scope Z_scope.

Lemma i64_signed n : i64 n = (n + 2 ^ 63) mod 2 ^ 64 - 2 ^ 63.
Proof.
  unfold i64, u64. change (2 ^ 63) with 9223372036854775808. change (2 ^ 64) with 18446744073709551616. pose proof (Z.mod_pos_bound n 18446744073709551616 ltac:(lia)) as B. pose proof (Z.div_mod n 18446744073709551616 ltac:(lia)) as D.
  set (q := n / 18446744073709551616) in *. set (r := n mod 18446744073709551616) in *. destruct (Z.ltb_spec r 9223372036854775808).
  - rewrite <- (Z.mod_unique_pos (n + 9223372036854775808) 18446744073709551616 q (r + 9223372036854775808)); lia.
  - rewrite <- (Z.mod_unique_pos (n + 9223372036854775808) 18446744073709551616 (q + 1) (r - 9223372036854775808)); lia.
Qed.
(** Whatever number the last Content-Length line has: it is taken modulo 2^64, as a signed number. If that is positive, it is the length of the body and the
    payload is the body; otherwise there is no payload, and what follows the header block is ignored. *)
Theorem content_length_modulo : forall st ts1 t n ts2 body m, folded st = true -> Forall line (ts1 ++ t :: ts2) ->
  length_line t n -> (forall t' n', In t' ts2 -> ~ length_line t' n') -> parse_msg (packet st (ts1 ++ t :: ts2) body) = MOk m ->
  let signed := (n + 2 ^ 63) mod 2 ^ 64 - 2 ^ 63 in (0 < signed -> Z.of_nat (length body) = signed /\ payload_is body m) /\ (signed <= 0 -> pay m = None).
Proof.
  intros st ts1 t n ts2 body m FS FL L NL H signed. apply packet_exact in H; [|exact FS|exact FL]. destruct H as (m0 & d & S & H & SB & P). pose proof (steps_pay _ _ _ H) as SP.
  apply steps_app in H. destruct H as (d1 & H1 & H2). inversion H2 as [|? ? ? d2 ? H3 H4]; subst.
  assert (D : d_len d = signed) by (rewrite (no_length_steps _ _ _ H4 NL), (length_step _ _ _ _ L H3); apply i64_signed). split; intros G.
  - destruct P as [[P _]|(_ & P & [(_ & p & Q & ->)|(_ & ->)])]; [lia|split; [lia|right; eauto]|split; [lia|left; eexists; reflexivity]].
  - destruct P as [[_ ->]|(P & _)]; [|lia]. rewrite SP. cbn. destruct S as [(u & x & v & maj & min & _ & _ & _ & _ & ->)|(v & maj & min & y & k & x & _ & _ & _ & _ & _ & _ & ->)]; reflexivity.
Qed.
(** So no packet whose length is 2^63 or more is treated as the property wants. *)
Theorem content_length_huge_refuted : forall st ts1 t n ts2 body m, folded st = true -> Forall line (ts1 ++ t :: ts2) ->
  length_line t n -> (forall t' n', In t' ts2 -> ~ length_line t' n') -> parse_msg (packet st (ts1 ++ t :: ts2) body) = MOk m -> 2 ^ 63 <= n -> ~ (Z.of_nat (length body) = n /\ payload_is body m).
Proof.
  intros st ts1 t n ts2 body m FS FL L NL H N [E P]. destruct (content_length_modulo _ _ _ _ _ _ _ FS FL L NL H) as [H1 H2]. set (w := (n + 2 ^ 63) mod 2 ^ 64 - 2 ^ 63) in *. assert (B : w < 2 ^ 63) by (unfold w; pose proof (Z.mod_pos_bound (n + 2 ^ 63) (2 ^ 64)); lia).
  destruct (Z_lt_le_dec 0 w) as [G|G]; [destruct (H1 G); lia|]. specialize (H2 G). destruct P as [(x & P)|(p & _ & P)]; congruence.
Qed.
Example length_example : Forall line [B "Content-Length: 9223372036854775808"] /\ length_line (B "Content-Length: 9223372036854775808") (2 ^ 63) /\ exists m, parse_msg (packet ex_start [B "Content-Length: 9223372036854775808"] (B "hi")) = MOk m /\ pay m = None.
Proof.
  split; [repeat constructor; [eexists _, _; split; [reflexivity|split; [reflexivity|discriminate]]]|]. split; [|eexists; split; [vm_compute; reflexivity|reflexivity]]. exists (B "Content-Length"), [], (B " "), (B "9223372036854775808").
  split; [reflexivity|]. split; [left; reflexivity|]. split; [reflexivity|]. split; [left; reflexivity|]. vm_compute. reflexivity.
Qed.
