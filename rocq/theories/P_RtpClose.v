(** Property C34: closing an RTP session returns and stops the receive goroutine. *)
From Verif Require Import Bytes RtpCloseModel.

Inductive reachable : cstate -> Prop :=
| reach_start : reachable cstart
| reach_step s t : reachable s -> cstep s t -> reachable t.

(** The call has returned and the receive goroutine has ended. *)
Definition closed (s : cstate) : Prop := al s = ADone /\ rl s = RDone.

(** Every execution from [s] is finite and can only end in a closed state: the definition is inductive, so there is
    no infinite run, and a state that is not closed can always make a step. *)
Inductive must_close (s : cstate) : Prop :=
| must_done : closed s -> must_close s
| must_step : (exists t, cstep s t) -> (forall t, cstep s t -> must_close t) -> must_close s.

(** Facts about reachable states *)
Definition inv (s : cstate) : bool :=
  (match rl s with RErr | RRead | RGot | RSendC | RWaitR => negb (c_closed s) && negb (e_closed s)
   | RSendE | RCloseE => c_closed s && negb (e_closed s)
   | RDone => c_closed s && e_closed s | RPanic => false end) &&
  (negb (frame_nil s) || match rl s with RGot | RSendC | RWaitR => false | _ => true end) &&
  (negb (r_closed s) || negb (sock_open s)) && (negb (frame_nil s) || r_closed s) &&
  (match al s with
   | AIdle h => sock_open s && negb (r_closed s) && Bool.eqb h (match rl s with RWaitR => true | _ => false end)
   | AClose1 => negb (sock_open s) && negb (r_closed s)
   | AClose2 => negb (sock_open s) && negb (r_closed s) && match rl s with RWaitR => true | _ => false end
   | AClose3 => negb (sock_open s) && negb (r_closed s) && match rl s with RGot | RSendC | RWaitR => false | _ => true end
   | AClose4 => negb (sock_open s) && match rl s with RCloseE | RDone => true | _ => false end
   | AAfter1 => negb (sock_open s) && negb (r_closed s)
   | AAfter2 => negb (sock_open s) && r_closed s
   | ADone => negb (sock_open s) && match rl s with RCloseE | RDone => true | _ => false end
   end).
Lemma inv_reachable s : reachable s -> inv s = true.
Proof.
  induction 1 as [|s t _ IH Hst]; [reflexivity|].
  destruct Hst; revert IH; try (destruct p); try (destruct a as [h| | | | | | |]); repeat match goal with b : bool |- _ => destruct b end;
    vm_compute; intros; try reflexivity; discriminate.
Qed.

Ltac run := match goal with |- must_close ?s =>
    first [ apply must_done; split; reflexivity
          | apply must_step; [eexists; econstructor | intros ? ?K; inversion K; subst; clear K] ] end.

(** Close: if the application holds no frame, every execution of Close returns and ends the receive goroutine. *)
Theorem rtp_close_terminates : forall s, reachable s -> al s = AIdle false ->
  must_close (mkc (rl s) AClose1 false (c_closed s) (e_closed s) (r_closed s) (frame_nil s)).
Proof.
  intros s R A. apply inv_reachable in R. destruct s as [p a so c e r n]. cbn in A. subst a. cbn [rl c_closed e_closed r_closed frame_nil].
  destruct p, so, c, e, r, n; vm_compute in R; try discriminate R; clear R; repeat run.
Qed.

(** With a frame still held, Close never returns. *)
Theorem rtp_close_holding_frame_refuted : exists s, reachable s /\ al s = AIdle true /\
  forall t, ~ cstep (mkc (rl s) AClose1 false (c_closed s) (e_closed s) (r_closed s) (frame_nil s)) t.
Proof.
  exists (mkc RWaitR (AIdle true) true false false false false). split; [|split; [reflexivity|]].
  - eapply reach_step; [eapply reach_step; [eapply reach_step; [apply reach_start|]|]|]; econstructor.
  - cbn. intros t K. inversion K.
Qed.
Theorem rtp_close_holding_frame_blocks : forall s, reachable s -> al s = AIdle true ->
  forall t, ~ cstep (mkc (rl s) AClose1 false (c_closed s) (e_closed s) (r_closed s) (frame_nil s)) t.
Proof.
  intros s R A t K. apply inv_reachable in R. destruct s as [p a so c e r n]. cbn in A. subst a. cbn [rl c_closed e_closed r_closed frame_nil] in K.
  destruct p, so, c, e, r, n; vm_compute in R; try discriminate R; clear R; inversion K.
Qed.

(** CloseAfterError: returns if the application has received the error, or at least no frame is on its way. *)
Theorem rtp_close_after_error_terminates : forall s h, reachable s -> al s = AIdle h -> rl s <> RGot -> rl s <> RSendC ->
  must_close (mkc (rl s) AAfter1 false (c_closed s) (e_closed s) (r_closed s) (frame_nil s)).
Proof.
  intros s h R A N1 N2. apply inv_reachable in R. destruct s as [p a so c e r n]. cbn in A, N1, N2. subst a. cbn [rl c_closed e_closed r_closed frame_nil].
  destruct p; try (exfalso; congruence); destruct h, so, c, e, r, n; vm_compute in R; try discriminate R; clear R N1 N2; repeat run.
Qed.
(** As documented, after the error was received from E: *)
Theorem rtp_close_after_error_documented : forall s h, reachable s -> al s = AIdle h -> (rl s = RCloseE \/ rl s = RDone) ->
  must_close (mkc (rl s) AAfter1 false (c_closed s) (e_closed s) (r_closed s) (frame_nil s)).
Proof. intros s h R A [E|E]; apply (rtp_close_after_error_terminates s h R A); rewrite E; discriminate. Qed.
(** Called while a frame is being delivered, it never returns: some execution ends in a state that has no step. *)
Theorem rtp_close_after_error_early_refuted : exists s, reachable s /\ al s = AIdle false /\
  forall t, cstep (mkc (rl s) AAfter1 false (c_closed s) (e_closed s) (r_closed s) (frame_nil s)) t -> forall u, ~ cstep t u.
Proof.
  exists (mkc RSendC (AIdle false) true false false false false). split; [|split; [reflexivity|]].
  - eapply reach_step; [eapply reach_step; [apply reach_start|]|]; econstructor.
  - cbn. intros t K. inversion K; subst. intros u K2. inversion K2.
Qed.

(** The receive goroutine never writes through the nil frame a closed R yields. *)
Theorem rtp_receiver_no_panic : forall s, reachable s -> rl s <> RPanic.
Proof. intros s R E. apply inv_reachable in R. unfold inv in R. rewrite E in R. discriminate R. Qed.

(** The hypotheses are met: a session that is idle, one in the middle of a delivery and one that has failed. *)
Example close_nonvacuous :
  reachable cstart /\ reachable (mkc RSendC (AIdle false) true false false false false) /\
  reachable (mkc RCloseE (AIdle false) true true false false false).
Proof.
  split; [apply reach_start|]. split.
  - eapply reach_step; [eapply reach_step; [apply reach_start|]|]; econstructor.
  - eapply reach_step; [eapply reach_step; [eapply reach_step; [apply reach_start|]|]|]; econstructor.
Qed.

Print Assumptions rtp_close_terminates.
Print Assumptions rtp_close_holding_frame_refuted.
Print Assumptions rtp_close_holding_frame_blocks.
Print Assumptions rtp_close_after_error_terminates.
Print Assumptions rtp_close_after_error_documented.
Print Assumptions rtp_close_after_error_early_refuted.
Print Assumptions rtp_receiver_no_panic.
