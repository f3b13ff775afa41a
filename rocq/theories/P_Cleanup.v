(** C56: a dialog releases its sockets and channels. *)
From Verif Require Import Bytes CleanupModel.

(** ** Specification *)
Definition reachable (s : cstate) : Prop := steps cstart s.
(** released: a receiver whose goroutine has returned, whose socket and channels are closed; or none *)
Definition released (r : option rcv) : Prop := match r with Some r => r = mkr RDone false true true | None => True end.
(** the end everybody wants *)
Definition all_released (s : cstate) : Prop := dl s = DDone /\ released (r1 s) /\ released (r2 s).
(** Every execution from s comes to such an end. *)
Inductive must_release : cstate -> Prop :=
| must_now s : all_released s -> must_release s
| must_step s : (exists t, cstep s t) -> (forall t, cstep s t -> must_release t) -> must_release s.
(** a receiver that stands with a message in its hands, at an open socket *)
Definition holding (r : option rcv) : Prop := r = Some (mkr RSendC true false false).

(** ** The sockets as the loop leaves them *)
Lemma steps_trans s t u : steps s t -> steps t u -> steps s u.
Proof. induction 1; [auto|]. intros H2. econstructor; eauto. Qed.
Ltac run := match goal with |- must_release ?s =>
  first [ apply must_now; split; [reflexivity|]; split; solve [reflexivity|exact Logic.I]
        | apply must_step; [eexists; econstructor; econstructor|let t := fresh "t" in let K := fresh "K" in intros t K; inversion K; subst; clear K; repeat match goal with H : rstep _ _ |- _ => inversion H; subst; clear H | H : takes_c _ _ |- _ => inversion H; subst; clear H | H : takes_e _ _ |- _ => inversion H; subst; clear H end; cbn [close rl cc ec opened] in *] ] end.

(** Cleaning up works if each receiver holds a message at that moment (or its socket does not exist). *)
Theorem cleanup_releases_partial : forall h1 h2 p q, (h1 = true -> holding p) -> (h1 = false -> p = None) -> (h2 = true -> holding q) -> (h2 = false -> q = None) -> must_release (mkc DEnd h1 h2 p q).
Proof.
  intros h1 h2 p q P1 P2 Q1 Q2. destruct h1, h2; try rewrite (P1 eq_refl); try rewrite (P2 eq_refl); try rewrite (Q1 eq_refl); try rewrite (Q2 eq_refl); repeat run.
Qed.
(** It works after an error of the only socket. *)
Theorem cleanup_after_error : forall r t q, takes_e r t -> cc r = false -> ec r = false -> q = None \/ holding q -> must_release (mkc DEnd false (match q with Some _ => true | None => false end) (Some (close t)) q).
Proof.
  intros r t q T C E Q. inversion T; subst; cbn in C, E; try discriminate. subst. destruct Q as [->| ->]; cbn [close rl cc ec opened]; repeat run.
Qed.
(** It never ends if the receiver was in its read, or was about to report an error, when the socket was closed: the dialog waits for a
    message, the receiver waits until its error is taken. *)
Definition waits_for_message (d : dloc) (s : cstate) : Prop := dl s = d /\ exists r, (if match d with D2C => true | _ => false end then r2 s else r1 s) = Some r /\ (rl r = RRead \/ rl r = RSendE) /\ opened r = false /\ cc r = false.
Lemma stays_waiting d s t : d = D1C \/ d = D2C \/ d = DFail1 -> waits_for_message d s -> cstep s t -> waits_for_message d t.
Proof.
  intros HD (D & r & R & L & O & C) K. destruct r as [l o c e]. cbn in L, O, C. subst o c. unfold waits_for_message.
  destruct HD as [->|[->| ->]]; inversion K; subst; cbn [dl r1 r2] in *; try discriminate; subst; try (inversion R; subst; clear R);
    try (match goal with H : takes_c _ _ |- _ => inversion H; subst; destruct L as [L|L]; discriminate L end); (split; [reflexivity|]);
    first [eexists; split; [reflexivity|]; cbn; auto; fail
      | match goal with H : rstep _ _ |- _ => inversion H; subst; destruct L as [L|L]; try discriminate L; eexists; split; [reflexivity|]; cbn; auto; fail end ].
Qed.
Theorem cleanup_blocks_refuted : forall d s, d = D1C \/ d = D2C \/ d = DFail1 -> waits_for_message d s -> forall t, steps s t -> dl t = d.
Proof. intros d s HD W t R. induction R as [s|s t u K R IH]; [apply W|]. apply IH. eapply stays_waiting; eauto. Qed.
(** With one socket: what the receiver does when its socket is closed decides it. *)
Theorem cleanup_exact : forall l, l = RRead \/ l = RGot \/ l = RSendC \/ l = RSendE -> (must_release (mkc D1C false false (Some (mkr l false false false)) None) <-> l = RSendC).
Proof.
  assert (B : forall l, l = RRead \/ l = RSendE -> ~ must_release (mkc D1C false false (Some (mkr l false false false)) None)).
  { intros l L M. assert (W : waits_for_message D1C (mkc D1C false false (Some (mkr l false false false)) None)) by (split; [reflexivity|]; eexists; split; [reflexivity|]; cbn; auto). clear L. revert W.
    set (s := mkc D1C false false (Some (mkr l false false false)) None) in *. clearbody s. induction M as [s A|s [t T] _ IH]; intros W; [destruct A as [A _]; destruct W as [W _]; rewrite A in W; discriminate|]. apply (IH t T). eapply stays_waiting; eauto. }
  intros l [->|[->|[->| ->]]]; (split; intros H; [|discriminate H || idtac]); try reflexivity; try (exfalso; revert H; apply B; auto; fail).
  - exfalso. inversion H as [? A|? _ N]; subst; [destruct A as [A _]; discriminate A|]. refine (B RRead (or_introl eq_refl) (N _ _)). apply s_r1. constructor.
  - repeat run.
Qed.
(** These states are reached: the application's hanging up was confirmed, and the receiver has gone back to its read; or it has not. And an
    address did not answer, so another one is tried. *)
Example cleanup_reached : reachable (mkc D1C false false (Some (mkr RRead false false false)) None) /\ reachable (mkc DEnd true false (Some (mkr RSendC true false false)) None) /\
  reachable (mkc DFail1 false false (Some (mkr RRead false false false)) None) /\ reachable (mkc DEnd false false (Some (mkr RCloseC false false false)) None).
Proof.
  assert (S1 : forall s, reachable s -> forall t, cstep s t -> reachable t) by (intros s R t K; eapply steps_trans; [exact R|]; econstructor; [exact K|constructor]).
  assert (A : reachable (mkc DLoop true false (Some fresh) None)) by (eapply S1; [constructor|]; constructor).
  assert (G : reachable (mkc DLoop true false (Some (mkr RSendC true false false)) None)) by (eapply S1; [eapply S1; [exact A|]; constructor; constructor|]; constructor; constructor).
  assert (E : reachable (mkc DLoop true false (Some (mkr RSendE true false false)) None)) by (eapply S1; [exact A|]; constructor; constructor).
  repeat split.
  - eapply S1; [eapply S1; [eapply S1; [exact G|]|]|]; [apply s_msg1; constructor|apply s_end|apply s_close1].
  - eapply S1; [exact G|]. apply s_end.
  - eapply S1; [exact A|]. apply s_failover.
  - eapply S1; [exact E|]. apply (s_err1 false (mkr RSendE true false false) (mkr RCloseC true false false)). constructor.
Qed.
Print Assumptions cleanup_exact.
