(** C56: when a dialog has ended, its sockets are closed and its goroutines end; and no socket is forgotten while it is open. *)
From Verif Require Import Bytes CleanupModel P_Cleanup.

Definition closed (r : option rcv) : Prop := match r with Some r => opened r = false | None => True end.
(** past the last point where its goroutine can wait *)
Definition past (r : rcv) : Prop := rl r = RCloseC \/ rl r = RCloseE \/ rl r = RDone.
Definition ending (r : option rcv) : Prop := match r with Some r => opened r = false /\ past r | None => True end.
(** the channels are closed in the course of the goroutine *)
Definition flags (r : rcv) : Prop := (cc r = true <-> rl r = RCloseE \/ rl r = RDone) /\ (ec r = true <-> rl r = RDone).
Definition flags_ok (r : option rcv) : Prop := match r with Some r => flags r | None => True end.

Ltac split_rcv := cbn; intuition (try congruence; try discriminate; auto).
Lemma rstep_inv r r' : rstep r r' -> flags r -> flags r' /\ opened r' = opened r /\ (past r -> past r').
Proof. unfold flags, past. destruct 1; split_rcv. Qed.
Lemma takes_c_inv r r' : takes_c r r' -> flags r -> flags r' /\ opened r' = opened r /\ (past r -> past r').
Proof. unfold flags, past. destruct 1; split_rcv. Qed.
Lemma takes_e_inv r r' : takes_e r r' -> flags r -> flags r' /\ opened r' = opened r /\ past r'.
Proof. unfold flags, past. destruct 1; split_rcv. Qed.
Lemma close_inv r : flags r -> flags (close r) /\ opened (close r) = false /\ (past r -> past (close r)).
Proof. unfold flags, past. destruct r. split_rcv. Qed.
Lemma fresh_inv : flags fresh.
Proof. unfold flags. split_rcv. Qed.

(** Where the first socket is expected to be in use, being ended, or over; and the second. *)
Definition inv1 (d : dloc) (h : bool) (r : option rcv) : Prop :=
  match d with
  | DLoop => h = true
  | DEnd => if h then True else ending r
  | DFail1 | DFail2 | D1C | D1E => h = false /\ closed r
  | _ => h = false /\ ending r
  end.
Definition inv2 (d : dloc) (h : bool) (r : option rcv) : Prop :=
  match d with
  | D2C | D2E => h = false /\ closed r
  | DChans | DDone => h = false /\ ending r
  | _ => if h then True else ending r
  end.
Definition inv (s : cstate) : Prop := flags_ok (r1 s) /\ flags_ok (r2 s) /\ inv1 (dl s) (has1 s) (r1 s) /\ inv2 (dl s) (has2 s) (r2 s).
Lemma inv1_move d h r r' : opened r' = opened r -> (past r -> past r') -> inv1 d h (Some r) -> inv1 d h (Some r').
Proof. intros E P. unfold inv1, ending, closed. rewrite E. destruct d, h; intuition. Qed.
Lemma inv2_move d h r r' : opened r' = opened r -> (past r -> past r') -> inv2 d h (Some r) -> inv2 d h (Some r').
Proof. intros E P. unfold inv2, ending, closed. rewrite E. destruct d, h; intuition. Qed.
Lemma inv_step s t : cstep s t -> inv s -> inv t.
Proof.
  intros K (F1 & F2 & I1 & I2). unfold inv.
  destruct K; cbn [dl has1 has2 r1 r2 flags_ok] in *;
    try match goal with H : rstep _ _ |- _ => destruct (rstep_inv _ _ H ltac:(assumption)) as (G & O & P) end;
    try match goal with H : takes_c _ _ |- _ => destruct (takes_c_inv _ _ H ltac:(assumption)) as (G & O & P) end;
    try match goal with H : takes_e _ _ |- _ => destruct (takes_e_inv _ _ H ltac:(assumption)) as (G & O & P) end.
  - split; [exact G|]. split; [exact F2|]. split; [exact (inv1_move _ _ _ _ O P I1)|exact I2].
  - split; [exact F1|]. split; [exact G|]. split; [exact I1|exact (inv2_move _ _ _ _ O P I2)].
  - split; [exact G|]. split; [exact F2|]. split; [exact I1|exact I2].
  - split; [exact F1|]. split; [exact G|]. split; [exact I1|exact (inv2_move _ _ _ _ O P I2)].
  - destruct (close_inv _ G) as (G' & O' & P'). split; [exact G'|]. split; [exact F2|]. split; [split; [exact O'|exact (P' P)]|exact I2].
  - destruct (close_inv _ G) as (G' & O' & P'). split; [exact F1|]. split; [exact G'|]. split; [rewrite I1; exact Logic.I|split; [exact O'|exact (P' P)]].
  - destruct (close_inv _ F1) as (G' & O' & P'). split; [exact G'|]. split; [exact F2|]. split; [split; [reflexivity|exact O']|exact I2].
  - split; [exact G|]. split; [exact F2|]. split; [|exact I2]. cbn in *. destruct I1. split; congruence.
  - split; [exact G|]. split; [exact F2|]. split; [|exact I2]. cbn in *. destruct I1. repeat split; congruence || exact P.
  - split; [exact fresh_inv|]. split; [exact F2|]. split; [reflexivity|exact I2].
  - split; [exact F1|]. split; [exact F2|]. split; [exact (proj2 I1)|exact I2].
  - split; [exact F1|]. split; [exact fresh_inv|]. split; [exact I1|exact Logic.I].
  - split; [exact F1|]. split; [exact F2|]. split; [cbn in I1; rewrite I1; exact Logic.I|exact I2].
  - split; [exact F1|]. split; [exact F2|]. split; [split; [reflexivity|exact I1]|exact I2].
  - destruct (close_inv _ F1) as (G' & O' & P'). split; [exact G'|]. split; [exact F2|]. split; [split; [reflexivity|exact O']|exact I2].
  - split; [exact G|]. split; [exact F2|]. split; [|exact I2]. cbn in *. destruct I1. split; congruence.
  - split; [exact G|]. split; [exact F2|]. split; [|exact I2]. cbn in *. destruct I1. repeat split; congruence || exact P.
  - split; [exact F1|]. split; [exact F2|]. split; [exact I1|]. split; [reflexivity|exact I2].
  - destruct (close_inv _ F2) as (G' & O' & P'). split; [exact F1|]. split; [exact G'|]. split; [exact I1|]. split; [reflexivity|exact O'].
  - split; [exact F1|]. split; [exact G|]. split; [exact I1|]. cbn in *. destruct I2. split; congruence.
  - split; [exact F1|]. split; [exact G|]. split; [exact I1|]. cbn in *. destruct I2. repeat split; congruence || exact P.
  - split; [exact F1|]. split; [exact F2|]. split; [exact I1|exact I2].
Qed.
Lemma reachable_inv s : reachable s -> inv s.
Proof.
  unfold reachable. assert (K : forall s t, steps s t -> inv s -> inv t) by (induction 1; eauto using inv_step). intros R. apply (K _ _ R). repeat split; exact Logic.I.
Qed.
(** A receiver that is past waiting returns by itself; a dialog that is done has nothing else to do. *)
Definition to_do (r : option rcv) : nat := match r with Some r => match rl r with RCloseC => 2 | RCloseE => 1 | _ => 0 end | None => 0 end.
Lemma done_releases : forall n p q, (to_do p + to_do q <= n)%nat -> flags_ok p -> flags_ok q -> ending p -> ending q -> must_release (mkc DDone false false p q).
Proof.
  assert (M : forall r, flags r -> past r -> opened r = false -> r = mkr RDone false true true \/ exists r', rstep r r').
  { intros [l o c e] (F1 & F2) P O. cbn in *. subst o. unfold past in P. cbn in P. destruct P as [->|[->| ->]]; [right; eexists; constructor|right; eexists; constructor|left]. f_equal; [apply F1|apply F2]; auto. }
  assert (D : forall r r', rstep r r' -> past r -> (to_do (Some r') < to_do (Some r))%nat) by (intros r r' S P; unfold past in P; destruct S; cbn in *; destruct P as [P|[P|P]]; try discriminate P; auto).
  induction n as [n IH] using lt_wf_ind. intros p q L F1 F2 E1 E2.
  assert (N : forall t, cstep (mkc DDone false false p q) t -> must_release t).
  { intros t K. inversion K; subst; cbn in F1, F2, E1, E2; match goal with H : rstep _ _ |- _ => rename H into ST end.
    - destruct E1 as [O P]. destruct (rstep_inv _ _ ST F1) as (G & O' & P'). apply (IH (to_do (Some r') + to_do q)%nat); [|auto|exact G|exact F2|split; [congruence|auto]|exact E2]. specialize (D _ _ ST P). eapply Nat.lt_le_trans; [|exact L]. apply Nat.add_lt_mono_r. exact D.
    - destruct E2 as [O P]. destruct (rstep_inv _ _ ST F2) as (G & O' & P'). apply (IH (to_do p + to_do (Some r'))%nat); [|auto|exact F1|exact G|exact E1|split; [congruence|auto]]. specialize (D _ _ ST P). eapply Nat.lt_le_trans; [|exact L]. apply Nat.add_lt_mono_l. exact D. }
  assert (C : (released p \/ exists r r', p = Some r /\ rstep r r') /\ (released q \/ exists r r', q = Some r /\ rstep r r')).
  { split; [destruct p as [r|]|destruct q as [r|]]; try (left; exact Logic.I); cbn in *; [destruct E1 as [O P]; destruct (M r F1 P O) as [->|[r' S]]|destruct E2 as [O P]; destruct (M r F2 P O) as [->|[r' S]]]; eauto 6. }
  destruct C as [[C1|(r & r' & -> & S)] C2]; [destruct C2 as [C2|(r & r' & -> & S)]|].
  - apply must_now. split; [reflexivity|]. split; assumption.
  - apply must_step; [|exact N]. eexists. apply s_r2. exact S.
  - apply must_step; [|exact N]. eexists. apply s_r1. exact S.
Qed.

(** * C56, safety *)
(** Whenever the dialog's goroutine has returned, both sockets are closed, and both receive goroutines return and close their channels. *)
Theorem ended_releases : forall s, reachable s -> dl s = DDone -> closed (r1 s) /\ closed (r2 s) /\ must_release s.
Proof.
  intros s R D. destruct (reachable_inv s R) as (F1 & F2 & I1 & I2). destruct s as [d h1 h2 p q]. cbn in D, F1, F2, I1, I2. subst d. cbn [inv1 inv2] in I1, I2. destruct I1 as [-> E1], I2 as [-> E2]. cbn [r1 r2].
  split; [destruct p; [apply E1|exact Logic.I]|]. split; [destruct q; [apply E2|exact Logic.I]|]. eapply done_releases; eauto.
Qed.
(** A socket the dialog does not hold any more is closed, at all times; so the socket of an address given up for another is closed, and its goroutine returns, before the next is opened. *)
Theorem no_socket_forgotten : forall s, reachable s -> (has1 s = false -> closed (r1 s)) /\ (has2 s = false -> closed (r2 s)).
Proof.
  intros s R. destruct (reachable_inv s R) as (_ & _ & I1 & I2). assert (E : forall r, ending r -> closed r) by (intros [r|]; [intros [O _]; exact O|auto]). destruct s as [d h1 h2 p q]. cbn [dl has1 has2 r1 r2] in *. unfold inv1, inv2 in *.
  split; intros ->; [destruct d|destruct d]; try discriminate; try (apply E; (exact I1 || exact (proj2 I1) || exact I2 || exact (proj2 I2))); (apply I1 || apply I2).
Qed.
Theorem failover_releases : forall s, reachable s -> dl s = DDial -> match r1 s with Some r => opened r = false /\ past r | None => True end.
Proof. intros s R D. destruct (reachable_inv s R) as (_ & _ & I1 & _). rewrite D in I1. exact (proj2 I1). Qed.
(** Such an end is reached: the second socket fails while the first holds a message. *)
Example ended_reached : exists s, reachable s /\ dl s = DDone /\ r1 s = Some (mkr RCloseC false false false) /\ r2 s = Some (mkr RCloseC false false false).
Proof.
  eexists. split; [|split; [|split]; [instantiate (1 := mkc DDone false false (Some (mkr RCloseC false false false)) (Some (mkr RCloseC false false false)))| |]; reflexivity].
  eapply steps_step; [apply s_dial|]. eapply steps_step; [apply s_dialc|]. eapply steps_step; [apply s_r1; apply r_datagram|]. eapply steps_step; [apply s_r1; apply r_deliver|]. eapply steps_step; [apply s_r2; apply r_fail|].
  eapply steps_step; [apply (s_err2 _ _ _ _ (take_err _ _ _))|]. eapply steps_step; [apply s_close1|]. eapply steps_step; [apply (s_wait1c _ _ _ _ _ (take_msg _ _ _))|]. eapply steps_step; [apply s_r1; apply r_fail|].
  eapply steps_step; [apply (s_wait1e _ _ _ _ _ (take_err _ _ _))|]. eapply steps_step; [apply s_nocsock|]. eapply steps_step; [apply s_chans|]. apply steps_refl.
Qed.
