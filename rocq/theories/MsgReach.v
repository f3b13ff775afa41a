(** The runs of ParseMsg as a relation over the expressions of MsgGrammar, and the meaning of their building blocks. *)
From Coq Require Import FMapPositive.
From Verif Require Import Bytes BytesLemmas GoLib GoLibLemmas Auto AutoRe SdpModel SipText SipTypes UriTable UriModel MsgTable MsgModel MsgSafe P_Text UriSpec UriMeaning MsgSpec MsgGrammar.
Local Open Scope Z_scope.
Local Notation "a ;; b" := (Seq a b) (at level 61, right associativity).

Section Cap.
Variable cap : nat.
Notation ms := (sem (msg_act cap) msg_look).

(** ** Machines as a relation *)
Definition jump (j : mjump) (r : bytes) (s : mst) : option (positive * bytes) :=
  match j with Go n => Some (n, tl r) | Hold n => Some (n, r) | Back n => Some (n, m_mark s) | Done => None end.
Inductive reach : positive -> bytes -> mst -> msg -> Prop :=
| R_done n R r s r1 s1 m : In (n, [R]) machines -> ms R r s r1 s1 (Some Done) -> msg_finish (tl r1) s1 = MOk m -> reach n r s m
| R_step n R r s r1 s1 j n' r2 m : In (n, [R]) machines -> ms R r s r1 s1 (Some j) -> jump j r1 s1 = Some (n', r2) -> reach n' r2 s1 m -> reach n r s m.

Fixpoint nojmp (R : mre) : bool :=
  match R with Jmp _ _ => false | Seq a b | Alt a b => nojmp a && nojmp b | Star a => nojmp a | _ => true end.
Fixpoint mustjmp (R : mre) : bool :=
  match R with Jmp _ _ => true | Seq a b => mustjmp a || mustjmp b | Alt a b => mustjmp a && mustjmp b | _ => false end.
Fixpoint targets (R : mre) : list mjump :=
  match R with Jmp _ j => [j] | Seq a b | Alt a b => targets a ++ targets b | Star a => targets a | _ => [] end.
Lemma nojmp_sem R r s r' s' y : ms R r s r' s' y -> nojmp R = true -> y = None.
Proof. intros H. induction H; cbn; intros N; try discriminate; try reflexivity; try (apply andb_prop in N; destruct N); auto. Qed.
Lemma mustjmp_sem R r s r' s' y : ms R r s r' s' y -> mustjmp R = true -> y <> None.
Proof.
  intros H. induction H; cbn; intros N; try discriminate.
  - apply orb_prop in N. destruct N as [N|N]; [exfalso; apply (IHsem1 N); reflexivity|auto].
  - apply andb_prop in N. destruct N as [N _]. auto.
  - apply andb_prop in N. destruct N as [_ N]. auto.
Qed.
Lemma targets_sem R r s r' s' y : ms R r s r' s' y -> forall j, y = Some j -> In j (targets R).
Proof. intros H. induction H; cbn; intros j' E; try discriminate; try (apply in_or_app); auto. left. congruence. Qed.

Definition entry (n : positive) : bool := existsb (fun x => Pos.eqb n (fst x)) machines.
Definition target_ok (j : mjump) : bool := match j with Done => true | Go n | Hold n | Back n => entry n end.
Lemma machines_ok : forallb (fun x => match snd x with [R] => mustjmp R && forallb target_ok (targets R) | _ => false end) machines = true.
Proof. vm_compute. reflexivity. Qed.
Lemma entry_in n : entry n = true -> exists R, In (n, [R]) machines.
Proof.
  unfold entry. rewrite existsb_exists. intros ((k & l) & I & E). apply Pos.eqb_eq in E. cbn in E. subst k.
  pose proof machines_ok as K. rewrite forallb_forall in K. specialize (K _ I). cbn in K. destruct l as [|R [|]]; try discriminate. eauto.
Qed.
Lemma machine_facts n R : In (n, [R]) machines -> mustjmp R = true /\ forall j, In j (targets R) -> target_ok j = true.
Proof.
  intros I. pose proof machines_ok as K. rewrite forallb_forall in K. specialize (K _ I). cbn [snd] in K. apply andb_prop in K. destruct K as [K1 K2].
  split; [assumption|]. rewrite forallb_forall in K2. assumption.
Qed.
Lemma look_lt c r : exists k, msg_look (c :: r) = Some k /\ (k < 257)%N.
Proof.
  cbn [msg_look]. eexists. split; [reflexivity|]. destruct (_ && _); [lia|]. pose proof (Byte.to_N_bounded c) as K. lia.
Qed.
Lemma machine_run n R r s : In (n, [R]) machines ->
  (forall m s', run (msg_act cap) msg_look msg_row r s n = OEof m s' -> (m <? msg_first_final)%positive = true) /\
  (forall j r' s', run (msg_act cap) msg_look msg_row r s n = OExit j r' s' <-> ms R r s r' s' (Some j)).
Proof.
  intros I. pose proof machine_cert as K. rewrite forallb_forall in K. specialize (K _ I). cbn [fst snd] in K.
  assert (L : lookup msg_cert n = [R]).
  { destruct (lookup msg_cert n) as [|R' [|R2 l]]; cbn [list_eqb] in K; try discriminate; [|rewrite andb_false_r in K; discriminate].
    rewrite andb_true_r in K. apply (re_eqb_eq mact_beq mact_eqb_spec mjump_beq mjump_eqb_spec) in K. congruence. }
  destruct (checked (msg_act cap) msg_look msg_row mact_beq mact_eqb_spec mjump_beq mjump_eqb_spec eq_refl look_lt msg_final msg_cert msg_checked r s n [R] L ltac:(discriminate)) as [C1 C2].
  destruct (machine_facts n R I) as [MJ _]. split.
  - intros m s' E. destruct (m <? msg_first_final)%positive eqn:F; [reflexivity|]. exfalso.
    destruct (proj1 (C1 s')) as (R' & [<-|[]] & H).
    { exists m, s', []. split; [exact E|]. unfold msg_final. rewrite F. split; reflexivity. }
    apply (mustjmp_sem _ _ _ _ _ _ H MJ). reflexivity.
  - intros j r' s'. rewrite C2. split; [intros (R' & [<-|[]] & H); exact H|]. intros H. exists R. split; [left; reflexivity|exact H].
Qed.

Lemma drive_mono f : forall r s n x, msg_drive cap f r s n = x -> x <> MFuel -> forall k, msg_drive cap (f + k) r s n = x.
Proof.
  induction f as [|f IH]; intros r s n x H N k; cbn [msg_drive Nat.add] in *; [congruence|].
  destruct (run _ _ _ r s n) as [|  |j r' s'|e]; auto. destruct j; auto.
Qed.
Lemma drive_reach f : forall r s n m, entry n = true -> msg_drive cap f r s n = MOk m -> reach n r s m.
Proof.
  induction f as [|f IH]; intros r s n m E H; cbn [msg_drive] in H; [discriminate|].
  destruct (entry_in n E) as (R & I). destruct (machine_run n R r s I) as [M1 M2]. destruct (machine_facts n R I) as [_ TG].
  destruct (run _ _ _ r s n) as [k s'| |j r' s'|e] eqn:Q; try discriminate.
  - rewrite (M1 k s' eq_refl) in H. discriminate.
  - pose proof (proj1 (M2 j r' s') eq_refl) as S1. pose proof (TG j (targets_sem _ _ _ _ _ _ S1 j eq_refl)) as T.
    destruct j; cbn [target_ok] in T.
    all: try (eapply R_step; [exact I|exact S1|reflexivity|apply IH; [exact T|exact H]]).
    eapply R_done; eauto.
  - destruct e; discriminate.
Qed.
Lemma reach_drive n r s m : reach n r s m -> exists f, msg_drive cap f r s n = MOk m.
Proof.
  intros H. induction H as [n R r s r1 s1 m I H F|n R r s r1 s1 j n' r2 m I H J _ IH].
  - exists 1%nat. cbn [msg_drive]. rewrite (proj2 (proj2 (machine_run n R r s I) _ _ _) H). exact F.
  - destruct IH as (f & IH). exists (Datatypes.S f). cbn [msg_drive]. rewrite (proj2 (proj2 (machine_run n R r s I) _ _ _) H).
    destruct j; cbn in J; try discriminate; injection J as <- <-; exact IH.
Qed.
End Cap.

Theorem parse_reach data m : parse_msg data = MOk m <-> reach (length data) msg_en_main data (mst0 data) m.
Proof.
  split.
  - intros H. eapply drive_reach; [|exact H]. vm_compute. reflexivity.
  - intros H. apply reach_drive in H. destruct H as (f & H). destruct (parse_msg data) eqn:E.
    all: try (pose proof (drive_mono _ _ _ _ _ _ E ltac:(discriminate) f) as K1; pose proof (drive_mono _ _ _ _ _ _ H ltac:(discriminate) (msg_fuel data)) as K2;
      rewrite Nat.add_comm in K2; rewrite K1 in K2; exact K2).
    exfalso. pose proof (parse_msg_sound data) as K. rewrite E in K. exact K.
Qed.
