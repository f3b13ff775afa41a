(** Regular expressions with actions, and a checker which decides that an automaton implements one. *)
From Coq Require Import FMapPositive.
From Verif Require Import Bytes BytesLemmas Auto.
Local Open Scope N_scope.

Section Re.
Context {A J S E : Type}.
Variable act : A -> bytes -> S -> S + E.
Variable look : bytes -> option N.
Variable table : positive -> row A J.
Variable aeqb : A -> A -> bool.
Variable aeqb_spec : forall a b, aeqb a b = true <-> a = b.
Variable jeqb : J -> J -> bool.
Variable jeqb_spec : forall a b, jeqb a b = true <-> a = b.
Variable look_nil : look [] = None.
Variable look_cons : forall c r, exists k, look (c :: r) = Some k /\ k < 257.

Inductive re :=
| Eps
| Cls (k : ranges)             (* one symbol *)
| Act (a : A)                  (* an action, executed at the current position *)
| Jmp (k : ranges) (j : J)     (* leave if the symbol at the current position is in k *)
| Seq (a b : re)
| Alt (a b : re)
| Star (a : re).

(** What an expression means: from a position and a state to a later position and state, possibly leaving *)
Inductive sem : re -> bytes -> S -> bytes -> S -> option J -> Prop :=
| sem_eps r s : sem Eps r s r s None
| sem_cls k c r s n : look (c :: r) = Some n -> in_ranges k n = true -> sem (Cls k) (c :: r) s r s None
| sem_act a r s s' : act a r s = inl s' -> sem (Act a) r s r s' None
| sem_jmp k j r s n : look r = Some n -> in_ranges k n = true -> sem (Jmp k j) r s r s (Some j)
| sem_seq a b r s r1 s1 r2 s2 x : sem a r s r1 s1 None -> sem b r1 s1 r2 s2 x -> sem (Seq a b) r s r2 s2 x
| sem_seqj a b r s r1 s1 j : sem a r s r1 s1 (Some j) -> sem (Seq a b) r s r1 s1 (Some j)
| sem_alt1 a b r s r1 s1 x : sem a r s r1 s1 x -> sem (Alt a b) r s r1 s1 x
| sem_alt2 a b r s r1 s1 x : sem b r s r1 s1 x -> sem (Alt a b) r s r1 s1 x
| sem_star0 a r s : sem (Star a) r s r s None
| sem_star1 a r s r1 s1 r2 s2 x : sem a r s r1 s1 None -> sem (Star a) r1 s1 r2 s2 x -> sem (Star a) r s r2 s2 x
| sem_starj a r s r1 s1 j : sem a r s r1 s1 (Some j) -> sem (Star a) r s r1 s1 (Some j).

(** ** Inversion *)
Lemma sem_eps_iff r s r' s' : sem Eps r s r' s' None <-> r' = r /\ s' = s.
Proof. split; [intros H; inversion H; auto|intros [-> ->]; constructor]. Qed.
Lemma sem_act_iff a r s r' s' : sem (Act a) r s r' s' None <-> r' = r /\ act a r s = inl s'.
Proof. split; [intros H; inversion H; auto|intros [-> H]; constructor; exact H]. Qed.
Lemma sem_cls_iff k r s r' s' : sem (Cls k) r s r' s' None <-> exists c n, r = c :: r' /\ s' = s /\ look r = Some n /\ in_ranges k n = true.
Proof. split; [intros H; inversion H; subst; eauto 8|intros (c & n & -> & -> & H1 & H2); econstructor; eassumption]. Qed.
Lemma sem_seq_iff a b r s r' s' : sem (Seq a b) r s r' s' None <-> exists r1 s1, sem a r s r1 s1 None /\ sem b r1 s1 r' s' None.
Proof. split; [intros H; inversion H; subst; eauto|intros (r1 & s1 & H1 & H2); econstructor; eassumption]. Qed.
Lemma sem_alt_iff a b r s r' s' x : sem (Alt a b) r s r' s' x <-> sem a r s r' s' x \/ sem b r s r' s' x.
Proof. split; [intros H; inversion H; subst; auto|intros [H|H]; [apply sem_alt1|apply sem_alt2]; exact H]. Qed.
Inductive sems (a : re) : bytes -> S -> bytes -> S -> Prop :=
| sems_nil r s : sems a r s r s
| sems_cons r s r1 s1 r2 s2 : sem a r s r1 s1 None -> sems a r1 s1 r2 s2 -> sems a r s r2 s2.
Lemma sem_star_iff a r s r' s' : sem (Star a) r s r' s' None <-> sems a r s r' s'.
Proof.
  split.
  - intros H. remember (Star a) as b eqn:Eb. remember (@None J) as x eqn:Ex. revert Eb Ex. induction H; intros Eb Ex; try discriminate.
    + constructor.
    + injection Eb as ->. econstructor; [eassumption|]. apply IHsem2; auto.
  - intros H. induction H; [constructor|]. econstructor; eassumption.
Qed.

(** ** Linear forms (Antimirov) *)
Definition mkseq (a b : re) : re := match a with Eps => b | _ => Seq a b end.
Definition lform := list (ranges * list A * (re + J)).

Fixpoint null (r : re) : list (list A) :=
  match r with
  | Eps => [[]] | Cls _ => [] | Act a => [[a]] | Jmp _ _ => []
  | Seq a b => flat_map (fun o => map (app o) (null b)) (null a)
  | Alt a b => null a ++ null b
  | Star _ => [[]]
  end.
Definition then_ (b : re) (x : ranges * list A * (re + J)) : ranges * list A * (re + J) :=
  let '(k, o, y) := x in (k, o, match y with inl r => inl (mkseq r b) | inr j => inr j end).
Definition before (o : list A) (x : ranges * list A * (re + J)) : ranges * list A * (re + J) :=
  let '(k, o2, y) := x in (k, o ++ o2, y).
Fixpoint lf (r : re) : lform :=
  match r with
  | Eps => [] | Cls k => [(k, [], inl Eps)] | Act _ => [] | Jmp k j => [(k, [], inr j)]
  | Seq a b => map (then_ b) (lf a) ++ flat_map (fun o => map (before o) (lf b)) (null a)
  | Alt a b => lf a ++ lf b
  | Star a => map (then_ (Star a)) (lf a)
  end.
(** no star over something that matches the empty string *)
Fixpoint proper (r : re) : bool :=
  match r with
  | Seq a b | Alt a b => proper a && proper b
  | Star a => proper a && match null a with [] => true | _ => false end
  | _ => true
  end.

Lemma acts_app o1 : forall o2 r s, acts act (o1 ++ o2) r s = match acts act o1 r s with inl s1 => acts act o2 r s1 | inr e => inr e end.
Proof. induction o1 as [|a o1 IH]; intros o2 r s; cbn [acts app]; [reflexivity|]. destruct (act a r s); [apply IH|reflexivity]. Qed.

Lemma mkseq_sem a b r s r' s' x : sem (mkseq a b) r s r' s' x <-> sem (Seq a b) r s r' s' x.
Proof.
  destruct a; try reflexivity. cbn [mkseq]. split; intros H.
  - eapply sem_seq; [apply sem_eps|exact H].
  - inversion H; subst.
    + match goal with K : sem Eps _ _ _ _ _ |- _ => inversion K; subst end. assumption.
    + match goal with K : sem Eps _ _ _ _ _ |- _ => inversion K end.
Qed.

Lemma null_sem r : forall o rest s s', In o (null r) -> acts act o rest s = inl s' -> sem r rest s rest s' None.
Proof.
  induction r as [|k|a|k j|a IHa b IHb|a IHa b IHb|a IHa]; intros o rest s s' Ho E0; cbn [null] in Ho.
  - destruct Ho as [<-|[]]. cbn in E0. injection E0 as <-. constructor.
  - destruct Ho.
  - destruct Ho as [<-|[]]. cbn in E0. destruct (act a rest s) eqn:K; [|discriminate]. injection E0 as <-. constructor. exact K.
  - destruct Ho.
  - apply in_flat_map in Ho. destruct Ho as (o1 & H1 & H2). apply in_map_iff in H2. destruct H2 as (o2 & <- & H2).
    rewrite acts_app in E0. destruct (acts act o1 rest s) as [s1|] eqn:K; [|discriminate]. eapply sem_seq; [eapply IHa; eassumption|eapply IHb; eassumption].
  - apply in_app_iff in Ho. destruct Ho; [apply sem_alt1; eapply IHa|apply sem_alt2; eapply IHb]; eassumption.
  - destruct Ho as [<-|[]]. cbn in E0. injection E0 as <-. constructor.
Qed.

Definition resid (x : re + J) (rest : bytes) (rest1 : bytes) (s1 : S) (r' : bytes) (s' : S) (y : option J) : Prop :=
  match x with
  | inl r1 => sem r1 rest1 s1 r' s' y
  | inr j => r' = rest /\ s' = s1 /\ y = Some j
  end.

Lemma lf_sem r : forall k o x c rest s s1 r' s' y n, In (k, o, x) (lf r) -> look (c :: rest) = Some n -> in_ranges k n = true ->
  acts act o (c :: rest) s = inl s1 -> resid x (c :: rest) rest s1 r' s' y -> sem r (c :: rest) s r' s' y.
Proof.
  induction r as [|k0|a|k0 j0|a IHa b IHb|a IHa b IHb|a IHa]; intros k o x c rest s s1 r' s' y n H L K E0 R; cbn [lf] in H.
  - destruct H.
  - destruct H as [H|[]]. injection H as <- <- <-. cbn in E0. injection E0 as <-. cbn in R. inversion R; subst. econstructor; eassumption.
  - destruct H.
  - destruct H as [H|[]]. injection H as <- <- <-. cbn in E0. injection E0 as <-. cbn in R. destruct R as (-> & -> & ->). econstructor; eassumption.
  - apply in_app_iff in H. destruct H as [H|H].
    + apply in_map_iff in H. destruct H as ([[k1 o1] x1] & E1 & H). cbn in E1. injection E1 as <- <- <-.
      destruct x1 as [r1|j].
      * cbn in R. apply mkseq_sem in R. inversion R; subst.
        -- eapply sem_seq; [eapply IHa; eauto|eassumption].
        -- eapply sem_seqj. eapply IHa; eauto.
      * cbn in R. destruct R as (-> & -> & ->). eapply sem_seqj. eapply IHa; eauto. cbn. auto.
    + apply in_flat_map in H. destruct H as (o1 & H1 & H2). apply in_map_iff in H2. destruct H2 as ([[k2 o2] x2] & E1 & H2). cbn in E1. injection E1 as <- <- <-.
      rewrite acts_app in E0. destruct (acts act o1 (c :: rest) s) as [s0|] eqn:E2; [|discriminate].
      eapply sem_seq; [eapply null_sem; eassumption|]. eapply IHb; eauto.
  - apply in_app_iff in H. destruct H; [apply sem_alt1; eapply IHa|apply sem_alt2; eapply IHb]; eauto.
  - apply in_map_iff in H. destruct H as ([[k1 o1] x1] & E1 & H). cbn in E1. injection E1 as <- <- <-.
    destruct x1 as [r1|j].
    + cbn in R. apply mkseq_sem in R. inversion R; subst.
      * eapply sem_star1; [eapply IHa; eauto|eassumption].
      * eapply sem_starj. eapply IHa; eauto.
    + cbn in R. destruct R as (-> & -> & ->). eapply sem_starj. eapply IHa; eauto. cbn. auto.
Qed.

(** the other direction: every match either consumes nothing or starts with an entry of the linear form *)
Definition starts (r : re) (rest : bytes) (s : S) (r' : bytes) (s' : S) (y : option J) : Prop :=
  (r' = rest /\ y = None /\ exists o, In o (null r) /\ acts act o rest s = inl s') \/
  (exists c rest1 n k o x s1, rest = c :: rest1 /\ look rest = Some n /\ In (k, o, x) (lf r) /\ in_ranges k n = true /\
     acts act o rest s = inl s1 /\ resid x rest rest1 s1 r' s' y).
Lemma look_some r n : look r = Some n -> exists c t, r = c :: t.
Proof. destruct r; [rewrite look_nil; discriminate|]. eauto. Qed.
Lemma sem_starts r rest s r' s' y : proper r = true -> sem r rest s r' s' y -> starts r rest s r' s' y.
Proof.
  intros P H. induction H; cbn [proper] in P; try (apply andb_prop in P; destruct P as [P1 P2]).
  - left. split; [reflexivity|]. split; [reflexivity|]. exists []. cbn. auto.
  - right. exists c, r, n, k, [], (inl Eps), s. cbn. repeat split; auto. constructor.
  - left. split; [reflexivity|]. split; [reflexivity|]. exists [a]. cbn. rewrite H. auto.
  - right. destruct (look_some _ _ H) as (c & t & ->). exists c, t, n, k, [], (inr j), s. cbn. repeat split; auto.
  - specialize (IHsem1 P1). specialize (IHsem2 P2). destruct IHsem1 as [(-> & _ & o1 & I1 & E1)|(c & rest1 & n & k & o & x1 & s3 & -> & L & I1 & K & E1 & R)].
    + destruct IHsem2 as [(-> & -> & o2 & I2 & E2)|(c & rest1 & n & k & o & x2 & s3 & -> & L & I2 & K & E2 & R)].
      * left. split; [reflexivity|]. split; [reflexivity|]. exists (o1 ++ o2). split; [cbn [null]; apply in_flat_map; exists o1; split; [assumption|]; apply in_map; assumption|].
        rewrite acts_app, E1. exact E2.
      * right. exists c, rest1, n, k, (o1 ++ o), x2, s3. repeat split; auto.
        -- cbn [lf]. apply in_app_iff. right. apply in_flat_map. exists o1. split; [assumption|]. apply in_map_iff. exists (k, o, x2). auto.
        -- rewrite acts_app, E1. exact E2.
    + right. destruct x1 as [r3|j]; [|destruct R as (_ & _ & R); discriminate].
      exists c, rest1, n, k, o, (inl (mkseq r3 b)), s3. repeat split; auto.
      * cbn [lf]. apply in_app_iff. left. apply in_map_iff. exists (k, o, inl r3). auto.
      * cbn. apply mkseq_sem. eapply sem_seq; [exact R|assumption].
  - specialize (IHsem P1). destruct IHsem as [(_ & K & _)|(c & rest1 & n & k & o & x1 & s3 & -> & L & I1 & K & E1 & R)]; [discriminate|].
    right. destruct x1 as [r3|j1].
    + exists c, rest1, n, k, o, (inl (mkseq r3 b)), s3. repeat split; auto.
      * cbn [lf]. apply in_app_iff. left. apply in_map_iff. exists (k, o, inl r3). auto.
      * cbn. apply mkseq_sem. eapply sem_seqj. exact R.
    + exists c, rest1, n, k, o, (inr j1), s3. repeat split; auto; try apply R.
      cbn [lf]. apply in_app_iff. left. apply in_map_iff. exists (k, o, inr j1). auto.
  - specialize (IHsem P1). destruct IHsem as [(-> & -> & o1 & I1 & E1)|(c & rest1 & n & k & o & x1 & s3 & -> & L & I1 & K & E1 & R)].
    + left. split; [reflexivity|]. split; [reflexivity|]. exists o1. split; [cbn; apply in_app_iff; auto|assumption].
    + right. exists c, rest1, n, k, o, x1, s3. repeat split; auto. cbn. apply in_app_iff. auto.
  - specialize (IHsem P2). destruct IHsem as [(-> & -> & o1 & I1 & E1)|(c & rest1 & n & k & o & x1 & s3 & -> & L & I1 & K & E1 & R)].
    + left. split; [reflexivity|]. split; [reflexivity|]. exists o1. split; [cbn; apply in_app_iff; auto|assumption].
    + right. exists c, rest1, n, k, o, x1, s3. repeat split; auto. cbn. apply in_app_iff. auto.
  - left. split; [reflexivity|]. split; [reflexivity|]. exists []. cbn. auto.
  - destruct (null a) eqn:N; [|discriminate]. specialize (IHsem1 P1). destruct IHsem1 as [(_ & _ & o1 & I1 & _)|(c & rest1 & n & k & o & x1 & s3 & -> & L & I1 & K & E1 & R)].
    + rewrite N in I1. destruct I1.
    + right. destruct x1 as [r3|j]; [|destruct R as (_ & _ & R); discriminate].
      exists c, rest1, n, k, o, (inl (mkseq r3 (Star a))), s3. repeat split; auto.
      * cbn [lf]. apply in_map_iff. exists (k, o, inl r3). auto.
      * cbn. apply mkseq_sem. eapply sem_seq; [exact R|assumption].
  - specialize (IHsem P1). destruct IHsem as [(_ & K & _)|(c & rest1 & n & k & o & x1 & s3 & -> & L & I1 & K & E1 & R)]; [discriminate|].
    right. destruct x1 as [r3|j1].
    + exists c, rest1, n, k, o, (inl (mkseq r3 (Star a))), s3. repeat split; auto.
      * cbn [lf]. apply in_map_iff. exists (k, o, inl r3). auto.
      * cbn. apply mkseq_sem. eapply sem_seqj. exact R.
    + exists c, rest1, n, k, o, (inr j1), s3. repeat split; auto; try apply R.
      cbn [lf]. apply in_map_iff. exists (k, o, inr j1). auto.
Qed.

(** residuals of proper expressions are proper *)
Lemma mkseq_proper a b : proper a = true -> proper b = true -> proper (mkseq a b) = true.
Proof. intros H1 H2. destruct a; cbn [mkseq]; auto; cbn [proper] in *; rewrite H1, H2; reflexivity. Qed.
Lemma lf_proper r : forall k o r1, proper r = true -> In (k, o, inl r1) (lf r) -> proper r1 = true.
Proof.
  induction r as [|k0|a|k0 j0|a IHa b IHb|a IHa b IHb|a IHa]; intros k o r1 P H; cbn [lf] in H; cbn [proper] in P; try (apply andb_prop in P; destruct P as [P1 P2]).
  - destruct H.
  - destruct H as [H|[]]. injection H as <- <- <-. reflexivity.
  - destruct H.
  - destruct H as [H|[]]. discriminate.
  - apply in_app_iff in H. destruct H as [H|H].
    + apply in_map_iff in H. destruct H as ([[k1 o1] [r3|j]] & E1 & H); cbn in E1; [|discriminate]. injection E1 as <- <- <-. apply mkseq_proper; eauto.
    + apply in_flat_map in H. destruct H as (o1 & H1 & H2). apply in_map_iff in H2. destruct H2 as ([[k2 o2] x2] & E1 & H2). cbn in E1. injection E1 as <- <- ->. eauto.
  - apply in_app_iff in H. destruct H; eauto.
  - apply in_map_iff in H. destruct H as ([[k1 o1] [r3|j]] & E1 & H); cbn in E1; [|discriminate]. injection E1 as <- <- <-. apply mkseq_proper; [eauto|]. cbn [proper]. rewrite P1, P2. reflexivity.
Qed.

(** ** Boolean equality *)
Fixpoint list_eqb {X} (f : X -> X -> bool) (a b : list X) : bool :=
  match a, b with [], [] => true | x :: a', y :: b' => f x y && list_eqb f a' b' | _, _ => false end.
Lemma list_eqb_spec {X} (f : X -> X -> bool) (F : forall x y, f x y = true <-> x = y) a : forall b, list_eqb f a b = true <-> a = b.
Proof.
  induction a as [|x a IH]; intros [|y b]; cbn; try (split; congruence). split.
  - intros H. apply andb_prop in H. destruct H as [H1 H2]. apply F in H1. apply IH in H2. congruence.
  - intros [= -> ->]. rewrite (proj2 (F y y) eq_refl). apply IH. reflexivity.
Qed.
Definition range_eqb (x y : N * N) : bool := N.eqb (fst x) (fst y) && N.eqb (snd x) (snd y).
Lemma range_eqb_spec x y : range_eqb x y = true <-> x = y.
Proof.
  destruct x as [a b], y as [c d]. unfold range_eqb. cbn. split.
  - intros H. apply andb_prop in H. destruct H as [H1 H2]. apply N.eqb_eq in H1, H2. congruence.
  - intros [= -> ->]. rewrite !N.eqb_refl. reflexivity.
Qed.
Definition ranges_eqb := list_eqb range_eqb.
Fixpoint re_eqb (a b : re) : bool :=
  match a, b with
  | Eps, Eps => true
  | Cls k, Cls l => ranges_eqb k l
  | Act x, Act y => aeqb x y
  | Jmp k i, Jmp l j => ranges_eqb k l && jeqb i j
  | Seq a1 a2, Seq b1 b2 => re_eqb a1 b1 && re_eqb a2 b2
  | Alt a1 a2, Alt b1 b2 => re_eqb a1 b1 && re_eqb a2 b2
  | Star a1, Star b1 => re_eqb a1 b1
  | _, _ => false
  end.
Lemma re_eqb_eq a : forall b, re_eqb a b = true -> a = b.
Proof.
  induction a; intros []; cbn; try discriminate; intros H; try (apply andb_prop in H; destruct H as [H1 H2]); auto.
  - apply (list_eqb_spec _ range_eqb_spec) in H. congruence.
  - apply aeqb_spec in H. congruence.
  - apply (list_eqb_spec _ range_eqb_spec) in H1. apply jeqb_spec in H2. congruence.
  - f_equal; auto.
  - f_equal; auto.
  - f_equal; auto.
Qed.
Definition acts_eqb := list_eqb aeqb.
Definition mem (r : re) (l : list re) : bool := existsb (re_eqb r) l.
Lemma mem_in r l : mem r l = true -> In r l.
Proof. unfold mem. intros H. apply existsb_exists in H. destruct H as (y & H1 & H2). apply re_eqb_eq in H2. subst. assumption. Qed.

(** ** Symbol sets as bit masks *)
Definition mask1 (x : N * N) : N := if N.leb (fst x) (snd x) then N.shiftl (N.ones (snd x - fst x + 1)) (fst x) else 0.
Definition mask (k : ranges) : N := fold_right (fun x m => N.lor (mask1 x) m) 0 k.
Lemma mask1_spec x c : N.testbit (mask1 x) c = N.leb (fst x) c && N.leb c (snd x).
Proof.
  destruct x as [a b]. unfold mask1. cbn [fst snd]. destruct (N.leb a b) eqn:L.
  - destruct (N.leb a c) eqn:L2; cbn [andb].
    + rewrite N.shiftl_spec_high' by lia. destruct (N.leb c b) eqn:L3.
      * apply N.ones_spec_low. lia.
      * apply N.ones_spec_high. lia.
    + apply N.shiftl_spec_low. lia.
  - rewrite N.bits_0. lia.
Qed.
Lemma mask_spec k c : N.testbit (mask k) c = in_ranges k c.
Proof.
  induction k as [|x k IH]; [apply N.bits_0|]. cbn [mask fold_right]. change (fold_right _ 0 k) with (mask k). rewrite N.lor_spec, mask1_spec, IH. reflexivity.
Qed.

(** ** The checker *)
(** one row against the linear forms of the residuals of a state *)
Definition meets (m1 m2 : N) : bool := negb (N.eqb (N.land m1 m2) 0).
Definition within (m1 m2 : N) : bool := N.eqb (N.ldiff m1 m2) 0.
Lemma within_spec m1 m2 c : within m1 m2 = true -> N.testbit m1 c = true -> N.testbit m2 c = true.
Proof.
  unfold within. intros H T. apply N.eqb_eq in H. destruct (N.testbit m2 c) eqn:K; [reflexivity|].
  assert (X : N.testbit (N.ldiff m1 m2) c = true) by (rewrite N.ldiff_spec, T, K; reflexivity). rewrite H, N.bits_0 in X. discriminate.
Qed.
Lemma meets_spec m1 m2 c : N.testbit m1 c = true -> N.testbit m2 c = true -> meets m1 m2 = true.
Proof.
  unfold meets. intros H1 H2. destruct (N.eqb (N.land m1 m2) 0) eqn:K; [|reflexivity]. apply N.eqb_eq in K.
  assert (X : N.testbit (N.land m1 m2) c = true) by (rewrite N.land_spec, H1, H2; reflexivity). rewrite K, N.bits_0 in X. discriminate.
Qed.

Definition mform := list (N * list A * (re + J)).
Definition to_mform (l : lform) : mform := map (fun x => let '(k, o, y) := x in (mask k, o, y)) l.
Definition cert := PositiveMap.t (list re).
Definition lookup (c : cert) (n : positive) : list re := match PositiveMap.find n c with Some l => l | None => [] end.

(** every entry of the linear form that shares a symbol with the row entry agrees with it *)
Definition agree_row (c : cert) (m : N) (o : list A) (nx : next J) (f : mform) : bool :=
  forallb (fun x => let '(m2, o2, y) := x in
    negb (meets m m2) ||
    (acts_eqb o o2 && match nx, y with Adv n, inl r => mem r (lookup c n) | Jump j, inr j2 => jeqb j j2 | _, _ => false end)) f.
(** every residual of the target is reached on every symbol of the row entry *)
Definition cover (m : N) (p : re + J -> bool) (f : mform) : bool :=
  within m (fold_right (fun x acc => let '(m2, o2, y) := x in if p y then N.lor m2 acc else acc) 0 f).
Definition cover_row (c : cert) (m : N) (nx : next J) (f : mform) : bool :=
  match nx with
  | Adv n => match lookup c n with [] => false | l => forallb (fun r => cover m (fun y => match y with inl r2 => re_eqb r2 r | inr _ => false end) f) l end
  | Jump j => cover m (fun y => match y with inr j2 => jeqb j2 j | inl _ => false end) f
  end.
Fixpoint check_row (c : cert) (seen : N) (r : row A J) (f : mform) : bool :=
  match r with
  | [] => forallb (fun x => let '(m2, _, _) := x in within m2 seen) f
  | (k, o, nx) :: r' =>
    let m := N.ldiff (mask k) seen in
    agree_row c m o nx f && cover_row c m nx f && check_row c (N.lor seen m) r' f
  end.
Variable final : positive -> option (list A).   (* Some eof actions for accepting states *)
Definition check_final (n : positive) (l : list re) : bool :=
  match final n, flat_map null l with
  | None, [] => true
  | Some o, o1 :: os => forallb (acts_eqb o) (o1 :: os)
  | _, _ => false
  end.
Definition forms (l : list re) : mform := to_mform (flat_map lf l).
Definition check_state (c : cert) (n : positive) (l : list re) : bool :=
  forallb proper l && check_final n l && check_row c 0 (table n) (forms l).
Definition check_cert (c : cert) : bool := forallb (fun x => check_state c (fst x) (snd x)) (PositiveMap.elements c).

(** exploring the automaton to find the residuals of each state *)
Definition step_resid (f : mform) (r : row A J) : list (positive * list re) :=
  flat_map (fun e => let '(k, _, nx) := e in
    match nx with
    | Adv n => [(n, fold_right (fun x acc => let '(m2, _, y) := x in
                      match y with inl r1 => if meets (mask k) m2 && negb (mem r1 acc) then r1 :: acc else acc | inr _ => acc end) [] f)]
    | Jump _ => []
    end) r.
Fixpoint explore (fuel : nat) (todo : list (positive * list re)) (c : cert) : cert :=
  match fuel, todo with
  | Datatypes.S f, (n, l) :: todo' =>
    match PositiveMap.find n c with
    | Some _ => explore f todo' c
    | None => explore f (step_resid (forms l) (table n) ++ todo') (PositiveMap.add n l c)
    end
  | _, _ => c
  end.

(** ** Correctness *)
Lemma to_mform_in f k o y : In (k, o, y) f -> In (mask k, o, y) (to_mform f).
Proof. intros H. unfold to_mform. apply in_map_iff. exists (k, o, y). auto. Qed.
Lemma in_to_mform f m o y : In (m, o, y) (to_mform f) -> exists k, m = mask k /\ In (k, o, y) f.
Proof. unfold to_mform. intros H. apply in_map_iff in H. destruct H as ([[k o1] y1] & E0 & H). injection E0 as <- <- <-. eauto. Qed.

Lemma cover_spec m p f c : cover m p f = true -> N.testbit m c = true -> exists m2 o2 y, In (m2, o2, y) f /\ p y = true /\ N.testbit m2 c = true.
Proof.
  intros H T. apply (within_spec _ _ c H) in T. clear H. induction f as [|[[m2 o2] y] f IH]; cbn [fold_right] in T; [rewrite N.bits_0 in T; discriminate|].
  destruct (p y) eqn:P.
  - rewrite N.lor_spec in T. apply orb_prop in T. destruct T as [T|T]; [exists m2, o2, y; cbn; auto|].
    destruct (IH T) as (a & b & d & H1 & H2 & H3). exists a, b, d. cbn. auto.
  - destruct (IH T) as (a & b & d & H1 & H2 & H3). exists a, b, d. cbn. auto.
Qed.

Lemma check_row_spec cc f r : forall seen, check_row cc seen r f = true -> forall c, N.testbit seen c = false ->
  match find_row r c with
  | None => forall m o y, In (m, o, y) f -> N.testbit m c = false
  | Some (o, nx) =>
    (forall m o2 y, In (m, o2, y) f -> N.testbit m c = true ->
       o2 = o /\ match nx, y with Adv n, inl r1 => In r1 (lookup cc n) | Jump j, inr j2 => j2 = j | _, _ => False end) /\
    match nx with
    | Adv n => lookup cc n <> [] /\ forall r1, In r1 (lookup cc n) -> exists m, In (m, o, inl r1) f /\ N.testbit m c = true
    | Jump j => exists m, In (m, o, inr j) f /\ N.testbit m c = true
    end
  end.
Proof.
  induction r as [|[[k o] nx] r IH]; intros seen H c Hc; cbn [check_row find_row] in *.
  - intros m o y I. rewrite forallb_forall in H. specialize (H _ I). cbn in H.
    destruct (N.testbit m c) eqn:T; [|reflexivity]. apply (within_spec _ _ c H) in T. congruence.
  - apply andb_prop in H. destruct H as [H H3]. apply andb_prop in H. destruct H as [H1 H2].
    set (m := N.ldiff (mask k) seen) in *.
    destruct (in_ranges k c) eqn:K.
    + assert (T : N.testbit m c = true) by (unfold m; rewrite N.ldiff_spec, mask_spec, K, Hc; reflexivity).
      assert (AG : forall m2 o2 y, In (m2, o2, y) f -> N.testbit m2 c = true ->
        o2 = o /\ match nx, y with Adv n, inl r1 => In r1 (lookup cc n) | Jump j, inr j2 => j2 = j | _, _ => False end).
      { intros m2 o2 y I T2. unfold agree_row in H1. rewrite forallb_forall in H1. specialize (H1 _ I). cbn in H1.
        rewrite (meets_spec _ _ c T T2) in H1. cbn in H1. apply andb_prop in H1. destruct H1 as [X1 X2].
        apply (list_eqb_spec _ aeqb_spec) in X1. split; [congruence|]. destruct nx as [n|j], y as [r1|j2]; try discriminate.
        - apply mem_in. exact X2.
        - apply jeqb_spec in X2. congruence. }
      split; [exact AG|]. destruct nx as [n|j]; cbn [cover_row] in H2.
      * destruct (lookup cc n) as [|r0 l] eqn:L; [discriminate|]. split; [discriminate|]. intros r1 I. rewrite forallb_forall in H2. specialize (H2 _ I).
        destruct (cover_spec _ _ _ c H2 T) as (m2 & o2 & y & I2 & P & T2). destruct y as [r2|]; [|discriminate]. apply re_eqb_eq in P. subst r2.
        destruct (AG _ _ _ I2 T2) as [-> _]. eauto.
      * destruct (cover_spec _ _ _ c H2 T) as (m2 & o2 & y & I2 & P & T2). destruct y as [|j2]; [discriminate|]. apply (proj1 (jeqb_spec _ _)) in P. subst j2.
        destruct (AG _ _ _ I2 T2) as [-> _]. eauto.
    + apply (IH (N.lor seen m) H3 c). rewrite N.lor_spec, Hc. unfold m. rewrite N.ldiff_spec, mask_spec, K. reflexivity.
Qed.

Theorem checked : forall cc, check_cert cc = true -> forall rest s n l, lookup cc n = l -> l <> [] ->
  (forall s', (exists m s1 o, run act look table rest s n = OEof m s1 /\ final m = Some o /\ acts act o [] s1 = inl s')
     <-> exists r, In r l /\ sem r rest s [] s' None) /\
  (forall j r' s', run act look table rest s n = OExit j r' s' <-> exists r, In r l /\ sem r rest s r' s' (Some j)).
Proof.
  intros cc CC.
  assert (ST : forall n l, lookup cc n = l -> l <> [] -> check_state cc n l = true).
  { intros n l L NE. unfold lookup in L. destruct (PositiveMap.find n cc) as [l0|] eqn:F; [|congruence]. subst l0.
    unfold check_cert in CC. rewrite forallb_forall in CC. apply (CC (n, l)). apply PositiveMap.elements_correct. exact F. }
  induction rest as [|c rest IH]; intros s n l L NE; pose proof (ST n l L NE) as C; unfold check_state in C;
    apply andb_prop in C; destruct C as [C C3]; apply andb_prop in C; destruct C as [C1 C2]; rewrite forallb_forall in C1.
  - cbn [run]. split.
    + intros s'. split.
      * intros (m & s1 & o & E0 & F & K). injection E0 as <- <-. unfold check_final in C2. rewrite F in C2.
        destruct (flat_map null l) as [|o1 os] eqn:N; [discriminate|]. cbn in C2. apply andb_prop in C2. destruct C2 as [C2 _].
        apply (list_eqb_spec _ aeqb_spec) in C2. subst o1.
        assert (I : In o (flat_map null l)) by (rewrite N; left; reflexivity). apply in_flat_map in I. destruct I as (r & I1 & I2).
        exists r. split; [assumption|]. eapply null_sem; eassumption.
      * intros (r & I & H). apply sem_starts in H; [|auto]. destruct H as [(_ & _ & o & I2 & K)|(c & r1 & ? & ? & ? & ? & ? & H & _)]; [|discriminate].
        exists n, s. unfold check_final in C2. assert (I3 : In o (flat_map null l)) by (apply in_flat_map; eauto).
        destruct (flat_map null l) as [|o1 os] eqn:N; [destruct I3|]. destruct (final n) as [o2|] eqn:F; [|discriminate].
        exists o2. split; [reflexivity|]. split; [reflexivity|]. rewrite forallb_forall in C2. specialize (C2 _ I3). apply (list_eqb_spec _ aeqb_spec) in C2. congruence.
    + intros j r' s'. split; [discriminate|]. intros (r & I & H). apply sem_starts in H; [|auto].
      destruct H as [(_ & K & _)|(c & r1 & ? & ? & ? & ? & ? & H & _)]; discriminate.
  - cbn [run]. destruct (look_cons c rest) as (k & LK & _). rewrite LK.
    pose proof (check_row_spec cc (forms l) (table n) 0 C3 k (N.bits_0 k)) as R.
    assert (IN : forall r k0 o x, In r l -> In (k0, o, x) (lf r) -> In (mask k0, o, x) (forms l)).
    { intros r k0 o x H1 H2. apply to_mform_in. apply in_flat_map. eauto. }
    assert (OUT : forall m o x, In (m, o, x) (forms l) -> exists r k0, m = mask k0 /\ In r l /\ In (k0, o, x) (lf r)).
    { intros m o x H. apply in_to_mform in H. destruct H as (k0 & -> & H). apply in_flat_map in H. destruct H as (r & H1 & H2). eauto. }
    destruct (find_row (table n) k) as [[o nx]|] eqn:FR.
    + destruct R as [AG CV]. destruct (acts act o (c :: rest) s) as [s1|e] eqn:AC.
      * destruct nx as [m|j0].
        -- destruct CV as [NE2 CV]. destruct (IH s1 m (lookup cc m) eq_refl NE2) as [IH1 IH2]. split.
           ++ intros s'. rewrite IH1. split.
              ** intros (r1 & I & H). destruct (CV r1 I) as (mm & I2 & T). destruct (OUT _ _ _ I2) as (r & k0 & -> & I3 & I4). rewrite mask_spec in T.
                 exists r. split; [assumption|]. eapply lf_sem; eauto.
              ** intros (r & I & H). apply sem_starts in H; [|auto].
                 destruct H as [(H & _)|(c1 & r1 & n1 & k1 & o1 & x1 & s3 & H1 & H2 & H3 & H4 & H5 & H6)]; [discriminate|].
                 injection H1 as <- <-. rewrite LK in H2. injection H2 as <-. destruct (AG (mask k1) o1 x1) as [-> X]; [eauto|rewrite mask_spec; exact H4|].
                 rewrite AC in H5. injection H5 as <-. destruct x1 as [r1|]; [|contradiction]. exists r1. split; [exact X|exact H6].
           ++ intros j r' s'. rewrite IH2. split.
              ** intros (r1 & I & H). destruct (CV r1 I) as (mm & I2 & T). destruct (OUT _ _ _ I2) as (r & k0 & -> & I3 & I4). rewrite mask_spec in T.
                 exists r. split; [assumption|]. eapply lf_sem; eauto.
              ** intros (r & I & H). apply sem_starts in H; [|auto].
                 destruct H as [(_ & H & _)|(c1 & r1 & n1 & k1 & o1 & x1 & s3 & H1 & H2 & H3 & H4 & H5 & H6)]; [discriminate|].
                 injection H1 as <- <-. rewrite LK in H2. injection H2 as <-. destruct (AG (mask k1) o1 x1) as [-> X]; [eauto|rewrite mask_spec; exact H4|].
                 rewrite AC in H5. injection H5 as <-. destruct x1 as [r1|]; [|contradiction]. exists r1. split; [exact X|exact H6].
        -- split.
           ++ intros s'. split; [intros (? & ? & ? & K & _); discriminate|].
              intros (r & I & H). apply sem_starts in H; [|auto].
              destruct H as [(H & _)|(c1 & r1 & n1 & k1 & o1 & x1 & s3 & H1 & H2 & H3 & H4 & H5 & H6)]; [discriminate|].
              injection H1 as <- <-. rewrite LK in H2. injection H2 as <-. destruct (AG (mask k1) o1 x1) as [-> X]; [eauto|rewrite mask_spec; exact H4|].
              destruct x1 as [r1|]; [contradiction|]. destruct H6 as (_ & _ & H6). discriminate.
           ++ intros j r' s'. split.
              ** intros [= <- <- <-]. destruct CV as (mm & I2 & T). destruct (OUT _ _ _ I2) as (r & k0 & -> & I3 & I4). rewrite mask_spec in T.
                 exists r. split; [assumption|]. eapply lf_sem; eauto. cbn. auto.
              ** intros (r & I & H). apply sem_starts in H; [|auto].
                 destruct H as [(_ & H & _)|(c1 & r1 & n1 & k1 & o1 & x1 & s3 & H1 & H2 & H3 & H4 & H5 & H6)]; [discriminate|].
                 injection H1 as <- <-. rewrite LK in H2. injection H2 as <-. destruct (AG (mask k1) o1 x1) as [-> X]; [eauto|rewrite mask_spec; exact H4|].
                 rewrite AC in H5. injection H5 as <-. destruct x1 as [r1|j2]; [contradiction|]. subst j2. destruct H6 as (-> & -> & [= <-]). reflexivity.
      * assert (NO : forall r r' s' y, In r l -> sem r (c :: rest) s r' s' y -> r' = c :: rest /\ y = None).
        { intros r r' s' y I H. apply sem_starts in H; [|auto].
          destruct H as [(H & Y & _)|(c1 & r1 & n1 & k1 & o1 & x1 & s3 & H1 & H2 & H3 & H4 & H5 & H6)]; [auto|].
          injection H1 as <- <-. rewrite LK in H2. injection H2 as <-. destruct (AG (mask k1) o1 x1) as [-> X]; [eauto|rewrite mask_spec; exact H4|]. congruence. }
        split.
        -- intros s'. split; [intros (? & ? & ? & K & _); discriminate|]. intros (r & I & H). apply NO in H; [|auto]. destruct H as [H _]. discriminate.
        -- intros j r' s'. split; [discriminate|]. intros (r & I & H). apply NO in H; [|auto]. destruct H as [_ H]. discriminate.
    + assert (NO : forall r r' s' y, In r l -> sem r (c :: rest) s r' s' y -> r' = c :: rest /\ y = None).
      { intros r r' s' y I H. apply sem_starts in H; [|auto].
        destruct H as [(H & Y & _)|(c1 & r1 & n1 & k1 & o1 & x1 & s3 & H1 & H2 & H3 & H4 & H5 & H6)]; [auto|].
        injection H1 as <- <-. rewrite LK in H2. injection H2 as <-. specialize (R (mask k1) o1 x1 ltac:(eauto)). rewrite mask_spec in R. congruence. }
      split.
      * intros s'. split; [intros (? & ? & ? & K & _); discriminate|]. intros (r & I & H). apply NO in H; [|auto]. destruct H as [H _]. discriminate.
      * intros j r' s'. split; [discriminate|]. intros (r & I & H). apply NO in H; [|auto]. destruct H as [_ H]. discriminate.
Qed.
End Re.
Arguments re A J : clear implicits.
