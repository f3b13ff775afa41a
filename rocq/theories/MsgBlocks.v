(** What the building blocks of the expressions of MsgGrammar read and do. *)
From Verif Require Import Bytes BytesLemmas GoLib GoLibLemmas Auto AutoRe SdpModel SipText SipTypes UriTable UriModel MsgTable MsgModel MsgSafe P_Text UriSpec UriMeaning MsgSpec MsgGrammar MsgReach.
Local Open Scope Z_scope.
Local Notation "a ;; b" := (Seq a b) (at level 61, right associativity).

(** ** Symbols *)
Lemma to_N_inj c d : to_N c = to_N d -> c = d.
Proof. intros E. pose proof (Byte.of_to_N c) as H1. pose proof (Byte.of_to_N d) as H2. rewrite E in H1. congruence. Qed.
Lemma look_plain c r : c <> CR -> msg_look (c :: r) = Some (to_N c).
Proof. intros N. cbn [msg_look]. rewrite (proj2 (beq_neq _ _) N). reflexivity. Qed.
Lemma look_cr r : msg_look (CR :: r) = Some (if lookAheadWSP (CR :: r) then 256%N else 13%N).
Proof. cbn [msg_look]. rewrite beq_refl. cbn [andb]. destruct (lookAheadWSP _); reflexivity. Qed.
Lemma ahead_spec c x r : lookAheadWSP (c :: x :: r) = starts_blank r.
Proof. destruct r as [|b r]; reflexivity. Qed.

Section Cap.
Variable cap : nat.
Notation ms := (@sem mact mjump _ _ (msg_act cap) msg_look).
Notation run_acts := (acts (msg_act cap)).

Lemma b_eps r s r' s' y : ms Eps r s r' s' y <-> y = None /\ r' = r /\ s' = s.
Proof. split; [intros H; inversion H; auto|intros (-> & -> & ->); constructor]. Qed.
Lemma b_act a r s r' s' y : ms (Act a) r s r' s' y <-> y = None /\ r' = r /\ msg_act cap a r s = inl s'.
Proof. split; [intros H; inversion H; auto|intros (-> & -> & H); constructor; exact H]. Qed.
Lemma b_jmp k j r s r' s' y : ms (Jmp k j) r s r' s' y <-> y = Some j /\ r' = r /\ s' = s /\ exists n, msg_look r = Some n /\ in_ranges k n = true.
Proof. split; [intros H; inversion H; subst; eauto 6|intros (-> & -> & -> & n & H1 & H2); econstructor; eauto]. Qed.
Lemma b_alt a b r s r' s' y : ms (Alt a b) r s r' s' y <-> ms a r s r' s' y \/ ms b r s r' s' y.
Proof. apply sem_alt_iff. Qed.
Lemma b_seq a b r s r' s' y : nojmp a = true -> (ms (a ;; b) r s r' s' y <-> exists r1 s1, ms a r s r1 s1 None /\ ms b r1 s1 r' s' y).
Proof.
  intros N. split.
  - intros H. inversion H; subst; [eauto|]. exfalso. match goal with K : sem _ _ a _ _ _ _ _ |- _ => apply (nojmp_sem _ _ _ _ _ _ _ K) in N end. discriminate.
  - intros (r1 & s1 & H1 & H2). econstructor; eauto.
Qed.
Lemma b_star a r s r' s' y : nojmp a = true -> (ms (Star a) r s r' s' y <-> y = None /\ @sems mact mjump _ _ (msg_act cap) msg_look a r s r' s').
Proof.
  intros N. split.
  - intros H. assert (E : y = None) by (apply (nojmp_sem _ _ _ _ _ _ _ H); exact N). subst y. split; [reflexivity|]. apply (sem_star_iff (msg_act cap) msg_look). exact H.
  - intros [-> H]. apply (sem_star_iff (msg_act cap) msg_look). exact H.
Qed.
Lemma b_do a x r s r' s' y : ms (Act a ;; x) r s r' s' y <-> exists s1, msg_act cap a r s = inl s1 /\ ms x r s1 r' s' y.
Proof.
  rewrite b_seq by reflexivity. split.
  - intros (r1 & s1 & H & K). apply b_act in H. destruct H as (_ & -> & H). eauto.
  - intros (s1 & H & K). exists r, s1. split; [apply b_act; auto|assumption].
Qed.
Lemma b_acts l x r s r' s' y : ms (m_acts l x) r s r' s' y <-> exists s1, run_acts l r s = inl s1 /\ ms x r s1 r' s' y.
Proof.
  revert s. induction l as [|a l IH]; intros s; cbn [m_acts acts].
  - split; [eauto|]. intros (s1 & [= <-] & H). exact H.
  - rewrite b_do. split.
    + intros (s1 & H1 & H2). rewrite H1. apply IH. exact H2.
    + intros (s1 & H1 & H2). destruct (msg_act cap a r s) as [s2|] eqn:E; [|discriminate]. exists s2. split; [reflexivity|]. apply IH. eauto.
Qed.

(** A class which treats a folded CR as any CR *)
Definition steady (k : ranges) : bool := Bool.eqb (in_ranges k 256) (kc k CR).
Lemma b_cls k r s r' s' y : steady k = true -> (ms (Cls k) r s r' s' y <-> y = None /\ s' = s /\ exists c, r = c :: r' /\ kc k c = true).
Proof.
  intros T. apply eqb_prop in T. split.
  - intros H. inversion H as [|k0 c r0 s0 n L R| | | | | | | | | ]; subst. split; [reflexivity|]. split; [reflexivity|]. exists c. split; [reflexivity|].
    destruct (beq_reflect c CR) as [->|N].
    + rewrite look_cr in L. revert L. destruct (lookAheadWSP _); intros [= <-]; [rewrite <- T; exact R|exact R].
    + rewrite look_plain in L by assumption. injection L as <-. exact R.
  - intros (-> & -> & c & -> & K). destruct (beq_reflect c CR) as [->|N].
    + eapply sem_cls; [apply look_cr|]. destruct (lookAheadWSP _); [rewrite T; exact K|exact K].
    + eapply sem_cls; [apply look_plain; exact N|exact K].
Qed.
Lemma b_ch c r s r' s' y : c <> CR -> (ms (m_ch c) r s r' s' y <-> y = None /\ s' = s /\ r = c :: r').
Proof.
  intros N. unfold m_ch, k1. rewrite b_cls.
  - split.
    + intros (-> & -> & d & -> & K). rewrite kc_eq in K. apply beq_spec in K. subst. auto.
    + intros (-> & -> & ->). split; [reflexivity|]. split; [reflexivity|]. exists c. rewrite kc_eq, beq_refl. auto.
  - unfold steady. rewrite kc_eq. rewrite (proj2 (beq_neq CR c)) by congruence. cbn [in_ranges existsb fst snd]. rewrite orb_false_r.
    pose proof (Byte.to_N_bounded c). destruct (N.leb_spec 256 (to_N c)) as [K|K]; [lia|]. rewrite andb_false_r. reflexivity.
Qed.
Lemma b_chx c x r s r' s' y : c <> CR -> (ms (m_ch c ;; x) r s r' s' y <-> exists r1, r = c :: r1 /\ ms x r1 s r' s' y).
Proof.
  intros N. rewrite b_seq by reflexivity. split.
  - intros (r1 & s1 & H & K). apply b_ch in H; [|assumption]. destruct H as (_ & -> & ->). eauto.
  - intros (r1 & -> & K). exists r1, s. split; [apply b_ch; auto|assumption].
Qed.
Lemma b_str w x r s r' s' y : forallb (fun c => negb (beq c CR)) w = true -> (ms (m_str w x) r s r' s' y <-> exists r1, r = w ++ r1 /\ ms x r1 s r' s' y).
Proof.
  revert r. induction w as [|c w IH]; intros r N; cbn [m_str forallb app] in *.
  - split; [eauto|]. intros (r1 & -> & H). exact H.
  - apply andb_prop in N. destruct N as [N1 N2]. assert (c <> CR) by (intros ->; discriminate N1). rewrite b_chx by assumption. split.
    + intros (r1 & -> & H2). apply IH in H2; [|assumption]. destruct H2 as (r2 & -> & H2). eauto.
    + intros (r1 & -> & H2). exists (w ++ r1). split; [reflexivity|]. apply IH; eauto.
Qed.

(** Runs of characters without actions *)
Lemma b_run k r s r' s' : steady k = true -> (@sems mact mjump _ _ (msg_act cap) msg_look (Cls k) r s r' s' <-> s' = s /\ exists w, r = w ++ r' /\ forallb (kc k) w = true).
Proof.
  intros T. split.
  - intros H. induction H as [r s|r s r1 s1 r2 s2 H1 H2 IH].
    + split; [reflexivity|]. exists []. auto.
    + apply b_cls in H1; [|assumption]. destruct H1 as (_ & -> & c & -> & K). destruct IH as (-> & w & -> & F). split; [reflexivity|].
      exists (c :: w). cbn. rewrite K, F. auto.
  - intros (-> & w & -> & F). induction w as [|c w IH]; cbn [app forallb] in *; [constructor|]. apply andb_prop in F. destruct F as [F1 F2].
    econstructor; [apply b_cls; [assumption|]; split; [reflexivity|]; split; [reflexivity|]; eauto|auto].
Qed.
Lemma b_runx k f x r s r' s' y : steady k = true -> (forall c, kc k c = f c) ->
  (ms (Star (Cls k) ;; x) r s r' s' y <-> exists w r1, r = w ++ r1 /\ forallb f w = true /\ ms x r1 s r' s' y).
Proof.
  intros T C. rewrite b_seq by reflexivity. split.
  - intros (r1 & s1 & H & K). apply b_star in H; [|reflexivity]. destruct H as (_ & H). apply b_run in H; [|assumption]. destruct H as (-> & w & -> & F).
    rewrite (forallb_same _ _ C) in F. eauto.
  - intros (w & r1 & -> & F & K). exists r1, s. split; [|assumption]. apply b_star; [reflexivity|]. split; [reflexivity|]. apply b_run; [assumption|].
    split; [reflexivity|]. exists w. rewrite (forallb_same _ _ C). auto.
Qed.
Lemma b_clsx k f x r s r' s' y : steady k = true -> (forall c, kc k c = f c) ->
  (ms (Cls k ;; x) r s r' s' y <-> exists c r1, r = c :: r1 /\ f c = true /\ ms x r1 s r' s' y).
Proof.
  intros T C. rewrite b_seq by reflexivity. split.
  - intros (r1 & s1 & H & K). apply b_cls in H; [|assumption]. destruct H as (_ & -> & c & -> & F). rewrite C in F. eauto.
  - intros (c & r1 & -> & F & K). exists r1, s. split; [|assumption]. apply b_cls; [assumption|]. split; [reflexivity|]. split; [reflexivity|]. exists c. rewrite C. auto.
Qed.
Lemma b_seq_assoc a b c r s r' s' y : nojmp a = true -> nojmp b = true -> (ms ((a ;; b) ;; c) r s r' s' y <-> ms (a ;; b ;; c) r s r' s' y).
Proof.
  intros Na Nb. rewrite b_seq by (cbn; rewrite Na, Nb; reflexivity). rewrite b_seq by assumption. split.
  - intros (r1 & s1 & H & K). apply b_seq in H; [|assumption]. destruct H as (r2 & s2 & H1 & H2). exists r2, s2. split; [assumption|]. apply b_seq; eauto.
  - intros (r1 & s1 & H & K). apply b_seq in K; [|assumption]. destruct K as (r2 & s2 & H1 & H2). exists r2, s2. split; [|assumption]. apply b_seq; eauto.
Qed.
Lemma b_plusx k f x r s r' s' y : steady k = true -> (forall c, kc k c = f c) ->
  (ms (m_plus (Cls k) ;; x) r s r' s' y <-> exists w r1, r = w ++ r1 /\ w <> [] /\ forallb f w = true /\ ms x r1 s r' s' y).
Proof.
  intros T C. unfold m_plus. rewrite b_seq_assoc by reflexivity. rewrite (b_clsx k f) by assumption. split.
  - intros (c & r1 & -> & F & H). apply (b_runx k f) in H; [|assumption|assumption]. destruct H as (w & r2 & -> & F2 & H). exists (c :: w), r2. cbn. rewrite F, F2.
    split; [reflexivity|]. split; [discriminate|]. auto.
  - intros (w & r1 & -> & N & F & H). destruct w as [|c w]; [congruence|]. cbn [forallb] in F. apply andb_prop in F. destruct F as [F1 F2]. exists c, (w ++ r1).
    split; [reflexivity|]. split; [assumption|]. apply (b_runx k f); eauto.
Qed.
Lemma kc_token : forall c, kc k_token c = token_class c. Proof. classes. Qed.
Lemma b_token x r s r' s' y : ms (m_token ;; x) r s r' s' y <-> exists w r1, r = w ++ r1 /\ token w /\ ms x r1 s r' s' y.
Proof.
  unfold m_token. rewrite (b_plusx k_token token_class) by (reflexivity || exact kc_token). unfold token. split.
  - intros (w & r1 & H1 & H2 & H3 & H4). eauto 7.
  - intros (w & r1 & H1 & [H2 H3] & H4). eauto 7.
Qed.

(** ** White space and line ends *)
Lemma kc_wsp : forall c, kc k_wsp c = blank c. Proof. classes. Qed.
Lemma b_blanks x r s r' s' y : ms (Star m_wsp ;; x) r s r' s' y <-> exists w r1, r = w ++ r1 /\ blanks w /\ ms x r1 s r' s' y.
Proof. apply (b_runx k_wsp blank); [reflexivity|exact kc_wsp]. Qed.
Lemma b_crf x r s r' s' y : ms (m_crf ;; x) r s r' s' y <-> exists r1, r = CR :: r1 /\ starts_blank (tl r1) = true /\ ms x r1 s r' s' y.
Proof.
  rewrite b_seq by reflexivity. split.
  - intros (r1 & s1 & H & K). inversion H as [|k0 c r0 s0 n L R| | | | | | | | | ]; subst. exists r1.
    assert (E : n = 256%N). { clear -R. cbn [in_ranges existsb fst snd] in R. rewrite orb_false_r in R. lia. } subst n.
    cbn [msg_look] in L. destruct (beq c CR && lookAheadWSP (c :: r1)) eqn:Q.
    + apply andb_prop in Q. destruct Q as [Q1 Q2]. apply beq_spec in Q1. subst c. split; [reflexivity|]. split; [|assumption].
      destruct r1 as [|d [|b r1]]; try discriminate Q2. exact Q2.
    + exfalso. injection L as L. pose proof (Byte.to_N_bounded c). lia.
  - intros (r1 & -> & B & K). exists r1, s. split; [|assumption]. eapply sem_cls; [apply look_cr|].
    destruct r1 as [|d r1]; [discriminate B|]. rewrite ahead_spec. cbn [tl] in B. rewrite B. reflexivity.
Qed.
Lemma b_cr x r s r' s' y : ms (m_cr ;; x) r s r' s' y <-> exists r1, r = CR :: r1 /\ starts_blank (tl r1) = false /\ ms x r1 s r' s' y.
Proof.
  rewrite b_seq by reflexivity. split.
  - intros (r1 & s1 & H & K). inversion H as [|k0 c r0 s0 n L R| | | | | | | | | ]; subst. exists r1.
    assert (E : n = 13%N). { clear -R. cbn [in_ranges existsb fst snd] in R. rewrite orb_false_r in R. lia. } subst n.
    assert (E : c = CR).
    { apply to_N_inj. cbn [msg_look] in L. destruct (_ && _) in L; [discriminate|]. injection L as L. rewrite L. reflexivity. }
    subst c. split; [reflexivity|]. split; [|assumption]. rewrite look_cr in L. destruct (lookAheadWSP (CR :: r1)) eqn:Q; [discriminate|].
    destruct r1 as [|d [|b r1]]; try reflexivity. exact Q.
  - intros (r1 & -> & B & K). exists r1, s. split; [|assumption]. eapply sem_cls; [apply look_cr|].
    destruct r1 as [|d r1]; [reflexivity|]. rewrite ahead_spec. cbn [tl] in B. rewrite B. reflexivity.
Qed.
Lemma b_lf x r s r' s' y : ms (m_lf ;; x) r s r' s' y <-> exists r1, r = LF :: r1 /\ ms x r1 s r' s' y.
Proof. apply (b_chx LF). discriminate. Qed.
Lemma blanks_app a b : blanks a -> blanks b -> blanks (a ++ b).
Proof. unfold blanks. intros H1 H2. rewrite forallb_app', H1, H2. reflexivity. Qed.
Lemma blank_start w : blanks w -> w <> [] -> forall r, starts_blank (w ++ r) = true.
Proof. destruct w as [|c w]; [congruence|]. cbn. intros H _ r. apply andb_prop in H. apply H. Qed.
Lemma b_fold x r s r' s' y : ms (m_crf ;; after_fold x) r s r' s' y <-> exists w r1, r = CRLF ++ w ++ r1 /\ blanks w /\ w <> [] /\ ms x r1 s r' s' y.
Proof.
  rewrite b_crf. unfold after_fold. split.
  - intros (r1 & -> & B & H). apply b_lf in H. destruct H as (r2 & -> & H). apply (b_clsx k_wsp blank) in H; [|reflexivity|exact kc_wsp].
    destruct H as (c & r3 & -> & F & H). apply b_blanks in H. destruct H as (w & r4 & -> & F2 & H). exists (c :: w), r4.
    split; [reflexivity|]. split; [unfold blanks; cbn [forallb]; rewrite F, F2; reflexivity|]. split; [discriminate|assumption].
  - intros (w & r1 & -> & F & N & H). exists (LF :: w ++ r1). split; [reflexivity|]. split; [apply blank_start; assumption|].
    apply b_lf. eexists. split; [reflexivity|]. apply (b_clsx k_wsp blank); [reflexivity|exact kc_wsp|]. destruct w as [|c w]; [congruence|].
    unfold blanks in F. cbn [forallb] in F. apply andb_prop in F. destruct F as [F1 F2]. exists c, (w ++ r1). split; [reflexivity|]. split; [assumption|].
    apply b_blanks. eauto.
Qed.
Lemma b_sws x r s r' s' y : ms (m_sws x) r s r' s' y <-> exists w r1, r = w ++ r1 /\ sws w /\ ms x r1 s r' s' y.
Proof.
  unfold m_sws. rewrite b_blanks. split.
  - intros (w & r1 & -> & F & H). apply b_alt in H. destruct H as [H|H].
    + exists w, r1. split; [reflexivity|]. split; [left; assumption|assumption].
    + apply b_fold in H. destruct H as (w2 & r2 & -> & F2 & N & H). exists (w ++ CRLF ++ w2), r2. rewrite <- !app_assoc. split; [reflexivity|].
      split; [right; exists w, w2; auto|assumption].
  - intros (w & r1 & -> & [F|(a & b & -> & Fa & Fb & N)] & H).
    + exists w, r1. split; [reflexivity|]. split; [assumption|]. apply b_alt. auto.
    + exists a, (CRLF ++ b ++ r1). rewrite <- !app_assoc. split; [reflexivity|]. split; [assumption|]. apply b_alt. right. apply b_fold. eauto 7.
Qed.
Lemma b_lws x r s r' s' y : ms (m_lws x) r s r' s' y <-> exists w r1, r = w ++ r1 /\ lws w /\ ms x r1 s r' s' y.
Proof.
  unfold m_lws. rewrite b_alt. split.
  - intros [H|H].
    + apply (b_clsx k_wsp blank) in H; [|reflexivity|exact kc_wsp]. destruct H as (c & r1 & -> & F & H). apply b_sws in H. destruct H as (w & r2 & -> & F2 & H).
      exists (c :: w), r2. split; [reflexivity|]. split; [|assumption]. split; [|discriminate]. destruct F2 as [F2|(a & b & -> & F2 & F3)].
      * left. unfold blanks. cbn [forallb]. rewrite F, F2. reflexivity.
      * right. exists (c :: a), b. split; [reflexivity|]. split; [|assumption]. unfold blanks. cbn [forallb]. rewrite F, F2. reflexivity.
    + apply b_fold in H. destruct H as (w2 & r2 & -> & F2 & N & H). exists (CRLF ++ w2), r2. split; [reflexivity|]. split; [|assumption]. split; [|discriminate].
      right. exists [], w2. repeat split; auto.
  - intros (w & r1 & -> & [[F|(a & b & -> & Fa & Fb & N)] NE] & H).
    + destruct w as [|c w]; [congruence|]. left. unfold blanks in F. cbn [forallb] in F. apply andb_prop in F. destruct F as [F1 F2].
      apply (b_clsx k_wsp blank); [reflexivity|exact kc_wsp|]. exists c, (w ++ r1). split; [reflexivity|]. split; [assumption|]. apply b_sws. exists w, r1.
      split; [reflexivity|]. split; [left; assumption|assumption].
    + destruct a as [|c a].
      * right. apply b_fold. exists b, r1. rewrite <- !app_assoc. auto.
      * left. unfold blanks in Fa. cbn [forallb] in Fa. apply andb_prop in Fa. destruct Fa as [F1 F2].
        apply (b_clsx k_wsp blank); [reflexivity|exact kc_wsp|]. exists c, ((a ++ CRLF ++ b) ++ r1). split; [reflexivity|]. split; [assumption|]. apply b_sws.
        exists (a ++ CRLF ++ b), r1. split; [reflexivity|]. split; [right; exists a, b; auto|assumption].
Qed.
Lemma b_eol l r s r' s' y : ms (eol l) r s r' s' y <->
  y = Some (Go 280) /\ exists r1, r = CRLF ++ r1 /\ starts_blank r1 = false /\ r' = LF :: r1 /\ run_acts l (LF :: r1) s = inl s'.
Proof.
  unfold eol. rewrite b_cr. split.
  - intros (r1 & -> & B & H). apply b_acts in H. destruct H as (s1 & A & H). apply b_jmp in H. destruct H as (-> & -> & -> & n & L & R). split; [reflexivity|].
    destruct r1 as [|c r1]; [discriminate L|]. assert (E : c = LF).
    { assert (E : n = 10%N). { clear -R. cbn [in_ranges existsb fst snd] in R. rewrite orb_false_r in R. lia. } subst n.
      apply to_N_inj. cbn [msg_look] in L. destruct (_ && _) in L; [discriminate|]. injection L as L. rewrite L. reflexivity. }
    subst c. exists r1. auto.
  - intros (-> & r1 & -> & B & -> & A). exists (LF :: r1). split; [reflexivity|]. split; [exact B|]. apply b_acts. exists s'. split; [exact A|].
    apply b_jmp. split; [reflexivity|]. split; [reflexivity|]. split; [reflexivity|]. exists 10%N. split; reflexivity.
Qed.
(** after SWS, at a byte that cannot belong to it *)
Definition stops (w r : bytes) : Prop := sws w /\ r <> [] /\ starts_blank r = false /\ (forall c b t, r = CR :: c :: b :: t -> blank b = true -> fold_ws w).
Lemma b_goto l n r s r' s' y : ms (m_goto l n) r s r' s' y <-> y = Some (Hold n) /\ exists w, r = w ++ r' /\ stops w r' /\ run_acts l r' s = inl s'.
Proof.
  assert (KP : forall c, kc k_plain c = negb (blank c)) by classes. assert (KN : forall c, kc k_not_wsp c = negb (blank c)) by classes.
  assert (LP : forall r k, msg_look r = Some k -> in_ranges k_plain k = true <-> starts_blank r = false /\ (forall c b t, r = CR :: c :: b :: t -> blank b = true -> False)).
  { clear -KP. intros [|c r] k L; [discriminate L|]. destruct (beq_reflect c CR) as [->|N].
    - rewrite look_cr in L. destruct r as [|d [|b r]].
      + injection L as <-. cbn. split; [intros _; split; [reflexivity|intros; congruence]|reflexivity].
      + injection L as <-. cbn. split; [intros _; split; [reflexivity|intros; congruence]|reflexivity].
      + rewrite ahead_spec in L. cbn [starts_blank] in L. destruct (blank b) eqn:Q; injection L as <-; cbn.
        * split; [discriminate|]. intros [_ H]. exfalso. eapply H; eauto.
        * split; [|reflexivity]. intros _. split; [reflexivity|]. intros. congruence.
    - rewrite look_plain in L by assumption. injection L as <-. change (in_ranges k_plain (to_N c)) with (kc k_plain c). rewrite KP. cbn [starts_blank].
      destruct (blank c); cbn; [split; [discriminate|intros [? _]; discriminate]|]. split; [|reflexivity]. intros _. split; [reflexivity|]. intros; congruence. }
  assert (LN : forall r k, msg_look r = Some k -> in_ranges k_not_wsp k = true <-> starts_blank r = false).
  { clear -KN. intros [|c r] k L; [discriminate L|]. destruct (beq_reflect c CR) as [->|N].
    - rewrite look_cr in L. revert L. destruct (lookAheadWSP _); intros [= <-]; cbn; tauto.
    - rewrite look_plain in L by assumption. injection L as <-. change (in_ranges k_not_wsp (to_N c)) with (kc k_not_wsp c). rewrite KN. cbn [starts_blank].
      destruct (blank c); cbn; split; congruence. }
  assert (LL : forall r, r <> [] -> exists k, msg_look r = Some k).
  { intros [|c t] H; [congruence|]. destruct (look_lt c t) as (k & H1 & _). eauto. }
  unfold m_goto. rewrite b_blanks. split.
  - intros (w & r1 & -> & F & H). apply b_alt in H. destruct H as [H|H].
    + apply b_acts in H. destruct H as (s1 & A & H). apply b_jmp in H. destruct H as (-> & -> & -> & k & L & R). split; [reflexivity|]. exists w.
      split; [reflexivity|]. split; [|assumption]. apply (LP _ _ L) in R. destruct R as [R1 R2]. split; [left; assumption|].
      split; [intros ->; discriminate L|]. split; [assumption|]. intros c b t E1 E2. exfalso. eauto.
    + change (m_crf ;; m_lf ;; m_wsp ;; Star m_wsp ;; m_acts l (Jmp k_not_wsp (Hold n))) with (m_crf ;; after_fold (m_acts l (Jmp k_not_wsp (Hold n)))) in H.
      apply b_fold in H. destruct H as (w2 & r2 & -> & F2 & N & H). apply b_acts in H. destruct H as (s1 & A & H). apply b_jmp in H.
      destruct H as (-> & -> & -> & k & L & R). split; [reflexivity|]. exists (w ++ CRLF ++ w2). rewrite <- !app_assoc.
      split; [reflexivity|]. split; [|assumption]. assert (FW : fold_ws (w ++ CRLF ++ w2)) by (exists w, w2; auto).
      split; [right; assumption|]. split; [intros ->; discriminate L|]. split; [apply (LN _ _ L); assumption|]. auto.
  - intros (-> & w & -> & ([F|(a & b & -> & Fa & Fb & N)] & NE & B & X) & A); destruct (LL r' NE) as (k & L).
    + destruct (in_ranges k_plain k) eqn:R.
      * exists w, r'. split; [reflexivity|]. split; [assumption|]. apply b_alt. left. apply b_acts. exists s'. split; [assumption|]. apply b_jmp. eauto 7.
      * exfalso. assert (K : in_ranges k_plain k = true); [|congruence]. apply (LP _ _ L). split; [assumption|]. intros c b t E1 E2.
        destruct (X c b t E1 E2) as (x & y & -> & _). unfold blanks in F. rewrite forallb_app' in F. apply andb_prop in F. destruct F as [_ F]. discriminate F.
    + exists a, (CRLF ++ b ++ r'). rewrite <- !app_assoc. split; [reflexivity|]. split; [assumption|]. apply b_alt. right.
      change (m_crf ;; m_lf ;; m_wsp ;; Star m_wsp ;; m_acts l (Jmp k_not_wsp (Hold n))) with (m_crf ;; after_fold (m_acts l (Jmp k_not_wsp (Hold n)))).
      apply b_fold. exists b, r'. split; [reflexivity|]. split; [assumption|]. split; [assumption|]. apply b_acts. exists s'. split; [assumption|]. apply b_jmp.
      split; [reflexivity|]. split; [reflexivity|]. split; [reflexivity|]. exists k. split; [assumption|]. apply (LN _ _ L). assumption.
Qed.
Lemma b_hcolon x r s r' s' y : ms (m_hcolon x) r s r' s' y <-> exists w r1, r = w ++ B ":" ++ r1 /\ blanks w /\ ms x r1 s r' s' y.
Proof.
  unfold m_hcolon. rewrite b_blanks. split.
  - intros (w & r1 & -> & F & H). apply b_chx in H; [|discriminate]. destruct H as (r2 & -> & H). exists w, r2. auto.
  - intros (w & r1 & -> & F & H). exists w, (B ":" ++ r1). split; [reflexivity|]. split; [assumption|]. apply b_chx; [discriminate|]. exists r1. auto.
Qed.

(** ** Runs of characters with actions *)
Lemma b_ons1 l k f g x r s r' s' y : steady k = true -> (forall c, kc k c = f c) -> (forall c t s, run_acts l (c :: t) s = inl (g s c)) ->
  (ms (m_acts l (Cls k) ;; x) r s r' s' y <-> exists c r1, r = c :: r1 /\ f c = true /\ ms x r1 (g s c) r' s' y).
Proof.
  intros T C G. assert (NJ : nojmp (m_acts l (Cls k)) = true) by (clear; induction l; cbn; auto). rewrite b_seq by assumption. split.
  - intros (r1 & s1 & H & K). apply b_acts in H. destruct H as (s2 & A & H). apply b_cls in H; [|assumption]. destruct H as (_ & -> & c & -> & F).
    rewrite G in A. injection A as <-. rewrite C in F. eauto.
  - intros (c & r1 & -> & F & K). exists r1, (g s c). split; [|assumption]. apply b_acts. exists (g s c). split; [apply G|]. apply b_cls; [assumption|].
    split; [reflexivity|]. split; [reflexivity|]. exists c. rewrite C. auto.
Qed.
Lemma b_ons l k f g x r s r' s' y : steady k = true -> (forall c, kc k c = f c) -> (forall c t s, run_acts l (c :: t) s = inl (g s c)) ->
  (ms (Star (m_acts l (Cls k)) ;; x) r s r' s' y <-> exists w r1, r = w ++ r1 /\ forallb f w = true /\ ms x r1 (fold_left g w s) r' s' y).
Proof.
  intros T C G. assert (NJ : nojmp (m_acts l (Cls k)) = true) by (clear; induction l; cbn; auto). rewrite b_seq by (exact NJ). split.
  - intros (r1 & s1 & H & K). apply b_star in H; [|assumption]. destruct H as (_ & H). induction H as [r s|r s r1 s1 r2 s2 H1 H2 IH].
    + exists [], r. auto.
    + destruct (IH K) as (w & r3 & -> & F & K2). apply b_acts in H1. destruct H1 as (s3 & A & H1). apply b_cls in H1; [|assumption].
      destruct H1 as (_ & -> & c & -> & F1). rewrite G in A. injection A as <-. rewrite C in F1. exists (c :: w), r3. cbn [app forallb fold_left]. rewrite F1, F. auto.
  - intros (w & r1 & -> & F & K). exists r1, (fold_left g w s). split; [|assumption]. apply b_star; [assumption|]. split; [reflexivity|]. clear K.
    revert s F. induction w as [|c w IH]; intros s F; cbn [app fold_left forallb] in *; [constructor|]. apply andb_prop in F. destruct F as [F1 F2].
    econstructor; [|apply IH; assumption]. apply b_acts. exists (g s c). split; [apply G|]. apply b_cls; [assumption|]. split; [reflexivity|].
    split; [reflexivity|]. exists c. rewrite C. auto.
Qed.
Lemma b_onplus l k f g x r s r' s' y : steady k = true -> (forall c, kc k c = f c) -> (forall c t s, run_acts l (c :: t) s = inl (g s c)) ->
  (ms (m_plus (m_acts l (Cls k)) ;; x) r s r' s' y <-> exists w r1, r = w ++ r1 /\ w <> [] /\ forallb f w = true /\ ms x r1 (fold_left g w s) r' s' y).
Proof.
  intros T C G. assert (NJ : nojmp (m_acts l (Cls k)) = true) by (clear; induction l; cbn; auto). unfold m_plus.
  rewrite b_seq_assoc by (exact NJ). rewrite (b_ons1 l k f g) by assumption. split.
  - intros (c & r1 & -> & F & H). apply (b_ons l k f g) in H; [|assumption..]. destruct H as (w & r2 & -> & F2 & H). exists (c :: w), r2. cbn [app forallb fold_left].
    rewrite F, F2. split; [reflexivity|]. split; [discriminate|]. auto.
  - intros (w & r1 & -> & N & F & H). destruct w as [|c w]; [congruence|]. cbn [forallb] in F. apply andb_prop in F. destruct F as [F1 F2]. exists c, (w ++ r1).
    split; [reflexivity|]. split; [assumption|]. apply (b_ons l k f g); eauto.
Qed.

(** ** Texts read without action *)
Definition reads (R : mre) (P : bytes -> Prop) : Prop :=
  forall r s r' s' y, ms R r s r' s' y <-> y = None /\ s' = s /\ exists w, r = w ++ r' /\ P w.
Lemma reads_cls k f : steady k = true -> (forall c, kc k c = f c) -> reads (Cls k) (fun w => exists c, w = [c] /\ f c = true).
Proof.
  intros T C r s r' s' y. rewrite b_cls by assumption. split.
  - intros (-> & -> & c & -> & K). rewrite C in K. split; [reflexivity|]. split; [reflexivity|]. exists [c]. eauto.
  - intros (-> & -> & w & -> & c & -> & K). split; [reflexivity|]. split; [reflexivity|]. exists c. rewrite C. auto.
Qed.
Lemma reads_nojmp R P : reads R P -> forall r s r' s' j, ~ ms R r s r' s' (Some j).
Proof. intros H r s r' s' j K. apply H in K. destruct K as [K _]. discriminate. Qed.
Lemma reads_seq R Q P1 P2 : reads R P1 -> reads Q P2 -> reads (R ;; Q) (fun w => exists a b, w = a ++ b /\ P1 a /\ P2 b).
Proof.
  intros HR HQ r s r' s' y. split.
  - intros H. inversion H as [| | | |a b r0 s0 r1 s1 r2 s2 x H1 H2|a b r0 s0 r1 s1 j H1| | | | |]; subst; [|destruct (reads_nojmp _ _ HR _ _ _ _ _ H1)].
    apply HR in H1. destruct H1 as (_ & -> & w1 & -> & P). apply HQ in H2. destruct H2 as (-> & -> & w2 & -> & Q2). split; [reflexivity|]. split; [reflexivity|].
    exists (w1 ++ w2). rewrite <- app_assoc. eauto 6.
  - intros (-> & -> & w & -> & a & b & -> & Pa & Pb). econstructor; [apply HR|apply HQ]; (split; [reflexivity|]; split; [reflexivity|]); [|eauto].
    exists a. rewrite <- app_assoc. eauto.
Qed.
Lemma reads_alt R Q P1 P2 : reads R P1 -> reads Q P2 -> reads (Alt R Q) (fun w => P1 w \/ P2 w).
Proof.
  intros HR HQ r s r' s' y. rewrite b_alt, (HR r), (HQ r). split.
  - intros [(-> & -> & w & -> & P)|(-> & -> & w & -> & P)]; eauto 8.
  - intros (-> & -> & w & -> & [P|P]); [left|right]; eauto 6.
Qed.
Lemma reads_star R P : reads R P -> reads (Star R) (fun w => exists l : list unit, chain (fun t _ => P t) w l).
Proof.
  intros HR r s r' s' y. split.
  - intros H. remember (Star R) as Q eqn:EQ. induction H; try discriminate; injection EQ as ->.
    + split; [reflexivity|]. split; [reflexivity|]. exists []. split; [reflexivity|]. exists []. constructor.
    + apply HR in H. destruct H as (_ & -> & w & -> & K). destruct (IHsem2 eq_refl) as (-> & -> & w2 & -> & l & K2). split; [reflexivity|]. split; [reflexivity|].
      exists (w ++ w2). rewrite <- app_assoc. split; [reflexivity|]. exists (tt :: l). constructor; assumption.
    + destruct (reads_nojmp _ _ HR _ _ _ _ _ H).
  - intros (-> & -> & w & -> & l & K). induction K as [|t x ts xs K1 K2 IH]; cbn [app]; [apply sem_star0|]. rewrite <- app_assoc.
    eapply sem_star1; [|exact IH]. apply HR. eauto 6.
Qed.
Lemma reads_ext R P Q : reads R P -> (forall w, P w <-> Q w) -> reads R Q.
Proof.
  intros H E r s r' s' y. rewrite (H r). split; intros (-> & -> & w & -> & K); (split; [reflexivity|]; split; [reflexivity|]; exists w; split; [reflexivity|]; apply E; exact K).
Qed.
Lemma reads_x R P x r s r' s' y : reads R P -> nojmp R = true -> (ms (R ;; x) r s r' s' y <-> exists w r1, r = w ++ r1 /\ P w /\ ms x r1 s r' s' y).
Proof.
  intros H N. rewrite b_seq by assumption. split.
  - intros (r1 & s1 & H1 & H2). apply H in H1. destruct H1 as (_ & -> & w & -> & K). eauto.
  - intros (w & r1 & -> & K & H2). exists r1, s. split; [apply H; eauto 6|assumption].
Qed.

(** ** Texts read into the buffer: the text, and what is appended *)
Definition fits (s : mst) (v : bytes) : Prop := v = [] \/ (length (m_buf s) + length v <= cap)%nat.
Definition took (s : mst) (v : bytes) (h : Z) : mst := put_hex h (put_buf (m_buf s ++ v) s).
Definition collects (R : mre) (P : bytes -> bytes -> Prop) : Prop :=
  (forall r s r' s' y, ms R r s r' s' y -> y = None /\ exists w v h, r = w ++ r' /\ P w v /\ s' = took s v h) /\
  (forall w v r' s, P w v -> fits s v -> exists h, ms R (w ++ r') s r' (took s v h) None).
Lemma took_nil s : took s [] (m_hex s) = s.
Proof. destruct s. unfold took, put_hex, put_buf. cbn. rewrite app_nil_r. reflexivity. Qed.
Lemma took_took s v h w k : took (took s v h) w k = took s (v ++ w) k.
Proof. unfold took, put_hex, put_buf. cbn. rewrite app_assoc. reflexivity. Qed.
Lemma fits_app s v w : fits s (v ++ w) -> fits s v /\ forall h, fits (took s v h) w.
Proof.
  intros [H|H].
  - apply app_eq_nil in H. destruct H as [-> ->]. split; [left; reflexivity|]. intros. left. reflexivity.
  - rewrite app_length in H. split; [right; lia|]. intros h. right. unfold took, put_hex, put_buf. cbn. rewrite app_length. lia.
Qed.
Lemma collects_put1 k f : steady k = true -> (forall c, kc k c = f c) -> collects (put1 k) (fun w v => exists c, w = [c] /\ v = [c] /\ f c = true).
Proof.
  intros T C. split.
  - intros r s r' s' y H. apply b_do in H. destruct H as (s1 & A & H). apply b_cls in H; [|assumption]. destruct H as (-> & -> & c & -> & K). split; [reflexivity|].
    cbn [msg_act mfc] in A. unfold mput in A. destruct (Nat.ltb _ _); [|discriminate]. injection A as <-. rewrite C in K. exists [c], [c], (m_hex s). split; [reflexivity|].
    split; [eauto|]. destruct s; reflexivity.
  - intros w v r' s (c & -> & -> & K) F. exists (m_hex s). apply b_do. exists (took s [c] (m_hex s)). split.
    + cbn [app msg_act mfc]. unfold mput. destruct F as [F|F]; [discriminate|]. cbn [length] in F. rewrite (proj2 (Nat.ltb_lt _ _)) by lia. destruct s; reflexivity.
    + apply b_cls; [assumption|]. split; [reflexivity|]. split; [reflexivity|]. exists c. rewrite C. auto.
Qed.
Lemma collects_nojmp R P : collects R P -> forall r s r' s' j, ~ ms R r s r' s' (Some j).
Proof. intros H r s r' s' j K. apply H in K. destruct K as [K _]. discriminate. Qed.
Definition p_cat (P1 P2 : bytes -> bytes -> Prop) (w v : bytes) : Prop := exists a b c d, w = a ++ b /\ v = c ++ d /\ P1 a c /\ P2 b d.
Lemma collects_seq R Q P1 P2 : collects R P1 -> collects Q P2 -> collects (R ;; Q) (p_cat P1 P2).
Proof.
  intros HR HQ. split.
  - intros r s r' s' y H. inversion H as [| | | |a b r0 s0 r1 s1 r2 s2 x H1 H2|a b r0 s0 r1 s1 j H1| | | | |]; subst; [|destruct (collects_nojmp _ _ HR _ _ _ _ _ H1)].
    apply HR in H1. destruct H1 as (_ & w1 & v1 & h1 & -> & K1 & ->). apply HQ in H2. destruct H2 as (-> & w2 & v2 & h2 & -> & K2 & ->). split; [reflexivity|].
    exists (w1 ++ w2), (v1 ++ v2), h2. rewrite <- app_assoc, took_took. split; [reflexivity|]. split; [|reflexivity]. exists w1, w2, v1, v2. auto.
  - intros w v r' s (a & b & c & d & -> & -> & K1 & K2) F. apply fits_app in F. destruct F as [F1 F2].
    destruct (proj2 HR a c (b ++ r') s K1 F1) as (h1 & H1). destruct (proj2 HQ b d r' (took s c h1) K2 (F2 h1)) as (h2 & H2). exists h2.
    rewrite <- app_assoc. rewrite took_took in H2. econstructor; eassumption.
Qed.
Lemma collects_alt R Q P1 P2 : collects R P1 -> collects Q P2 -> collects (Alt R Q) (fun w v => P1 w v \/ P2 w v).
Proof.
  intros HR HQ. split.
  - intros r s r' s' y H. apply b_alt in H. destruct H as [H|H]; [apply HR in H|apply HQ in H]; destruct H as (-> & w & v & h & ? & ? & ?); eauto 9.
  - intros w v r' s [K|K] F; [destruct (proj2 HR w v r' s K F) as (h & H)|destruct (proj2 HQ w v r' s K F) as (h & H)]; exists h; apply b_alt; auto.
Qed.
Inductive p_rep (P : bytes -> bytes -> Prop) : bytes -> bytes -> Prop :=
| pr_nil : p_rep P [] []
| pr_cons w v ws vs : P w v -> p_rep P ws vs -> p_rep P (w ++ ws) (v ++ vs).
Lemma collects_star R P : collects R P -> collects (Star R) (p_rep P).
Proof.
  intros HR. split.
  - intros r s r' s' y H. remember (Star R) as Q eqn:EQ. induction H; try discriminate; injection EQ as ->.
    + split; [reflexivity|]. exists [], [], (m_hex s). rewrite took_nil. split; [reflexivity|]. split; [constructor|reflexivity].
    + apply HR in H. destruct H as (_ & w & v & h & -> & K & ->). destruct (IHsem2 eq_refl) as (-> & w2 & v2 & h2 & -> & K2 & ->). split; [reflexivity|].
      exists (w ++ w2), (v ++ v2), h2. rewrite <- app_assoc, took_took. split; [reflexivity|]. split; [constructor; assumption|reflexivity].
    + destruct (collects_nojmp _ _ HR _ _ _ _ _ H).
  - intros w v r' s K. revert s. induction K as [|w v ws vs K1 K2 IH]; intros s F; cbn [app].
    + exists (m_hex s). rewrite took_nil. apply sem_star0.
    + apply fits_app in F. destruct F as [F1 F2]. destruct (proj2 HR w v (ws ++ r') s K1 F1) as (h1 & H1). destruct (IH _ (F2 h1)) as (h2 & H2). exists h2.
      rewrite took_took in H2. rewrite <- app_assoc. eapply sem_star1; eassumption.
Qed.
Lemma collects_ext R (P Q : bytes -> bytes -> Prop) : collects R P -> (forall w v, P w v <-> Q w v) -> collects R Q.
Proof.
  intros H E. split.
  - intros r s r' s' y K. apply H in K. destruct K as (-> & w & v & h & -> & K & ->). split; [reflexivity|]. exists w, v, h. split; [reflexivity|]. split; [apply E; exact K|reflexivity].
  - intros w v r' s K F. apply E in K. apply (proj2 H); assumption.
Qed.
Lemma collects_ch c : c <> CR -> collects (m_ch c) (fun w v => w = [c] /\ v = []).
Proof.
  intros N. split.
  - intros r s r' s' y H. apply b_ch in H; [|assumption]. destruct H as (-> & -> & ->). split; [reflexivity|]. exists [c], [], (m_hex s). rewrite took_nil. auto.
  - intros w v r' s [-> ->] F. exists (m_hex s). rewrite took_nil. apply b_ch; auto.
Qed.

(** multi-byte characters *)
Definition single (f : byte -> bool) (w : bytes) : Prop := exists c, w = [c] /\ f c = true.
Lemma multi_cases w : multibyte w <-> exists c cs, w = c :: cs /\ forallb cont_class cs = true /\
  ((in_range 192 223 c = true /\ length cs = 1%nat) \/ (in_range 224 239 c = true /\ length cs = 2%nat) \/ (in_range 240 247 c = true /\ length cs = 3%nat) \/
   (in_range 248 251 c = true /\ length cs = 4%nat) \/ (in_range 252 253 c = true /\ length cs = 5%nat)).
Proof.
  split.
  - intros (c & cs & -> & NE & L & F). exists c, cs. split; [reflexivity|]. split; [assumption|]. unfold more_bytes in L.
    destruct (in_range 192 223 c) eqn:E1; [auto 9|]. destruct (in_range 224 239 c) eqn:E2; [auto 9|]. destruct (in_range 240 247 c) eqn:E3; [auto 9|].
    destruct (in_range 248 251 c) eqn:E4; [auto 9|]. destruct (in_range 252 253 c) eqn:E5; [auto 9|]. destruct cs; [congruence|discriminate L].
  - intros (c & cs & -> & F & H). exists c, cs. split; [reflexivity|].
    assert (D : forall lo hi, in_range lo hi c = true -> lo <= bz c <= hi) by (intros lo hi; unfold in_range; lia).
    assert (X : forall lo hi, (bz c < lo \/ hi < bz c) -> in_range lo hi c = false) by (intros lo hi; unfold in_range; lia).
    split; [intros ->; cbn in H; intuition lia|]. split; [|assumption]. unfold more_bytes.
    destruct H as [[H L]|[[H L]|[[H L]|[[H L]|[H L]]]]]; pose proof (D _ _ H) as D1.
    + rewrite H. exact L.
    + rewrite (X 192 223) by lia. rewrite H. exact L.
    + rewrite (X 192 223), (X 224 239) by lia. rewrite H. exact L.
    + rewrite (X 192 223), (X 224 239), (X 240 247) by lia. rewrite H. exact L.
    + rewrite (X 192 223), (X 224 239), (X 240 247), (X 248 251) by lia. rewrite H. exact L.
Qed.
Lemma kc_range_192 : forall c, kc [(192, 223)]%N c = in_range 192 223 c. Proof. classes. Qed.
Lemma kc_range_224 : forall c, kc [(224, 239)]%N c = in_range 224 239 c. Proof. classes. Qed.
Lemma kc_range_240 : forall c, kc [(240, 247)]%N c = in_range 240 247 c. Proof. classes. Qed.
Lemma kc_range_248 : forall c, kc [(248, 251)]%N c = in_range 248 251 c. Proof. classes. Qed.
Lemma kc_range_252 : forall c, kc [(252, 253)]%N c = in_range 252 253 c. Proof. classes. Qed.
Lemma kc_cont : forall c, kc k_cont c = cont_class c. Proof. classes. Qed.
Definition lead_cont (f : byte -> bool) (n : nat) (w : bytes) : Prop := exists c cs, w = c :: cs /\ f c = true /\ length cs = n /\ forallb cont_class cs = true.
Lemma lead_multi w : multibyte w <-> lead_cont (in_range 192 223) 1 w \/ lead_cont (in_range 224 239) 2 w \/ lead_cont (in_range 240 247) 3 w \/
  lead_cont (in_range 248 251) 4 w \/ lead_cont (in_range 252 253) 5 w.
Proof.
  rewrite multi_cases. unfold lead_cont. split.
  - intros (c & cs & -> & F & [[H L]|[[H L]|[[H L]|[[H L]|[H L]]]]]); [left|right; left|right; right; left|right; right; right; left|right; right; right; right]; exists c, cs; auto.
  - intros [(c & cs & -> & H & L & F)|[(c & cs & -> & H & L & F)|[(c & cs & -> & H & L & F)|[(c & cs & -> & H & L & F)|(c & cs & -> & H & L & F)]]]]; exists c, cs;
      (split; [reflexivity|]; split; [assumption|]); auto 7.
Qed.
Fixpoint rep_seq (n : nat) (R Q : mre) : mre := match n with O => R | Datatypes.S m => R ;; rep_seq m Q Q end.
Lemma cont_split n w : (exists a b, w = a ++ b /\ single cont_class a /\ (length b = n /\ forallb cont_class b = true)) <-> (length w = Datatypes.S n /\ forallb cont_class w = true).
Proof.
  split.
  - intros (a & b & -> & (c & -> & K) & L & F). cbn [app length forallb]. rewrite K, F, L. auto.
  - intros [L F]. destruct w as [|c w]; [discriminate|]. cbn [forallb] in F. apply andb_prop in F. destruct F as [F1 F2]. exists [c], w. cbn in L. split; [reflexivity|].
    split; [exists c; auto|]. split; [lia|assumption].
Qed.
Lemma reads_conts n : reads (rep_seq n (Cls k_cont) (Cls k_cont)) (fun w => length w = Datatypes.S n /\ forallb cont_class w = true).
Proof.
  induction n as [|n IH]; cbn [rep_seq].
  - eapply reads_ext; [apply (reads_cls k_cont cont_class); [reflexivity|exact kc_cont]|]. intros w. split.
    + intros (c & -> & K). cbn [forallb]. rewrite K. auto.
    + intros [L F]. destruct w as [|c [|]]; try discriminate. cbn [forallb] in F. apply andb_prop in F. destruct F as [F _]. eauto.
  - eapply reads_ext; [apply reads_seq; [apply (reads_cls k_cont cont_class); [reflexivity|exact kc_cont]|exact IH]|]. intros w. apply (cont_split (Datatypes.S n)).
Qed.
Lemma reads_lead k f n : steady k = true -> (forall c, kc k c = f c) -> reads (Cls k ;; rep_seq n (Cls k_cont) (Cls k_cont)) (lead_cont f (Datatypes.S n)).
Proof.
  intros T C. eapply reads_ext; [apply reads_seq; [apply (reads_cls k f); assumption|apply reads_conts]|]. intros w. split.
  - intros (a & b & -> & (c & -> & K) & L & F). exists c, b. auto.
  - intros (c & cs & -> & K & L & F). exists [c], cs. eauto 8.
Qed.
Lemma reads_utf8 : reads (m_utf8 (@Cls mact mjump)) multibyte.
Proof.
  eapply reads_ext; [|intros w; symmetry; apply lead_multi]. unfold m_utf8.
  apply reads_alt; [apply (reads_lead _ _ 0); [reflexivity|exact kc_range_192]|].
  apply reads_alt; [apply (reads_lead _ _ 1); [reflexivity|exact kc_range_224]|].
  apply reads_alt; [apply (reads_lead _ _ 2); [reflexivity|exact kc_range_240]|].
  apply reads_alt; [apply (reads_lead _ _ 3); [reflexivity|exact kc_range_248]|].
  apply (reads_lead _ _ 4); [reflexivity|exact kc_range_252].
Qed.
Definition same_text (P : bytes -> Prop) (w v : bytes) : Prop := v = w /\ P w.
Lemma collects_conts n : collects (rep_seq n (put1 k_cont) (put1 k_cont)) (same_text (fun w => length w = Datatypes.S n /\ forallb cont_class w = true)).
Proof.
  induction n as [|n IH]; cbn [rep_seq].
  - eapply collects_ext; [apply (collects_put1 k_cont cont_class); [reflexivity|exact kc_cont]|]. intros w v. unfold same_text. split.
    + intros (c & -> & -> & K). cbn [forallb]. rewrite K. auto.
    + intros [-> [L F]]. destruct w as [|c [|]]; try discriminate. cbn [forallb] in F. apply andb_prop in F. destruct F as [F _]. eauto.
  - eapply collects_ext; [apply collects_seq; [apply (collects_put1 k_cont cont_class); [reflexivity|exact kc_cont]|exact IH]|]. intros w v. unfold same_text.
    rewrite <- (cont_split (Datatypes.S n)). split.
    + intros (a & b & c & d & -> & -> & (x & -> & -> & K) & -> & L). split; [reflexivity|]. exists [x], b. split; [reflexivity|]. split; [exists x; auto|assumption].
    + intros (-> & a & b & -> & (x & -> & K) & L). exists [x], b, [x], b. split; [reflexivity|]. split; [reflexivity|]. split; [eauto|]. auto.
Qed.
Lemma collects_lead k f n : steady k = true -> (forall c, kc k c = f c) -> collects (put1 k ;; rep_seq n (put1 k_cont) (put1 k_cont)) (same_text (lead_cont f (Datatypes.S n))).
Proof.
  intros T C. eapply collects_ext; [apply collects_seq; [apply (collects_put1 k f); assumption|apply collects_conts]|]. intros w v. split.
  - intros (a & b & c & d & -> & -> & (x & -> & -> & K) & -> & L & F). split; [reflexivity|]. exists x, b. auto.
  - intros (-> & c & cs & -> & K & L & F). exists [c], cs, [c], cs. unfold same_text. eauto 9.
Qed.
Lemma collects_utf8 : collects (m_utf8 put1) (same_text multibyte).
Proof.
  eapply collects_ext; [unfold m_utf8; apply collects_alt; [apply (collects_lead _ (in_range 192 223) 0); [reflexivity|exact kc_range_192]|
    apply collects_alt; [apply (collects_lead _ (in_range 224 239) 1); [reflexivity|exact kc_range_224]|
    apply collects_alt; [apply (collects_lead _ (in_range 240 247) 2); [reflexivity|exact kc_range_240]|
    apply collects_alt; [apply (collects_lead _ (in_range 248 251) 3); [reflexivity|exact kc_range_248]|apply (collects_lead _ (in_range 252 253) 4); [reflexivity|exact kc_range_252]]]]]|].
  intros w v. unfold same_text. rewrite lead_multi. tauto.
Qed.

(** header values *)
Lemma kc_vchar : forall c, kc k_vchar c = value_class c. Proof. classes. Qed.
Lemma reads_fold : reads (m_crf ;; m_lf ;; m_wsp) (fun w => exists c, w = [CR; LF; c] /\ blank c = true).
Proof.
  intros r s r' s' y. rewrite b_crf. split.
  - intros (r1 & -> & B & H). apply b_lf in H. destruct H as (r2 & -> & H). apply b_cls in H; [|reflexivity]. destruct H as (-> & -> & c & -> & K).
    rewrite kc_wsp in K. split; [reflexivity|]. split; [reflexivity|]. exists [CR; LF; c]. eauto.
  - intros (-> & -> & w & -> & c & -> & K). exists (LF :: c :: r'). split; [reflexivity|]. split; [exact K|]. apply b_lf. exists (c :: r'). split; [reflexivity|].
    apply b_cls; [reflexivity|]. split; [reflexivity|]. split; [reflexivity|]. exists c. rewrite kc_wsp. auto.
Qed.
Lemma reads_value : reads (Star m_vpiece) value_text.
Proof.
  eapply reads_ext; [apply reads_star; unfold m_vpiece; apply reads_alt; [apply (reads_cls k_vchar value_class); [reflexivity|exact kc_vchar]|
    apply reads_alt; [apply reads_fold|apply reads_utf8]]|].
  intros w. split.
  - intros (l & H). induction H as [|t x ts xs [(c & -> & K)|[(c & -> & K)|K]] _ IH]; constructor; assumption.
  - intros H. induction H as [|c t K _ (l & IH)|c t K _ (l & IH)|w t K _ (l & IH)]; [exists []; constructor|exists (tt :: l)..].
    + change (c :: t) with ([c] ++ t). constructor; [eauto|assumption].
    + change (CR :: LF :: c :: t) with ([CR; LF; c] ++ t). constructor; [eauto|assumption].
    + constructor; [auto|assumption].
Qed.
(** quoted strings *)
Lemma kc_qdtext : forall c, kc k_qdtext c = quoted_class c. Proof. classes. Qed.
Lemma kc_qpair : forall c, kc k_qpair c = escapable c. Proof. classes. Qed.
Lemma kc_lf : forall c, kc [(10, 10)]%N c = beq c LF. Proof. classes. Qed.
Lemma collects_fold : collects (put1 [(256, 256)]%N ;; put1 [(10, 10)]%N ;; put1 k_wsp) (same_text (fun w => exists c, w = [CR; LF; c] /\ blank c = true)).
Proof.
  assert (TL : collects (put1 [(10, 10)]%N ;; put1 k_wsp) (same_text (fun w => exists c, w = [LF; c] /\ blank c = true))).
  { eapply collects_ext; [apply collects_seq; [apply (collects_put1 _ (fun c => beq c LF)); [reflexivity|exact kc_lf]|apply (collects_put1 k_wsp blank); [reflexivity|exact kc_wsp]]|].
    intros w v. split.
    - intros (a & b & c & d & -> & -> & (x & -> & -> & K) & (x2 & -> & -> & K2)). apply beq_spec in K. subst x. split; [reflexivity|]. exists x2. auto.
    - intros (-> & c & -> & K). exists [LF], [c], [LF], [c]. split; [reflexivity|]. split; [reflexivity|]. split; [exists LF; auto|eauto]. }
  split.
  - intros r s r' s' y H. unfold put1 at 1, m_on in H. rewrite b_seq in H by reflexivity. destruct H as (r1 & s1 & H1 & H2). apply TL in H2.
    destruct H2 as (-> & w & v & h & -> & (-> & c & -> & K) & ->). split; [reflexivity|]. apply b_do in H1. destruct H1 as (s2 & A & H1).
    inversion H1 as [|k0 x r0 s0 n L R| | | | | | | | | ]; subst.
    assert (E : n = 256%N). { clear -R. cbn [in_ranges existsb fst snd] in R. rewrite orb_false_r in R. lia. } subst n.
    cbn [msg_look] in L. destruct (beq x CR && _) eqn:Q; [|exfalso; injection L as L; pose proof (Byte.to_N_bounded x); lia].
    apply andb_prop in Q. destruct Q as [Q _]. apply beq_spec in Q. subst x. cbn [msg_act mfc] in A. unfold mput in A. destruct (Nat.ltb _ _); [|discriminate]. injection A as <-.
    exists [CR; LF; c], [CR; LF; c], h. split; [reflexivity|]. split; [split; [reflexivity|eauto]|]. unfold took, put_hex, put_buf. cbn. rewrite <- app_assoc. reflexivity.
  - intros w v r' s (-> & c & -> & K) F. change [CR; LF; c] with ([CR] ++ [LF; c]) in F. apply fits_app in F. destruct F as [F1 F2].
    destruct (proj2 TL [LF; c] [LF; c] r' (took s [CR] (m_hex s)) (conj eq_refl (ex_intro _ c (conj eq_refl K))) (F2 _)) as (h & H). exists h.
    rewrite took_took in H. change ([CR] ++ [LF; c]) with [CR; LF; c] in H. cbn [app] in *. rewrite b_seq by reflexivity. exists (LF :: c :: r'), (took s [CR] (m_hex s)).
    split; [|exact H]. apply b_do. exists (took s [CR] (m_hex s)). split.
    + cbn [msg_act mfc]. unfold mput. destruct F1 as [F1|F1]; [discriminate|]. cbn [length] in F1. rewrite (proj2 (Nat.ltb_lt _ _)) by lia. destruct s; reflexivity.
    + eapply sem_cls; [apply look_cr|]. rewrite ahead_spec. cbn [starts_blank]. rewrite K. reflexivity.
Qed.
Lemma collects_qtext : collects (Star m_qpiece) quoted_text.
Proof.
  eapply collects_ext; [apply collects_star; unfold m_qpiece; apply collects_alt; [apply (collects_put1 k_qdtext quoted_class); [reflexivity|exact kc_qdtext]|
    apply collects_alt; [apply collects_fold|apply collects_alt; [apply collects_seq; [apply (collects_ch x5c); discriminate|apply (collects_put1 k_qpair escapable); [reflexivity|exact kc_qpair]]|apply collects_utf8]]]|].
  intros w v. split.
  - intros H. induction H as [|w v ws vs [(c & -> & -> & K)|[(-> & c & -> & K)|[(a & b & c & d & -> & -> & [-> ->] & (x & -> & -> & K))|[-> K]]]] _ IH]; cbn [app]; try (constructor; assumption).
  - intros H. induction H as [|c t v K _ IH|c t v K _ IH|c t v K _ IH|w t v K _ IH]; [constructor| | | |].
    + change (c :: t) with ([c] ++ t). change (c :: v) with ([c] ++ v). constructor; [eauto|assumption].
    + change (CR :: LF :: c :: t) with ([CR; LF; c] ++ t). change (CR :: LF :: c :: v) with ([CR; LF; c] ++ v). constructor; [|assumption].
      right. left. split; [reflexivity|eauto].
    + change (BSL :: c :: t) with ([BSL; c] ++ t). change (c :: v) with ([c] ++ v). constructor; [|assumption].
      right. right. left. exists [BSL], [c], [], [c]. split; [reflexivity|]. split; [reflexivity|]. split; [split; reflexivity|eauto].
    + constructor; [|assumption]. right. right. right. split; [reflexivity|assumption].
Qed.
(** reason phrases *)
Lemma kc_xdig : forall c, kc k_xdig c = hex_class c. Proof. classes. Qed.
Lemma kc_reason : forall c, kc k_reason c = reason_class c. Proof. classes. Qed.
Lemma collects_escaped : collects m_escaped (fun w v => exists a b, w = ["%"%byte; a; b] /\ v = [zb (16 * hex_value a + hex_value b)] /\ hex_class a = true /\ hex_class b = true).
Proof.
  assert (V : forall a b, hex_class a = true -> hex_class b = true -> u8 (u8 (unhex a * 16) + unhex b) = 16 * hex_value a + hex_value b).
  { intros a b Ka Kb. destruct (unhex_value a Ka) as [Ea Ra], (unhex_value b Kb) as [Eb Rb]. rewrite <- Ea, <- Eb. rewrite (u8_id (unhex a * 16)) by lia. rewrite u8_id by lia. lia. }
  split.
  - intros r s r' s' y H. unfold m_escaped in H. apply b_chx in H; [|discriminate]. destruct H as (r1 & -> & H). rewrite b_seq in H by reflexivity. destruct H as (r2 & s2 & H1 & H2).
    apply b_do in H1. destruct H1 as (s3 & A & H1). apply b_cls in H1; [|reflexivity]. destruct H1 as (_ & -> & a & -> & Ka). cbn [msg_act mfc] in A. injection A as <-.
    apply b_do in H2. destruct H2 as (s3 & A & H2). apply b_cls in H2; [|reflexivity]. destruct H2 as (-> & -> & b & -> & Kb). rewrite kc_xdig in Ka, Kb.
    cbn [msg_act mfc] in A. unfold mput in A. destruct (Nat.ltb _ _) in A; [|discriminate]. injection A as <-. split; [reflexivity|].
    exists ["%"%byte; a; b], [zb (16 * hex_value a + hex_value b)]. eexists. split; [reflexivity|]. split; [eauto 6|]. unfold took, put_hex, put_buf. cbn [m_buf m_hex m_msg m_mark m_clen m_ctype m_name m_val m_via m_addrp m_addr].
    rewrite V by assumption. reflexivity.
  - intros w v r' s (a & b & -> & -> & Ka & Kb) F. exists (16 * hex_value a + hex_value b). unfold m_escaped. apply b_chx; [discriminate|]. eexists. split; [reflexivity|]. rewrite b_seq by reflexivity.
    eexists _, _. split.
    + apply b_do. eexists. cbn [app msg_act mfc]. split; [reflexivity|]. apply b_cls; [reflexivity|]. split; [reflexivity|]. split; [reflexivity|]. exists a. rewrite kc_xdig. auto.
    + apply b_do. exists (took s [zb (16 * hex_value a + hex_value b)] (16 * hex_value a + hex_value b)). split.
      * cbn [app msg_act mfc]. cbn [put_hex m_hex]. rewrite V by assumption. unfold mput. destruct F as [F|F]; [discriminate|]. cbn [length] in F.
        cbn [put_hex m_buf]. rewrite (proj2 (Nat.ltb_lt _ _)) by lia. reflexivity.
      * apply b_cls; [reflexivity|]. split; [reflexivity|]. split; [reflexivity|]. exists b. rewrite kc_xdig. auto.
Qed.
Lemma collects_reason : collects (Star m_reason) reason_text.
Proof.
  eapply collects_ext; [apply collects_star; unfold m_reason; apply collects_alt; [apply collects_escaped|apply collects_alt; [apply collects_utf8|apply (collects_put1 k_reason reason_class); [reflexivity|exact kc_reason]]]|].
  intros w v. split.
  - intros H. induction H as [|w v ws vs [(a & b & -> & -> & Ka & Kb)|[[-> K]|(c & -> & -> & K)]] _ IH]; cbn [app]; constructor; assumption.
  - intros H. induction H as [|c t v K _ IH|a b t v Ka Kb _ IH|w t v K _ IH]; [constructor| | |].
    + change (c :: t) with ([c] ++ t). change (c :: v) with ([c] ++ v). constructor; [eauto 7|assumption].
    + change ("%"%byte :: a :: b :: t) with (["%"%byte; a; b] ++ t). change (zb (16 * hex_value a + hex_value b) :: v) with ([zb (16 * hex_value a + hex_value b)] ++ v).
      constructor; [|assumption]. left. eauto 7.
    + constructor; [|assumption]. right. left. split; [reflexivity|assumption].
Qed.
Lemma plus_star R x r s r' s' y : nojmp R = true -> (ms (m_plus R ;; x) r s r' s' y -> ms (Star R ;; x) r s r' s' y).
Proof.
  intros N H. unfold m_plus in H. rewrite b_seq in H by (cbn; rewrite N; reflexivity). destruct H as (r1 & s1 & H & K). apply b_seq in H; [|assumption]. destruct H as (r2 & s2 & H1 & H2).
  econstructor; [|exact K]. eapply sem_star1; eassumption.
Qed.
End Cap.
