(** From the automaton to the URI grammar's meaning. *)
From Coq Require Import FMapPositive.
From Verif Require Import Bytes BytesLemmas GoLib GoLibLemmas Auto AutoRe UriTable SdpModel SipText SipTypes UriModel UriGrammar P_Text UriSpec.
Local Open Scope Z_scope.

(** ** The buffer is always large enough *)
(** the actions on an unlimited buffer *)
Definition uri_act_free (a : uact) (rest : bytes) (s : ustate) : ustate + upanic := uri_act (S (length (ubuf s))) a rest s.
Definition puts (a : uact) : nat := match a with UAppend | UHexLo | ULower => 1 | _ => 0 end.
Fixpoint nputs (l : list uact) : nat := match l with [] => 0 | a :: l' => puts a + nputs l' end.

Lemma put_grow cap c s s' : put cap c s = inl s' -> length (ubuf s') = S (length (ubuf s)).
Proof. unfold put. destruct (Nat.ltb _ _); [|discriminate]. intros [= <-]. cbn. rewrite app_length. cbn. lia. Qed.
Lemma act_grow cap a rest s s' : uri_act cap a rest s = inl s' -> (length (ubuf s') <= length (ubuf s) + puts a)%nat.
Proof.
  destruct a; cbn [uri_act puts]; unfold fc; try (destruct rest as [|c r]; [discriminate|]); intros H;
    try (apply put_grow in H; cbn in H; lia); injection H as <-; cbn; lia.
Qed.
Lemma act_free cap a rest s : (length (ubuf s) + puts a <= cap)%nat -> uri_act cap a rest s = uri_act_free a rest s.
Proof.
  intros H. unfold uri_act_free. destruct a; cbn [uri_act puts] in *; try reflexivity; unfold fc; destruct rest as [|c r]; try reflexivity;
    unfold put; cbn [ubuf set_buf]; (replace (Nat.ltb (length (ubuf s)) cap) with true by (symmetry; apply Nat.ltb_lt; lia));
    (replace (Nat.ltb (length (ubuf s)) (S (length (ubuf s)))) with true by (symmetry; apply Nat.ltb_lt; lia)); reflexivity.
Qed.
Lemma acts_free l : forall cap rest s, (length (ubuf s) + nputs l <= cap)%nat -> acts (uri_act cap) l rest s = acts uri_act_free l rest s.
Proof.
  induction l as [|a l IH]; intros cap rest s H; cbn [acts nputs] in *; [reflexivity|]. rewrite act_free by lia.
  destruct (uri_act_free a rest s) as [s'|] eqn:E; [|reflexivity]. apply IH. unfold uri_act_free in E. apply act_grow in E. lia.
Qed.
Lemma acts_grow l : forall rest s s', acts uri_act_free l rest s = inl s' -> (length (ubuf s') <= length (ubuf s) + nputs l)%nat.
Proof.
  induction l as [|a l IH]; intros rest s s' H; cbn [acts nputs] in *; [injection H as <-; lia|].
  destruct (uri_act_free a rest s) as [s1|] eqn:E; [|discriminate]. apply act_grow in E. apply IH in H. lia.
Qed.

Definition row_light (r : row uact Empty_set) : bool := forallb (fun e => Nat.leb (nputs (snd (fst e))) 1) r.
Lemma uri_rows_light n : row_light (uri_row n) = true.
Proof. do 7 (try (destruct n as [n|n|]; try (vm_compute; reflexivity))). Qed.
Lemma uri_eof_light n : nputs (uri_eof n) = O.
Proof. do 7 (try (destruct n as [n|n|]; try (vm_compute; reflexivity))). Qed.
Lemma find_light r : forall c o nx, row_light r = true -> find_row r c = Some (o, nx) -> (nputs o <= 1)%nat.
Proof.
  induction r as [|[[k o1] nx1] r IH]; intros c o nx H F; cbn in *; [discriminate|]. apply andb_prop in H. destruct H as [H1 H2].
  destruct (in_ranges k c); [injection F as <- <-; apply Nat.leb_le; exact H1|]. eapply IH; eassumption.
Qed.
Lemma run_free cap : forall rest s n, (length (ubuf s) + length rest <= cap)%nat ->
  run (uri_act cap) byte_look uri_row rest s n = run uri_act_free byte_look uri_row rest s n.
Proof.
  induction rest as [|c rest IH]; intros s n H; cbn [run byte_look]; [reflexivity|].
  destruct (find_row (uri_row n) (to_N c)) as [[o nx]|] eqn:F; [|reflexivity]. cbn [length] in H.
  pose proof (find_light _ _ _ _ (uri_rows_light n) F) as L. rewrite acts_free by lia.
  destruct (acts uri_act_free o (c :: rest) s) as [s'|] eqn:E; [|reflexivity]. destruct nx; [|reflexivity]. apply IH. apply acts_grow in E. lia.
Qed.

(** unlimited actions fail only for want of a current byte, which the automaton always has *)
Lemma put_free n c s : n = length (ubuf s) -> put (S n) c s = inl (set_buf s (ubuf s ++ [c])).
Proof. intros ->. unfold put. replace (Nat.ltb _ _) with true by (symmetry; apply Nat.ltb_lt; lia). reflexivity. Qed.
Lemma act_ok a c rest s : exists s', uri_act_free a (c :: rest) s = inl s'.
Proof. unfold uri_act_free. destruct a; cbn [uri_act fc]; try (eexists; reflexivity); eexists; apply put_free; reflexivity. Qed.
Lemma acts_ok l c rest : forall s, exists s', acts uri_act_free l (c :: rest) s = inl s'.
Proof. induction l as [|a l IH]; intros s; cbn [acts]; [eauto|]. destruct (act_ok a c rest s) as (s1 & ->). apply IH. Qed.
Lemma eof_ok n s : exists s', acts uri_act_free (uri_eof n) [] s = inl s'.
Proof. do 7 (try (destruct n as [n|n|]; try (eexists; reflexivity))). Qed.

Lemma run_total : forall rest s n,
  (exists m s', run uri_act_free byte_look uri_row rest s n = OEof m s') \/
  (exists m r s', run uri_act_free byte_look uri_row rest s n = OBad m r s' /\ r <> [] /\ (length r <= length rest)%nat).
Proof.
  induction rest as [|c rest IH]; intros s n; cbn [run byte_look]; [left; eauto|].
  destruct (find_row (uri_row n) (to_N c)) as [[o [m|[]]]|].
  - destruct (acts_ok o c rest s) as (s1 & ->). destruct (IH s1 m) as [H|(k & r & s' & H1 & H2 & H3)]; [left; exact H|right]. exists k, r, s'. cbn [length]. auto.
  - right. exists n, (c :: rest), s. split; [reflexivity|]. split; [discriminate|]. lia.
Qed.

(** ** The parser through the grammar *)
Definition usem := sem (J := Empty_set) uri_act_free byte_look.
Definition entry (data : bytes) : positive := if contains_byte "@" data then uri_en_uriWithUser else uri_en_uriSansUser.
Definition grammar (data : bytes) : ure := if contains_byte "@" data then uriWithUser else uriSansUser.

Lemma entry_cert data : lookup uri_cert (entry data) = [grammar data].
Proof. unfold entry, grammar. destruct (contains_byte "@" data); vm_compute; reflexivity. Qed.
Lemma byte_look_cons c r : exists k, byte_look (c :: r) = Some k /\ (k < 257)%N.
Proof. exists (to_N c). split; [reflexivity|]. pose proof (bz_range c) as H. unfold bz in H. lia. Qed.

Theorem parse_grammar data u : parse_uri data = POk u <-> exists s, usem (grammar data) data ust0 [] s None /\ uout s = u.
Proof.
  unfold parse_uri. rewrite run_free by (cbn; lia). change (if contains_byte "@" data then uri_en_uriWithUser else uri_en_uriSansUser) with (entry data).
  pose proof (checked uri_act_free byte_look uri_row uact_eqb uact_eqb_spec no_jump no_jump_spec eq_refl byte_look_cons uri_final uri_cert uri_checked data ust0 (entry data) [grammar data] (entry_cert data)) as C.
  specialize (C ltac:(discriminate)). destruct C as [C _].
  destruct (run_total data ust0 (entry data)) as [(m & s1 & R)|(m & r & s1 & R & _)]; rewrite R in *.
  - rewrite acts_free.
    2:{ rewrite uri_eof_light. enough (K : forall rest s n, (forall m s', run uri_act_free byte_look uri_row rest s n = OEof m s' -> (length (ubuf s') <= length (ubuf s) + length rest)%nat)).
        { apply K in R. cbn in R. lia. }
        clear. induction rest as [|c rest IH]; intros s n m s'; cbn [run byte_look]; [intros [= <- <-]; lia|].
        destruct (find_row (uri_row n) (to_N c)) as [[o [k|[]]]|] eqn:F; [|discriminate]. pose proof (find_light _ _ _ _ (uri_rows_light n) F) as L.
        destruct (acts uri_act_free o (c :: rest) s) as [s2|] eqn:E; [|discriminate]. intros H. apply IH in H. apply acts_grow in E. cbn [length]. lia. }
    destruct (eof_ok m s1) as (s2 & E). rewrite E.
    destruct (m <? uri_first_final)%positive eqn:F.
    + split; [discriminate|]. intros (s & H & _). destruct (proj2 (C s)) as (m' & s' & o & H1 & H2 & _); [exists (grammar data); split; [left; reflexivity|exact H]|].
      injection H1 as <- <-. unfold uri_final in H2. rewrite F in H2. discriminate.
    + split.
      * intros [= <-]. destruct (proj1 (C s2)) as (r & [<-|[]] & H); [|exists s2; auto].
        exists m, s1, (uri_eof m). split; [reflexivity|]. split; [unfold uri_final; rewrite F; reflexivity|exact E].
      * intros (s & H & <-). destruct (proj2 (C s)) as (m' & s' & o & H1 & H2 & H3); [exists (grammar data); split; [left; reflexivity|exact H]|].
        injection H1 as <- <-. unfold uri_final in H2. rewrite F in H2. injection H2 as <-. rewrite E in H3. injection H3 as ->. reflexivity.
  - split; [discriminate|]. intros (s & H & _). destruct (proj2 (C s)) as (m' & s' & o & H1 & _); [exists (grammar data); split; [left; reflexivity|exact H]|]. discriminate.
Qed.

Theorem parse_total data : (exists u, parse_uri data = POk u) \/ (exists e, parse_uri data = PErr e).
Proof.
  unfold parse_uri. rewrite run_free by (cbn; lia). change (if contains_byte "@" data then uri_en_uriWithUser else uri_en_uriSansUser) with (entry data).
  destruct (run_total data ust0 (entry data)) as [(m & s1 & R)|(m & r & s1 & R & _)]; rewrite R; [|right; eauto].
  rewrite acts_free.
  2:{ rewrite uri_eof_light. enough (K : forall rest s n, (forall m s', run uri_act_free byte_look uri_row rest s n = OEof m s' -> (length (ubuf s') <= length (ubuf s) + length rest)%nat)).
      { apply K in R. cbn in R. lia. }
      clear. induction rest as [|c rest IH]; intros s n m s'; cbn [run byte_look]; [intros [= <- <-]; lia|].
      destruct (find_row (uri_row n) (to_N c)) as [[o [k|[]]]|] eqn:F; [|discriminate]. pose proof (find_light _ _ _ _ (uri_rows_light n) F) as L.
      destruct (acts uri_act_free o (c :: rest) s) as [s2|] eqn:E; [|discriminate]. intros H. apply IH in H. apply acts_grow in E. cbn [length]. lia. }
  destruct (eof_ok m s1) as (s2 & ->). destruct (m <? uri_first_final)%positive; eauto.
Qed.
