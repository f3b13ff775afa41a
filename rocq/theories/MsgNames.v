(** Header names: what the prefix tree of MsgGrammar reads. *)
From Verif Require Import Bytes BytesLemmas GoLib GoLibLemmas Auto AutoRe SdpModel SipText SipTypes UriTable UriModel MsgTable MsgModel MsgSafe P_Text UriSpec UriMeaning MsgSpec MsgGrammar MsgReach MsgBlocks MsgVia.
Local Open Scope Z_scope.
Local Notation "a ;; b" := (Seq a b) (at level 61, right associativity).

(** ** Symbols *)
Lemma in_span l : forall k, in_ranges (span l) k = existsb (N.eqb k) l.
Proof.
  assert (W : forall l x, In x (span l) -> (fst x <= snd x)%N).
  { clear. induction l as [|c l IH]; intros x; cbn [span]; [intros []|]. destruct (span l) as [|[a b] k]; [intros [<-|[]]; cbn; lia|].
    destruct (N.eqb_spec a (c + 1)) as [->|N].
    - intros [<-|I]; [|apply IH; right; assumption]. specialize (IH (c + 1, b)%N (or_introl eq_refl)). cbn in *. lia.
    - intros [<-|I]; [cbn; lia|]. apply IH. assumption. }
  induction l as [|c l IH]; intros k; cbn [span existsb]; [reflexivity|]. rewrite <- IH. specialize (W l). clear IH. destruct (span l) as [|[a b] ks].
  - cbn [in_ranges existsb fst snd]. rewrite !orb_false_r. lia.
  - destruct (N.eqb_spec a (c + 1)) as [->|N]; unfold in_ranges; cbn [existsb fst snd]; [|destruct (N.eqb_spec k c); cbn; [|destruct (N.leb_spec c k), (N.leb_spec k c); cbn; try reflexivity; lia]].
    + specialize (W (c + 1, b)%N (or_introl eq_refl)). cbn in W. destruct (existsb _ ks); [rewrite !orb_true_r; reflexivity|]. rewrite !orb_false_r. lia.
    + subst k. rewrite !N.leb_refl. reflexivity.
Qed.
Lemma symbols_all k : (k < 257)%N -> existsb (N.eqb k) symbols = true.
Proof.
  intros H. change symbols with (map N.of_nat (seq 0 257)). apply existsb_exists. exists k. split; [|apply N.eqb_refl]. apply in_map_iff. exists (N.to_nat k). split; [apply N2Nat.id|]. apply in_seq. lia.
Qed.
Lemma in_filtered (P : N -> bool) k : (k < 257)%N -> in_ranges (span (filter P symbols)) k = P k.
Proof.
  intros H. rewrite in_span. destruct (P k) eqn:E.
  - apply existsb_exists. exists k. split; [|apply N.eqb_refl]. apply filter_In. split; [|assumption]. pose proof (symbols_all k H) as K. apply existsb_exists in K. destruct K as (x & I & K).
    apply N.eqb_eq in K. subst x. assumption.
  - apply not_true_iff_false. intros K. apply existsb_exists in K. destruct K as (x & I & K). apply N.eqb_eq in K. subst x. apply filter_In in I. destruct I as [_ I]. congruence.
Qed.
Lemma in_ranges_app a b k : in_ranges (a ++ b) k = in_ranges a k || in_ranges b k.
Proof. unfold in_ranges. apply existsb_app. Qed.
Lemma in_ranges_flat {X} (f : X -> ranges) l k : in_ranges (flat_map f l) k = existsb (fun x => in_ranges (f x) k) l.
Proof. induction l as [|x l IH]; [reflexivity|]. cbn [flat_map existsb]. rewrite in_ranges_app, IH. reflexivity. Qed.

(** ** The tree *)
Definition namec (c : byte) : bool := beq (lower c) c && token_class c.
Lemma letter_table : forallb (fun c => forallb (fun d => implb (namec c) (Bool.eqb (kc (k_letter c) d) (beq (lower d) c))) all_bytes) all_bytes = true.
Proof. vm_compute. reflexivity. Qed.
Lemma kc_letter c d : namec c = true -> kc (k_letter c) d = beq (lower d) c.
Proof.
  intros N. pose proof letter_table as K. rewrite forallb_forall in K. specialize (K c (all_bytes_complete c)). rewrite forallb_forall in K. specialize (K d (all_bytes_complete d)). rewrite N in K.
  cbn [implb] in K. apply eqb_prop in K. exact K.
Qed.
Lemma letter_steady c : namec c = true -> steady (k_letter c) = true.
Proof. revert c. assert (H : forall c, implb (namec c) (steady (k_letter c)) = true) by by_bytes. intros c N. specialize (H c). rewrite N in H. exact H. Qed.
Lemma heads_in c l : In c (heads l) <-> exists w R, In (c :: w, R) l.
Proof.
  induction l as [|[w R] l IH]; cbn [heads]; [split; [intros []|intros (w & R & [])]|]. destruct w as [|d w].
  - rewrite IH. split; [intros (v & Q & I); exists v, Q; right; assumption|]. intros (v & Q & [E|I]); [discriminate|eauto].
  - assert (K : In c (if existsb (beq d) (heads l) then heads l else d :: heads l) <-> c = d \/ In c (heads l)).
    { destruct (existsb (beq d) (heads l)) eqn:E; [|cbn; intuition congruence]. split; [auto|]. intros [->|I]; [|assumption]. apply existsb_exists in E. destruct E as (x & I & E). apply beq_spec in E. subst x. assumption. }
    rewrite K, IH. split.
    + intros [->|(v & Q & I)]; [exists w, R; left; reflexivity|exists v, Q; right; assumption].
    + intros (v & Q & [E|I]); [left; congruence|right; eauto].
Qed.
Lemma tails_in c w R l : In (w, R) (tails c l) <-> In (c :: w, R) l.
Proof.
  induction l as [|[v Q] l IH]; cbn [tails]; [tauto|]. destruct v as [|d v].
  - rewrite IH. cbn. intuition congruence.
  - destruct (beq_reflect c d) as [->|N]; cbn [In]; rewrite IH; intuition congruence.
Qed.
Lemma ends_in R l : In R (ends l) <-> In ([], R) l.
Proof. induction l as [|[v Q] l IH]; cbn [ends]; [tauto|]. destruct v as [|d v]; cbn [In]; rewrite IH; intuition congruence. Qed.

Section Cap.
Variable cap : nat.
Notation ms := (@sem mact mjump _ _ (msg_act cap) msg_look).
Lemma b_alts x l r s r' s' y : ms (alts x l) r s r' s' y <-> (exists R, In R l /\ ms R r s r' s' y) \/ ms x r s r' s' y.
Proof.
  induction l as [|R l IH]; cbn [alts]; [split; [auto|intros [(R & [] & _)|H]; assumption]|]. rewrite b_alt, IH. split.
  - intros [H|[(Q & I & H)|H]]; [left; exists R; split; [left; reflexivity|assumption]|left; exists Q; split; [right; assumption|assumption]|auto].
  - intros [(Q & [<-|I] & H)|H]; eauto.
Qed.
(** names in lower case, shorter than the fuel *)
Definition names_ok (f : nat) (l : list (bytes * mre)) : Prop := forall w R, In (w, R) l -> (length w < f)%nat /\ forallb namec w = true.
Lemma names_tails f l c : names_ok (Datatypes.S f) l -> names_ok f (tails c l).
Proof. intros N w R I. apply tails_in in I. destruct (N _ _ I) as [L F]. cbn [length forallb] in L, F. apply andb_prop in F. destruct F as [_ F]. split; [lia|assumption]. Qed.
Lemma names_head f l c : names_ok f l -> In c (heads l) -> namec c = true.
Proof. intros N I. apply heads_in in I. destruct I as (w & R & I). destruct (N _ _ I) as [_ F]. cbn [forallb] in F. apply andb_prop in F. tauto. Qed.
Lemma b_trie f l r s r' s' y : names_ok (Datatypes.S f) l -> (ms (trie (Datatypes.S f) l) r s r' s' y <->
  (exists R, In ([], R) l /\ ms R r s r' s' y) \/
  (exists c r1, r = c :: r1 /\ In (lower c) (heads l) /\ ms (trie f (tails (lower c) l)) r1 s r' s' y) \/
  ms (Jmp (k_others l) (Hold 273)) r s r' s' y).
Proof.
  intros N. cbn [trie]. rewrite b_alts. split.
  - intros [(R & I & H)|H]; [|auto]. apply in_app_or in I. destruct I as [I|I]; [left; exists R; split; [apply ends_in; assumption|assumption]|].
    apply in_map_iff in I. destruct I as (c & <- & I). pose proof (names_head _ _ _ N I) as NC.
    apply (b_clsx cap (k_letter c) (fun d => beq (lower d) c)) in H; [|apply letter_steady; assumption|intros d; apply kc_letter; assumption].
    destruct H as (d & r1 & -> & E & H). apply beq_spec in E. subst c. right. left. eauto.
  - intros [(R & I & H)|[(c & r1 & -> & I & H)|H]]; [| |auto].
    + left. exists R. split; [apply in_or_app; left; apply ends_in; assumption|assumption].
    + left. eexists. split; [apply in_or_app; right; apply in_map_iff; exists (lower c); split; [reflexivity|assumption]|]. pose proof (names_head _ _ _ N I) as NC.
      apply (b_clsx cap (k_letter (lower c)) (fun d => beq (lower d) (lower c))); [apply letter_steady; assumption|intros d; apply kc_letter; assumption|].
      exists c, r1. rewrite beq_refl. auto.
Qed.
Lemma others_spec f l c t : names_ok f l -> token_class c = true ->
  ((exists k, msg_look (c :: t) = Some k /\ in_ranges (k_others l) k = true) <-> ~ In (lower c) (heads l)).
Proof.
  intros N T. assert (NCR : c <> CR) by (intros ->; discriminate). rewrite look_plain by assumption.
  assert (E : in_ranges (k_others l) (to_N c) = negb (existsb (beq (lower c)) (heads l))).
  { unfold k_others. rewrite in_filtered by (pose proof (Byte.to_N_bounded c); lia). f_equal. rewrite in_ranges_app, in_ranges_flat.
    assert (Z : forall e : list mre, in_ranges (match e return ranges with [] => [] | _ => [(9, 9); (32, 32); (58, 58)]%N end) (to_N c) = false).
    { intros e. destruct e; [reflexivity|]. assert (K : implb (token_class c) (negb (in_ranges [(9, 9); (32, 32); (58, 58)]%N (to_N c))) = true) by (clear; revert c; by_bytes).
      rewrite T in K. destruct (in_ranges _ _); [discriminate|reflexivity]. }
    etransitivity; [apply f_equal; exact (Z (ends l))|]. rewrite orb_false_r. assert (K : forall x, In x (heads l) -> in_ranges (k_letter x) (to_N c) = beq (lower c) x) by (intros x I; apply (kc_letter x c); eapply names_head; eassumption).
    induction (heads l) as [|x h IH]; [reflexivity|]. cbn [existsb]. rewrite (K x (or_introl eq_refl)), IH; [reflexivity|]. intros z I. apply K. right. assumption. }
  split.
  - intros (k & [= <-] & R) I. rewrite E in R. assert (Q : existsb (beq (lower c)) (heads l) = true) by (apply existsb_exists; exists (lower c); split; [assumption|apply beq_refl]). rewrite Q in R. discriminate.
  - intros I. exists (to_N c). split; [reflexivity|]. rewrite E. apply negb_true_iff. apply not_true_iff_false. intros Q. apply existsb_exists in Q. destruct Q as (x & J & Q). apply beq_spec in Q. subst x. contradiction.
Qed.
(** which name is read, or after which beginning of a name the tree is left *)
Definition begins (l : list (bytes * mre)) (n : bytes) : Prop := exists w R, In (n ++ w, R) l.
Lemma trie_fwd f : forall l r s r' s' y, names_ok f l -> f <> O -> ms (trie f l) r s r' s' y ->
  (exists n r1 R, r = n ++ r1 /\ In (map lower n, R) l /\ ms R r1 s r' s' y) \/
  (y = Some (Hold 273) /\ s' = s /\ exists n, r = n ++ r' /\ (n = [] \/ begins l (map lower n)) /\
     forall c t, r' = c :: t -> token_class c = true -> ~ begins l (map lower n ++ [lower c])).
Proof.
  induction f as [|f IH]; intros l r s r' s' y N Z H; [congruence|]. apply b_trie in H; [|assumption]. destruct H as [(R & I & H)|[(c & r1 & -> & I & H)|H]].
  - left. exists [], r, R. auto.
  - assert (Zf : f <> O). { apply heads_in in I. destruct I as (w & R & I). destruct (N _ _ I) as [L _]. cbn in L. lia. }
    apply IH in H; [|apply names_tails; assumption|assumption]. destruct H as [(n & r2 & R & -> & I2 & H)|(-> & -> & n & -> & Bn & K)].
    + left. exists (c :: n), r2, R. split; [reflexivity|]. split; [|assumption]. cbn [map]. apply tails_in. assumption.
    + right. split; [reflexivity|]. split; [reflexivity|]. exists (c :: n). split; [reflexivity|]. split.
      * right. destruct Bn as [->|(w & R & I2)]; [apply heads_in in I; destruct I as (w & R & I); exists w, R; exact I|]. exists w, R. apply tails_in in I2. exact I2.
      * intros d t -> T (w & R & I2). apply (K d t eq_refl T). exists w, R. apply tails_in. exact I2.
  - right. apply b_jmp in H. destruct H as (-> & -> & -> & k & L & R). split; [reflexivity|]. split; [reflexivity|]. exists []. split; [reflexivity|]. split; [auto|].
    intros c t -> T (w & Q & I). assert (X : In (lower c) (heads l)) by (apply heads_in; exists w, Q; exact I). revert X. apply (others_spec _ l c t N T). eauto.
Qed.
Lemma trie_known f : forall l n r1 R s r' s' y, names_ok f l -> In (map lower n, R) l -> ms R r1 s r' s' y -> ms (trie f l) (n ++ r1) s r' s' y.
Proof.
  induction f as [|f IH]; intros l n r1 R s r' s' y N I H; [destruct (N _ _ I); lia|]. apply b_trie; [assumption|]. destruct n as [|c n].
  - left. eauto.
  - right. left. exists c, (n ++ r1). split; [reflexivity|]. cbn [map] in I. split; [apply heads_in; eauto|]. eapply IH; [apply names_tails; assumption|apply tails_in; exact I|exact H].
Qed.
Lemma trie_other f : forall l n c t s, names_ok f l -> f <> O -> n = [] \/ begins l (map lower n) -> token_class c = true -> ~ begins l (map lower n ++ [lower c]) ->
  ms (trie f l) (n ++ c :: t) s (c :: t) s (Some (Hold 273)).
Proof.
  induction f as [|f IH]; intros l n c t s N Z Bn T K; [congruence|]. apply b_trie; [assumption|]. destruct n as [|d n].
  - right. right. apply b_jmp. split; [reflexivity|]. split; [reflexivity|]. split; [reflexivity|]. apply (others_spec _ l c t N T). intros I. apply K. apply heads_in in I. destruct I as (w & R & I). exists w, R. exact I.
  - destruct Bn as [E|(w & R & I)]; [discriminate|]. right. left. exists d, (n ++ c :: t). split; [reflexivity|]. cbn [map app] in I.
    split; [apply heads_in; eauto|]. assert (Zf : f <> O) by (destruct (N _ _ I) as [L _]; cbn [length] in L; lia). apply IH; [apply names_tails; assumption|assumption| |assumption|].
    + right. exists w, R. apply tails_in. exact I.
    + intros (v & Q & J). apply K. exists v, Q. apply tails_in in J. exact J.
Qed.
End Cap.

(** ** The header names *)
Lemma names_known : names_ok 24 name_table.
Proof.
  intros w R I. apply in_map_iff in I. destruct I as ((x & k) & E & I). injection E as <- <-.
  assert (K : forallb (fun x => Nat.ltb (length (fst x)) 24 && forallb namec (fst x)) known_headers = true) by (vm_compute; reflexivity).
  rewrite forallb_forall in K. specialize (K _ I). apply andb_prop in K. destruct K as [K1 K2]. apply Nat.ltb_lt in K1. auto.
Qed.
Lemma find_in n l k : find_header n l = Some k -> In (n, k) l.
Proof. induction l as [|[x h] l IH]; cbn; [discriminate|]. destruct (bseq_reflect x n) as [->|N]; [intros [= ->]; auto|auto]. Qed.
Lemma in_find n k : In (n, k) known_headers -> find_header n known_headers = Some k.
Proof.
  intros I. assert (ND : NoDup (map fst known_headers)).
  { apply (NoDup_count_occ' (list_eq_dec Byte.byte_eq_dec)). assert (C : forallb (fun x => Nat.eqb (count_occ (list_eq_dec Byte.byte_eq_dec) (map fst known_headers) x) 1) (map fst known_headers) = true) by (vm_compute; reflexivity).
    intros x J. rewrite forallb_forall in C. apply Nat.eqb_eq. auto. }
  revert I ND. generalize known_headers. induction l as [|[x h] l IH]; [intros []|]. intros [E|I] ND; cbn [find_header].
  - injection E as -> ->. rewrite bseq_refl. reflexivity.
  - cbn [map fst] in ND. inversion ND as [|? ? X ND']; subst. destruct (bseq_reflect x n) as [->|_]; [|auto]. exfalso. apply X. apply in_map_iff. exists (n, k). auto.
Qed.
Lemma in_table n R : In (n, R) name_table <-> exists k, In (n, k) known_headers /\ R = m_header k.
Proof.
  unfold name_table. rewrite in_map_iff. split; [intros ((x & k) & E & I); injection E as <- <-; eauto|intros (k & I & ->); exists (n, k); auto].
Qed.
Lemma prefix_spec a b : is_prefix a b = true <-> exists w, b = a ++ w.
Proof.
  revert b. induction a as [|x a IH]; intros b; cbn [is_prefix app]; [split; [eauto|reflexivity]|]. destruct b as [|y b]; [split; [discriminate|intros (w & E); discriminate]|].
  rewrite andb_true_iff, IH, beq_spec. split; [intros (-> & w & ->); eauto|intros (w & E)]. injection E as -> ->. eauto.
Qed.
Lemma begins_spec n : begins name_table n <-> existsb (fun x => is_prefix n (fst x)) known_headers = true.
Proof.
  rewrite existsb_exists. split.
  - intros (w & R & I). apply in_table in I. destruct I as (k & I & _). exists (n ++ w, k). split; [assumption|]. apply prefix_spec. cbn. eauto.
  - intros ((x & k) & I & P). apply prefix_spec in P. cbn in P. destruct P as (w & ->). exists w, (m_header k). apply in_table. eauto.
Qed.
Lemma not_begins n : forallb (fun x => negb (is_prefix n (fst x))) known_headers = true <-> ~ begins name_table n.
Proof.
  rewrite begins_spec, not_true_iff_false. generalize known_headers. induction l as [|x l IH]; cbn [forallb existsb]; [tauto|]. rewrite andb_true_iff, IH, orb_false_iff, negb_true_iff. tauto.
Qed.
Lemma begins_shorter l n t : begins l (n ++ t) -> begins l n.
Proof. intros (w & R & I). rewrite <- app_assoc in I. exists (t ++ w), R. exact I. Qed.
Lemma lower_token n : forallb token_class (map lower n) = forallb token_class n.
Proof. induction n as [|c n IH]; [reflexivity|]. cbn [map forallb]. rewrite IH. f_equal. apply eqb_prop. revert c. by_bytes. Qed.
Lemma known_token n k : In (map lower n, k) known_headers -> token n.
Proof.
  intros I. assert (K : forallb (fun x => negb (bseq (fst x) []) && forallb token_class (fst x)) known_headers = true) by (vm_compute; reflexivity).
  rewrite forallb_forall in K. specialize (K _ I). cbn [fst] in K. apply andb_prop in K. destruct K as [K1 K2]. rewrite lower_token in K2. split; [intros ->; discriminate|assumption].
Qed.
(** the place where a name that begins no known name leaves the tree *)
Lemma leaves (l : list (bytes * mre)) t : forall n, n = [] \/ begins l (map lower n) -> t <> [] -> ~ begins l (map lower (n ++ t)) ->
  exists a c b, t = a ++ c :: b /\ (n ++ a = [] \/ begins l (map lower (n ++ a))) /\ ~ begins l (map lower (n ++ a) ++ [lower c]).
Proof.
  assert (D : forall n, begins l n \/ ~ begins l n).
  { clear. intros n. induction l as [|[w R] l IH]; [right; intros (w & R & [])|]. destruct IH as [(v & Q & I)|IH]; [left; exists v, Q; right; assumption|].
    destruct (is_prefix n w) eqn:P; [left; apply prefix_spec in P; destruct P as (v & ->); exists v, R; left; reflexivity|]. right. intros (v & Q & [E|I]); [|apply IH; exists v, Q; assumption].
    injection E as -> _. assert (X : is_prefix n (n ++ v) = true) by (apply prefix_spec; eauto). congruence. }
  induction t as [|c t IH]; intros n Bn Nt K; [congruence|]. destruct (D (map lower n ++ [lower c])) as [Y|Y].
  - destruct t as [|d t]; [exfalso; apply K; rewrite map_app; exact Y|].
    destruct (IH (n ++ [c])) as (a & e & b & E & Ba & X); [right; rewrite map_app; exact Y|discriminate|rewrite <- app_assoc; exact K|].
    exists (c :: a), e, b. rewrite <- app_assoc in Ba, X. split; [cbn [app]; rewrite E; reflexivity|]. auto.
  - exists [], c, t. rewrite app_nil_r. auto.
Qed.
