(** Property C23: what Copy copies and what it shares. *)
From Verif Require Import Bytes BytesLemmas SdpModel SipTypes SipAppend CopyHeap.
Local Open Scope nat_scope.

(** ** Reading values out of a heap *)
Inductive params_at (h : heap) : ptr -> list param -> Prop :=
| params_nil : params_at h None []
| params_cons a n v nx l : nth_error h a = Some (CParam n v nx) -> params_at h nx l -> params_at h (Some a) ((n, v) :: l).
Inductive uri_at (h : heap) : ptr -> option uri -> Prop :=
| uri_nil : uri_at h None None
| uri_cell a b p q lp lq : nth_error h a = Some (CUri b p q) -> params_at h p lp -> params_at h q lq ->
    uri_at h (Some a) (Some (mkuri (u_scheme b) (u_user b) (u_pass b) (u_host b) (u_port b) lp lq)).
Inductive addrs_at (h : heap) : ptr -> list addr -> Prop :=
| addrs_nil : addrs_at h None []
| addrs_cons a u d p nx uv pv l : nth_error h a = Some (CAddr u d p nx) -> uri_at h u uv -> params_at h p pv -> addrs_at h nx l ->
    addrs_at h (Some a) (mkaddr uv d pv :: l).
Inductive vias_at (h : heap) : ptr -> list via -> Prop :=
| vias_nil : vias_at h None []
| vias_cons a b p nx pv l : nth_error h a = Some (CVia b p nx) -> params_at h p pv -> vias_at h nx l ->
    vias_at h (Some a) (mkvia (v_protocol b) (v_version b) (v_transport b) (v_host b) (v_port b) pv :: l).

(** The nodes a structure is made of, without parameter nodes *)
Inductive uri_node (h : heap) : ptr -> nat -> Prop := uri_node_here a : uri_node h (Some a) a.
Inductive addr_node (h : heap) : ptr -> nat -> Prop :=
| addr_node_here a : addr_node h (Some a) a
| addr_node_uri a u d p nx x : nth_error h a = Some (CAddr u d p nx) -> uri_node h u x -> addr_node h (Some a) x
| addr_node_next a u d p nx x : nth_error h a = Some (CAddr u d p nx) -> addr_node h nx x -> addr_node h (Some a) x.
Inductive via_node (h : heap) : ptr -> nat -> Prop :=
| via_node_here a : via_node h (Some a) a
| via_node_next a b p nx x : nth_error h a = Some (CVia b p nx) -> via_node h nx x -> via_node h (Some a) x.

(** Two heaps that agree on the first n cells *)
Definition agree (n : nat) (h h' : heap) : Prop := forall a, a < n -> nth_error h' a = nth_error h a.

Lemma params_agree h h' p l : agree (length h) h h' -> params_at h p l -> params_at h' p l.
Proof.
  intros A. induction 1; [constructor|]. econstructor; [|eassumption]. rewrite A; [eassumption|].
  apply (proj1 (nth_error_Some h _)). congruence.
Qed.
Lemma uri_agree h h' p l : agree (length h) h h' -> uri_at h p l -> uri_at h' p l.
Proof.
  intros A H. destruct H; [constructor|]. econstructor; eauto using params_agree. rewrite A; [eassumption|].
  apply (proj1 (nth_error_Some h _)). congruence.
Qed.
Lemma addrs_agree h h' p l : agree (length h) h h' -> addrs_at h p l -> addrs_at h' p l.
Proof.
  intros A. induction 1; [constructor|]. econstructor; eauto using params_agree, uri_agree. rewrite A; [eassumption|].
  apply (proj1 (nth_error_Some h _)). congruence.
Qed.
Lemma vias_agree h h' p l : agree (length h) h h' -> vias_at h p l -> vias_at h' p l.
Proof.
  intros A. induction 1; [constructor|]. econstructor; eauto using params_agree. rewrite A; [eassumption|].
  apply (proj1 (nth_error_Some h _)). congruence.
Qed.
Lemma agree_app h t : agree (length h) h (h ++ t).
Proof. intros a Ha. apply nth_error_app1, Ha. Qed.
Lemma nth_new h (c : cell) : nth_error (h ++ [c]) (length h) = Some c.
Proof. rewrite nth_error_app2, Nat.sub_diag by lia. reflexivity. Qed.

(** ** The copies *)
Lemma uri_copy_spec h p v : uri_at h p v -> exists t p', uri_copy h p = Ok (h ++ t, p') /\ uri_at (h ++ t) p' v /\
  (forall x, uri_node (h ++ t) p' x -> length h <= x).
Proof.
  intros H. destruct H as [|a b p q lp lq E Hp Hq].
  - exists [], None. rewrite app_nil_r. repeat split; [constructor|]. intros x K. inversion K.
  - exists [CUri b p q], (Some (length h)). cbn [uri_copy]. rewrite E. split; [reflexivity|]. split.
    + econstructor; [apply nth_new|eapply params_agree; [apply agree_app|exact Hp]|eapply params_agree; [apply agree_app|exact Hq]].
    + intros x K. inversion K. lia.
Qed.

Definition no_display (a : addr) : addr := mkaddr (a_uri a) [] (a_param a).

Lemma addr_node_agree h h' p x : agree (length h) h h' -> (forall l, addrs_at h p l -> addr_node h' p x -> addr_node h p x).
Proof.
  intros A l H. revert x. induction H; intros x K; inversion K; subst; try constructor.
  - rewrite A in H4 by (apply (proj1 (nth_error_Some h _)); congruence). rewrite H in H4. injection H4 as <- <- <- <-.
    inversion H5; subst. eapply addr_node_uri; [eassumption|constructor].
  - rewrite A in H4 by (apply (proj1 (nth_error_Some h _)); congruence). rewrite H in H4. injection H4 as <- <- <- <-.
    eapply addr_node_next; [eassumption|]. auto.
Qed.
Lemma via_node_agree h h' p x : agree (length h) h h' -> (forall l, vias_at h p l -> via_node h' p x -> via_node h p x).
Proof.
  intros A l H. revert x. induction H; intros x K; inversion K; subst; try constructor.
  rewrite A in H3 by (apply (proj1 (nth_error_Some h _)); congruence). rewrite H in H3. injection H3 as <- <- <-.
  eapply via_node_next; [eassumption|]. auto.
Qed.

Lemma addr_copy_spec l : forall fuel h p, length l <= fuel -> addrs_at h p l ->
  exists t p', addr_copy fuel h p = Ok (h ++ t, p') /\ addrs_at (h ++ t) p' (map no_display l) /\
  (forall x, addr_node (h ++ t) p' x -> length h <= x).
Proof.
  induction l as [|v l IH]; intros fuel h p Hf H; inversion H as [|a u d p0 nx uv pv l0 H3 H4 H5 H6]; subst.
  - exists [], None. rewrite app_nil_r. split; [destruct fuel; reflexivity|]. split; [constructor|]. intros x K. inversion K.
  - destruct fuel as [|f]; [cbn in Hf; lia|]. cbn [addr_copy]. rewrite H3.
    destruct (uri_copy_spec h u uv H4) as (t1 & pu & -> & U1 & U2). cbn [rbind fst snd].
    destruct (IH f (h ++ t1) nx) as (t2 & pn & -> & N1 & N2); [cbn in Hf; lia|eapply addrs_agree; [apply agree_app|eassumption]|].
    cbn [rbind fst snd]. exists (t1 ++ t2 ++ [CAddr pu [] p0 pn]), (Some (length ((h ++ t1) ++ t2))).
    rewrite !app_assoc. split; [reflexivity|].
    assert (A : agree (length ((h ++ t1) ++ t2)) ((h ++ t1) ++ t2) (((h ++ t1) ++ t2) ++ [CAddr pu [] p0 pn])) by apply agree_app.
    split.
    + cbn [map no_display a_uri a_param]. econstructor; [apply nth_new| | |].
      * eapply uri_agree; [exact A|]. eapply uri_agree; [apply agree_app|exact U1].
      * eapply params_agree; [exact A|]. eapply params_agree; [apply agree_app|]. eapply params_agree; [apply agree_app|eassumption].
      * eapply addrs_agree; [exact A|exact N1].
    + intros x K. inversion K as [|? ? ? ? ? ? E1 E2|? ? ? ? ? ? E1 E2]; subst.
      * rewrite !app_length. lia.
      * rewrite nth_new in E1. injection E1 as <- <- <- <-. apply U2. inversion E2. constructor.
      * rewrite nth_new in E1. injection E1 as <- <- <- <-. apply (addr_node_agree _ _ _ _ A _ N1) in E2. apply N2 in E2. rewrite app_length in E2. lia.
Qed.

Lemma via_copy_spec l : forall fuel h p, length l <= fuel -> vias_at h p l ->
  exists t p', via_copy fuel h p = Ok (h ++ t, p') /\ vias_at (h ++ t) p' l /\
  (forall x, via_node (h ++ t) p' x -> length h <= x).
Proof.
  induction l as [|v l IH]; intros fuel h p Hf H; inversion H as [|a b p0 nx pv l0 H3 H4 H5]; subst.
  - exists [], None. rewrite app_nil_r. split; [destruct fuel; reflexivity|]. split; [constructor|]. intros x K. inversion K.
  - destruct fuel as [|f]; [cbn in Hf; lia|]. cbn [via_copy]. rewrite H3.
    destruct (IH f h nx) as (t2 & pn & -> & N1 & N2); [cbn in Hf; lia|assumption|].
    cbn [rbind fst snd]. exists (t2 ++ [CVia b p0 pn]), (Some (length (h ++ t2))). rewrite app_assoc. split; [reflexivity|].
    assert (A : agree (length (h ++ t2)) (h ++ t2) ((h ++ t2) ++ [CVia b p0 pn])) by apply agree_app.
    split.
    + econstructor; [apply nth_new| |].
      * eapply params_agree; [exact A|]. eapply params_agree; [apply agree_app|eassumption].
      * eapply vias_agree; [exact A|exact N1].
    + intros x K. inversion K as [|? ? ? ? ? E1 E2]; subst.
      * rewrite !app_length. lia.
      * rewrite nth_new in E1. injection E1 as <- <- <-. apply (via_node_agree _ _ _ _ A _ N1) in E2. apply N2 in E2. lia.
Qed.

(** ** Later changes *)
(** Overwriting one cell *)
Fixpoint write (h : heap) (a : nat) (c : cell) : heap :=
  match h, a with
  | [], _ => []
  | _ :: t, O => c :: t
  | x :: t, S b => x :: write t b c
  end.
Definition writes (h : heap) (l : list (nat * cell)) : heap := fold_left (fun h w => write h (fst w) (snd w)) l h.
Lemma write_other h : forall a b c, a <> b -> nth_error (write h a c) b = nth_error h b.
Proof. induction h as [|x h IH]; intros [|a] [|b] c N; cbn; auto; congruence. Qed.
Lemma writes_agree n l : forall h, Forall (fun w => n <= fst w) l -> agree n h (writes h l).
Proof.
  unfold writes. induction l as [|[a c] l IH]; intros h F b Hb; cbn [fold_left]; [reflexivity|].
  inversion F; subst. cbn in *. rewrite (IH (write h a c)) by assumption. apply write_other. lia.
Qed.

(** Addr.Copy: the copy equals the original but for the display names, which are missing; no sequence of changes
    to nodes of the copy (or to nodes allocated later) changes what the original denotes. *)
Theorem addr_copy_independent : forall fuel h p l, length l <= fuel -> addrs_at h p l ->
  exists h' p', addr_copy fuel h p = Ok (h', p') /\
    addrs_at h' p' (map no_display l) /\ addrs_at h' p l /\
    (forall x, addr_node h' p' x -> length h <= x) /\
    (forall ws, Forall (fun w => length h <= fst w) ws -> addrs_at (writes h' ws) p l).
Proof.
  intros fuel h p l Hf H. destruct (addr_copy_spec l fuel h p Hf H) as (t & p' & E & C & N).
  exists (h ++ t), p'. split; [exact E|]. split; [exact C|]. split; [eapply addrs_agree; [apply agree_app|exact H]|]. split; [exact N|].
  intros ws F. eapply addrs_agree; [|exact H]. intros a Ha. rewrite (writes_agree (length h) ws (h ++ t) F a Ha). apply agree_app, Ha.
Qed.
Theorem via_copy_independent : forall fuel h p l, length l <= fuel -> vias_at h p l ->
  exists h' p', via_copy fuel h p = Ok (h', p') /\
    vias_at h' p' l /\ vias_at h' p l /\
    (forall x, via_node h' p' x -> length h <= x) /\
    (forall ws, Forall (fun w => length h <= fst w) ws -> vias_at (writes h' ws) p l).
Proof.
  intros fuel h p l Hf H. destruct (via_copy_spec l fuel h p Hf H) as (t & p' & E & C & N).
  exists (h ++ t), p'. split; [exact E|]. split; [exact C|]. split; [eapply vias_agree; [apply agree_app|exact H]|]. split; [exact N|].
  intros ws F. eapply vias_agree; [|exact H]. intros a Ha. rewrite (writes_agree (length h) ws (h ++ t) F a Ha). apply agree_app, Ha.
Qed.
Theorem uri_copy_independent : forall h p v, uri_at h p v ->
  exists h' p', uri_copy h p = Ok (h', p') /\ uri_at h' p' v /\ uri_at h' p v /\
    (forall x, uri_node h' p' x -> length h <= x) /\
    (forall ws, Forall (fun w => length h <= fst w) ws -> uri_at (writes h' ws) p v).
Proof.
  intros h p v H. destruct (uri_copy_spec h p v H) as (t & p' & E & C & N).
  exists (h ++ t), p'. split; [exact E|]. split; [exact C|]. split; [eapply uri_agree; [apply agree_app|exact H]|]. split; [exact N|].
  intros ws F. eapply uri_agree; [|exact H]. intros a Ha. rewrite (writes_agree (length h) ws (h ++ t) F a Ha). apply agree_app, Ha.
Qed.

(** ** Messages *)
(** the value a message in the heap denotes *)
Definition msg_at (h : heap) (m : hmsg) (v : msg) : Prop :=
  uri_at h (hm_request m) (request v) /\ (forall f, addrs_at h (hm_addrs m f) (addrs v f)) /\
  vias_at h (hm_vias m) (vias v) /\ params_at h (hm_xheader m) (xheader v) /\
  v = set_request (request v) (set_addrs (addrs v) (set_vias (vias v) (set_xheader (xheader v) (hm_flat m)))).
Definition msg_node (h : heap) (m : hmsg) (x : nat) : Prop :=
  uri_node h (hm_request m) x \/ (exists f, addr_node h (hm_addrs m f) x) \/ via_node h (hm_vias m) x.

Lemma msg_agree h h' m v : agree (length h) h h' -> msg_at h m v -> msg_at h' m v.
Proof.
  intros A (H1 & H2 & H3 & H4 & H5). split; [eapply uri_agree; eauto|]. split; [intros f; eapply addrs_agree; eauto|].
  split; [eapply vias_agree; eauto|]. split; [eapply params_agree; eauto|exact H5].
Qed.

Definition strip (fs : list afield) (g : afield -> list addr) : afield -> list addr :=
  fun f => if existsb (afield_eqb f) fs then map no_display (g f) else g f.

Lemma afield_eqb_spec a b : afield_eqb a b = true <-> a = b.
Proof. split; [|intros ->; unfold afield_eqb; apply Z.eqb_refl]. destruct a, b; unfold afield_eqb; cbn; congruence. Qed.

(** fields whose nodes are all new, among those already copied *)
Lemma copy_fields_spec fuel base fs : forall h m g done,
  (forall f, In f fs -> length (g f) <= fuel) -> NoDup fs -> (forall f, In f fs -> ~ In f done) ->
  base <= length h ->
  (forall f, addrs_at h (hm_addrs m f) (g f)) ->
  (forall f x, In f done -> addr_node h (hm_addrs m f) x -> base <= x) ->
  exists t m', copy_fields fuel (h, m) fs = Ok (h ++ t, m') /\
    hm_flat m' = hm_flat m /\ hm_request m' = hm_request m /\ hm_vias m' = hm_vias m /\ hm_xheader m' = hm_xheader m /\
    (forall f, addrs_at (h ++ t) (hm_addrs m' f) (strip fs g f)) /\
    (forall f x, In f (fs ++ done) -> addr_node (h ++ t) (hm_addrs m' f) x -> base <= x).
Proof.
  induction fs as [|f fs IH]; intros h m g done HL ND HD HB HA HN; cbn [copy_fields].
  - exists [], m. rewrite app_nil_r. repeat split; auto.
  - unfold copy_field. cbn [fst snd].
    destruct (addr_copy_spec (g f) fuel h (hm_addrs m f) (HL f (or_introl eq_refl)) (HA f)) as (t1 & p1 & -> & C1 & N1). cbn [rbind fst snd].
    set (m1 := mkhmsg _ _ _ _ _). inversion ND as [|? ? ND1 ND2]; subst.
    set (g1 := fun k => if afield_eqb k f then map no_display (g k) else g k).
    destruct (IH (h ++ t1) m1 g1 (f :: done)) as (t2 & m' & E & E1 & E2 & E3 & E4 & E5 & E6).
    + intros k Hk. unfold g1. destruct (afield_eqb k f); rewrite ?map_length; apply HL; right; exact Hk.
    + exact ND2.
    + intros k Hk [<-|Hd]; [contradiction|]. apply (HD k); [right; exact Hk|exact Hd].
    + rewrite app_length. lia.
    + intros k. unfold m1, g1. cbn [hm_addrs]. destruct (afield_eqb k f) eqn:K.
      * apply afield_eqb_spec in K. subst k. exact C1.
      * eapply addrs_agree; [apply agree_app|apply HA].
    + intros k x Hk Hx. unfold m1 in Hx. cbn [hm_addrs] in Hx. destruct (afield_eqb k f) eqn:K.
      * apply N1 in Hx. lia.
      * destruct Hk as [<-|Hk]; [rewrite (proj2 (afield_eqb_spec f f) eq_refl) in K; discriminate|].
        apply (addr_node_agree _ _ _ _ (agree_app h t1) _ (HA k)) in Hx. eapply HN; eauto.
    + exists (t1 ++ t2), m'. rewrite app_assoc. split; [exact E|]. do 4 (split; [assumption|]). split.
      * intros k. specialize (E5 k). unfold strip, g1 in *. cbn [existsb]. destruct (afield_eqb k f) eqn:K; cbn [orb]; [|exact E5].
        apply afield_eqb_spec in K. subst k.
        assert (X : existsb (afield_eqb f) fs = false).
        { destruct (existsb (afield_eqb f) fs) eqn:X; [|reflexivity]. apply existsb_exists in X. destruct X as (y & Hy & Ey). apply afield_eqb_spec in Ey. subst y. contradiction. }
        rewrite X in E5. exact E5.
      * intros k x Hk Hx. apply (E6 k x); [|exact Hx]. apply in_app_iff. destruct Hk as [<-|Hk]; [right; left; reflexivity|].
        apply in_app_iff in Hk. destruct Hk; [left|right; right]; assumption.
Qed.

Definition no_displays (v : msg) : msg := set_addrs (fun f => map no_display (addrs v f)) v.

(** Msg.Copy: the copy equals the original but for display names; all its URI, address and Via nodes are new, and
    no sequence of changes to them changes what the original denotes. *)
Theorem msg_copy_independent : forall fuel h m v, msg_at h m v ->
  (forall f, length (addrs v f) <= fuel) -> length (vias v) <= fuel ->
  exists h' m', msg_copy fuel h m = Ok (h', m') /\
    msg_at h' m' (no_displays v) /\ msg_at h' m v /\
    (forall x, msg_node h' m' x -> length h <= x) /\
    (forall ws, Forall (fun w => length h <= fst w) ws -> msg_at (writes h' ws) m v).
Proof.
  intros fuel h m v HM LA LV. pose proof HM as (H1 & H2 & H3 & H4 & H5). unfold msg_copy.
  destruct (uri_copy_spec h (hm_request m) _ H1) as (t1 & pu & -> & U1 & U2). cbn [rbind fst snd].
  set (m1 := mkhmsg (hm_flat m) pu (hm_addrs m) (hm_vias m) (hm_xheader m)).
  destruct (copy_fields_spec fuel (length h) [To; From] (h ++ t1) m1 (addrs v) []) as (t2 & m2 & E0 & E1 & E2 & E3 & E4 & E5 & E6).
  { intros; apply LA. } { repeat constructor; cbn; intuition congruence. } { intros f _ []. } { rewrite app_length; lia. }
  { intros f. unfold m1. cbn [hm_addrs]. eapply addrs_agree; [apply agree_app|apply H2]. } { intros f x []. }
  unfold heap in *. rewrite E0. cbn [rbind fst snd]. set (h2 := (h ++ t1) ++ t2) in *.
  assert (A2 : agree (length h) h h2). { unfold h2. rewrite <- app_assoc. apply agree_app. }
  assert (L2 : length h <= length h2). { unfold h2. rewrite !app_length. lia. }
  destruct (via_copy_spec (vias v) fuel h2 (hm_vias m2) LV) as (t3 & pv & -> & V1 & V2).
  { rewrite E3. eapply vias_agree; [exact A2|exact H3]. }
  cbn [rbind fst snd]. set (m3 := mkhmsg (hm_flat m2) (hm_request m2) (hm_addrs m2) pv (hm_xheader m2)).
  set (g := strip [To; From] (addrs v)) in *.
  destruct (copy_fields_spec fuel (length h) [PAssertedIdentity; RemotePartyID; Route; Contact; RecordRoute] (h2 ++ t3) m3 g [To; From])
    as (t4 & m4 & F0 & F1 & F2 & F3 & F4 & F5 & F6).
  { intros f _. unfold g, strip. destruct (existsb _ _); rewrite ?map_length; apply LA. }
  { repeat constructor; cbn; intuition congruence. }
  { intros f Hf Hd. cbn in Hf, Hd. intuition congruence. }
  { rewrite app_length. lia. }
  { intros f. unfold m3. cbn [hm_addrs]. eapply addrs_agree; [apply agree_app|apply E5]. }
  { intros f x Hf Hx. unfold m3 in Hx. cbn [hm_addrs] in Hx. apply (addr_node_agree _ _ _ _ (agree_app h2 t3) _ (E5 f)) in Hx.
    apply (E6 f x); [exact Hf|exact Hx]. }
  rewrite F0. set (h4 := (h2 ++ t3) ++ t4) in *.
  assert (A4 : agree (length h) h h4).
  { unfold h4, h2. rewrite <- !app_assoc. apply agree_app. }
  assert (A14 : agree (length (h ++ t1)) (h ++ t1) h4).
  { unfold h4, h2. rewrite <- (app_assoc (h ++ t1)), <- (app_assoc (h ++ t1)). apply agree_app. }
  exists h4, m4. split; [reflexivity|]. split; [|split; [|split]].
  - split; [|split; [|split; [|split]]].
    + cbn. rewrite F2. unfold m3. cbn [hm_request]. rewrite E2. eapply uri_agree; [exact A14|exact U1].
    + intros f. specialize (F5 f). cbn [no_displays set_addrs addrs]. unfold strip, g, strip in F5. destruct f; exact F5.
    + cbn. rewrite F3. unfold m3. cbn [hm_vias]. eapply vias_agree; [|exact V1]. unfold h4. apply agree_app.
    + cbn. rewrite F4. unfold m3. cbn [hm_xheader]. rewrite E4. eapply params_agree; [exact A4|exact H4].
    + rewrite F1. unfold m3. cbn [hm_flat]. rewrite E1. unfold m1. cbn [hm_flat]. unfold no_displays. rewrite H5 at 1. reflexivity.
  - eapply msg_agree; [exact A4|exact HM].
  - intros x [Hx|[[f Hx]|Hx]].
    + apply U2. rewrite F2 in Hx. unfold m3 in Hx. cbn [hm_request] in Hx. rewrite E2 in Hx. inversion Hx. unfold m1 in H; cbn in H. subst. constructor.
    + apply (F6 f x); [|exact Hx]. destruct f; cbn; tauto.
    + rewrite F3 in Hx. unfold m3 in Hx. cbn [hm_vias] in Hx.
      apply (via_node_agree _ _ _ _ (agree_app (h2 ++ t3) t4) _ V1) in Hx. apply V2 in Hx. lia.
  - intros ws F. eapply msg_agree; [|exact HM]. intros a Ha. rewrite (writes_agree (length h) ws h4 F a Ha). apply A4, Ha.
Qed.

(** ** Changes to the original *)
(** two heaps with the same parameter nodes *)
Definition same_params (h h' : heap) : Prop := forall x n v nx, nth_error h x = Some (CParam n v nx) -> nth_error h' x = nth_error h x.
Lemma params_same h h' p l : same_params h h' -> params_at h p l -> params_at h' p l.
Proof. intros A. induction 1; [constructor|]. econstructor; [|eassumption]. erewrite A; eassumption. Qed.
Lemma uri_same h h' p v : same_params h h' -> (forall x, uri_node h p x -> nth_error h' x = nth_error h x) -> uri_at h p v -> uri_at h' p v.
Proof.
  intros A N H. destruct H as [|a b q r lp lq E Hp Hq]; [constructor|]. econstructor; [|eapply params_same; eassumption|eapply params_same; eassumption].
  rewrite N; [exact E|constructor].
Qed.
Lemma addrs_same h h' p l : same_params h h' -> (forall x, addr_node h p x -> nth_error h' x = nth_error h x) -> addrs_at h p l -> addrs_at h' p l.
Proof.
  intros A N H. induction H as [|a u d p nx uv pv l E HU HP HL IH]; [constructor|]. econstructor.
  - rewrite N; [exact E|constructor].
  - eapply uri_same; [exact A| |exact HU]. intros x Hx. apply N. eapply addr_node_uri; eassumption.
  - eapply params_same; eassumption.
  - apply IH. intros x Hx. apply N. eapply addr_node_next; eassumption.
Qed.
Lemma vias_same h h' p l : same_params h h' -> (forall x, via_node h p x -> nth_error h' x = nth_error h x) -> vias_at h p l -> vias_at h' p l.
Proof.
  intros A N H. induction H as [|a b p nx pv l E HP HL IH]; [constructor|]. econstructor.
  - rewrite N; [exact E|constructor].
  - eapply params_same; eassumption.
  - apply IH. intros x Hx. apply N. eapply via_node_next; eassumption.
Qed.
Definition is_param (c : option cell) : Prop := exists n v nx, c = Some (CParam n v nx).
Lemma writes_miss ws : forall h x, ~ In x (map fst ws) -> nth_error (writes h ws) x = nth_error h x.
Proof.
  unfold writes. induction ws as [|[a c] ws IH]; intros h x N; [reflexivity|]. cbn [fold_left]. cbn in N.
  rewrite IH by tauto. apply write_other. cbn. tauto.
Qed.

(** The other direction: changing URI, address and Via nodes of the original after the copy was made does not change
    what the copy denotes. *)
Theorem msg_copy_isolated : forall fuel h m v h' m', msg_at h m v ->
  (forall f, length (addrs v f) <= fuel) -> length (vias v) <= fuel ->
  msg_copy fuel h m = Ok (h', m') ->
  forall ws, Forall (fun w => fst w < length h /\ ~ is_param (nth_error h (fst w))) ws ->
  msg_at (writes h' ws) m' (no_displays v).
Proof.
  intros fuel h m v h' m' HM LA LV E ws F.
  destruct (msg_copy_independent fuel h m v HM LA LV) as (h2 & m2 & E2 & C & O & N & W). rewrite E in E2.
  assert (h2 = h' /\ m2 = m') as [-> ->] by (split; congruence).
  assert (AG : agree (length h) h h').
  { (* the copy only adds cells *)
    clear -E. unfold msg_copy in E.
    assert (UA : forall h p r, uri_copy h p = Ok r -> exists t, fst r = h ++ t).
    { intros h0 p r K. unfold uri_copy in K. destruct p as [a|]; [|injection K as <-; exists []; rewrite app_nil_r; reflexivity].
      destruct (nth_error h0 a) as [[]|]; try discriminate. injection K as <-. eexists; reflexivity. }
    assert (AA : forall fu h p r, addr_copy fu h p = Ok r -> exists t, fst r = h ++ t).
    { induction fu as [|fu IH]; intros h0 p r K; destruct p as [a|]; cbn in K; try discriminate; try (injection K as <-; exists []; rewrite app_nil_r; reflexivity).
      destruct (nth_error h0 a) as [[]|]; try discriminate. destruct (uri_copy h0 u) as [x|] eqn:Ux; [|discriminate]. cbn in K.
      destruct (addr_copy fu (fst x) next) as [y|] eqn:Ay; [|discriminate]. cbn in K. injection K as <-.
      apply UA in Ux. apply IH in Ay. destruct Ux as [t1 U1], Ay as [t2 U2]. cbn [fst]. rewrite U2, U1. rewrite <- !app_assoc. eexists; reflexivity. }
    assert (VA : forall fu h p r, via_copy fu h p = Ok r -> exists t, fst r = h ++ t).
    { induction fu as [|fu IH]; intros h0 p r K; destruct p as [a|]; cbn in K; try discriminate; try (injection K as <-; exists []; rewrite app_nil_r; reflexivity).
      destruct (nth_error h0 a) as [[]|]; try discriminate.
      destruct (via_copy fu h0 next) as [y|] eqn:Ay; [|discriminate]. cbn in K. injection K as <-.
      apply IH in Ay. destruct Ay as [t2 U2]. cbn [fst]. rewrite U2. rewrite <- !app_assoc. eexists; reflexivity. }
    assert (FA : forall fu fs x r, copy_fields fu x fs = Ok r -> exists t, fst r = fst x ++ t).
    { intros fu. induction fs as [|f fs IH]; intros x r K; cbn [copy_fields] in K.
      - injection K as <-. exists []. rewrite app_nil_r. reflexivity.
      - unfold copy_field in K. destruct (addr_copy fu (fst x) (hm_addrs (snd x) f)) as [y|] eqn:Ay; [|discriminate]. cbn [rbind] in K.
        apply IH in K. cbn [fst] in K. apply AA in Ay. destruct Ay as [t1 U1], K as [t2 U2]. rewrite U2, U1, <- app_assoc. eexists; reflexivity. }
    destruct (uri_copy h (hm_request m)) as [r|] eqn:R; [|discriminate]. cbn [rbind] in E.
    destruct (copy_fields fuel _ [To; From]) as [a|] eqn:Fa; [|discriminate]. cbn [rbind] in E.
    destruct (via_copy fuel (fst a) (hm_vias (snd a))) as [w|] eqn:Vw; [|discriminate]. cbn [rbind] in E.
    apply UA in R. apply FA in Fa. apply VA in Vw. apply FA in E. cbn [fst] in *.
    destruct R as [t1 R], Fa as [t2 Fa], Vw as [t3 Vw], E as [t4 E]. rewrite E, Vw, Fa, R, <- !app_assoc. apply agree_app. }
  assert (SP : same_params h' (writes h' ws)).
  { intros x n w nx K. apply writes_miss. intros I. apply in_map_iff in I. destruct I as ([a c] & <- & I). rewrite Forall_forall in F.
    apply F in I. cbn in *. destruct I as [I1 I2]. apply I2. rewrite AG in K by exact I1. exists n, w, nx. exact K. }
  assert (NN : forall x, msg_node h' m' x -> nth_error (writes h' ws) x = nth_error h' x).
  { intros x Hx. apply N in Hx. apply writes_miss. intros I. apply in_map_iff in I. destruct I as ([a c] & <- & I). rewrite Forall_forall in F.
    apply F in I. cbn in *. lia. }
  destruct C as (C1 & C2 & C3 & C4 & C5). split; [|split; [|split; [|split]]].
  - eapply uri_same; [exact SP| |exact C1]. intros x Hx. apply NN. left. exact Hx.
  - intros f. eapply addrs_same; [exact SP| |exact (C2 f)]. intros x Hx. apply NN. right. left. exists f. exact Hx.
  - eapply vias_same; [exact SP| |exact C3]. intros x Hx. apply NN. right. right. exact Hx.
  - eapply params_same; eassumption.
  - exact C5.
Qed.

(** ** What is false *)
(** An address with a display name and a tag parameter; cell 0 is the parameter *)
Definition tagged (v : bytes) : heap :=
  [CParam (B "tag") v None; CUri (mkuri (B "sip") (B "alice") [] (B "example.com") 0%Z [] []) None None;
   CAddr (Some 1) (B "Alice") (Some 0) None].
Definition tagged_addr (v : bytes) : addr :=
  mkaddr (Some (mkuri (B "sip") (B "alice") [] (B "example.com") 0%Z [] [])) (B "Alice") [(B "tag", v)].
Lemma tagged_at v t : addrs_at (tagged v ++ t) (Some 2) [tagged_addr v].
Proof.
  unfold tagged_addr. eapply addrs_cons; [reflexivity| | |constructor].
  - apply (uri_cell _ 1 (mkuri (B "sip") (B "alice") [] (B "example.com") 0%Z [] []) None None [] []); [reflexivity|constructor|constructor].
  - econstructor; [reflexivity|constructor].
Qed.

(** The copy is not equal to the original: the display name is gone. *)
Theorem addr_copy_equal_refuted : exists h p l h' p', addrs_at h p l /\ addr_copy (length l) h p = Ok (h', p') /\
  forall l', addrs_at h' p' l' -> l' <> l.
Proof.
  exists (tagged (B "1") ++ []), (Some 2), [tagged_addr (B "1")].
  exists (tagged (B "1") ++ [CUri (mkuri (B "sip") (B "alice") [] (B "example.com") 0%Z [] []) None None; CAddr (Some 3) [] (Some 0) None]), (Some 4).
  split; [apply tagged_at|]. split; [reflexivity|]. intros l' H ->. inversion H as [|? ? ? ? ? ? ? ? E]. cbn in E. discriminate E.
Qed.

(** Parameters are shared: assigning to a parameter of the copy (such as its tag) changes the original. *)
Theorem addr_copy_params_shared_refuted : exists h p l h' p' a u d q nx c, addrs_at h p l /\ addr_copy (length l) h p = Ok (h', p') /\
  p' = Some a /\ nth_error h' a = Some (CAddr u d (Some q) nx) /\ ~ addrs_at (write h' q c) p l.
Proof.
  exists (tagged (B "1") ++ []), (Some 2), [tagged_addr (B "1")].
  exists (tagged (B "1") ++ [CUri (mkuri (B "sip") (B "alice") [] (B "example.com") 0%Z [] []) None None; CAddr (Some 3) [] (Some 0) None]), (Some 4).
  exists 4, (Some 3), [], 0, None, (CParam (B "tag") (B "2") None).
  split; [apply tagged_at|]. split; [reflexivity|]. split; [reflexivity|]. split; [reflexivity|].
  intros H. inversion H as [|? ? ? ? ? ? ? ? E HU HP]; subst. cbn in E. injection E as E0 E1 E2. subst. inversion HP as [|? ? ? ? ? E3]. cbn in E3. discriminate E3.
Qed.

(** A message with a From address meets the hypotheses *)
Example msg_copy_nonvacuous : exists h m v, msg_at h m v /\ (forall f, length (addrs v f) <= 1) /\ length (vias v) <= 1 /\ addrs v From = [tagged_addr (B "1")].
Proof.
  pose (g := fun f => if afield_eqb f From then [tagged_addr (B "1")] else []).
  exists (tagged (B "1") ++ []), (mkhmsg msg0 None (fun f => if afield_eqb f From then Some 2 else None) None None), (set_addrs g msg0).
  split; [|split; [|split]]; [|intros []; cbn; lia|cbn; lia|reflexivity].
  split; [constructor|]. split; [|split; [constructor|split; [constructor|reflexivity]]].
  intros []; cbn; try constructor. apply tagged_at.
Qed.

Print Assumptions addr_copy_independent.
Print Assumptions via_copy_independent.
Print Assumptions uri_copy_independent.
Print Assumptions msg_copy_independent.
Print Assumptions msg_copy_isolated.
Print Assumptions addr_copy_equal_refuted.
Print Assumptions addr_copy_params_shared_refuted.
