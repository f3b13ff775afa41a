(** Properties C10 (host/port comparison), C11 (parameter lookup), C12 (order on the wire),
    C18 (Content-Length). *)
From Verif Require Import Bytes BytesLemmas GoLib GoLibLemmas SdpModel SipText SipTypes SipAppend.
Local Open Scope Z_scope.

(** ** C10 *)
(** The port a URI designates *)
Definition port_of (u : uri) (p : Z) : Prop :=
  (u_port u <> 0 /\ p = u_port u) \/
  (u_port u = 0 /\ u_scheme u = B "sips" /\ p = 5061) \/
  (u_port u = 0 /\ u_scheme u <> B "sips" /\ p = 5060).

Lemma port_of_GetPort u p : port_of u p <-> p = GetPort u.
Proof.
  unfold port_of, GetPort. destruct (Z.eqb_spec (u_port u) 0); destruct (bseq_reflect (u_scheme u) (B "sips"));
    split; intros H; intuition congruence.
Qed.

Theorem uri_compare_spec : forall a b, uri_CompareHostPort a b = true <->
  exists x y p, a = Some x /\ b = Some y /\ u_host x = u_host y /\ port_of x p /\ port_of y p.
Proof.
  intros a b. unfold uri_CompareHostPort. split.
  - destruct a as [x|], b as [y|]; try discriminate. rewrite andb_true_iff, bseq_spec, Z.eqb_eq. intros [H1 H2].
    exists x, y, (GetPort x). rewrite !port_of_GetPort. auto.
  - intros (x & y & p & -> & -> & H & P & Q). rewrite port_of_GetPort in P, Q.
    rewrite andb_true_iff, bseq_spec, Z.eqb_eq. split; congruence.
Qed.

Theorem uri_compare_equivalence :
  (forall x, uri_CompareHostPort (Some x) (Some x) = true) /\
  (forall a b, uri_CompareHostPort a b = uri_CompareHostPort b a) /\
  (forall a b c, uri_CompareHostPort a b = true -> uri_CompareHostPort b c = true -> uri_CompareHostPort a c = true) /\
  (forall a, uri_CompareHostPort None a = false /\ uri_CompareHostPort a None = false).
Proof.
  split; [|split; [|split]].
  - intros x. cbn. rewrite bseq_refl, Z.eqb_refl. reflexivity.
  - intros [a|] [b|]; cbn; try reflexivity. rewrite bseq_sym, Z.eqb_sym. reflexivity.
  - intros [a|] [b|] [c|]; cbn; try discriminate. rewrite !andb_true_iff, !bseq_spec, !Z.eqb_eq. intros [-> ->] [-> ->]. auto.
  - intros [a|]; split; reflexivity.
Qed.

(** Address lists compare by their first entry *)
Theorem addr_compare_spec : forall a b, addr_CompareHostPort a b = true <->
  exists x l y k, a = x :: l /\ b = y :: k /\ uri_CompareHostPort (a_uri x) (a_uri y) = true.
Proof.
  intros [|x l] [|y k]; cbn [addr_CompareHostPort]; split; intros H;
    try discriminate; try (destruct H as (? & ? & ? & ? & ? & ? & ?); discriminate).
  - exists x, l, y, k. auto.
  - destruct H as (? & ? & ? & ? & E1 & E2 & H). injection E1 as <- <-. injection E2 as <- <-. exact H.
Qed.

(** Vias compare hosts and the stored port numbers *)
Theorem via_compare_spec : forall a b, via_CompareHostPort a b = true <->
  exists x l y k, a = x :: l /\ b = y :: k /\ v_host x = v_host y /\ v_port x = v_port y.
Proof.
  intros [|x l] [|y k]; cbn [via_CompareHostPort]; split; intros H;
    try discriminate; try (destruct H as (? & ? & ? & ? & ? & ? & ?); discriminate).
  - rewrite andb_true_iff, bseq_spec, Z.eqb_eq in H. exists x, l, y, k. tauto.
  - destruct H as (? & ? & ? & ? & E1 & E2 & H1 & H2). injection E1 as <- <-. injection E2 as <- <-.
    rewrite andb_true_iff, bseq_spec, Z.eqb_eq. auto.
Qed.

Theorem via_compare_equivalence :
  (forall x l, via_CompareHostPort (x :: l) (x :: l) = true) /\
  (forall a b, via_CompareHostPort a b = via_CompareHostPort b a) /\
  (forall a b c, via_CompareHostPort a b = true -> via_CompareHostPort b c = true -> via_CompareHostPort a c = true).
Proof.
  split; [|split].
  - intros x l. cbn. rewrite bseq_refl, Z.eqb_refl. reflexivity.
  - intros [|a ?] [|b ?]; cbn; try reflexivity. rewrite bseq_sym, Z.eqb_sym. reflexivity.
  - intros [|a ?] [|b ?] [|c ?]; cbn; try discriminate. rewrite !andb_true_iff, !bseq_spec, !Z.eqb_eq. intros [-> ->] [-> ->]. auto.
Qed.

(** The claim as stated (an absent Via port means 5060) fails: the default port is not applied to Vias. *)
Theorem via_default_port_refuted : exists a b,
  v_host a = v_host b /\ v_port a = 0 /\ v_port b = 5060 /\ via_CompareHostPort [a] [b] = false.
Proof. exists (mkvia [] [] [] (B "h") 0 []), (mkvia [] [] [] (B "h") 5060 []). repeat split. Qed.

Example compare_nonvacuous :
  uri_CompareHostPort (Some (mkuri (B "sip") [] [] (B "h") 0 [] [])) (Some (mkuri (B "sip") (B "u") [] (B "h") 5060 [] [])) = true /\
  uri_CompareHostPort (Some (mkuri (B "sips") [] [] (B "h") 0 [] [])) (Some (mkuri (B "sip") [] [] (B "h") 0 [] [])) = false.
Proof. split; reflexivity. Qed.

(** ** C11 *)
(** Equal ignoring the case of ASCII letters *)
Definition same_name (a b : bytes) : Prop := map lower a = map lower b.
Definition ascii (s : bytes) : bool := forallb (fun c => bz c <? 128) s.

Lemma equal_fold_ascii s : ascii s = true -> forall t, equal_fold s t = true <-> same_name s t.
Proof.
  unfold same_name. induction s as [|c s IH]; intros A t.
  - destruct t; cbn; split; congruence.
  - cbn [ascii forallb] in A. apply andb_true_iff in A. destruct A as [A1 A2].
    destruct t as [|d t]; cbn [equal_fold map]; [split; congruence|]. rewrite A1, andb_true_iff, beq_spec, (IH A2 t).
    split; [intros [-> ->]; reflexivity|intros H; injection H; auto].
Qed.

(** A wanted name without the letters k and s can only match ASCII names *)
Definition no_ks (c : byte) : bool := negb (beq (lower c) "k") && negb (beq (lower c) "s") && (bz c <? 128).
Lemma lower_ascii c : bz c <? 128 = true -> forall d, (bz d <? 128) = true \/ lower c <> lower d.
Proof.
  intros H d. destruct (bz d <? 128) eqn:E; [auto|right]. intros K.
  assert (L : forall x, (bz (lower x) <? 128) = (bz x <? 128)) by (intros x; apply eqb_prop; revert x; by_bytes).
  rewrite <- L, K, L, E in H. discriminate.
Qed.
Lemma equal_fold_no_ks t : forallb no_ks t = true -> forall s, equal_fold s t = true <-> same_name s t.
Proof.
  unfold same_name. induction t as [|d t IH]; intros A s.
  - destruct s; cbn; split; congruence.
  - cbn [forallb] in A. apply andb_true_iff in A. destruct A as [A1 A2]. unfold no_ks in A1.
    rewrite !andb_true_iff, !negb_true_iff in A1. destruct A1 as [[K S] L].
    destruct s as [|c s]; cbn [equal_fold map]; [split; congruence|].
    destruct (bz c <? 128) eqn:E.
    + rewrite andb_true_iff, beq_spec, (IH A2 s). split; [intros [-> ->]; reflexivity|intros H; injection H; auto].
    + assert (N : lower c <> lower d) by (destruct (lower_ascii d L c); [congruence|intro; congruence]).
      split; [|intros H; injection H; congruence]. rewrite K, S.
      destruct s as [|c2 [|c3 s]]; try discriminate.
      * destruct (beq c xc5 && beq c2 xbf); discriminate.
      * destruct (beq c xc5 && beq c2 xbf); [discriminate|]. destruct (beq c xe2 && beq c2 x84 && beq c3 xaa); discriminate.
Qed.

(** Lists are newest first: the result is the first, that is the most recently added, match. *)
Theorem param_lookup : forall l name,
  Forall (fun p => ascii (fst p) = true) l \/ forallb no_ks name = true ->
  (forall p, param_get l name = Some p <->
     exists newer older, l = newer ++ p :: older /\ same_name (fst p) name /\ Forall (fun q => ~ same_name (fst q) name) newer) /\
  (param_get l name = None <-> Forall (fun q => ~ same_name (fst q) name) l).
Proof.
  intros l name H.
  assert (E : Forall (fun p => equal_fold (fst p) name = true <-> same_name (fst p) name) l).
  { destruct H as [H|H].
    - eapply Forall_impl; [|exact H]. intros p Hp. apply equal_fold_ascii, Hp.
    - apply Forall_forall. intros p _. apply equal_fold_no_ks, H. }
  clear H. induction E as [|[n v] l Hn E IH].
  - split; [|split; [constructor|reflexivity]]. intros p. split; [discriminate|]. intros ([|? ?] & o & K & _); discriminate.
  - cbn [fst param_get] in *. destruct IH as [IH1 IH2]. destruct (equal_fold n name) eqn:F.
    + assert (S : same_name n name) by (apply Hn; reflexivity). split.
      * intros p. split.
        -- intros K. injection K as <-. exists [], l. auto.
        -- intros ([|q nw] & o & K & K1 & K2); cbn in K; [congruence|]. injection K as <- K.
           inversion K2. cbn in *. tauto.
      * split; [discriminate|]. intros K. inversion K. cbn in *. tauto.
    + assert (S : ~ same_name n name) by (intros K; apply Hn in K; discriminate). split.
      * intros p. rewrite IH1. split.
        -- intros (nw & o & -> & K1 & K2). exists ((n, v) :: nw), o. auto.
        -- intros ([|q nw] & o & K & K1 & K2); cbn in K.
           ++ injection K as <- K. cbn in *. tauto.
           ++ injection K as <- ->. inversion K2. exists nw, o. auto.
      * rewrite IH2. split; [intros K; constructor; auto|intros K; inversion K; auto].
Qed.

(** The parameter names this library looks up itself *)
Theorem internal_names_lookup : forall name, In name [B "tag"; B "branch"; B "rport"; B "received"; B "lr"; B "transport"; B "maddr"] ->
  name = B "transport" \/ forallb no_ks name = true.
Proof. intros name H. cbn [In] in H. repeat (destruct H as [<-|H]; [vm_compute; tauto|]). destruct H. Qed.

(** Without the hypothesis the lookup also matches U+212A (Kelvin sign) for k and U+017F for s. *)
Theorem param_lookup_kelvin_refuted : exists n v name,
  param_get [(n, v)] name = Some (n, v) /\ ~ same_name n name.
Proof. exists ([xe2; x84; xaa] ++ B "ey"), (B "1"), (B "key"). split; [reflexivity|discriminate]. Qed.

Example lookup_nonvacuous :
  param_get [(B "x", B "9"); (B "TAG", B "2"); (B "tag", B "1")] (B "tag") = Some (B "TAG", B "2").
Proof. reflexivity. Qed.

(** ** C12 *)
(** A list is kept newest first, so [rev l] is the order of insertion. *)
Definition kv (esc_name esc_value : bytes -> bytes) (p : param) : bytes :=
  esc_name (fst p) ++ (match snd p with [] => [] | v => B "=" ++ esc_value v end).

Lemma concat_snoc {A} (f : A -> bytes) l x : concat (map f (l ++ [x])) = concat (map f l) ++ f x.
Proof. rewrite map_app, concat_app. cbn. rewrite app_nil_r. reflexivity. Qed.

Theorem param_order : forall l,
  param_append l = concat (map (fun p => B ";" ++ kv (appendSanitized tokenc) appendQuoted p) (rev l)).
Proof.
  induction l as [|[n v] l IH]; [reflexivity|]. cbn [rev param_append]. rewrite concat_snoc, IH. unfold kv; cbn [fst snd]. destruct v; reflexivity.
Qed.
Theorem uriparam_order : forall l,
  uriparam_append l = concat (map (fun p => B ";" ++ kv (appendEscaped paramc) (appendEscaped paramc) p) (rev l)).
Proof.
  induction l as [|[n v] l IH]; [reflexivity|]. cbn [rev uriparam_append]. rewrite concat_snoc, IH. unfold kv; cbn [fst snd]. destruct v; reflexivity.
Qed.
Theorem xheader_order : forall l,
  xheader_append l = concat (map (fun p => appendSanitized tokenc (fst p) ++ B ": " ++ snd p ++ CRLF) (rev l)).
Proof.
  induction l as [|[n v] l IH]; [reflexivity|]. cbn [rev xheader_append]. rewrite concat_snoc, IH. unfold kv; cbn [fst snd]. destruct v; reflexivity.
Qed.
Lemma join_snoc sep l x : l <> [] -> join sep (l ++ [x]) = join sep l ++ sep ++ x.
Proof.
  induction l as [|a l IH]; [congruence|]. intros _. destruct l as [|b l].
  - reflexivity.
  - change (join sep ((a :: b :: l) ++ [x])) with (a ++ sep ++ join sep ((b :: l) ++ [x])).
    rewrite IH by discriminate. change (join sep (a :: b :: l)) with (a ++ sep ++ join sep (b :: l)).
    rewrite <- !app_assoc. reflexivity.
Qed.
Theorem uriheader_order : forall l, l <> [] ->
  uriheader_append l = B "?" ++ join (B "&") (map (kv (appendEscaped paramc) (appendEscaped paramc)) (rev l)).
Proof.
  induction l as [|[n v] l IH]; [congruence|]. intros _. destruct l as [|q l].
  - destruct v; reflexivity.
  - assert (E : uriheader_append ((n, v) :: q :: l) =
      (uriheader_append (q :: l) ++ B "&") ++ kv (appendEscaped paramc) (appendEscaped paramc) (n, v)) by (destruct v; reflexivity).
    rewrite E, IH by discriminate. change (rev ((n, v) :: q :: l)) with (rev (q :: l) ++ [(n, v)]).
    rewrite map_app. cbn [map]. rewrite join_snoc; [rewrite <- !app_assoc; reflexivity|].
    cbn [rev]. rewrite map_app. destruct (map _ (rev l)); discriminate.
Qed.
(** Addresses of one header are separated by ", " in list order. *)
Definition one_addr (a : addr) : bytes :=
  (match a_display a with [] => [] | d => appendQuoted d ++ B " " end) ++
  B "<" ++ uri_string (a_uri a) ++ B ">" ++ param_append (a_param a).
Theorem addr_order : forall l, addr_append l = join (B ", ") (map one_addr l).
Proof.
  induction l as [|a l IH]; [reflexivity|]. cbn [addr_append map]. destruct l as [|b l].
  - cbn [join map]. rewrite !app_nil_r. reflexivity.
  - cbn [map] in IH. rewrite IH. cbn [map].
    change (join (B ", ") (one_addr a :: one_addr b :: map one_addr l)) with (one_addr a ++ B ", " ++ join (B ", ") (one_addr b :: map one_addr l)).
    generalize (join (B ", ") (one_addr b :: map one_addr l)). intros t. unfold one_addr. rewrite <- !app_assoc. reflexivity.
Qed.
Example order_nonvacuous :
  uri_string (Some (mkuri (B "sip") [] [] (B "h") 0 [(B "b", B "2"); (B "a", [])] [(B "y", B "4"); (B "x", B "3")])) = B "sip:h;a;b=2?x=3&y=4".
Proof. reflexivity. Qed.

(** ** C18 *)
Definition payload_bytes (rid : bytes) (m : msg) : bytes :=
  match pay m with None => [] | Some (Misc _ d) => d | Some (PSdp s) => sdp_append rid s end.

Definition ends (s : bytes) : Prop := exists h, s = h ++ CRLF.
Lemma ends_r a b : ends b -> ends (a ++ b).
Proof. intros [h ->]. exists (a ++ h). rewrite app_assoc. reflexivity. Qed.
Lemma ends_l a b : ends a -> b = [] \/ ends b -> ends (a ++ b).
Proof. intros H [->|K]; [rewrite app_nil_r; exact H|apply ends_r, K]. Qed.
Lemma blk_app a b : a = [] \/ ends a -> b = [] \/ ends b -> a ++ b = [] \/ ends (a ++ b).
Proof. intros [->|H] K; [exact K|right; apply ends_l; auto]. Qed.
Lemma ends_crlf : ends CRLF. Proof. exists []. reflexivity. Qed.
Lemma blk_line n v : opt_line n v = [] \/ ends (opt_line n v).
Proof. unfold opt_line. destruct v; [auto|right]. apply ends_r, ends_r, ends_crlf. Qed.
Lemma blk_addr n v : opt_addr n v = [] \/ ends (opt_addr n v).
Proof. unfold opt_addr. destruct v; [auto|right]. apply ends_r, ends_r, ends_crlf. Qed.
Lemma blk_x l : xheader_append l = [] \/ ends (xheader_append l).
Proof. destruct l as [|[n v] l]; [auto|right]. cbn [xheader_append]. do 4 apply ends_r. apply ends_crlf. Qed.
Lemma ends_head m : ends (head_lines m).
Proof.
  unfold head_lines.
  repeat match goal with |- ends (CRLF ++ opt_line _ _ ++ _) => fail 1 | |- _ => apply ends_r end.
  apply ends_l; [apply ends_crlf|].
  repeat (apply blk_app; [|]).
  all: try apply blk_line; try apply blk_addr; try apply blk_x.
  - destruct (IsResponse m); [auto|right]. apply ends_r, ends_r, ends_crlf.
  - destruct ((0 <? expires m) || bseq (method m) (B "REGISTER") || bseq (cseqmethod m) (B "REGISTER")); [right|auto].
    apply ends_r, ends_r, ends_crlf.
  - destruct (0 <? minexpires m); [right|auto]. apply ends_r, ends_r, ends_crlf.
Qed.

Theorem content_length_truthful : forall rid m, exists head digits,
  msg_append rid m = head ++ CRLF ++ B "Content-Length: " ++ digits ++ CRLF ++ CRLF ++ payload_bytes rid m /\
  digits_value digits = Some (Z.of_nat (length (payload_bytes rid m))).
Proof.
  intros rid m. unfold msg_append, tail_lines, payload_bytes.
  assert (U : forall n : nat, digits_value (itoa (Z.of_nat n)) = Some (Z.of_nat n))
    by (intros n; rewrite itoa_nonneg by lia; apply utoa_value; lia).
  destruct (pay m) as [p|].
  - exists (head_lines m ++ B "Content-Type: " ++ ContentType p), (itoa (Z.of_nat (length (Data rid p)))).
    split; [|rewrite U; destruct p; reflexivity].
    rewrite <- !app_assoc. destruct p; reflexivity.
  - destruct (ends_head m) as [h ->]. exists h, (B "0"). split; [rewrite <- !app_assoc; reflexivity|reflexivity].
Qed.

Example content_length_nonvacuous :
  exists m, payload_bytes [] m = B "hello" /\ pay m <> None.
Proof. exists (set_pay (Some (Misc (B "text/plain") (B "hello"))) msg0). split; [reflexivity|discriminate]. Qed.

Print Assumptions uri_compare_spec.
Print Assumptions via_compare_spec.
Print Assumptions param_lookup.
Print Assumptions param_order.
Print Assumptions uriheader_order.
Print Assumptions addr_order.
Print Assumptions content_length_truthful.
