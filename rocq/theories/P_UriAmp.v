(** C05 and C08: exactly which URIs survive, by counting the characters &. *)
From Verif Require Import Bytes BytesLemmas GoLib GoLibLemmas SdpModel SipText SipTypes SipAppend UtilModel P_Text P_Lists UriSpec UriModel P_Uri.

Definition amps (s : bytes) : nat := length (filter (beq "&") s).
Lemma amps_app s t : amps (s ++ t) = (amps s + amps t)%nat. Proof. unfold amps. rewrite filter_app, app_length. reflexivity. Qed.
Lemma amps_none cls s : (forall c, cls c = true -> beq "&" c = false) -> forallb cls s = true -> amps s = 0%nat.
Proof. intros H. induction s as [|c s IH]; intros F; [reflexivity|]. cbn [forallb] in F. apply andb_prop in F. destruct F as [F1 F2]. unfold amps. cbn [filter]. rewrite (H c F1). exact (IH F2). Qed.
Lemma amps_free s : amps s = 0%nat -> free_of "&" s = true.
Proof. induction s as [|c s IH]; intros H; [reflexivity|]. unfold amps in H. cbn [filter] in H. cbn [free_of forallb]. destruct (beq "&" c) eqn:E; [discriminate|]. apply andb_true_intro. split; [revert E; clear; destruct c; vm_compute; congruence|exact (IH H)]. Qed.
Lemma amps_escaped p s : p "&"%byte = true -> amps (appendEscaped p s) = amps s.
Proof.
  intros P. induction s as [|c s IH]; [reflexivity|]. cbn [appendEscaped]. destruct (p c) eqn:E.
  - unfold amps in *. cbn [filter]. destruct (beq "&" c); cbn [length]; congruence.
  - assert (beq "&" c = false). { destruct (beq "&" c) eqn:X; [|reflexivity]. apply beq_spec in X. subst c. congruence. }
    assert (H1 : beq "&" (hexChar (Z.shiftr (bz c) 4)) = false /\ beq "&" (hexChar (bz c mod 16)) = false) by (clear; destruct c; split; reflexivity). destruct H1 as [H1 H2].
    unfold amps in *. cbn [filter]. rewrite H, H1, H2. change (beq "&" "%") with false. exact IH.
Qed.
Lemma hex_not c : hex_class c = true -> beq "&" c = false. Proof. destruct c; vm_compute; congruence. Qed.
Lemma legal_ind cls (P : bytes -> Prop) : P [] -> (forall h l t, hex_class h = true -> hex_class l = true -> legal_text cls t = true -> P t -> P ("%"%byte :: h :: l :: t)) ->
  (forall c t, beq c "%" = false -> cls c = true -> legal_text cls t = true -> P t -> P (c :: t)) -> forall t, legal_text cls t = true -> P t.
Proof.
  intros H0 H1 H2 t. remember (length t) as n eqn:L. assert (LE : (length t <= n)%nat) by lia. clear L. revert t LE. induction n as [|n IH]; intros t LE L; [destruct t; [exact H0|cbn in LE; lia]|].
  destruct t as [|c t]; [exact H0|]. cbn [legal_text] in L. destruct (beq c "%") eqn:E.
  - apply beq_spec in E. subst c. destruct t as [|h [|l t]]; try discriminate. apply andb_prop in L. destruct L as [L1 L2]. apply andb_prop in L1. destruct L1 as [L1 L3]. apply H1; auto. apply IH; [cbn in LE; lia|exact L2].
  - apply andb_prop in L. destruct L as [L1 L2]. apply H2; auto. apply IH; [cbn in LE; lia|exact L2].
Qed.
Lemma amps_decoded cls t : legal_text cls t = true -> (amps t <= amps (pct_decode t))%nat.
Proof.
  revert t. apply legal_ind; [reflexivity| |].
  - intros h l t H L _ IH. cbn [pct_decode]. change (beq "%" "%") with true. cbv iota. unfold amps in *. cbn [filter]. change (beq "&" "%") with false. rewrite (hex_not _ H), (hex_not _ L). destruct (beq "&" (zb _)); cbn [length]; lia.
  - intros c t E _ _ IH. cbn [pct_decode]. rewrite E. unfold amps in *. cbn [filter]. destruct (beq "&" c); cbn [length]; lia.
Qed.
Lemma amps_legal cls t : (forall c, cls c = true -> beq "&" c = false) -> legal_text cls t = true -> amps t = 0%nat.
Proof.
  intros C. revert t. apply legal_ind; [reflexivity| |].
  - intros h l t H L _ IH. unfold amps in *. cbn [filter]. change (beq "&" "%") with false. rewrite (hex_not _ H), (hex_not _ L). exact IH.
  - intros c t _ K _ IH. unfold amps in *. cbn [filter]. rewrite (C c K). exact IH.
Qed.
Lemma sum_cons x l : list_sum (x :: l) = (x + list_sum l)%nat. Proof. reflexivity. Qed.
Definition amps_of (ps : list param) : nat := list_sum (map (fun p => amps (fst p) + amps (snd p))%nat ps).
Lemma amps_of_app a b : amps_of (a ++ b) = (amps_of a + amps_of b)%nat. Proof. unfold amps_of. rewrite map_app, list_sum_app. reflexivity. Qed.
Lemma amps_of_cons p ps : amps_of (p :: ps) = (amps (fst p) + amps (snd p) + amps_of ps)%nat. Proof. reflexivity. Qed.
Lemma amps_of_rev a : amps_of (rev a) = amps_of a. Proof. induction a as [|p a IH]; [reflexivity|]. cbn [rev]. rewrite amps_of_app, !amps_of_cons, IH. change (amps_of []) with 0%nat. lia. Qed.
Lemma amps_of_none ps : amps_of ps = 0%nat -> Forall no_amp ps.
Proof. induction ps as [|p ps IH]; intros H; [constructor|]. rewrite amps_of_cons in H. constructor; [split; apply amps_free; lia|apply IH; lia]. Qed.
(** ** What is written *)
Lemma amps_value v : amps (match v with [] => [] | _ => B "=" ++ appendEscaped paramc v end) = amps v.
Proof. destruct v as [|c v]; [reflexivity|]. rewrite amps_app, amps_escaped by reflexivity. reflexivity. Qed.
Lemma params_amps ps : amps (uriparam_append ps) = amps_of ps.
Proof. induction ps as [|[n v] ps IH]; [reflexivity|]. cbn [uriparam_append]. rewrite !amps_app, IH, amps_value, amps_escaped by reflexivity. rewrite amps_of_cons. cbn [fst snd]. change (amps (B ";")) with 0%nat. lia. Qed.
Lemma headers_amps hs : amps (uriheader_append hs) = (amps_of hs + (length hs - 1))%nat.
Proof.
  induction hs as [|[n v] hs IH]; [reflexivity|]. cbn [uriheader_append]. rewrite !amps_app, amps_value, amps_escaped by reflexivity. rewrite amps_of_cons. cbn [fst snd]. destruct hs as [|h hs]; [change (amps_of []) with 0%nat; change (amps (B "?")) with 0%nat; cbn [length]; lia|].
  rewrite amps_app, IH. change (amps (B "&")) with 1%nat. cbn [length]. lia.
Qed.
Lemma written_amps u : (u_user u = [] -> u_pass u = []) -> (amps (u_user u) + amps (u_pass u) + amps_of (u_param u) + amps_of (u_header u) + (length (u_header u) - 1) <= amps (uri_append u))%nat.
Proof.
  intros H. unfold uri_append. rewrite !amps_app, params_amps, headers_amps. destruct (u_user u) as [|c us]; [rewrite H by reflexivity; cbn; lia|]. rewrite !amps_app. destruct (u_pass u) as [|d p]; [rewrite amps_escaped by reflexivity; cbn; lia|]. rewrite !amps_app, !amps_escaped by reflexivity. lia.
Qed.
(** ** What is read *)
Lemma slot_amps cls v t : slot cls v t -> (amps t <= amps v)%nat. Proof. intros [L <-]. exact (amps_decoded cls t L). Qed.
Lemma slot_none cls v t : (forall c, cls c = true -> beq "&" c = false) -> slot cls v t -> amps t = 0%nat. Proof. intros C [L _]. exact (amps_legal cls t C L). Qed.
Lemma item_amps cls p t : item_text cls p t -> (amps t <= amps (fst p) + amps (snd p))%nat.
Proof. intros (tn & tv & -> & _ & S1 & S2). rewrite amps_app. apply slot_amps in S1. destruct S2 as [[-> _]|(x & -> & _ & S2)]; [cbn; lia|]. apply slot_amps in S2. rewrite amps_app. change (amps (B "=")) with 0%nat. lia. Qed.
Lemma header_none c : header_class c = true -> beq "&" c = false. Proof. destruct c; vm_compute; congruence. Qed.
Lemma header_amps p t : item_text header_class p t -> amps t = 0%nat.
Proof. intros (tn & tv & -> & _ & S1 & S2). rewrite amps_app. rewrite (slot_none _ _ _ header_none S1). destruct S2 as [[-> _]|(x & -> & _ & S2)]; [reflexivity|]. rewrite amps_app, (slot_none _ _ _ header_none S2). reflexivity. Qed.
Lemma params_read t ps : params_text t ps -> (amps t <= amps_of ps)%nat.
Proof. intros (ts & F & ->). induction F as [|p x ps ts I F IH]; [cbn; lia|]. cbn [map concat]. rewrite !amps_app. apply item_amps in I. rewrite amps_of_cons. change (amps (B ";")) with 0%nat. lia. Qed.
Lemma headers_read t hs : headers_text t hs -> amps t = (length hs - 1)%nat.
Proof.
  intros [[-> ->]|(x & ts & F & ->)]; [reflexivity|]. inversion F as [|p ? ps ? I F2]; subst. rewrite !amps_app, (header_amps _ _ I). change (amps (B "?")) with 0%nat. cbn [length]. rewrite Nat.sub_succ, Nat.sub_0_r. clear -F2. induction F2 as [|p x ps ts I F IH]; [reflexivity|]. cbn [map concat length]. rewrite !amps_app, (header_amps _ _ I). change (amps (B "&")) with 1%nat. lia.
Qed.
Lemma digits_none d n : digits_value d = Some n -> amps d = 0%nat.
Proof. intros H. apply digits_value_digits in H. apply (amps_none is_digit); [|exact H]. intros c. destruct c; vm_compute; congruence. Qed.
Lemma read_amps s u : uri_text s u -> (amps s <= amps (u_user u) + amps (u_pass u) + amps_of (u_param u) + (length (u_header u) - 1))%nat.
Proof.
  intros (sch & inf & hst & prt & par & hdr & -> & (c & r & -> & A & SC & _) & UI & (x & _ & _ & HT) & PT & PA & HD). rewrite !amps_app. apply params_read in PA. apply headers_read in HD. rewrite amps_of_rev in PA. rewrite rev_length in HD. change (amps (B ":")) with 0%nat.
  assert (S0 : amps (c :: r) = 0%nat). { change (c :: r) with ([c] ++ r). rewrite amps_app, (amps_none scheme_class r); [|intros y; destruct y; vm_compute; congruence|exact SC]. rewrite (amps_none alpha_class [c]); [reflexivity|intros y; destruct y; vm_compute; congruence|cbn [forallb]; rewrite A; reflexivity]. }
  assert (H0 : amps hst = 0%nat). { destruct HT as [[-> F]|[-> F]]; [|rewrite !amps_app; change (amps (B "[")) with 0%nat; change (amps (B "]")) with 0%nat]; [apply (amps_none host_class)|rewrite (amps_none ip6_class x)]; try exact F; try reflexivity; intros y; destruct y; vm_compute; congruence. }
  assert (P0 : amps prt = 0%nat). { destruct PT as [[-> _]|(d & n & -> & D & _)]; [reflexivity|]. rewrite amps_app, (digits_none d n D). reflexivity. }
  assert (U0 : (amps inf <= amps (u_user u) + amps (u_pass u))%nat).
  { destruct UI as [(-> & -> & ->)|(tu & tp & -> & _ & SU & SP)]; [cbn; lia|]. rewrite !amps_app. change (amps (B "@")) with 0%nat. apply slot_amps in SU. destruct SP as [[-> ->]|(y & -> & _ & SP)]; [cbn; lia|]. apply slot_amps in SP. rewrite amps_app. change (amps (B ":")) with 0%nat. lia. }
  rewrite S0, H0, P0. lia.
Qed.
(** ** Exactly *)
(** A well-formed URI survives if, and only if, no name and no value of its headers contains the character &. *)
Theorem uri_round_trip_exact : forall u, wf_uri u -> (parse_uri (uri_string (Some u)) = POk u <-> Forall no_amp (u_header u)).
Proof.
  intros u W. split; [|exact (uri_round_trip_partial u W)]. intros P. apply uri_parse_exact in P. apply read_amps in P. destruct W as (_ & HU & _). pose proof (written_amps u HU) as Q. cbn [uri_string] in P. apply amps_of_none. lia.
Qed.
Theorem uri_reparse_exact : forall s u, parse_uri s = POk u -> (parse_uri (uri_string (Some u)) = POk u <-> Forall no_amp (u_header u)).
Proof. intros s u P. apply uri_round_trip_exact. exact (uri_parsed_is_wf s u P). Qed.
(** both happen *)
Example amp_example : let u h := mkuri (B "sip") (B "bob") [] (B "example.com") 5070 [] [h] in
  wf_uri (u (B "subject", B "a")) /\ Forall no_amp [(B "subject", B "a")] /\ wf_uri (u (B "subject", B "a&b=c")) /\ ~ Forall no_amp [(B "subject", B "a&b=c")].
Proof.
  assert (W : forall h, fst h <> [] -> wf_uri (mkuri (B "sip") (B "bob") [] (B "example.com") 5070 [] [h])).
  { intros h N. split; [eexists _, _; split; [reflexivity|]; repeat split|]. split; [reflexivity|]. split; [split; [discriminate|]; split; reflexivity|]. split; [cbn; lia|]. split; repeat constructor. exact N. }
  cbv zeta. split; [apply W; discriminate|]. split; [repeat constructor|]. split; [apply W; discriminate|]. intros F. inversion F as [|? ? [_ F1] _]; subst. discriminate F1.
Qed.

(** An address without URI is written with nothing between the brackets, whatever stands beside it in the list. *)
Theorem addr_without_uri : forall display params next, addr_append (mkaddr None display params :: next) =
  (match display with [] => [] | _ => appendQuoted display ++ B " " end) ++ B "<>" ++ param_append params ++ match next with [] => [] | _ => B ", " ++ addr_append next end.
Proof. intros display params next. destruct display; reflexivity. Qed.
Example addr_without_uri_example : addr_append [mkaddr None (B "Bob") []; mkaddr None [] [(B "tag", B "x")]] = appendQuoted (B "Bob") ++ B " <>, <>;tag=x".
Proof. reflexivity. Qed.
Print Assumptions addr_without_uri.
