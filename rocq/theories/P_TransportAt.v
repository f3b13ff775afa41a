(** C66: a transport advertises the address it listens at. *)
From Verif Require Import Bytes BytesLemmas GoLib GoLibLemmas SdpModel SipText SipTypes SipAppend UtilModel P_Text P_Lists DialogMsg P_DialogMsg MsgModel TransportModel P_Transport P_DialogCount.
Local Open Scope Z_scope.

(** where a list of Via entries says that the message comes from *)
Definition sent_by (l : list via) : option (bytes * Z) := match l with v :: _ => Some (v_host v, v_port v) | [] => None end.
(** The Contact [c] is the application's address [a] with the port of the socket and "transport=udp"; only the display name is not said. *)
Definition reached_at (a : addr) (lport : Z) (c : addr) : Prop := exists u u', a_uri a = Some u /\ a_uri c = Some u' /\ a_param c = a_param a /\
  u_scheme u' = u_scheme u /\ u_user u' = u_user u /\ u_pass u' = u_pass u /\ u_host u' = u_host u /\ u_port u' = lport /\ u_header u' = u_header u /\
  value_of (B "transport") (u_param u') = Some (B "udp") /\ forall n v, In (n, v) (u_param u) -> In (n, v) (u_param u').
(** The transports an application gets from one by sending any messages through it. *)
Inductive used : transport -> transport -> Prop :=
| unused tp : used tp tp
| used_once_more tp h w s tp' : Send tp h w = Ok s -> used (sd_tp s) tp' -> used tp tp'.

Definition kept_at (tv : list via) (tc : list addr) (m x : msg) : Prop :=
  (vias m = [] -> sent_by (vias x) = sent_by tv) /\ (vias m <> [] -> sent_by (vias x) = sent_by (vias m)) /\
  (addrs m Contact = [] -> addrs x Contact = tc) /\ (addrs m Contact <> [] -> addrs x Contact = addrs m Contact) /\ status x = status m.
Ltac atstep R := match goal with
  | |- all_ok ?P (let x := ?X in @?K x) => let y := fresh "y" in assert (y : R X); [|change (all_ok P (K X)); cbv beta; generalize dependent X; intros ? y]
  | |- all_ok ?P (rbind ?X ?K) => apply (all_ok_bind P R X K); [|let x := fresh "x" in let y := fresh "y" in intros x y] end.
Lemma populate_at tv tc m r : IsResponse m = false -> all_ok (kept_at tv tc m) (PopulateMessage tv tc m r).
Proof.
  intros IR. cbv delta [PopulateMessage] beta. rewrite IR. cbv iota.
  atstep (fun x => sent_by (vias x) = sent_by (match vias m with [] => tv | _ => vias m end) /\ addrs x Contact = addrs m Contact /\ status x = status m); [destruct (vias m) eqn:E; rewrite ?E; cbn; rewrite ?E; auto|].
  atstep (kept_at tv tc m).
  { destruct y as (y1 & y2 & y3). destruct (addrs _ Contact) eqn:E; unfold kept_at; cbn [vias set_addr set_addrs addrs status]; rewrite ?y1, <- ?y2; destruct (vias m); rewrite ?E; repeat split; try congruence; intros; cbn; congruence. }
  clear y. atstep (kept_at tv tc m); [destruct (addrs _ To); exact y0|]. clear y0.
  atstep (kept_at tv tc m).
  { destruct (addrs _ From) eqn:E; [|apply all_ok_ok; exact y]. destruct (addr_Copy _) as [|a l]; [apply all_ok_panic|]. apply all_ok_bind'. intros u. apply all_ok_ok. exact y. }
  clear y. atstep (kept_at tv tc m).
  { destruct (callid _) eqn:E; [|apply all_ok_ok; exact y0]. apply all_ok_bind'. intros c. apply all_ok_ok. exact y0. }
  clear y0. atstep (kept_at tv tc m); [destruct (Z.eqb_spec (cseq x0) 0); exact y|]. clear y.
  atstep (kept_at tv tc m); [destruct (cseqmethod _) eqn:E; exact y0|]. clear y0.
  atstep (kept_at tv tc m); [destruct (maxforwards _ =? 0); exact y|]. clear y.
  atstep (kept_at tv tc m); [destruct (strs _ UserAgent) eqn:E; exact y0|]. clear y0.
  atstep (kept_at tv tc m).
  { destruct (vias _) as [|v l] eqn:E; [apply all_ok_panic|]. destruct (param_get _ _); apply all_ok_ok; [exact y|]. unfold kept_at in *. rewrite E in y. exact y. }
  clear y. destruct (addrs _ From) as [|a l] eqn:E; [apply all_ok_panic|]. destruct (param_get (a_param a) (B "tag")) eqn:G; apply all_ok_ok; exact y0.
Qed.
Lemma route_at tv tc m m' x : IsResponse m = false -> RouteMessage tv tc m = Ok (m', x) -> vias m' = vias m /\ addrs m' Contact = addrs m Contact /\ status m' = status m.
Proof.
  intros IR. unfold RouteMessage. rewrite IR. set (y := if addr_CompareHostPort tc (addrs m Route) then _ else _).
  assert (K : vias y = vias m /\ addrs y Contact = addrs m Contact /\ status y = status m) by (unfold y; destruct (addr_CompareHostPort _ _); repeat split; reflexivity). clearbody y.
  destruct (addrs y Route) as [|r1 rs]; [intros H; apply rbind_ok in H; destruct H as (u & _ & H); injection H as <- <-; exact K|].
  destruct (bseq (method y) (B "REGISTER")); [intros H; injection H as <- <-; exact K|]. intros H. apply rbind_ok in H. destruct H as (u & _ & H).
  destruct (param_get (u_param u) (B "lr")); [injection H as <- <-; exact K|]. apply rbind_ok in H. destruct H as (q & _ & H). apply rbind_ok in H. destruct H as (u' & _ & H). injection H as <- <-. exact K.
Qed.
Lemma stamp_at m st m' : addTimestamp m st = Ok m' -> sent_by (vias m') = sent_by (vias m) /\ addrs m' Contact = addrs m Contact /\ status m' = status m.
Proof. unfold addTimestamp. destruct st; [destruct (vias m) eqn:E; [discriminate|]|]; intros H; injection H as <-; repeat split; reflexivity. Qed.

Lemma kept_trans tv tc m x y : kept_at tv tc m x -> sent_by (vias y) = sent_by (vias x) -> addrs y Contact = addrs x Contact -> status y = status x -> kept_at tv tc m y.
Proof. unfold kept_at. intros (H1 & H2 & H3 & H4 & H5) -> -> ->. auto. Qed.
(** What is written and what is left behind say the same. *)
Lemma send_at tp h w s : IsResponse (view tp h) = false -> Send tp h w = Ok s ->
  kept_at [tp_via tp] (tp_contact tp) (view tp h) (h_msg (sd_held s)) /\ (forall a t x, In (a, t, x) (sd_wire s) -> t = h_msg (sd_held s)) /\
  sent_by [tp_via (sd_tp s)] = sent_by [tp_via tp] /\ tp_contact (sd_tp s) = tp_contact tp.
Proof.
  intros IR. unfold Send. rewrite IR. cbv zeta. cbn [negb andb].
  set (shared := h_shared h || match vias (view tp h) with [] => true | _ => false end).
  assert (SH : shared = true -> vias (view tp h) = [] \/ vias (view tp h) = [tp_via tp]).
  { unfold shared. destruct (vias (view tp h)) eqn:E; [auto|]. rewrite orb_false_r. intros X. revert E. unfold view. rewrite X. cbn. auto. }
  clearbody shared. intros H. apply rbind_ok in H. destruct H as (m1 & P & H). pose proof (populate_at _ _ _ _ IR _ P) as K1. clear P.
  apply rbind_ok in H. destruct H as ([m2 r] & R & H). assert (IR1 : IsResponse m1 = false) by (unfold IsResponse in *; destruct K1 as (_ & _ & _ & _ & ->); exact IR).
  destruct (route_at _ _ _ _ _ IR1 R) as (V2 & C2 & S2). assert (K2 : kept_at [tp_via tp] (tp_contact tp) (view tp h) m2) by (apply (kept_trans _ _ _ m1); congruence). clear K1 R IR1 V2 C2 S2 m1.
  assert (L : forall m' wire ok, kept_at [tp_via tp] (tp_contact tp) (view tp h) m' -> (wire = [] \/ exists a x, wire = [(a, m', x)]) ->
    let s := left_behind tp shared m' wire ok in kept_at [tp_via tp] (tp_contact tp) (view tp h) (h_msg (sd_held s)) /\ (forall a t x, In (a, t, x) (sd_wire s) -> t = h_msg (sd_held s)) /\
    sent_by [tp_via (sd_tp s)] = sent_by [tp_via tp] /\ tp_contact (sd_tp s) = tp_contact tp).
  { intros m' wire ok K W. unfold left_behind. cbn [sd_held h_msg sd_wire sd_tp]. split; [exact K|]. split.
    - intros a t x I. destruct W as [->|(b & y & ->)]; [destruct I|]. destruct I as [I|[]]. congruence.
    - destruct shared; [|auto]. destruct K as (K1 & K2' & _). destruct (vias m') as [|v l] eqn:E; [auto|]. cbn [tp_via tp_contact]. split; [|reflexivity].
      destruct (SH eq_refl) as [Y|Y]; [exact (K1 Y)|]. rewrite Y in K2'. rewrite <- (K2' ltac:(discriminate)). reflexivity. }
  destruct r as [[host port]|e]; [|injection H as <-; apply L; auto].
  destruct (n_resolve w _) as [a|]; [|injection H as <-; apply L; auto].
  set (m3 := if 0 <? maxforwards m2 then _ else _) in *. assert (K3 : kept_at [tp_via tp] (tp_contact tp) (view tp h) m3) by (unfold m3; destruct (0 <? maxforwards m2); exact K2). clearbody m3.
  apply rbind_ok in H. destruct H as (m4 & T & H). destruct (stamp_at _ _ _ T) as (V4 & C4 & S4). injection H as <-. apply L; [apply (kept_trans _ _ _ m3); assumption|]. right. eauto.
Qed.
Lemma send_response_at tp h w s : IsResponse (view tp h) = true -> Send tp h w = Ok s -> sd_tp s = tp.
Proof.
  intros IR. unfold Send. rewrite IR. cbv zeta. cbn [negb andb]. rewrite orb_false_r. unfold PopulateMessage. rewrite IR. cbn [rbind]. intros H. apply rbind_ok in H. destruct H as ([m2 r] & R & H).
  destruct (h_shared h) eqn:E.
  - exfalso. revert R. unfold RouteMessage. rewrite IR. unfold view. rewrite E. cbn [set_vias vias via_CompareHostPort]. rewrite bseq_refl, Z.eqb_refl. cbn. discriminate.
  - destruct r as [[host port]|e]; [|injection H as <-; reflexivity]. destruct (n_resolve w _) as [a|]; [|injection H as <-; reflexivity].
    apply rbind_ok in H. destruct H as (m4 & T & H). injection H as <-. reflexivity.
Qed.
Lemma used_at tp tp' : used tp tp' -> sent_by [tp_via tp'] = sent_by [tp_via tp] /\ tp_contact tp' = tp_contact tp.
Proof.
  induction 1 as [tp|tp h w s tp' S U (IH1 & IH2)]; [auto|]. rewrite IH1, IH2. destruct (IsResponse (view tp h)) eqn:IR; [rewrite (send_response_at _ _ _ _ IR S); auto|].
  destruct (send_at _ _ _ _ IR S) as (_ & _ & A & C). auto.
Qed.

(** * C66 *)
(** The transport's own Via and Contact. *)
Theorem transport_advertises : forall contact lhost lport tp, NewTransport contact lhost lport = Ok tp ->
  sent_by [tp_via tp] = Some (lhost, lport) /\ exists a l c, contact = a :: l /\ tp_contact tp = [c] /\ reached_at a lport c.
Proof.
  intros contact lhost lport tp. unfold NewTransport. destruct contact as [|a l]; [discriminate|]. cbn [addr_Copy a_uri]. destruct (a_uri a) as [u|] eqn:E; [|discriminate]. cbn [deref rbind].
  intros H. injection H as <-. split; [reflexivity|]. exists a, l. eexists. split; [reflexivity|]. split; [reflexivity|]. exists u. eexists. split; [exact E|]. split; [reflexivity|].
  cbn. repeat (split; [reflexivity|]). auto.
Qed.
(** It is made for every Contact with a URI. *)
Theorem transport_made : forall a l u lhost lport, a_uri a = Some u -> exists tp, NewTransport (a :: l) lhost lport = Ok tp.
Proof. intros a l u lhost lport E. unfold NewTransport. cbn [addr_Copy a_uri]. rewrite E. cbn. eauto. Qed.
(** However the transport was used before, a request which brings no Via or no Contact is written with that of the transport. *)
Theorem sent_from_here : forall contact lhost lport tp0 tp m w s t, NewTransport contact lhost lport = Ok tp0 -> used tp0 tp ->
  status m <= 0 -> Send tp (mkheld m false) w = Ok s -> In t (map (fun x => snd (fst x)) (sd_wire s)) ->
  (vias m = [] -> sent_by (vias t) = Some (lhost, lport)) /\
  (addrs m Contact = [] -> exists a l c, contact = a :: l /\ addrs t Contact = [c] /\ reached_at a lport c).
Proof.
  intros contact lhost lport tp0 tp m w s t N U S0 S I. destruct (transport_advertises _ _ _ _ N) as (V & a & l & c & EC & TC & RA). destruct (used_at _ _ U) as (UV & UC).
  assert (IR : IsResponse (view tp (mkheld m false)) = false) by (unfold IsResponse; cbn; apply Z.ltb_ge; exact S0).
  destruct (send_at _ _ _ _ IR S) as ((K1 & _ & K3 & _) & W & _ & _). apply in_map_iff in I. destruct I as ([[d t'] x] & E & I). cbn in E. subst t'. rewrite (W _ _ _ I). cbn [view h_shared h_msg] in K1, K3.
  split; [intros Z; rewrite (K1 Z), UV; exact V|]. intros Z. exists a, l, c. rewrite (K3 Z), UC. auto.
Qed.
(** The display name is not kept: Copy drops it. *)
Theorem contact_display_refuted : forall contact lhost lport tp, NewTransport contact lhost lport = Ok tp -> map a_display (tp_contact tp) = [[]].
Proof. intros contact lhost lport tp. unfold NewTransport. destruct contact as [|a l]; [discriminate|]. cbn [addr_Copy a_uri]. destruct (a_uri a) as [u|] eqn:E; [|discriminate]. cbn [deref rbind]. intros H. injection H as <-. reflexivity. Qed.

Definition ex_app : list addr := [mkaddr (Some (mkuri (B "sip") (B "me") [] (B "1.2.3.4") 0 [(B "lr", [])] [])) (B "Me") [(B "expires", B "60")]].
Definition ex_made : transport := match NewTransport ex_app (B "1.2.3.4") 40000 with Ok tp => tp | Panic => ex_tp end.
Definition ex_second : res sending := Send (after (Send ex_made (mkheld (ex_req []) false) (ex_wnet "a"))) (mkheld (ex_req []) false) (ex_wnet "b").
Example sent_from_here_met : NewTransport ex_app (B "1.2.3.4") 40000 = Ok ex_made /\ used ex_made (after (Send ex_made (mkheld (ex_req []) false) (ex_wnet "a"))) /\
  vias (ex_req []) = [] /\ addrs (ex_req []) Contact = [] /\
  exists s t a x, ex_second = Ok s /\ sd_wire s = [(a, t, x)] /\ sent_by (vias t) = Some (B "1.2.3.4", 40000) /\
    addrs t Contact = [mkaddr (Some (mkuri (B "sip") (B "me") [] (B "1.2.3.4") 40000 [(B "transport", B "udp"); (B "lr", [])] [])) [] [(B "expires", B "60")]].
Proof.
  split; [reflexivity|]. split.
  { remember (Send ex_made (mkheld (ex_req []) false) (ex_wnet "a")) as r eqn:E. destruct r as [s|]; [|vm_compute in E; discriminate]. eapply used_once_more; [symmetry; exact E|]. apply unused. }
  split; [reflexivity|]. split; [reflexivity|]. eexists _, _, _, _. split; [vm_compute; reflexivity|]. split; [vm_compute; reflexivity|]. split; vm_compute; reflexivity.
Qed.
