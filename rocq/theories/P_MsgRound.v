(** C03, C16: a message survives being written and read. *)
From Verif Require Import Bytes BytesLemmas GoLib GoLibLemmas SdpModel SdpProofs SipText SipTypes SipAppend P_Text UriSpec UriModel P_Uri P_Sdp MsgModel MsgSafe MsgSpec MsgNames MsgMeaning MsgLines P_Msg P_MsgText MsgWf MsgRound.
Local Open Scope Z_scope.

(** The message which comes back is the one which was written, in every field the property names, when nothing in it
    runs into one of the defects below. *)
Theorem msg_round_trip_same : forall rid m, msg_ok rid m -> Forall (fun v => v_port v <> 5060) (vias m) ->
  (IsResponse m = false -> 0 < maxforwards m) -> strs m AcceptContact = [] -> strs m RetryAfter = [] ->
  exists m', parse_msg (msg_append rid m) = MOk m' /\
    (IsResponse m = false -> method m' = method m /\ maxforwards m' = maxforwards m) /\ (IsResponse m = true -> phrase m <> [] -> phrase m' = phrase m) /\
    status m' = status m /\ (IsResponse m = false -> request m' = request m) /\ vias m' = vias m /\ (forall f, addrs m' f = addrs m f) /\
    callid m' = callid m /\ cseq m' = cseq m /\ cseqmethod m' = cseqmethod m /\ expires m' = expires m /\ minexpires m' = minexpires m /\
    (forall f, f <> AcceptContact -> f <> RetryAfter -> strs m' f = strs m f) /\ xheader m' = xheader m /\ pay m' = pay m /\ (vmaj m = 0 -> vmaj m' = 2 /\ vmin m' = 0) /\ (vmaj m <> 0 -> vmaj m' = vmaj m /\ vmin m' = vmin m).
Proof.
  intros rid m OK NP MF NA NR. destruct (msg_round_trip_partial rid m OK) as (m' & P & (RQ & RS & V & A & C & CS & CM & E & ME & ST & X & PY & VJ & VN)).
  exists m'. split; [exact P|]. split; [intros IR; destruct (RQ IR) as (M & _ & _ & F); split; [exact M|]; rewrite F; specialize (MF IR); destruct (Z.eqb_spec (maxforwards m) 0); lia|].
  split; [intros IR NE; destruct (RS IR) as (_ & ->); unfold the_phrase; destruct (phrase m); congruence|].
  split; [destruct (IsResponse m) eqn:IR; [apply (proj1 (RS eq_refl))|]; destruct (RQ eq_refl) as (_ & _ & -> & _); unfold IsResponse in IR; apply Z.ltb_ge in IR; destruct OK as [[(Z0 & _)|(Z1 & _)] _]; lia|].
  split; [intros IR; apply RQ; exact IR|]. split.
  { rewrite V. clear - NP. induction NP as [|v l N _ IH]; [reflexivity|]. cbn [map]. rewrite IH. f_equal. destruct v as [p1 p2 p3 p4 p5 p6]. unfold default_port_dropped. cbn [v_protocol v_version v_transport v_host v_port v_param] in *.
    destruct (Z.eqb_spec p5 5060); [congruence|reflexivity]. }
  split; [exact A|]. split; [exact C|]. split; [exact CS|]. split; [exact CM|]. split; [exact E|]. split; [exact ME|]. split; [exact ST|]. split; [rewrite X, NR; apply app_nil_r|]. split; [exact PY|].
  unfold the_vmaj, the_vmin in *. destruct (Z.eqb_spec (vmaj m) 0); split; auto; contradiction.
Qed.

(** * C03: display names and parameter values which are written in quotes come back unchanged *)
Theorem quoted_written : forall s, quotable s -> exists q, appendQuoted s = [DQ] ++ q ++ [DQ] /\ quoted_text q s.
Proof. intros s H. destruct (quotable_text s H) as (q & E & T). eauto. Qed.
Lemma addr_set f l m g : addrs (set_addr f l m) g = if afield_eqb f g then l else addrs m g. Proof. reflexivity. Qed.
Lemma afield_refl f : afield_eqb f f = true. Proof. destruct f; reflexivity. Qed.
Lemma msg_ok_set_addr rid f l m : msg_ok rid m -> l <> [] -> Forall addr_ok l -> msg_ok rid (set_addr f l m).
Proof.
  intros (S & VA & VI & NF & NT & AD & R) NE F. split; [exact S|]. split; [exact VA|]. split; [exact VI|].
  split; [rewrite addr_set; destruct (afield_eqb f From); assumption|]. split; [rewrite addr_set; destruct (afield_eqb f To); assumption|].
  split; [intros g; rewrite addr_set; destruct (afield_eqb f g); [exact F|apply AD]|]. exact R.
Qed.
Lemma msg_ok_set_vias rid l m : msg_ok rid m -> Forall via_ok l -> msg_ok rid (set_vias l m).
Proof. intros (S & VA & VI & NF & NT & AD & _ & R) F. exact (conj S (conj VA (conj VI (conj NF (conj NT (conj AD (conj F R))))))). Qed.
Theorem quoted_text_read_back_partial : forall rid m f u d n v, msg_ok rid m -> uri_ok u -> quotable d -> token n -> quotable v ->
  exists m', parse_msg (msg_append rid (set_addr f [mkaddr (Some u) d [(n, v)]] m)) = MOk m' /\ addrs m' f = [mkaddr (Some u) d [(n, v)]].
Proof.
  intros rid m f u d n v OK U D N V. destruct (msg_round_trip_partial rid (set_addr f [mkaddr (Some u) d [(n, v)]] m)) as (m' & P & S).
  { apply msg_ok_set_addr; [exact OK|discriminate|]. constructor; [|constructor]. split; [exists u; auto|]. split; [right; left; exact D|]. constructor; [|constructor]. split; [exact N|]. auto. }
  exists m'. split; [exact P|]. destruct S as (_ & _ & _ & A & _). rewrite A, addr_set, afield_refl. reflexivity.
Qed.
Theorem quoted_via_read_back_partial : forall rid m h n v, msg_ok rid m -> h <> [] -> forallb viahost_class h = true -> token n -> quotable v ->
  exists m', parse_msg (msg_append rid (set_vias [mkvia (B "SIP") (B "2.0") (B "UDP") h 0 [(n, v)]] m)) = MOk m' /\ map v_param (vias m') = [[(n, v)]].
Proof.
  intros rid m h n v OK NE H N V. destruct (msg_round_trip_partial rid (set_vias [mkvia (B "SIP") (B "2.0") (B "UDP") h 0 [(n, v)]] m)) as (m' & P & S).
  { apply msg_ok_set_vias; [exact OK|]. constructor; [|constructor]. repeat split; cbn; try discriminate; try assumption; try lia. constructor; [|constructor]. split; [exact N|]. auto. }
  exists m'. split; [exact P|]. destruct S as (_ & _ & A & _). rewrite A. reflexivity.
Qed.

(** * A well-formed message, and messages which do not come back *)
Definition rt_uri : uri := mkuri (B "sip") (B "bob") [] (B "example.com") 5070 [(B "transport", B "udp")] [].
Definition rt_addr : addr := mkaddr (Some rt_uri) (B "Bob ""the builder"" Smith") [(B "tag", B "abc"); (B "x", B "a;b")].
Definition rt_via : via := mkvia (B "SIP") (B "2.0") (B "UDP") (B "10.0.0.1") 5090 [(B "branch", B "z9hG4bK1")].
Definition rt_msg : msg :=
  mkmsg 2 0 (B "INVITE") (Some rt_uri) 0 [] (Some (PSdp sample)) None
    (fun f => match f with From | To => [rt_addr] | Route => [mkaddr (Some rt_uri) [] []; rt_addr] | _ => [] end) [rt_via; rt_via]
    (B "x@y") 7 (B "INVITE") 70 0 0 (fun f => match f with Subject => B "hello, world" | UserAgent => B "gosip" | _ => [] end) [(B "X-Foo", B "a: b")].
Lemma header_val_nil : header_val []. Proof. split; [constructor|]. intros c r E. discriminate. Qed.
Example rt_msg_ok : msg_ok (B "1") rt_msg.
Proof.
  assert (U : uri_ok rt_uri).
  { split; [|repeat constructor]. unfold wf_uri. cbn [rt_uri u_scheme u_user u_pass u_host u_port u_param u_header]. split; [exists "s"%byte, (B "ip"); repeat split|]. split; [discriminate|].
    split; [repeat split; discriminate|]. split; [lia|]. split; [repeat (constructor; [discriminate|])|]; constructor. }
  assert (A : addr_ok rt_addr).
  { split; [exists rt_uri; auto|]. split.
    - right. left. split; [exists """"%byte; split; [right; right; right; right; left; reflexivity|split; [reflexivity|discriminate]]|]. repeat (constructor; [reflexivity|discriminate|discriminate|]). constructor.
    - constructor; [split; [split; [discriminate|reflexivity]|right; left; split; [discriminate|reflexivity]]|]. constructor; [|constructor]. split; [split; [discriminate|reflexivity]|]. right. right.
      split; [exists ";"%byte; split; [right; left; reflexivity|split; [reflexivity|discriminate]]|]. repeat (constructor; [reflexivity|discriminate|discriminate|]). constructor. }
  assert (V : via_ok rt_via).
  { repeat split; cbn; try discriminate; try lia. constructor; [|constructor]. split; [split; [discriminate|reflexivity]|right; left; split; [discriminate|reflexivity]]. }
  unfold msg_ok. cbn [rt_msg vmaj vmin addrs vias callid cseq cseqmethod maxforwards expires minexpires strs xheader pay].
  split; [left; split; [reflexivity|]; split; [split; [discriminate|reflexivity]|]; exists rt_uri; auto|].
  split; [lia|]. split; [lia|]. split; [discriminate|]. split; [discriminate|].
  assert (A2 : addr_ok (mkaddr (Some rt_uri) [] [])) by (split; [exists rt_uri; auto|]; split; [left; reflexivity|constructor]).
  split; [intros []; repeat (constructor; [exact A || exact A2|]); constructor|].
  split; [constructor; [exact V|constructor; [exact V|constructor]]|].
  split; [exists (B "x"), (B "@y"); split; [reflexivity|]; split; [discriminate|]; split; [reflexivity|]; right; exists (B "y"); split; [reflexivity|]; split; [discriminate|reflexivity]|].
  split; [lia|]. split; [split; [discriminate|reflexivity]|]. split; [lia|]. split; [lia|]. split; [lia|].
  split; [intros []; try exact header_val_nil; (split; [repeat (constructor; [reflexivity|]); constructor|intros c r E; injection E as <- _; reflexivity])|].
  split; [constructor; [|constructor]; split; [exact (proj1 unknown_header_example)|exact (proj1 (proj2 unknown_header_example))]|].
  intros p E. injection E as <-. split; [vm_compute; reflexivity|]. exact roundtrip_nonvacuous.
Qed.
(** A Via port of 5060 is not written, and comes back as 0. *)
Theorem via_default_port_lost_refuted : exists m, msg_ok (B "1") m /\ map v_port (vias m) = [5060] /\
  forall m', parse_msg (msg_append (B "1") m) = MOk m' -> map v_port (vias m') = [0].
Proof.
  assert (OK : msg_ok (B "1") (set_vias [mkvia (B "SIP") (B "2.0") (B "UDP") (B "10.0.0.1") 5060 []] rt_msg)).
  { apply msg_ok_set_vias; [exact rt_msg_ok|]. constructor; [|constructor]. repeat split; cbn; try discriminate; try lia. constructor. }
  eexists. split; [exact OK|]. split; [reflexivity|]. intros m' E. destruct (msg_round_trip_partial _ _ OK) as (m2 & P & S).
  rewrite E in P. injection P as ->. destruct S as (_ & _ & -> & _). reflexivity.
Qed.
Lemma msg_ok_set_maxf rid n m : msg_ok rid m -> 0 <= n < 2 ^ 63 -> msg_ok rid (set_maxforwards n m).
Proof. intros (A1 & A2 & A3 & A4 & A5 & A6 & A7 & A8 & A9 & A10 & _ & R) F. exact (conj A1 (conj A2 (conj A3 (conj A4 (conj A5 (conj A6 (conj A7 (conj A8 (conj A9 (conj A10 (conj F R))))))))))). Qed.
(** Every request with Max-Forwards 0 comes back with Max-Forwards 70. *)
Theorem maxforwards_zero_refuted : forall rid m, msg_ok rid m -> IsResponse m = false -> maxforwards m = 0 ->
  exists m', parse_msg (msg_append rid m) = MOk m' /\ maxforwards m' = 70.
Proof. intros rid m OK IR Z0. destruct (msg_round_trip_partial rid m OK) as (m' & P & (RQ & _)). exists m'. split; [exact P|]. destruct (RQ IR) as (_ & _ & _ & ->). rewrite Z0. reflexivity. Qed.
Example maxforwards_zero_example : msg_ok (B "1") (set_maxforwards 0 rt_msg) /\ IsResponse (set_maxforwards 0 rt_msg) = false /\ maxforwards (set_maxforwards 0 rt_msg) = 0.
Proof. split; [apply msg_ok_set_maxf; [exact rt_msg_ok|lia]|]. split; reflexivity. Qed.
(** Accept-Contact is never written, and Retry-After is written as RetryAfter, which is another header. *)
Theorem accept_contact_lost_refuted : forall rid m v, msg_append rid (set_str AcceptContact v m) = msg_append rid m.
Proof. reflexivity. Qed.
Theorem retry_after_lost_refuted : forall rid m, msg_ok rid m -> strs m RetryAfter <> [] ->
  exists m', parse_msg (msg_append rid m) = MOk m' /\ In (B "RetryAfter", strs m RetryAfter) (xheader m').
Proof.
  intros rid m OK N. destruct (msg_round_trip_partial rid m OK) as (m' & P & (_ & _ & _ & _ & _ & _ & _ & _ & _ & _ & X & _)). exists m'. split; [exact P|]. rewrite X. apply in_or_app. right.
  destruct (strs m RetryAfter); [congruence|left; reflexivity].
Qed.
Lemma msg_ok_set_str rid f v m : msg_ok rid m -> header_val v -> msg_ok rid (set_str f v m).
Proof.
  intros (A1 & A2 & A3 & A4 & A5 & A6 & A7 & A8 & A9 & A10 & A11 & A12 & A13 & A14 & R) F.
  refine (conj A1 (conj A2 (conj A3 (conj A4 (conj A5 (conj A6 (conj A7 (conj A8 (conj A9 (conj A10 (conj A11 (conj A12 (conj A13 (conj _ R)))))))))))))).
  intros g. unfold set_str. cbn [strs set_strs]. destruct (sfield_eqb f g); [exact F|apply A14].
Qed.
Example retry_after_example : msg_ok (B "1") (set_str RetryAfter (B "120") rt_msg) /\
  exists m', parse_msg (msg_append (B "1") (set_str RetryAfter (B "120") rt_msg)) = MOk m' /\ strs m' RetryAfter = [].
Proof.
  split; [|eexists; split; [vm_compute; reflexivity|reflexivity]]. apply msg_ok_set_str; [exact rt_msg_ok|]. split; [repeat (constructor; [reflexivity|]); constructor|]. intros c r E. injection E as <- _. reflexivity.
Qed.
(** An empty payload is lost. *)
Theorem empty_payload_lost_refuted : exists m', parse_msg (msg_append (B "1") (set_pay (Some (Misc (B "text/plain") [])) rt_msg)) = MOk m' /\ pay m' = None.
Proof. eexists. split; [vm_compute; reflexivity|reflexivity]. Qed.
(** A display name with a letter outside ASCII is cut at that letter (the model's bytes of "Jürgen"); a parameter value made of
    words with a space is not quoted, and the packet is rejected; an IPv6 sent-by is written without brackets, and rejected. *)
Definition juergen : bytes := ["J"; xc3; xbc; "r"; "g"; "e"; "n"]%byte.
Theorem utf8_display_cut_refuted : exists m', parse_msg (msg_append (B "1") (set_addr To [mkaddr (Some rt_uri) juergen []] rt_msg)) = MOk m' /\ map a_display (addrs m' To) = [B "J"].
Proof. eexists. split; [vm_compute; reflexivity|reflexivity]. Qed.
Theorem spaced_value_rejected_refuted : exists e, parse_msg (msg_append (B "1") (set_addr To [mkaddr (Some rt_uri) [] [(B "x", B "a b")]] rt_msg)) = MErr e.
Proof. eexists. vm_compute. reflexivity. Qed.
Theorem ipv6_via_rejected_refuted : exists e, parse_msg (msg_append (B "1") (set_vias [mkvia (B "SIP") (B "2.0") (B "UDP") (B "2001:db8::1") 5090 []] rt_msg)) = MErr e.
Proof. eexists. vm_compute. reflexivity. Qed.
