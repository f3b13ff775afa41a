(** C16, C17, C25 continued: what is left empty reads back as its default. The serialisers write a default for many an empty field
    (sip/uri.go:80-85, sip/via.go:38-55, sip/msg.go:137-150, sdp/sdp.go:301-331, sdp/origin.go:33-60, sdp/media.go:37-41), so a message
    an application puts together with few fields is a message with all of them for the one who reads it. *)
From Verif Require Import Bytes BytesLemmas GoLib GoLibLemmas SdpModel SdpProofs P_Sdp SipText SipTypes SipAppend P_Text P_Lists UriSpec P_Uri MsgModel MsgSpec MsgGrammar P_MsgText MsgWf MsgRound P_MsgRound DialogMsg P_DialogMsg.
Local Open Scope Z_scope.

(** ** The message as it is read: [or_else x d] is [d] if [x] is empty *)
Definition written_uri (u : uri) : uri := mkuri (or_else (u_scheme u) (B "sip")) (u_user u) (u_pass u) (u_host u) (u_port u) (u_param u) (u_header u).
Definition written_addr (a : addr) : addr := mkaddr (option_map written_uri (a_uri a)) (a_display a) (a_param a).
Definition written_via (v : via) : via := mkvia (or_else (v_protocol v) (B "SIP")) (or_else (v_version v) (B "2.0")) (or_else (v_transport v) (B "UDP")) (v_host v) (v_port v) (v_param v).
Definition written_origin (rid : bytes) (o : origin) : origin :=
  mkorigin (or_else (o_user o) (B "-")) (or_else (o_id o) rid) (or_else (o_version o) (or_else (o_id o) rid)) (or_else (o_addr o) (B "69.28.157.198")).
Definition written_media (m : media) : media := mkmedia (or_else (m_proto m) (B "RTP/AVP")) (m_port m) (m_codecs m).
Definition written_sdp (rid : bytes) (d : sdp) : sdp :=
  mksdp (written_origin rid (s_origin d)) (or_else (s_addr d) (B "69.28.157.198")) (option_map written_media (s_audio d)) (option_map written_media (s_video d))
    (or_else (s_session d) (B "my people call themselves dark angels")) (or_else (s_time d) (B "0 0")) (s_ptime d) (s_sendonly d) (s_recvonly d) (s_attrs d) (s_other d).
Definition written_payload (rid : bytes) (p : payload) : payload := match p with Misc t d => Misc t d | PSdp d => PSdp (written_sdp rid d) end.
Definition nasa : uri := mkuri (B "sip") [] [] (B "www.nasa.gov") 80 [] [].
Definition written (rid : bytes) (m : msg) : msg :=
  mkmsg (vmaj m) (vmin m) (or_else (method m) (B "INVITE")) (Some (match request m with Some u => written_uri u | None => nasa end)) (status m) (phrase m)
    (option_map (written_payload rid) (pay m)) (source m) (fun f => map written_addr (addrs m f)) (map written_via (vias m))
    (callid m) (cseq m) (cseqmethod m) (maxforwards m) (expires m) (minexpires m) (strs m) (xheader m).

(** ** The text is the same *)
Lemma written_uri_text u : uri_append (written_uri u) = uri_append u.
Proof. destruct u as [[|c s] us pa h p l k]; reflexivity. Qed.
Lemma written_addr_text l : addr_append (map written_addr l) = addr_append l.
Proof.
  induction l as [|a l IH]; [reflexivity|]. cbn [map addr_append]. unfold written_addr at 1 2 3. cbn [a_display a_uri a_param].
  assert (E : uri_string (option_map written_uri (a_uri a)) = uri_string (a_uri a)) by (destruct (a_uri a); [apply written_uri_text|reflexivity]). rewrite E.
  destruct l as [|b l]; [reflexivity|]. cbn [map] in IH |- *. rewrite IH. reflexivity.
Qed.
Lemma written_opt_addr n l : opt_addr n (map written_addr l) = opt_addr n l.
Proof. destruct l as [|a l]; [reflexivity|]. unfold opt_addr. rewrite written_addr_text. reflexivity. Qed.
Lemma written_via_text v : via_append (written_via v) = via_append v.
Proof. destruct v as [[|] [|] [|] h p l]; reflexivity. Qed.
Lemma written_sdp_text rid d : sdp_append rid (written_sdp rid d) = sdp_append rid d.
Proof.
  destruct d as [[ou oi ov oa] da au vi se ti pt so ro at_ ot].
  assert (M : forall ty m, media_append ty (written_media m) = media_append ty m) by (intros ty [[|] p c]; reflexivity).
  unfold sdp_append, written_sdp. cbn [s_origin s_addr s_audio s_video s_session s_time s_ptime s_sendonly s_recvonly s_attrs s_other].
  assert (O : origin_append rid (written_origin rid (mkorigin ou oi ov oa)) = origin_append rid (mkorigin ou oi ov oa)).
  { unfold origin_append, written_origin. cbn [o_user o_id o_version o_addr]. destruct oi as [|c oi]; [|destruct ou, ov, oa; reflexivity]. destruct rid, ou, ov, oa; reflexivity. }
  rewrite O. replace (match option_map written_media au with Some m => media_append (B "audio") m | None => [] end) with (match au with Some m => media_append (B "audio") m | None => [] end) by (destruct au; [symmetry; apply M|reflexivity]).
  replace (match option_map written_media vi with Some m => media_append (B "video") m | None => [] end) with (match vi with Some m => media_append (B "video") m | None => [] end) by (destruct vi; [symmetry; apply M|reflexivity]).
  destruct se, da, ti; reflexivity.
Qed.
Lemma written_data rid p : Data rid (written_payload rid p) = Data rid p.
Proof. destruct p; [reflexivity|apply written_sdp_text]. Qed.
Theorem written_text : forall rid m, msg_append rid (written rid m) = msg_append rid m.
Proof.
  intros rid m. unfold msg_append. f_equal.
  - assert (E : via_lines (map written_via (vias m)) = via_lines (vias m)) by (unfold via_lines; rewrite map_map; f_equal; apply map_ext; intros v; rewrite written_via_text; reflexivity).
    assert (S : start_line (written rid m) = start_line m).
    { unfold start_line. change (IsResponse (written rid m)) with (IsResponse m). destruct (IsResponse m); [reflexivity|]. cbn [negb written method request]. destruct (request m) as [u|]; [rewrite written_uri_text|]; destruct (method m); reflexivity. }
    unfold head_lines. rewrite S. cbn [written addrs vias callid cseq cseqmethod strs maxforwards xheader expires minexpires].
    change (IsResponse (written rid m)) with (IsResponse m). assert (R : bseq (method (written rid m)) (B "REGISTER") = bseq (method m) (B "REGISTER")) by (cbn [written method]; destruct (method m); reflexivity).
    rewrite !written_addr_text, !written_opt_addr, E, R. reflexivity.
  - unfold tail_lines. cbn [written pay]. destruct (pay m) as [p|]; [|reflexivity]. cbn [option_map]. rewrite written_data. destruct p; reflexivity.
Qed.

(** ** C16 and C25 with empty fields *)
(** A message which is well formed once its empty fields are given their defaults is read back with those defaults. *)
Theorem defaults_round_trip_partial : forall rid m, msg_ok rid (written rid m) ->
  exists m', parse_msg (msg_append rid m) = MOk m' /\ survives (written rid m) m'.
Proof. intros rid m OK. destruct (msg_round_trip_partial rid _ OK) as (m' & P & S). rewrite written_text in P. eauto. Qed.
Theorem sdp_defaults_round_trip : forall rid d, wf_sdp (written_sdp rid d) -> sdp_parse (sdp_append rid d) = Ok (inl (written_sdp rid d)).
Proof. intros rid d W. rewrite <- (written_sdp_text rid d). apply sdp_roundtrip. exact W. Qed.
(** A session description with an address for the media only, as a phone makes it, can be read back: codecs and ports are all it takes. *)
Theorem sparse_sdp_round_trip : forall rid id addr a, wf_media (written_media a) = true -> word id = true -> host addr = true ->
  (forall c d, In c (m_codecs a) -> In d (m_codecs a) -> c_pt c = c_pt d -> c = d) ->
  exists d, sdp_parse (sdp_append rid (mksdp (mkorigin [] id [] addr) addr (Some a) None [] [] 0 false false [] [])) = Ok (inl d) /\
    s_addr d = addr /\ s_origin d = mkorigin (B "-") id id addr /\ s_audio d = Some (written_media a) /\ s_video d = None.
Proof.
  intros rid id addr a WM WI WA U. eexists. split; [apply sdp_defaults_round_trip|]; unfold written_sdp, written_origin; cbn [s_origin s_addr s_audio s_video s_session s_time s_ptime s_sendonly s_recvonly s_attrs s_other o_user o_id o_version o_addr option_map].
  - assert (NI : id <> []) by (intros ->; discriminate). assert (NA : addr <> []) by (intros ->; discriminate).
    assert (EI : or_else id rid = id) by (destruct id; [congruence|reflexivity]). assert (EA : forall x, or_else addr x = addr) by (intros x; destruct addr; [congruence|reflexivity]).
    unfold wf_sdp. cbn [s_origin s_addr s_audio s_video s_session s_time s_ptime s_sendonly s_recvonly s_attrs s_other]. unfold wf_origin. cbn [o_user o_id o_version o_addr or_else]. rewrite EI, !EA, WI, WA.
    split; [reflexivity|]. split; [reflexivity|]. split; [reflexivity|]. split; [reflexivity|]. split; [left; discriminate|]. split; [intros m [E|E]; [injection E as <-; exact WM|discriminate]|].
    split; [cbn [media_codecs]; rewrite app_nil_r; exact U|]. split; [lia|]. repeat split.
  - assert (EI : or_else id rid = id) by (destruct id; [discriminate|reflexivity]). assert (EA : forall x, or_else addr x = addr) by (intros x; destruct addr; [discriminate|reflexivity]). rewrite EI, !EA. repeat split.
Qed.
(** sdp.New: what a peer reads is the address, the codecs in their order, RTP/AVP as protocol and the port, of which the lower sixteen bits count. *)
Theorem new_round_trip : forall rid ip port id codecs, word id = true -> host ip = true -> wf_media (mkmedia (B "RTP/AVP") (port mod 65536) codecs) = true ->
  (forall c d, In c codecs -> In d codecs -> c_pt c = c_pt d -> c = d) ->
  sdp_parse (sdp_append rid (sdp_new ip port id codecs)) = Ok (inl (mksdp (mkorigin (B "-") id id ip) ip (Some (mkmedia (B "RTP/AVP") (port mod 65536) codecs)) None (B "my people call themselves dark angels") (B "0 0") 0 false false [] [])).
Proof.
  intros rid ip port id codecs WI WA WM U. unfold sdp_new. change (u16 port) with (port mod 65536).
  assert (EI : forall x, or_else id x = id) by (intros x; destruct id; [discriminate|reflexivity]). assert (EA : forall x, or_else ip x = ip) by (intros x; destruct ip; [discriminate|reflexivity]).
  rewrite sdp_defaults_round_trip; unfold written_sdp, written_origin, written_media; cbn [s_origin s_addr s_audio s_video s_session s_time s_ptime s_sendonly s_recvonly s_attrs s_other o_user o_id o_version o_addr option_map m_proto m_port m_codecs]; rewrite ?EI, ?EA.
  - reflexivity.
  - unfold wf_sdp. cbn [s_origin s_addr s_audio s_video s_session s_time s_ptime s_sendonly s_recvonly s_attrs s_other]. unfold wf_origin. cbn [o_user o_id o_version o_addr or_else]. rewrite WI, WA.
    split; [reflexivity|]. split; [reflexivity|]. split; [reflexivity|]. split; [reflexivity|]. split; [left; discriminate|]. split; [intros m [E|E]; [injection E as <-; exact WM|discriminate]|].
    split; [cbn [media_codecs m_codecs]; rewrite app_nil_r; exact U|]. split; [lia|]. repeat split.
Qed.
Example new_example : let c := [mkcodec 0 (B "PCMU") 8000 [] []; mkcodec 101 (B "telephone-event") 8000 [] (B "0-16")] in
  word (B "17") = true /\ host (B "10.0.0.1") = true /\ wf_media (mkmedia (B "RTP/AVP") ((65536 + 5004) mod 65536) c) = true /\ (forall x y, In x c -> In y c -> c_pt x = c_pt y -> x = y).
Proof. cbv zeta. repeat split. intros x y [<-|[<-|[]]] [<-|[<-|[]]]; cbn; congruence. Qed.
(** An application that leaves everything to the defaults calls a web server *)
Example nothing_given : parse_msg (msg_append [] (set_callid (B "x") (set_addr From [mkaddr (Some (mkuri [] (B "a") [] (B "h") 0 [] [])) [] []] (set_addr To [mkaddr (Some (mkuri [] [] [] (B "h") 0 [] [])) [] []]
    (set_cseqmethod (B "INVITE") (set_vias [mkvia [] [] [] (B "h") 0 []] msg0)))))) <> MOk msg0 /\
  match parse_msg (msg_append [] (set_callid (B "x") (set_addr From [mkaddr (Some (mkuri [] (B "a") [] (B "h") 0 [] [])) [] []] (set_addr To [mkaddr (Some (mkuri [] [] [] (B "h") 0 [] [])) [] []]
    (set_cseqmethod (B "INVITE") (set_vias [mkvia [] [] [] (B "h") 0 []] msg0)))))) with
  | MOk m => method m = B "INVITE" /\ request m = Some nasa /\ addrs m From = [mkaddr (Some (mkuri (B "sip") (B "a") [] (B "h") 0 [] [])) [] []] /\ vias m = [mkvia (B "SIP") (B "2.0") (B "UDP") (B "h") 0 []]
  | _ => False end.
Proof. split; [vm_compute; discriminate|]. vm_compute. repeat split. Qed.
Print Assumptions defaults_round_trip_partial.
Print Assumptions sdp_defaults_round_trip.
Print Assumptions sparse_sdp_round_trip.
