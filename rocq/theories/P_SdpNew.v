(** C101: the session description that New makes. *)
From Verif Require Import Bytes BytesLemmas GoLib GoLibLemmas SdpModel SdpProofs P_Sdp SipText SipTypes UtilModel P_Text P_FoneCall.
Local Open Scope Z_scope.

(** ** Specification: the text, line by line (RFC 4566) *)
Definition text_of (lines : list bytes) : bytes := concat (map (fun l => l ++ CRLF) lines).
(** the kind of an address: with a colon it is an IPv6 address *)
Definition ip_kind (ip : bytes) : bytes := if contains_byte ":" ip then B "IP6" else B "IP4".
(** payload type, name, clock rate, and perhaps parameters (number of channels), as in a=rtpmap; then, if there is one, the format as in a=fmtp *)
Definition rtpmap_line (c : codec) : bytes := B "a=rtpmap:" ++ itoa (c_pt c) ++ B " " ++ c_name c ++ B "/" ++ itoa (c_rate c) ++ (if bseq (c_param c) [] then [] else B "/" ++ c_param c).
Definition fmtp_lines (c : codec) : list bytes := if bseq (c_fmtp c) [] then [] else [B "a=fmtp:" ++ itoa (c_pt c) ++ B " " ++ c_fmtp c].
Definition offer (ip id : bytes) (port : Z) (codecs : list codec) : list bytes :=
  [B "v=0"; B "o=- " ++ id ++ B " " ++ id ++ B " IN " ++ ip_kind ip ++ B " " ++ ip; B "s=my people call themselves dark angels"; B "c=IN " ++ ip_kind ip ++ B " " ++ ip; B "t=0 0";
   B "m=audio " ++ itoa port ++ B " RTP/AVP" ++ concat (map (fun c => B " " ++ itoa (c_pt c)) codecs)] ++
  flat_map (fun c => rtpmap_line c :: fmtp_lines c) codecs ++ [B "a=sendrecv"].

(** ** The text *)
Lemma text_app a b : text_of (a ++ b) = text_of a ++ text_of b.
Proof. unfold text_of. rewrite map_app, concat_app. reflexivity. Qed.
Lemma codec_text c : codec_append c = text_of (rtpmap_line c :: fmtp_lines c).
Proof.
  unfold codec_append, text_of, rtpmap_line, fmtp_lines. cbn [map concat]. destruct (c_param c) as [|p0 p]; destruct (c_fmtp c) as [|f0 f]; rewrite ?(bseq_refl []);
    repeat match goal with |- context [bseq (?x :: ?y) []] => change (bseq (x :: y) []) with false end; cbv iota; cbn [map concat]; rewrite <- ?app_assoc, ?app_nil_r; reflexivity.
Qed.
Lemma codecs_text l : concat (map codec_append l) = text_of (flat_map (fun c => rtpmap_line c :: fmtp_lines c) l).
Proof. induction l as [|c l IH]; [reflexivity|]. cbn [map concat flat_map]. rewrite IH, codec_text, text_app. reflexivity. Qed.
(** [String] of what [New] makes is these lines, whatever the codecs. *)
Theorem new_text : forall rid ip port id codecs, ip <> [] -> id <> [] -> 0 <= port < 65536 -> sdp_append rid (sdp_new ip port id codecs) = text_of (offer ip id port codecs).
Proof.
  intros rid ip port id codecs NI ND P. unfold sdp_append, sdp_new. cbn [s_origin s_addr s_audio s_video s_session s_time s_ptime s_sendonly s_recvonly s_attrs s_other]. rewrite u16_id by lia.
  unfold origin_append, media_append. cbn [o_user o_id o_version o_addr m_proto m_port m_codecs map concat]. change (0 <? 0) with false. unfold offer. rewrite !text_app, <- codecs_text. unfold text_of. cbn [map concat]. unfold ip_kind, IsIPv6.
  destruct ip as [|i0 ip]; [congruence|]. destruct id as [|d0 id]; [congruence|]. cbv iota. destruct (contains_byte ":" (i0 :: ip)); cbv iota; rewrite <- ?app_assoc, ?app_nil_r; reflexivity.
Qed.
(** Read back it is the same description, if the codecs can be written and no payload type stands for two of them. *)
Theorem new_reads_back : forall rid ip port d codecs, host ip = true -> 0 <= port < 65536 -> codecs <> [] -> forallb wf_codec codecs = true ->
  (forall c c', In c codecs -> In c' codecs -> c_pt c = c_pt c' -> c = c') ->
  exists s, sdp_parse (sdp_append rid (sdp_new ip port (GenerateOriginID d) codecs)) = Ok (inl s) /\ s_addr s = ip /\ o_addr (s_origin s) = ip /\ o_id (s_origin s) = GenerateOriginID d /\ o_version (s_origin s) = GenerateOriginID d /\
    s_audio s = Some (mkmedia (B "RTP/AVP") port codecs) /\ s_video s = None /\ s_sendonly s = false /\ s_recvonly s = false /\ s_attrs s = [] /\ s_other s = [].
Proof.
  intros rid ip port d codecs H P NC WC UC. destruct (origin_word d) as (ND & WD & _). set (id := GenerateOriginID d) in *. assert (NI : ip <> []) by (intros ->; discriminate).
  set (s := mksdp (mkorigin (B "-") id id ip) ip (Some (mkmedia (B "RTP/AVP") port codecs)) None (B "my people call themselves dark angels") (B "0 0") 0 false false [] []).
  exists s. split; [|repeat split]. assert (E : sdp_append rid (sdp_new ip port id codecs) = sdp_append rid s).
  { unfold sdp_append, sdp_new, s. rewrite u16_id by lia. unfold origin_append. cbn [s_origin s_addr s_audio s_video s_session s_time s_ptime s_sendonly s_recvonly s_attrs s_other o_user o_id o_version o_addr]. destruct ip as [|i0 ip]; [congruence|]. destruct id as [|d0 id']; [congruence|]. reflexivity. }
  rewrite E. apply sdp_roundtrip. unfold s. split; [unfold wf_origin; cbn [s_origin o_user o_id o_version o_addr]; rewrite WD, H; reflexivity|]. split; [exact H|]. split; [reflexivity|]. split; [reflexivity|]. split; [left; discriminate|].
  split. { intros m [X|X]; [injection X as <-|discriminate]. unfold wf_media. cbn [m_port m_proto m_codecs]. rewrite (proj2 (Z.leb_le 0 port)), (proj2 (Z.ltb_lt port 65536)), WC by lia. destruct codecs; [congruence|reflexivity]. }
  split; [cbn [s_audio s_video media_codecs m_codecs]; rewrite app_nil_r; exact UC|]. split; [cbn; lia|]. repeat split; reflexivity.
Qed.
(** ** The codecs of the package *)
(** RFC 3551, RFC 4733 and RFC 7587 *)
Theorem known_codecs : forall rid ip port id, ip <> [] -> id <> [] -> 0 <= port < 65536 ->
  exists before, sdp_append rid (sdp_new ip port id [ULAWCodec; DTMFCodec; Opus]) = before ++
    text_of [B "m=audio " ++ itoa port ++ B " RTP/AVP 0 101 111"; B "a=rtpmap:0 PCMU/8000"; B "a=rtpmap:101 telephone-event/8000"; B "a=fmtp:101 0-16"; B "a=rtpmap:111 opus/48000/2"; B "a=sendrecv"].
Proof.
  intros rid ip port id NI ND P. rewrite new_text by assumption. unfold offer. match goal with |- exists b, text_of ((?x1 :: ?x2 :: ?x3 :: ?x4 :: ?x5 :: ?l) ++ ?r) = _ => exists (text_of [x1; x2; x3; x4; x5]); change ((x1 :: x2 :: x3 :: x4 :: x5 :: l) ++ r) with ([x1; x2; x3; x4; x5] ++ l ++ r) end.
  rewrite text_app. f_equal.
Qed.
(** The three together are understood by the reader, at every address and port. *)
Theorem known_codecs_read_back : forall rid ip port d, host ip = true -> 0 <= port < 65536 ->
  exists s, sdp_parse (sdp_append rid (sdp_new ip port (GenerateOriginID d) [ULAWCodec; DTMFCodec; Opus])) = Ok (inl s) /\ s_addr s = ip /\ s_audio s = Some (mkmedia (B "RTP/AVP") port [mkcodec 0 (B "PCMU") 8000 [] []; mkcodec 101 (B "telephone-event") 8000 [] (B "0-16"); mkcodec 111 (B "opus") 48000 (B "2") []]).
Proof.
  intros rid ip port d H P. destruct (new_reads_back rid ip port d [ULAWCodec; DTMFCodec; Opus] H P) as (s & E & A & _ & _ & _ & M & _); [discriminate|reflexivity|intros c c' [<-|[<-|[<-|[]]]] [<-|[<-|[<-|[]]]] X; first [reflexivity|discriminate X]|].
  exists s. split; [exact E|]. split; [exact A|exact M].
Qed.
Example new_example : host (B "10.0.0.1") = true /\ host (B "2001:db8::1") = true /\ offer (B "2001:db8::1") (B "77") 5004 [DTMFCodec] =
  [B "v=0"; B "o=- 77 77 IN IP6 2001:db8::1"; B "s=my people call themselves dark angels"; B "c=IN IP6 2001:db8::1"; B "t=0 0"; B "m=audio 5004 RTP/AVP 101"; B "a=rtpmap:101 telephone-event/8000"; B "a=fmtp:101 0-16"; B "a=sendrecv"] /\
  forallb wf_codec [ULAWCodec; DTMFCodec; Opus] = true.
Proof. repeat split. Qed.
(** Without a codec the m= line has no payload type, and the text is refused. *)
Example new_without_codecs : sdp_parse (sdp_append [] (sdp_new (B "10.0.0.1") 5004 (B "77") [])) = Ok (inr EMLine).
Proof. vm_compute. reflexivity. Qed.
Print Assumptions new_text.
Print Assumptions new_reads_back.
Print Assumptions known_codecs.
Print Assumptions known_codecs_read_back.
