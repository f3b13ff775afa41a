(** The repository's own unit tests, run on the model. Generated by tools/gotests.py from sip/uri_test.go, sip/msg_test.go, sip/addr_test.go,
    sip/quote_test.go, sip/escape_test.go, sdp/sdp_test.go, rtp/rtp_test.go, dsp/dsp_test.go and dsp/awgn_test.go. These are examples and not proofs: they show that the
    model gives what the authors' tests expect of the code. Those at the end compare the tables of the model (status phrases, codecs, telephone events,
    character classes, the order of header lines) with the text of sip/status.go, sdp/codecs.go, rtp/session.go, rtp/dtmf.go, sip/charsets.go and
    sip/msg.go. *)
From Flocq Require Import IEEE754.BinarySingleNaN.
From Verif Require Import Bytes GoLib SdpModel SipText SipTypes SipAppend UriModel MsgModel MsgErrorModel DspModel RtpModel ListenModel AwgnFloat.
Local Open Scope Z_scope.

(** Two messages are compared field by field: a message without its functions. *)
Definition flat_expected (maj min : Z) (me : bytes) (rq : option uri) (st : Z) (ph : bytes) (pl : option payload) (ad : list (list addr)) (vi : list via) (ci : bytes) (cs : Z) (cm : bytes) (mf ex me' : Z) (ss : list bytes) (xh : list (bytes * bytes)) :=
  (maj, min, me, rq, st, ph, pl, ad, vi, ci, cs, cm, (mf, ex, me'), ss, xh).
Definition flat (m : msg) :=
  flat_expected (vmaj m) (vmin m) (method m) (request m) (status m) (phrase m) (pay m) (map (addrs m) [Contact; From; PAssertedIdentity; RecordRoute; RemotePartyID; Route; To]) (vias m) (callid m) (cseq m) (cseqmethod m) (maxforwards m) (expires m) (minexpires m)
    (map (strs m) [Accept; AcceptContact; AcceptEncoding; AcceptLanguage; AlertInfo; Allow; AllowEvents; AuthenticationInfo; Authorization; CallInfo; ContentDisposition; ContentEncoding; ContentLanguage; Date; ErrorInfo; Event; InReplyTo; MIMEVersion; Organization; Priority; ProxyAuthenticate; ProxyAuthorization; ProxyRequire; ReferTo; ReferredBy; ReplyTo; Require; RetryAfter; Server; Subject; Supported; Timestamp; Unsupported; UserAgent; Warning; WWWAuthenticate]) (xheader m).
Definition accepted (r : mresult) : option msg := match r with MOk m => Some m | _ => None end.
(** the text of the errors that are made with errors.New or fmt.Errorf *)
Definition msg_fails (r : mresult) (e : bytes) : bool :=
  match r with
  | MErr (ELength n have) => bseq e (B "Content-Length incorrect: " ++ itoa n ++ B " != " ++ itoa (Z.of_nat have))
  | MErr (EUri t) => bseq e t
  | _ => false
  end.
Definition no_other (s : sdp) : sdp := mksdp (s_origin s) (s_addr s) (s_audio s) (s_video s) (s_session s) (s_time s) (s_ptime s) (s_sendonly s) (s_recvonly s) (s_attrs s) [].

Example uri_0 : parse_uri [] = PErr (B "Incomplete URI: ").
Proof. vm_compute. reflexivity. Qed.
Example uri_1 : parse_uri (B "sip:") = PErr (B "Incomplete URI: sip:").
Proof. vm_compute. reflexivity. Qed.
Example uri_2 : parse_uri (B "sip:example.com:LOL") = PErr (B "Error in URI at pos 16: sip:example.com:LOL").
Proof. vm_compute. reflexivity. Qed.
Example uri_3 : parse_uri (B "sip:example.com") = POk (mkuri (B "sip") [] [] (B "example.com") 0 [] []).
Proof. vm_compute. reflexivity. Qed.
Example uri_format_3 : uri_append (mkuri (B "sip") [] [] (B "example.com") 0 [] []) = (B "sip:example.com").
Proof. vm_compute. reflexivity. Qed.
Example uri_4 : parse_uri (B "sip:example.com:5060") = POk (mkuri (B "sip") [] [] (B "example.com") 5060 [] []).
Proof. vm_compute. reflexivity. Qed.
Example uri_format_4 : uri_append (mkuri (B "sip") [] [] (B "example.com") 5060 [] []) = (B "sip:example.com:5060").
Proof. vm_compute. reflexivity. Qed.
Example uri_5 : parse_uri (B "sips:jart@google.com") = POk (mkuri (B "sips") (B "jart") [] (B "google.com") 0 [] []).
Proof. vm_compute. reflexivity. Qed.
Example uri_format_5 : uri_append (mkuri (B "sips") (B "jart") [] (B "google.com") 0 [] []) = (B "sips:jart@google.com").
Proof. vm_compute. reflexivity. Qed.
Example uri_6 : parse_uri (B "sips:jart@google.com:5060") = POk (mkuri (B "sips") (B "jart") [] (B "google.com") 5060 [] []).
Proof. vm_compute. reflexivity. Qed.
Example uri_format_6 : uri_append (mkuri (B "sips") (B "jart") [] (B "google.com") 5060 [] []) = (B "sips:jart@google.com:5060").
Proof. vm_compute. reflexivity. Qed.
Example uri_7 : parse_uri (B "sips:jart:letmein@google.com") = POk (mkuri (B "sips") (B "jart") (B "letmein") (B "google.com") 0 [] []).
Proof. vm_compute. reflexivity. Qed.
Example uri_format_7 : uri_append (mkuri (B "sips") (B "jart") (B "letmein") (B "google.com") 0 [] []) = (B "sips:jart:letmein@google.com").
Proof. vm_compute. reflexivity. Qed.
Example uri_8 : parse_uri (B "sips:jart:LetMeIn@google.com:5060") = POk (mkuri (B "sips") (B "jart") (B "LetMeIn") (B "google.com") 5060 [] []).
Proof. vm_compute. reflexivity. Qed.
Example uri_format_8 : uri_append (mkuri (B "sips") (B "jart") (B "LetMeIn") (B "google.com") 5060 [] []) = (B "sips:jart:LetMeIn@google.com:5060").
Proof. vm_compute. reflexivity. Qed.
Example uri_9 : parse_uri (B "sips:GOOGLE.com") = POk (mkuri (B "sips") [] [] (B "google.com") 0 [] []).
Proof. vm_compute. reflexivity. Qed.
Example uri_10 : parse_uri (B "sip:[dead:beef::666]:5060") = POk (mkuri (B "sip") [] [] (B "dead:beef::666") 5060 [] []).
Proof. vm_compute. reflexivity. Qed.
Example uri_format_10 : uri_append (mkuri (B "sip") [] [] (B "dead:beef::666") 5060 [] []) = (B "sip:[dead:beef::666]:5060").
Proof. vm_compute. reflexivity. Qed.
Example uri_11 : parse_uri (B "sip:dead:beef::666:5060") = PErr (B "Error in URI at pos 9: sip:dead:beef::666:5060").
Proof. vm_compute. reflexivity. Qed.
Example uri_12 : parse_uri (B "tel:+12126660420") = POk (mkuri (B "tel") [] [] (B "+12126660420") 0 [] []).
Proof. vm_compute. reflexivity. Qed.
Example uri_format_12 : uri_append (mkuri (B "tel") [] [] (B "+12126660420") 0 [] []) = (B "tel:+12126660420").
Proof. vm_compute. reflexivity. Qed.
Example uri_13 : parse_uri (B "sip:bob%20barker:priceisright@[dead:beef::666]:5060;isup-oli=00") = POk (mkuri (B "sip") (B "bob barker") (B "priceisright") (B "dead:beef::666") 5060 [((B "isup-oli"), (B "00"))] []).
Proof. vm_compute. reflexivity. Qed.
Example uri_format_13 : uri_append (mkuri (B "sip") (B "bob barker") (B "priceisright") (B "dead:beef::666") 5060 [((B "isup-oli"), (B "00"))] []) = (B "sip:bob%20barker:priceisright@[dead:beef::666]:5060;isup-oli=00").
Proof. vm_compute. reflexivity. Qed.
Example uri_14 : parse_uri (B "sips:google.com ;lol ;h=omg") = PErr (B "Error in URI at pos 15: sips:google.com ;lol ;h=omg").
Proof. vm_compute. reflexivity. Qed.
Example uri_15 : parse_uri (B "SIP:example.com") = POk (mkuri (B "sip") [] [] (B "example.com") 0 [] []).
Proof. vm_compute. reflexivity. Qed.
Example uri_16 : parse_uri (B "sips:alice@atlanta.com?priority=urgent&subject=project%20x") = POk (mkuri (B "sips") (B "alice") [] (B "atlanta.com") 0 [] [((B "subject"), (B "project x")); ((B "priority"), (B "urgent"))]).
Proof. vm_compute. reflexivity. Qed.
Example uri_format_16 : uri_append (mkuri (B "sips") (B "alice") [] (B "atlanta.com") 0 [] [((B "subject"), (B "project x")); ((B "priority"), (B "urgent"))]) = (B "sips:alice@atlanta.com?priority=urgent&subject=project%20x").
Proof. vm_compute. reflexivity. Qed.
Example uri_17 : parse_uri (B "sip:+1-212-555-1212:1234@gateway.com;user=phone") = POk (mkuri (B "sip") (B "+1-212-555-1212") (B "1234") (B "gateway.com") 0 [((B "user"), (B "phone"))] []).
Proof. vm_compute. reflexivity. Qed.
Example uri_format_17 : uri_append (mkuri (B "sip") (B "+1-212-555-1212") (B "1234") (B "gateway.com") 0 [((B "user"), (B "phone"))] []) = (B "sip:+1-212-555-1212:1234@gateway.com;user=phone").
Proof. vm_compute. reflexivity. Qed.
Example uri_18 : parse_uri (B "sip:atlanta.com;method=register?to=alice%40atlanta.com") = POk (mkuri (B "sip") [] [] (B "atlanta.com") 0 [((B "method"), (B "register"))] [((B "to"), (B "alice@atlanta.com"))]).
Proof. vm_compute. reflexivity. Qed.
Example uri_format_18 : uri_append (mkuri (B "sip") [] [] (B "atlanta.com") 0 [((B "method"), (B "register"))] [((B "to"), (B "alice@atlanta.com"))]) = (B "sip:atlanta.com;method=register?to=alice%40atlanta.com").
Proof. vm_compute. reflexivity. Qed.
Example uri_19 : parse_uri (B "sip:alice;day=tuesday@atlanta.com") = POk (mkuri (B "sip") (B "alice;day=tuesday") [] (B "atlanta.com") 0 [] []).
Proof. vm_compute. reflexivity. Qed.
Example msg_0 : parse_msg [] = MErr EIncomplete.
Proof. vm_compute. reflexivity. Qed.
Example msg_1 : option_map flat (accepted (parse_msg (B "SIP/2.0 200 " ++ [xe2; x97; x95; xe2; x97; xa1; xe2; x97; x95; x0d; x0a; x0d; x0a]))) = Some (flat_expected 2 0 [] None 200 ([xe2; x97; x95; xe2; x97; xa1; xe2; x97; x95]) None [[]; []; []; []; []; []; []] [] [] 0 [] 0 0 0 [[]; []; []; []; []; []; []; []; []; []; []; []; []; []; []; []; []; []; []; []; []; []; []; []; []; []; []; []; []; []; []; []; []; []; []; []] []).
Proof. vm_compute. reflexivity. Qed.
Example msg_2 : option_map flat (accepted (parse_msg (B "SIP/2.0 200 OK" ++ [x0d; x0a] ++ B "Expires:    666" ++ [x0d; x0a; x0d; x0a]))) = Some (flat_expected 2 0 [] None 200 (B "OK") None [[]; []; []; []; []; []; []] [] [] 0 [] 0 666 0 [[]; []; []; []; []; []; []; []; []; []; []; []; []; []; []; []; []; []; []; []; []; []; []; []; []; []; []; []; []; []; []; []; []; []; []; []] []).
Proof. vm_compute. reflexivity. Qed.
Example msg_3 : option_map flat (accepted (parse_msg (B "SIP/2.0 200 OK" ++ [x0d; x0a] ++ B "X-LOL: omfg" ++ [x0d; x0a; x0d; x0a]))) = Some (flat_expected 2 0 [] None 200 (B "OK") None [[]; []; []; []; []; []; []] [] [] 0 [] 0 0 0 [[]; []; []; []; []; []; []; []; []; []; []; []; []; []; []; []; []; []; []; []; []; []; []; []; []; []; []; []; []; []; []; []; []; []; []; []] [((B "X-LOL"), (B "omfg"))]).
Proof. vm_compute. reflexivity. Qed.
Example msg_4 : option_map flat (accepted (parse_msg (B "SIP/2.0 200 OK" ++ [x0d; x0a] ++ B "From:  <sip:lol.com> , <sip:bog.com> " ++ [x0d; x0a; x0d; x0a]))) = Some (flat_expected 2 0 [] None 200 (B "OK") None [[]; [mkaddr (Some (mkuri (B "sip") [] [] (B "lol.com") 0 [] [])) [] []; mkaddr (Some (mkuri (B "sip") [] [] (B "bog.com") 0 [] [])) [] []]; []; []; []; []; []] [] [] 0 [] 0 0 0 [[]; []; []; []; []; []; []; []; []; []; []; []; []; []; []; []; []; []; []; []; []; []; []; []; []; []; []; []; []; []; []; []; []; []; []; []] []).
Proof. vm_compute. reflexivity. Qed.
Example msg_5 : option_map flat (accepted (parse_msg (B "SIP/2.0 200 OK" ++ [x0d; x0a] ++ B "From: sip:127.0.0.1:1234" ++ [x0d; x0a; x0d; x0a]))) = Some (flat_expected 2 0 [] None 200 (B "OK") None [[]; [mkaddr (Some (mkuri (B "sip") [] [] (B "127.0.0.1") 1234 [] [])) [] []]; []; []; []; []; []] [] [] 0 [] 0 0 0 [[]; []; []; []; []; []; []; []; []; []; []; []; []; []; []; []; []; []; []; []; []; []; []; []; []; []; []; []; []; []; []; []; []; []; []; []] []).
Proof. vm_compute. reflexivity. Qed.
Example msg_6 : option_map flat (accepted (parse_msg (B "SIP/2.0 200 OK" ++ [x0d; x0a] ++ B "Warning: Morning and evening" ++ [x0d; x0a] ++ B " Maids heard the goblins cry:" ++ [x0d; x0a] ++ B " " ++ [xe2; x80; x9c] ++ B "Come buy our orchard fruits," ++ [x0d; x0a] ++ B " Come buy, come buy:" ++ [x0d; x0a] ++ B " Apples and quinces," ++ [x0d; x0a] ++ B " Lemons and oranges" ++ [x0d; x0a; x0d; x0a]))) = Some (flat_expected 2 0 [] None 200 (B "OK") None [[]; []; []; []; []; []; []] [] [] 0 [] 0 0 0 [[]; []; []; []; []; []; []; []; []; []; []; []; []; []; []; []; []; []; []; []; []; []; []; []; []; []; []; []; []; []; []; []; []; []; (B "Morning and evening" ++ [x0d; x0a] ++ B " Maids heard the goblins cry:" ++ [x0d; x0a] ++ B " " ++ [xe2; x80; x9c] ++ B "Come buy our orchard fruits," ++ [x0d; x0a] ++ B " Come buy, come buy:" ++ [x0d; x0a] ++ B " Apples and quinces," ++ [x0d; x0a] ++ B " Lemons and oranges"); []] []).
Proof. vm_compute. reflexivity. Qed.
Example msg_7 : option_map flat (accepted (parse_msg (B "SIP/2.0 200 OK" ++ [x0d; x0a] ++ B "Warning: Morning and evening" ++ [x0d; x0a] ++ B " Maids heard the goblins cry:" ++ [x0d; x0a] ++ B " " ++ [xe2; x80; x9c] ++ B "Come buy our orchard fruits," ++ [x0d; x0a] ++ B " Come buy, come buy:" ++ [x0d; x0a] ++ B " Apples and quinces," ++ [x0d; x0a] ++ B " Lemons and oranges" ++ [x0d; x0a] ++ B "X-LOL: omfg" ++ [x0d; x0a; x0d; x0a]))) = Some (flat_expected 2 0 [] None 200 (B "OK") None [[]; []; []; []; []; []; []] [] [] 0 [] 0 0 0 [[]; []; []; []; []; []; []; []; []; []; []; []; []; []; []; []; []; []; []; []; []; []; []; []; []; []; []; []; []; []; []; []; []; []; (B "Morning and evening" ++ [x0d; x0a] ++ B " Maids heard the goblins cry:" ++ [x0d; x0a] ++ B " " ++ [xe2; x80; x9c] ++ B "Come buy our orchard fruits," ++ [x0d; x0a] ++ B " Come buy, come buy:" ++ [x0d; x0a] ++ B " Apples and quinces," ++ [x0d; x0a] ++ B " Lemons and oranges"); []] [((B "X-LOL"), (B "omfg"))]).
Proof. vm_compute. reflexivity. Qed.
Example msg_8 : option_map flat (accepted (parse_msg (B "SIP/2.0 200 OK" ++ [x0d; x0a] ++ B "X-Warning: Come buy our orchard fruits," ++ [x0d; x0a] ++ B " Come buy, come buy" ++ [x0d; x0a] ++ B "X-LOL: omfg" ++ [x0d; x0a; x0d; x0a]))) = Some (flat_expected 2 0 [] None 200 (B "OK") None [[]; []; []; []; []; []; []] [] [] 0 [] 0 0 0 [[]; []; []; []; []; []; []; []; []; []; []; []; []; []; []; []; []; []; []; []; []; []; []; []; []; []; []; []; []; []; []; []; []; []; []; []] [((B "X-LOL"), (B "omfg")); ((B "X-Warning"), (B "Come buy our orchard fruits," ++ [x0d; x0a] ++ B " Come buy, come buy"))]).
Proof. vm_compute. reflexivity. Qed.
Example msg_9 : option_map flat (accepted (parse_msg (B "SIP/2.0 200 OK" ++ [x0d; x0a] ++ B "NewFangledHeader:   newfangled value" ++ [x0d; x0a] ++ B " continued newfangled value" ++ [x0d; x0a] ++ B "UnknownHeaderWithUnusualValue: ;;,,;;,;" ++ [x0d; x0a; x0d; x0a]))) = Some (flat_expected 2 0 [] None 200 (B "OK") None [[]; []; []; []; []; []; []] [] [] 0 [] 0 0 0 [[]; []; []; []; []; []; []; []; []; []; []; []; []; []; []; []; []; []; []; []; []; []; []; []; []; []; []; []; []; []; []; []; []; []; []; []] [((B "UnknownHeaderWithUnusualValue"), (B ";;,,;;,;")); ((B "NewFangledHeader"), (B "newfangled value" ++ [x0d; x0a] ++ B " continued newfangled value"))]).
Proof. vm_compute. reflexivity. Qed.
Example msg_10 : option_map flat (accepted (parse_msg (B "SIP/2.0 200 OK" ++ [x0d; x0a] ++ B "From:" ++ [x0d; x0a] ++ B " <sip:lol.com>," ++ [x0d; x0a] ++ B " <sip:bog.com>" ++ [x0d; x0a; x0d; x0a]))) = Some (flat_expected 2 0 [] None 200 (B "OK") None [[]; [mkaddr (Some (mkuri (B "sip") [] [] (B "lol.com") 0 [] [])) [] []; mkaddr (Some (mkuri (B "sip") [] [] (B "bog.com") 0 [] [])) [] []]; []; []; []; []; []] [] [] 0 [] 0 0 0 [[]; []; []; []; []; []; []; []; []; []; []; []; []; []; []; []; []; []; []; []; []; []; []; []; []; []; []; []; []; []; []; []; []; []; []; []] []).
Proof. vm_compute. reflexivity. Qed.
Example msg_11 : option_map flat (accepted (parse_msg (B "SIP/2.0 200 OK" ++ [x0d; x0a] ++ B "viaz: floor" ++ [x0d; x0a] ++ B "P-Asserted-LOL: dance" ++ [x0d; x0a] ++ B "Contazt: the" ++ [x0d; x0a] ++ B "CSeq2: back" ++ [x0d; x0a] ++ B "Proxy-LOL: take" ++ [x0d; x0a; x0d; x0a]))) = Some (flat_expected 2 0 [] None 200 (B "OK") None [[]; []; []; []; []; []; []] [] [] 0 [] 0 0 0 [[]; []; []; []; []; []; []; []; []; []; []; []; []; []; []; []; []; []; []; []; []; []; []; []; []; []; []; []; []; []; []; []; []; []; []; []] [((B "Proxy-LOL"), (B "take")); ((B "CSeq2"), (B "back")); ((B "Contazt"), (B "the")); ((B "P-Asserted-LOL"), (B "dance")); ((B "viaz"), (B "floor"))]).
Proof. vm_compute. reflexivity. Qed.
Example msg_12 : option_map flat (accepted (parse_msg (B "SIP/2.0 200 OK" ++ [x0d; x0a] ++ B "From: Kitty <sip:lol.com>" ++ [x0d; x0a; x0d; x0a]))) = Some (flat_expected 2 0 [] None 200 (B "OK") None [[]; [mkaddr (Some (mkuri (B "sip") [] [] (B "lol.com") 0 [] [])) (B "Kitty") []]; []; []; []; []; []] [] [] 0 [] 0 0 0 [[]; []; []; []; []; []; []; []; []; []; []; []; []; []; []; []; []; []; []; []; []; []; []; []; []; []; []; []; []; []; []; []; []; []; []; []] []).
Proof. vm_compute. reflexivity. Qed.
Example msg_13 : option_map flat (accepted (parse_msg (B "SIP/2.0 200 OK" ++ [x0d; x0a] ++ B "From: ""Hello \""Kitty\"" " ++ [xe2; x97; x95; xe2; x97; xa1; xe2; x97; x95] ++ B """ <sip:lol.com>" ++ [x0d; x0a; x0d; x0a]))) = Some (flat_expected 2 0 [] None 200 (B "OK") None [[]; [mkaddr (Some (mkuri (B "sip") [] [] (B "lol.com") 0 [] [])) (B "Hello ""Kitty"" " ++ [xe2; x97; x95; xe2; x97; xa1; xe2; x97; x95]) []]; []; []; []; []; []] [] [] 0 [] 0 0 0 [[]; []; []; []; []; []; []; []; []; []; []; []; []; []; []; []; []; []; []; []; []; []; []; []; []; []; []; []; []; []; []; []; []; []; []; []] []).
Proof. vm_compute. reflexivity. Qed.
Example msg_14 : option_map flat (accepted (parse_msg (B "SIP/2.0 200 OK" ++ [x0d; x0a] ++ B "From: ""oh" ++ [x0d; x0a] ++ B "  my " ++ [x0d; x0a] ++ B " goth"" <sip:lol.com>" ++ [x0d; x0a; x0d; x0a]))) = Some (flat_expected 2 0 [] None 200 (B "OK") None [[]; [mkaddr (Some (mkuri (B "sip") [] [] (B "lol.com") 0 [] [])) (B "oh" ++ [x0d; x0a] ++ B "  my " ++ [x0d; x0a] ++ B " goth") []]; []; []; []; []; []] [] [] 0 [] 0 0 0 [[]; []; []; []; []; []; []; []; []; []; []; []; []; []; []; []; []; []; []; []; []; []; []; []; []; []; []; []; []; []; []; []; []; []; []; []] []).
Proof. vm_compute. reflexivity. Qed.
Example msg_15 : option_map flat (accepted (parse_msg (B "SIP/2.0 200 OK" ++ [x0d; x0a] ++ B "From: oh" ++ [x0d; x0a] ++ B "  my " ++ [x0d; x0a] ++ B " goth <sip:lol.com>" ++ [x0d; x0a; x0d; x0a]))) = Some (flat_expected 2 0 [] None 200 (B "OK") None [[]; [mkaddr (Some (mkuri (B "sip") [] [] (B "lol.com") 0 [] [])) (B "oh" ++ [x0d; x0a] ++ B "  my " ++ [x0d; x0a] ++ B " goth") []]; []; []; []; []; []] [] [] 0 [] 0 0 0 [[]; []; []; []; []; []; []; []; []; []; []; []; []; []; []; []; []; []; []; []; []; []; []; []; []; []; []; []; []; []; []; []; []; []; []; []] []).
Proof. vm_compute. reflexivity. Qed.
Example msg_16 : option_map flat (accepted (parse_msg (B "SIP/2.0 200 OK" ++ [x0d; x0a] ++ B "From: <sip:lol.com>;tag=omfg" ++ [x0d; x0a; x0d; x0a]))) = Some (flat_expected 2 0 [] None 200 (B "OK") None [[]; [mkaddr (Some (mkuri (B "sip") [] [] (B "lol.com") 0 [] [])) [] [((B "tag"), (B "omfg"))]]; []; []; []; []; []] [] [] 0 [] 0 0 0 [[]; []; []; []; []; []; []; []; []; []; []; []; []; []; []; []; []; []; []; []; []; []; []; []; []; []; []; []; []; []; []; []; []; []; []; []] []).
Proof. vm_compute. reflexivity. Qed.
Example msg_17 : option_map flat (accepted (parse_msg (B "SIP/2.0 200 OK" ++ [x0d; x0a] ++ B "From: <sip:lol.com>;tag=""" ++ [xe2; x97; x95; xe2; x97; xa1; xe2; x97; x95] ++ B """" ++ [x0d; x0a; x0d; x0a]))) = Some (flat_expected 2 0 [] None 200 (B "OK") None [[]; [mkaddr (Some (mkuri (B "sip") [] [] (B "lol.com") 0 [] [])) [] [((B "tag"), ([xe2; x97; x95; xe2; x97; xa1; xe2; x97; x95]))]]; []; []; []; []; []] [] [] 0 [] 0 0 0 [[]; []; []; []; []; []; []; []; []; []; []; []; []; []; []; []; []; []; []; []; []; []; []; []; []; []; []; []; []; []; []; []; []; []; []; []] []).
Proof. vm_compute. reflexivity. Qed.
Example msg_18 : option_map flat (accepted (parse_msg (B "SIP/2.0 200 OK" ++ [x0d; x0a] ++ B "From: <sip:lol.com>;tag" ++ [x0d; x0a; x0d; x0a]))) = Some (flat_expected 2 0 [] None 200 (B "OK") None [[]; [mkaddr (Some (mkuri (B "sip") [] [] (B "lol.com") 0 [] [])) [] [((B "tag"), [])]]; []; []; []; []; []] [] [] 0 [] 0 0 0 [[]; []; []; []; []; []; []; []; []; []; []; []; []; []; []; []; []; []; []; []; []; []; []; []; []; []; []; []; []; []; []; []; []; []; []; []] []).
Proof. vm_compute. reflexivity. Qed.
Example msg_19 : option_map flat (accepted (parse_msg (B "SIP/2.0 200 OK" ++ [x0d; x0a] ++ B "From: sip:lol.com;tag=omfg" ++ [x0d; x0a; x0d; x0a]))) = Some (flat_expected 2 0 [] None 200 (B "OK") None [[]; [mkaddr (Some (mkuri (B "sip") [] [] (B "lol.com") 0 [] [])) [] [((B "tag"), (B "omfg"))]]; []; []; []; []; []] [] [] 0 [] 0 0 0 [[]; []; []; []; []; []; []; []; []; []; []; []; []; []; []; []; []; []; []; []; []; []; []; []; []; []; []; []; []; []; []; []; []; []; []; []] []).
Proof. vm_compute. reflexivity. Qed.
Example msg_20 : option_map flat (accepted (parse_msg (B "SIP/2.0 200 OK" ++ [x0d; x0a] ++ B "Via: SIP/2.0/UDP 8.8.4.4" ++ [x0d; x0a; x0d; x0a]))) = Some (flat_expected 2 0 [] None 200 (B "OK") None [[]; []; []; []; []; []; []] [mkvia (B "SIP") (B "2.0") (B "UDP") (B "8.8.4.4") 0 []] [] 0 [] 0 0 0 [[]; []; []; []; []; []; []; []; []; []; []; []; []; []; []; []; []; []; []; []; []; []; []; []; []; []; []; []; []; []; []; []; []; []; []; []] []).
Proof. vm_compute. reflexivity. Qed.
Example msg_21 : option_map flat (accepted (parse_msg (B "SIP/2.0 200 OK" ++ [x0d; x0a] ++ B "Via: SIP/2.0/UDP 8.8.4.4:666" ++ [x0d; x0a; x0d; x0a]))) = Some (flat_expected 2 0 [] None 200 (B "OK") None [[]; []; []; []; []; []; []] [mkvia (B "SIP") (B "2.0") (B "UDP") (B "8.8.4.4") 666 []] [] 0 [] 0 0 0 [[]; []; []; []; []; []; []; []; []; []; []; []; []; []; []; []; []; []; []; []; []; []; []; []; []; []; []; []; []; []; []; []; []; []; []; []] []).
Proof. vm_compute. reflexivity. Qed.
Example msg_22 : option_map flat (accepted (parse_msg (B "SIP/2.0 200 OK" ++ [x0d; x0a] ++ B "Via: SIP/2.0/UDP 8.8.4.4 " ++ [x09] ++ B " : " ++ [x09] ++ B " 666" ++ [x0d; x0a; x0d; x0a]))) = Some (flat_expected 2 0 [] None 200 (B "OK") None [[]; []; []; []; []; []; []] [mkvia (B "SIP") (B "2.0") (B "UDP") (B "8.8.4.4") 666 []] [] 0 [] 0 0 0 [[]; []; []; []; []; []; []; []; []; []; []; []; []; []; []; []; []; []; []; []; []; []; []; []; []; []; []; []; []; []; []; []; []; []; []; []] []).
Proof. vm_compute. reflexivity. Qed.
Example msg_23 : option_map flat (accepted (parse_msg (B "SIP/2.0 200 OK" ++ [x0d; x0a] ++ B "Via: SIP/2.0/UDP 10.11.34.37 ," ++ [x0d; x0a] ++ B "     SIP/2.0/UDP 10.11.34.38" ++ [x0d; x0a] ++ B "Warning: Maids heard the goblins cry" ++ [x0d; x0a; x0d; x0a]))) = Some (flat_expected 2 0 [] None 200 (B "OK") None [[]; []; []; []; []; []; []] [mkvia (B "SIP") (B "2.0") (B "UDP") (B "10.11.34.37") 0 []; mkvia (B "SIP") (B "2.0") (B "UDP") (B "10.11.34.38") 0 []] [] 0 [] 0 0 0 [[]; []; []; []; []; []; []; []; []; []; []; []; []; []; []; []; []; []; []; []; []; []; []; []; []; []; []; []; []; []; []; []; []; []; (B "Maids heard the goblins cry"); []] []).
Proof. vm_compute. reflexivity. Qed.
Example msg_24 : option_map flat (accepted (parse_msg (B "SIP/2.0 200 OK" ++ [x0d; x0a] ++ B "Via: SIP/2.0/UDP 10.11.34.37" ++ [x0d; x0a] ++ B "Via: SIP/2.0/UDP 10.11.34.38" ++ [x0d; x0a; x0d; x0a]))) = Some (flat_expected 2 0 [] None 200 (B "OK") None [[]; []; []; []; []; []; []] [mkvia (B "SIP") (B "2.0") (B "UDP") (B "10.11.34.37") 0 []; mkvia (B "SIP") (B "2.0") (B "UDP") (B "10.11.34.38") 0 []] [] 0 [] 0 0 0 [[]; []; []; []; []; []; []; []; []; []; []; []; []; []; []; []; []; []; []; []; []; []; []; []; []; []; []; []; []; []; []; []; []; []; []; []] []).
Proof. vm_compute. reflexivity. Qed.
Example msg_25 : option_map flat (accepted (parse_msg (B "SIP/2.0 200 OK" ++ [x0d; x0a] ++ B "Via: SIP/2.0/UDP 10.11.34.37" ++ [x0d; x0a] ++ B "v: SIP/2.0/UDP 10.11.34.38, SIP/2.0/UDP 10.11.34.39" ++ [x0d; x0a] ++ B "m: <sip:love.com>" ++ [x0d; x0a; x0d; x0a]))) = Some (flat_expected 2 0 [] None 200 (B "OK") None [[mkaddr (Some (mkuri (B "sip") [] [] (B "love.com") 0 [] [])) [] []]; []; []; []; []; []; []] [mkvia (B "SIP") (B "2.0") (B "UDP") (B "10.11.34.37") 0 []; mkvia (B "SIP") (B "2.0") (B "UDP") (B "10.11.34.38") 0 []; mkvia (B "SIP") (B "2.0") (B "UDP") (B "10.11.34.39") 0 []] [] 0 [] 0 0 0 [[]; []; []; []; []; []; []; []; []; []; []; []; []; []; []; []; []; []; []; []; []; []; []; []; []; []; []; []; []; []; []; []; []; []; []; []] []).
Proof. vm_compute. reflexivity. Qed.
Example msg_26 : option_map flat (accepted (parse_msg (B "SIP/2.0 200 OK" ++ [x0d; x0a] ++ B "Via: SIP/ 2.0/TCP spindle.example.com ;branch=z9hG4bK9ikj8" ++ [x0d; x0a; x0d; x0a]))) = Some (flat_expected 2 0 [] None 200 (B "OK") None [[]; []; []; []; []; []; []] [mkvia (B "SIP") (B "2.0") (B "TCP") (B "spindle.example.com") 0 [((B "branch"), (B "z9hG4bK9ikj8"))]] [] 0 [] 0 0 0 [[]; []; []; []; []; []; []; []; []; []; []; []; []; []; []; []; []; []; []; []; []; []; []; []; []; []; []; []; []; []; []; []; []; []; []; []] []).
Proof. vm_compute. reflexivity. Qed.
Example msg_27 : option_map flat (accepted (parse_msg (B "SIP/2.0 200 OK" ++ [x0d; x0a] ++ B "v:  SIP  / 2.0  / TCP     spindle.example.com   ;" ++ [x0d; x0a] ++ B "  branch  =   z9hG4bK9ikj8" ++ [x0d; x0a; x0d; x0a]))) = Some (flat_expected 2 0 [] None 200 (B "OK") None [[]; []; []; []; []; []; []] [mkvia (B "SIP") (B "2.0") (B "TCP") (B "spindle.example.com") 0 [((B "branch"), (B "z9hG4bK9ikj8"))]] [] 0 [] 0 0 0 [[]; []; []; []; []; []; []; []; []; []; []; []; []; []; []; []; []; []; []; []; []; []; []; []; []; []; []; []; []; []; []; []; []; []; []; []] []).
Proof. vm_compute. reflexivity. Qed.
Example msg_28 : option_map flat (accepted (parse_msg (B "SIP/2.0 200 OK" ++ [x0d; x0a] ++ B "Via  : SIP  /   2.0" ++ [x0d; x0a] ++ B " /UDP" ++ [x0d; x0a] ++ B "    192.0.2.2;branch=390skdjuw" ++ [x0d; x0a] ++ B "v:  SIP  / 2.0  / TCP     spindle.example.com   ;" ++ [x0d; x0a] ++ B "  branch  =   z9hG4bK9ikj8  ," ++ [x0d; x0a] ++ B " SIP  /    2.0   / UDP  192.168.255.111   ; branch=" ++ [x0d; x0a] ++ B " z9hG4bK30239" ++ [x0d; x0a; x0d; x0a]))) = Some (flat_expected 2 0 [] None 200 (B "OK") None [[]; []; []; []; []; []; []] [mkvia (B "SIP") (B "2.0") (B "UDP") (B "192.0.2.2") 0 [((B "branch"), (B "390skdjuw"))]; mkvia (B "SIP") (B "2.0") (B "TCP") (B "spindle.example.com") 0 [((B "branch"), (B "z9hG4bK9ikj8"))]; mkvia (B "SIP") (B "2.0") (B "UDP") (B "192.168.255.111") 0 [((B "branch"), (B "z9hG4bK30239"))]] [] 0 [] 0 0 0 [[]; []; []; []; []; []; []; []; []; []; []; []; []; []; []; []; []; []; []; []; []; []; []; []; []; []; []; []; []; []; []; []; []; []; []; []] []).
Proof. vm_compute. reflexivity. Qed.
Example msg_29 : option_map flat (accepted (parse_msg (B "OPTIONS sip:10.11.34.37:42367 SIP/2.0" ++ [x0d; x0a] ++ B "Via: SIP/2.0/UDP 10.11.34.37:42367;rport;branch=9dc39c3c3e84" ++ [x0d; x0a] ++ B "Max-Forwards: 60" ++ [x0d; x0a] ++ B "To: <sip:10.11.34.37:5060>" ++ [x0d; x0a] ++ B "From: <sip:10.11.34.37:42367;laffo>;tag=11917cbc0513" ++ [x0d; x0a] ++ B "Call-ID: e71a163e-c440-474d-a4ec-5cd85a0309c6" ++ [x0d; x0a] ++ B "CSeq: 36612 OPTIONS" ++ [x0d; x0a] ++ B "Contact: <sip:10.11.34.37:42367>" ++ [x0d; x0a] ++ B "User-Agent: ghoul/0.1" ++ [x0d; x0a] ++ B "Accept: application/sdp" ++ [x0d; x0a] ++ B "Content-Length: 0" ++ [x0d; x0a; x0d; x0a]))) = Some (flat_expected 2 0 (B "OPTIONS") (Some (mkuri (B "sip") [] [] (B "10.11.34.37") 42367 [] [])) 0 [] None [[mkaddr (Some (mkuri (B "sip") [] [] (B "10.11.34.37") 42367 [] [])) [] []]; [mkaddr (Some (mkuri (B "sip") [] [] (B "10.11.34.37") 42367 [((B "laffo"), [])] [])) [] [((B "tag"), (B "11917cbc0513"))]]; []; []; []; []; [mkaddr (Some (mkuri (B "sip") [] [] (B "10.11.34.37") 5060 [] [])) [] []]] [mkvia (B "SIP") (B "2.0") (B "UDP") (B "10.11.34.37") 42367 [((B "branch"), (B "9dc39c3c3e84")); ((B "rport"), [])]] (B "e71a163e-c440-474d-a4ec-5cd85a0309c6") 36612 (B "OPTIONS") 60 0 0 [(B "application/sdp"); []; []; []; []; []; []; []; []; []; []; []; []; []; []; []; []; []; []; []; []; []; []; []; []; []; []; []; []; []; []; []; []; (B "ghoul/0.1"); []; []] []).
Proof. vm_compute. reflexivity. Qed.
Example msg_30 : option_map flat (accepted (parse_msg (B "SIP/2.0 200 OK" ++ [x0d; x0a] ++ B "Via: SIP/2.0/UDP 127.0.0.1:52711;branch=z9hG4bK-03d1d81e94a0;received=127.0.0.1;rport=52711" ++ [x0d; x0a] ++ B "From: <sip:127.0.0.1:52711;transport=udp>;tag=4568e274dbd8" ++ [x0d; x0a] ++ B "To: <sip:echo@127.0.0.1:5060>;tag=as71a0fa72" ++ [x0d; x0a] ++ B "Call-ID: 99042736-d40b-4d96-a81b-867321443ff5" ++ [x0d; x0a] ++ B "CSeq: 16378 INVITE" ++ [x0d; x0a] ++ B "Server: Asterisk PBX 10.11.1" ++ [x0d; x0a] ++ B "Allow: INVITE, ACK, CANCEL, OPTIONS, BYE, REFER, SUBSCRIBE, NOTIFY, INFO, PUBLISH" ++ [x0d; x0a] ++ B "Supported: replaces, timer" ++ [x0d; x0a] ++ B "Contact: <sip:echo@127.0.0.1:5060>" ++ [x0d; x0a] ++ B "Content-Type: application/sdp-lol" ++ [x0d; x0a] ++ B "Content-Length: 255" ++ [x0d; x0a; x0d; x0a] ++ B "v=0" ++ [x0d; x0a] ++ B "o=root 736606944 736606944 IN IP4 127.0.0.1" ++ [x0d; x0a] ++ B "s=Asterisk PBX 10.11.1" ++ [x0d; x0a] ++ B "c=IN IP4 127.0.0.1" ++ [x0d; x0a] ++ B "t=0 0" ++ [x0d; x0a] ++ B "m=audio 23452 RTP/AVP 0 101" ++ [x0d; x0a] ++ B "a=rtpmap:0 PCMU/8000" ++ [x0d; x0a] ++ B "a=rtpmap:101 telephone-event/8000" ++ [x0d; x0a] ++ B "a=fmtp:101 0-16" ++ [x0d; x0a] ++ B "a=silenceSupp:off - - - -" ++ [x0d; x0a] ++ B "a=ptime:20" ++ [x0d; x0a] ++ B "a=sendrecv" ++ [x0d; x0a]))) = Some (flat_expected 2 0 [] None 200 (B "OK") (Some (Misc (B "application/sdp-lol") (B "v=0" ++ [x0d; x0a] ++ B "o=root 736606944 736606944 IN IP4 127.0.0.1" ++ [x0d; x0a] ++ B "s=Asterisk PBX 10.11.1" ++ [x0d; x0a] ++ B "c=IN IP4 127.0.0.1" ++ [x0d; x0a] ++ B "t=0 0" ++ [x0d; x0a] ++ B "m=audio 23452 RTP/AVP 0 101" ++ [x0d; x0a] ++ B "a=rtpmap:0 PCMU/8000" ++ [x0d; x0a] ++ B "a=rtpmap:101 telephone-event/8000" ++ [x0d; x0a] ++ B "a=fmtp:101 0-16" ++ [x0d; x0a] ++ B "a=silenceSupp:off - - - -" ++ [x0d; x0a] ++ B "a=ptime:20" ++ [x0d; x0a] ++ B "a=sendrecv" ++ [x0d; x0a]))) [[mkaddr (Some (mkuri (B "sip") (B "echo") [] (B "127.0.0.1") 5060 [] [])) [] []]; [mkaddr (Some (mkuri (B "sip") [] [] (B "127.0.0.1") 52711 [((B "transport"), (B "udp"))] [])) [] [((B "tag"), (B "4568e274dbd8"))]]; []; []; []; []; [mkaddr (Some (mkuri (B "sip") (B "echo") [] (B "127.0.0.1") 5060 [] [])) [] [((B "tag"), (B "as71a0fa72"))]]] [mkvia (B "SIP") (B "2.0") (B "UDP") (B "127.0.0.1") 52711 [((B "rport"), (B "52711")); ((B "received"), (B "127.0.0.1")); ((B "branch"), (B "z9hG4bK-03d1d81e94a0"))]] (B "99042736-d40b-4d96-a81b-867321443ff5") 16378 (B "INVITE") 0 0 0 [[]; []; []; []; []; (B "INVITE, ACK, CANCEL, OPTIONS, BYE, REFER, SUBSCRIBE, NOTIFY, INFO, PUBLISH"); []; []; []; []; []; []; []; []; []; []; []; []; []; []; []; []; []; []; []; []; []; []; (B "Asterisk PBX 10.11.1"); []; (B "replaces, timer"); []; []; []; []; []] []).
Proof. vm_compute. reflexivity. Qed.
Example msg_31 : option_map flat (accepted (parse_msg (B "SIP/2.0 200 OK" ++ [x0d; x0a] ++ B "Via: SIP/2.0/UDP 1.2.3.4:55345;branch=z9hG4bK-d1d81e94a099" ++ [x0d; x0a] ++ B "From: <sip:+12126660420@fl.gg>;tag=68e274dbd83b" ++ [x0d; x0a] ++ B "To: <sip:+12125650666@fl.gg>;tag=gK0cacc73a" ++ [x0d; x0a] ++ B "Call-ID: 042736d4-0bd9-4681-ab86-7321443ff58a" ++ [x0d; x0a] ++ B "CSeq: 31109 INVITE" ++ [x0d; x0a] ++ B "Record-Route: <sip:216.115.69.133:5060;lr>" ++ [x0d; x0a] ++ B "Record-Route: <sip:216.115.69.144:5060;lr>" ++ [x0d; x0a] ++ B "Contact: <sip:+12125650666@4.55.22.99:5060>" ++ [x0d; x0a] ++ B "Content-Type: application/sdp-lol" ++ [x0d; x0a] ++ B "Content-Length:  168" ++ [x0d; x0a; x0d; x0a] ++ B "v=0" ++ [x0d; x0a] ++ B "o=- 24294 7759 IN IP4 4.55.22.66" ++ [x0d; x0a] ++ B "s=-" ++ [x0d; x0a] ++ B "c=IN IP4 4.55.22.66" ++ [x0d; x0a] ++ B "t=0 0" ++ [x0d; x0a] ++ B "m=audio 19580 RTP/AVP 0 101" ++ [x0d; x0a] ++ B "a=rtpmap:101 telephone-event/8000" ++ [x0d; x0a] ++ B "a=fmtp:101 0-15" ++ [x0d; x0a] ++ B "a=maxptime:20" ++ [x0d; x0a]))) = Some (flat_expected 2 0 [] None 200 (B "OK") (Some (Misc (B "application/sdp-lol") (B "v=0" ++ [x0d; x0a] ++ B "o=- 24294 7759 IN IP4 4.55.22.66" ++ [x0d; x0a] ++ B "s=-" ++ [x0d; x0a] ++ B "c=IN IP4 4.55.22.66" ++ [x0d; x0a] ++ B "t=0 0" ++ [x0d; x0a] ++ B "m=audio 19580 RTP/AVP 0 101" ++ [x0d; x0a] ++ B "a=rtpmap:101 telephone-event/8000" ++ [x0d; x0a] ++ B "a=fmtp:101 0-15" ++ [x0d; x0a] ++ B "a=maxptime:20" ++ [x0d; x0a]))) [[mkaddr (Some (mkuri (B "sip") (B "+12125650666") [] (B "4.55.22.99") 5060 [] [])) [] []]; [mkaddr (Some (mkuri (B "sip") (B "+12126660420") [] (B "fl.gg") 0 [] [])) [] [((B "tag"), (B "68e274dbd83b"))]]; []; [mkaddr (Some (mkuri (B "sip") [] [] (B "216.115.69.133") 5060 [((B "lr"), [])] [])) [] []; mkaddr (Some (mkuri (B "sip") [] [] (B "216.115.69.144") 5060 [((B "lr"), [])] [])) [] []]; []; []; [mkaddr (Some (mkuri (B "sip") (B "+12125650666") [] (B "fl.gg") 0 [] [])) [] [((B "tag"), (B "gK0cacc73a"))]]] [mkvia (B "SIP") (B "2.0") (B "UDP") (B "1.2.3.4") 55345 [((B "branch"), (B "z9hG4bK-d1d81e94a099"))]] (B "042736d4-0bd9-4681-ab86-7321443ff58a") 31109 (B "INVITE") 0 0 0 [[]; []; []; []; []; []; []; []; []; []; []; []; []; []; []; []; []; []; []; []; []; []; []; []; []; []; []; []; []; []; []; []; []; []; []; []] []).
Proof. vm_compute. reflexivity. Qed.
Example msg_32 : option_map flat (accepted (parse_msg (B "INVITE sip:10.11.34.37 SIP/2.0" ++ [x0d; x0a] ++ B "via: SIP/2.0/UDP 10.11.34.37:59516;rport;branch=z9hG4bKS308QB9UUpNyD" ++ [x0d; x0a] ++ B "Max-Forwards: 70" ++ [x0d; x0a] ++ B "From: <sip:10.11.34.37:59516>;tag=S1jX7UtK5Zerg" ++ [x0d; x0a] ++ B "To: <sip:10.11.34.37>" ++ [x0d; x0a] ++ B "Call-ID: 87704115-03b8-122e-08b5-001bfcce6bdf" ++ [x0d; x0a] ++ B "CSeq: 133097268 INVITE" ++ [x0d; x0a] ++ B "Contact: <sip:10.11.34.37:59516>" ++ [x0d; x0a] ++ B "User-Agent: tube/0.1" ++ [x0d; x0a] ++ B "Allow: INVITE, ACK, BYE, CANCEL, OPTIONS, PRACK, MESSAGE, SUBSCRIBE, NOTIFY, REFER, UPDATE, INFO" ++ [x0d; x0a] ++ B "Supported: timer, 100rel" ++ [x0d; x0a] ++ B "Allow-Events: talk" ++ [x0d; x0a] ++ B "Content-Type: application/sdp-lol" ++ [x0d; x0a] ++ B "Content-Disposition: session" ++ [x0d; x0a] ++ B "Content-Length: 218" ++ [x0d; x0a; x0d; x0a] ++ B "v=0" ++ [x0d; x0a] ++ B "o=- 2862054018559638081 6057228511765453924 IN IP4 10.11.34.37" ++ [x0d; x0a] ++ B "s=-" ++ [x0d; x0a] ++ B "c=IN IP4 10.11.34.37" ++ [x0d; x0a] ++ B "t=0 0" ++ [x0d; x0a] ++ B "m=audio 23448 RTP/AVP 0 101" ++ [x0d; x0a] ++ B "a=rtpmap:0 PCMU/8000" ++ [x0d; x0a] ++ B "a=rtpmap:101 telephone-event/8000" ++ [x0d; x0a] ++ B "a=fmtp:101 0-16" ++ [x0d; x0a] ++ B "a=ptime:20" ++ [x0d; x0a]))) = Some (flat_expected 2 0 (B "INVITE") (Some (mkuri (B "sip") [] [] (B "10.11.34.37") 0 [] [])) 0 [] (Some (Misc (B "application/sdp-lol") (B "v=0" ++ [x0d; x0a] ++ B "o=- 2862054018559638081 6057228511765453924 IN IP4 10.11.34.37" ++ [x0d; x0a] ++ B "s=-" ++ [x0d; x0a] ++ B "c=IN IP4 10.11.34.37" ++ [x0d; x0a] ++ B "t=0 0" ++ [x0d; x0a] ++ B "m=audio 23448 RTP/AVP 0 101" ++ [x0d; x0a] ++ B "a=rtpmap:0 PCMU/8000" ++ [x0d; x0a] ++ B "a=rtpmap:101 telephone-event/8000" ++ [x0d; x0a] ++ B "a=fmtp:101 0-16" ++ [x0d; x0a] ++ B "a=ptime:20" ++ [x0d; x0a]))) [[mkaddr (Some (mkuri (B "sip") [] [] (B "10.11.34.37") 59516 [] [])) [] []]; [mkaddr (Some (mkuri (B "sip") [] [] (B "10.11.34.37") 59516 [] [])) [] [((B "tag"), (B "S1jX7UtK5Zerg"))]]; []; []; []; []; [mkaddr (Some (mkuri (B "sip") [] [] (B "10.11.34.37") 0 [] [])) [] []]] [mkvia (B "SIP") (B "2.0") (B "UDP") (B "10.11.34.37") 59516 [((B "branch"), (B "z9hG4bKS308QB9UUpNyD")); ((B "rport"), [])]] (B "87704115-03b8-122e-08b5-001bfcce6bdf") 133097268 (B "INVITE") 70 0 0 [[]; []; []; []; []; (B "INVITE, ACK, BYE, CANCEL, OPTIONS, PRACK, MESSAGE, SUBSCRIBE, NOTIFY, REFER, UPDATE, INFO"); (B "talk"); []; []; []; (B "session"); []; []; []; []; []; []; []; []; []; []; []; []; []; []; []; []; []; []; []; (B "timer, 100rel"); []; []; (B "tube/0.1"); []; []] []).
Proof. vm_compute. reflexivity. Qed.
Example msg_33 : option_map flat (accepted (parse_msg (B "INVITE sip:vivekg@chair-dnrc.example.com;unknownparam SIP/2.0" ++ [x0d; x0a] ++ B "TO :" ++ [x0d; x0a] ++ B " sip:vivekg@chair-dnrc.example.com ;   tag    = 1918181833n" ++ [x0d; x0a] ++ B "from   : ""J Rosenberg \\\""""       <sip:jdrosen@example.com>" ++ [x0d; x0a] ++ B "  ;" ++ [x0d; x0a] ++ B "  tag = 98asjd8" ++ [x0d; x0a] ++ B "MaX-fOrWaRdS: 0068" ++ [x0d; x0a] ++ B "Call-ID: wsinv.ndaksdj@192.0.2.1" ++ [x0d; x0a] ++ B "Content-Length   : 150" ++ [x0d; x0a] ++ B "cseq: 0009" ++ [x0d; x0a] ++ B "  INVITE" ++ [x0d; x0a] ++ B "Via  : SIP  /   2.0" ++ [x0d; x0a] ++ B " /UDP" ++ [x0d; x0a] ++ B "    192.0.2.2;branch=390skdjuw" ++ [x0d; x0a] ++ B "s :" ++ [x0d; x0a] ++ B "NewFangledHeader:   newfangled value" ++ [x0d; x0a] ++ B " continued newfangled value" ++ [x0d; x0a] ++ B "UnknownHeaderWithUnusualValue: ;;,,;;,;" ++ [x0d; x0a] ++ B "Content-Type: application/sdp-JART" ++ [x0d; x0a] ++ B "Route:" ++ [x0d; x0a] ++ B " <sip:services.example.com;lr;unknownwith=value;unknown-no-value>" ++ [x0d; x0a] ++ B "v:  SIP  / 2.0  / TCP     spindle.example.com   ;" ++ [x0d; x0a] ++ B "  branch  =   z9hG4bK9ikj8  ," ++ [x0d; x0a] ++ B " SIP  /    2.0   / UDP  192.168.255.111   ; branch=" ++ [x0d; x0a] ++ B " z9hG4bK30239" ++ [x0d; x0a] ++ B "m:""Quoted string \""\"""" <sip:jdrosen@example.com> ; newparam =" ++ [x0d; x0a] ++ B "      newvalue ;" ++ [x0d; x0a] ++ B "  secondparam ; q = 0.33" ++ [x0d; x0a; x0d; x0a] ++ B "v=0" ++ [x0d; x0a] ++ B "o=mhandley 29739 7272939 IN IP4 192.0.2.3" ++ [x0d; x0a] ++ B "s=-" ++ [x0d; x0a] ++ B "c=IN IP4 192.0.2.4" ++ [x0d; x0a] ++ B "t=0 0" ++ [x0d; x0a] ++ B "m=audio 49217 RTP/AVP 0 12" ++ [x0d; x0a] ++ B "m=video 3227 RTP/AVP 31" ++ [x0d; x0a] ++ B "a=rtpmap:31 LPC" ++ [x0d; x0a]))) = Some (flat_expected 2 0 (B "INVITE") (Some (mkuri (B "sip") (B "vivekg") [] (B "chair-dnrc.example.com") 0 [((B "unknownparam"), [])] [])) 0 [] (Some (Misc (B "application/sdp-JART") (B "v=0" ++ [x0d; x0a] ++ B "o=mhandley 29739 7272939 IN IP4 192.0.2.3" ++ [x0d; x0a] ++ B "s=-" ++ [x0d; x0a] ++ B "c=IN IP4 192.0.2.4" ++ [x0d; x0a] ++ B "t=0 0" ++ [x0d; x0a] ++ B "m=audio 49217 RTP/AVP 0 12" ++ [x0d; x0a] ++ B "m=video 3227 RTP/AVP 31" ++ [x0d; x0a] ++ B "a=rtpmap:31 LPC" ++ [x0d; x0a]))) [[mkaddr (Some (mkuri (B "sip") (B "jdrosen") [] (B "example.com") 0 [] [])) (B "Quoted string """"") [((B "q"), (B "0.33")); ((B "secondparam"), []); ((B "newparam"), (B "newvalue"))]]; [mkaddr (Some (mkuri (B "sip") (B "jdrosen") [] (B "example.com") 0 [] [])) (B "J Rosenberg \""") [((B "tag"), (B "98asjd8"))]]; []; []; []; [mkaddr (Some (mkuri (B "sip") [] [] (B "services.example.com") 0 [((B "unknown-no-value"), []); ((B "unknownwith"), (B "value")); ((B "lr"), [])] [])) [] []]; [mkaddr (Some (mkuri (B "sip") (B "vivekg") [] (B "chair-dnrc.example.com") 0 [] [])) [] [((B "tag"), (B "1918181833n"))]]] [mkvia (B "SIP") (B "2.0") (B "UDP") (B "192.0.2.2") 0 [((B "branch"), (B "390skdjuw"))]; mkvia (B "SIP") (B "2.0") (B "TCP") (B "spindle.example.com") 0 [((B "branch"), (B "z9hG4bK9ikj8"))]; mkvia (B "SIP") (B "2.0") (B "UDP") (B "192.168.255.111") 0 [((B "branch"), (B "z9hG4bK30239"))]] (B "wsinv.ndaksdj@192.0.2.1") 9 (B "INVITE") 68 0 0 [[]; []; []; []; []; []; []; []; []; []; []; []; []; []; []; []; []; []; []; []; []; []; []; []; []; []; []; []; []; []; []; []; []; []; []; []] [((B "UnknownHeaderWithUnusualValue"), (B ";;,,;;,;")); ((B "NewFangledHeader"), (B "newfangled value" ++ [x0d; x0a] ++ B " continued newfangled value"))]).
Proof. vm_compute. reflexivity. Qed.
Example msg_34 : option_map flat (accepted (parse_msg (B "!interesting-Method0123456789_*+`.%indeed'~ sip:1_unusual.URI~(to-be!sure)&isn't+it$/crazy?,/;;*:&it+has=1,weird!*pas$wo~d_too.(doesn't-it)@example.com SIP/2.0" ++ [x0d; x0a] ++ B "Via: SIP/2.0/TCP host1.example.com;branch=z9hG4bK-.!%66*_+`'~" ++ [x0d; x0a] ++ B "To: ""BEL:\" ++ [x07] ++ B " NUL:\" ++ [x00] ++ B " DEL:\" ++ [x7f] ++ B """ <sip:1_unusual.URI~(to-be!sure)&isn't+it$/crazy?,/;;*@example.com>" ++ [x0d; x0a] ++ B "From: token1~` token2'+_ token3*%!.- <sip:mundane@example.com>;fromParam''~+*_!.-%=""" ++ [xd1; x80; xd0; xb0; xd0; xb1; xd0; xbe; xd1; x82; xd0; xb0; xd1; x8e; xd1; x89; xd0; xb8; xd0; xb9] ++ B """;tag=_token~1'+`*%!-." ++ [x0d; x0a] ++ B "Call-ID: intmeth.word%ZK-!.*_+'@word`~)(><:\/""][?}{" ++ [x0d; x0a] ++ B "CSeq: 139122385 !interesting-Method0123456789_*+`.%indeed'~" ++ [x0d; x0a] ++ B "Max-Forwards: 255" ++ [x0d; x0a] ++ B "extensionHeader-!.%*+_`'~:" ++ [xef; xbb; xbf; xe5; xa4; xa7; xe5; x81; x9c; xe9; x9b; xbb; x0d; x0a] ++ B "Content-Length: 0" ++ [x0d; x0a; x0d; x0a]))) = Some (flat_expected 2 0 (B "!interesting-Method0123456789_*+`.%indeed'~") (Some (mkuri (B "sip") (B "1_unusual.URI~(to-be!sure)&isn't+it$/crazy?,/;;*") (B "&it+has=1,weird!*pas$wo~d_too.(doesn't-it)") (B "example.com") 0 [] [])) 0 [] None [[]; [mkaddr (Some (mkuri (B "sip") (B "mundane") [] (B "example.com") 0 [] [])) (B "token1~` token2'+_ token3*%!.-") [((B "tag"), (B "_token~1'+`*%!-.")); ((B "fromParam''~+*_!.-%"), ([xd1; x80; xd0; xb0; xd0; xb1; xd0; xbe; xd1; x82; xd0; xb0; xd1; x8e; xd1; x89; xd0; xb8; xd0; xb9]))]]; []; []; []; []; [mkaddr (Some (mkuri (B "sip") (B "1_unusual.URI~(to-be!sure)&isn't+it$/crazy?,/;;*") [] (B "example.com") 0 [] [])) (B "BEL:" ++ [x07] ++ B " NUL:" ++ [x00] ++ B " DEL:" ++ [x7f]) []]] [mkvia (B "SIP") (B "2.0") (B "TCP") (B "host1.example.com") 0 [((B "branch"), (B "z9hG4bK-.!%66*_+`'~"))]] (B "intmeth.word%ZK-!.*_+'@word`~)(><:\/""][?}{") 139122385 (B "!interesting-Method0123456789_*+`.%indeed'~") 255 0 0 [[]; []; []; []; []; []; []; []; []; []; []; []; []; []; []; []; []; []; []; []; []; []; []; []; []; []; []; []; []; []; []; []; []; []; []; []] [((B "extensionHeader-!.%*+_`'~"), ([xef; xbb; xbf; xe5; xa4; xa7; xe5; x81; x9c; xe9; x9b; xbb]))]).
Proof. vm_compute. reflexivity. Qed.
Example addr_0 : option_map (fun m => addrs m Contact) (accepted (parse_msg (B "SIP/2.0 900 ParseAddrBytes()" ++ CRLF ++ B "Contact:" ++ (B "<sip:pokemon.net>") ++ CRLF ++ CRLF))) = Some [mkaddr (Some (mkuri (B "sip") [] [] (B "pokemon.net") 0 [] [])) [] []].
Proof. vm_compute. reflexivity. Qed.
Example addr_format_0 : addr_append [mkaddr (Some (mkuri (B "sip") [] [] (B "pokemon.net") 0 [] [])) [] []] = (B "<sip:pokemon.net>").
Proof. vm_compute. reflexivity. Qed.
Example addr_1 : option_map (fun m => addrs m Contact) (accepted (parse_msg (B "SIP/2.0 900 ParseAddrBytes()" ++ CRLF ++ B "Contact:" ++ (B "<sip:pokemon.net>;tag=deadbeef") ++ CRLF ++ CRLF))) = Some [mkaddr (Some (mkuri (B "sip") [] [] (B "pokemon.net") 0 [] [])) [] [((B "tag"), (B "deadbeef"))]].
Proof. vm_compute. reflexivity. Qed.
Example addr_format_1 : addr_append [mkaddr (Some (mkuri (B "sip") [] [] (B "pokemon.net") 0 [] [])) [] [((B "tag"), (B "deadbeef"))]] = (B "<sip:pokemon.net>;tag=deadbeef").
Proof. vm_compute. reflexivity. Qed.
Example addr_2 : option_map (fun m => addrs m Contact) (accepted (parse_msg (B "SIP/2.0 900 ParseAddrBytes()" ++ CRLF ++ B "Contact:" ++ (B "<sip:pokemon.net>" ++ [x09] ++ B " ;" ++ [x09] ++ B " tag" ++ [x09] ++ B " = " ++ [x09] ++ B "deadbeef") ++ CRLF ++ CRLF))) = Some [mkaddr (Some (mkuri (B "sip") [] [] (B "pokemon.net") 0 [] [])) [] [((B "tag"), (B "deadbeef"))]].
Proof. vm_compute. reflexivity. Qed.
Example addr_format_2 : addr_append [mkaddr (Some (mkuri (B "sip") [] [] (B "pokemon.net") 0 [] [])) [] [((B "tag"), (B "deadbeef"))]] = (B "<sip:pokemon.net>;tag=deadbeef").
Proof. vm_compute. reflexivity. Qed.
Example addr_3 : option_map (fun m => addrs m Contact) (accepted (parse_msg (B "SIP/2.0 900 ParseAddrBytes()" ++ CRLF ++ B "Contact:" ++ (B "<sip:pokemon.net>;tag=""deadbeef""") ++ CRLF ++ CRLF))) = Some [mkaddr (Some (mkuri (B "sip") [] [] (B "pokemon.net") 0 [] [])) [] [((B "tag"), (B "deadbeef"))]].
Proof. vm_compute. reflexivity. Qed.
Example addr_format_3 : addr_append [mkaddr (Some (mkuri (B "sip") [] [] (B "pokemon.net") 0 [] [])) [] [((B "tag"), (B "deadbeef"))]] = (B "<sip:pokemon.net>;tag=deadbeef").
Proof. vm_compute. reflexivity. Qed.
Example addr_4 : option_map (fun m => addrs m Contact) (accepted (parse_msg (B "SIP/2.0 900 ParseAddrBytes()" ++ CRLF ++ B "Contact:" ++ (B "<sip:pokemon.net>" ++ [x09] ++ B " ;" ++ [x09] ++ B " tag" ++ [x09] ++ B " = " ++ [x09] ++ B """deadbeef""") ++ CRLF ++ CRLF))) = Some [mkaddr (Some (mkuri (B "sip") [] [] (B "pokemon.net") 0 [] [])) [] [((B "tag"), (B "deadbeef"))]].
Proof. vm_compute. reflexivity. Qed.
Example addr_format_4 : addr_append [mkaddr (Some (mkuri (B "sip") [] [] (B "pokemon.net") 0 [] [])) [] [((B "tag"), (B "deadbeef"))]] = (B "<sip:pokemon.net>;tag=deadbeef").
Proof. vm_compute. reflexivity. Qed.
Example addr_5 : option_map (fun m => addrs m Contact) (accepted (parse_msg (B "SIP/2.0 900 ParseAddrBytes()" ++ CRLF ++ B "Contact:" ++ (B "<sip:pokemon.net>;tag=""\""deadbeef\""""") ++ CRLF ++ CRLF))) = Some [mkaddr (Some (mkuri (B "sip") [] [] (B "pokemon.net") 0 [] [])) [] [((B "tag"), (B """deadbeef"""))]].
Proof. vm_compute. reflexivity. Qed.
Example addr_format_5 : addr_append [mkaddr (Some (mkuri (B "sip") [] [] (B "pokemon.net") 0 [] [])) [] [((B "tag"), (B """deadbeef"""))]] = (B "<sip:pokemon.net>;tag=""\""deadbeef\""""").
Proof. vm_compute. reflexivity. Qed.
Example addr_6 : option_map (fun m => addrs m Contact) (accepted (parse_msg (B "SIP/2.0 900 ParseAddrBytes()" ++ CRLF ++ B "Contact:" ++ (B "<sip:brave@toaster.net;isup-oli=29>") ++ CRLF ++ CRLF))) = Some [mkaddr (Some (mkuri (B "sip") (B "brave") [] (B "toaster.net") 0 [((B "isup-oli"), (B "29"))] [])) [] []].
Proof. vm_compute. reflexivity. Qed.
Example addr_format_6 : addr_append [mkaddr (Some (mkuri (B "sip") (B "brave") [] (B "toaster.net") 0 [((B "isup-oli"), (B "29"))] [])) [] []] = (B "<sip:brave@toaster.net;isup-oli=29>").
Proof. vm_compute. reflexivity. Qed.
Example addr_7 : option_map (fun m => addrs m Contact) (accepted (parse_msg (B "SIP/2.0 900 ParseAddrBytes()" ++ CRLF ++ B "Contact:" ++ (B "<sip:brave@toaster.net;isup-oli=29>;tag=deadbeef") ++ CRLF ++ CRLF))) = Some [mkaddr (Some (mkuri (B "sip") (B "brave") [] (B "toaster.net") 0 [((B "isup-oli"), (B "29"))] [])) [] [((B "tag"), (B "deadbeef"))]].
Proof. vm_compute. reflexivity. Qed.
Example addr_format_7 : addr_append [mkaddr (Some (mkuri (B "sip") (B "brave") [] (B "toaster.net") 0 [((B "isup-oli"), (B "29"))] [])) [] [((B "tag"), (B "deadbeef"))]] = (B "<sip:brave@toaster.net;isup-oli=29>;tag=deadbeef").
Proof. vm_compute. reflexivity. Qed.
Example addr_8 : option_map (fun m => addrs m Contact) (accepted (parse_msg (B "SIP/2.0 900 ParseAddrBytes()" ++ CRLF ++ B "Contact:" ++ (B "<sip:pokemon.com>, Ditto <sip:ditto@pokemon.com>") ++ CRLF ++ CRLF))) = Some [mkaddr (Some (mkuri (B "sip") [] [] (B "pokemon.com") 0 [] [])) [] []; mkaddr (Some (mkuri (B "sip") (B "ditto") [] (B "pokemon.com") 0 [] [])) (B "Ditto") []].
Proof. vm_compute. reflexivity. Qed.
Example addr_format_8 : addr_append [mkaddr (Some (mkuri (B "sip") [] [] (B "pokemon.com") 0 [] [])) [] []; mkaddr (Some (mkuri (B "sip") (B "ditto") [] (B "pokemon.com") 0 [] [])) (B "Ditto") []] = (B "<sip:pokemon.com>, Ditto <sip:ditto@pokemon.com>").
Proof. vm_compute. reflexivity. Qed.
Example addr_9 : option_map (fun m => addrs m Contact) (accepted (parse_msg (B "SIP/2.0 900 ParseAddrBytes()" ++ CRLF ++ B "Contact:" ++ (B "<sip:1.2.3.4>, <sip:1.2.3.5>, <sip:[666::dead:beef]>") ++ CRLF ++ CRLF))) = Some [mkaddr (Some (mkuri (B "sip") [] [] (B "1.2.3.4") 0 [] [])) [] []; mkaddr (Some (mkuri (B "sip") [] [] (B "1.2.3.5") 0 [] [])) [] []; mkaddr (Some (mkuri (B "sip") [] [] (B "666::dead:beef") 0 [] [])) [] []].
Proof. vm_compute. reflexivity. Qed.
Example addr_format_9 : addr_append [mkaddr (Some (mkuri (B "sip") [] [] (B "1.2.3.4") 0 [] [])) [] []; mkaddr (Some (mkuri (B "sip") [] [] (B "1.2.3.5") 0 [] [])) [] []; mkaddr (Some (mkuri (B "sip") [] [] (B "666::dead:beef") 0 [] [])) [] []] = (B "<sip:1.2.3.4>, <sip:1.2.3.5>, <sip:[666::dead:beef]>").
Proof. vm_compute. reflexivity. Qed.
Example addr_10 : option_map (fun m => addrs m Contact) (accepted (parse_msg (B "SIP/2.0 900 ParseAddrBytes()" ++ CRLF ++ B "Contact:" ++ (B """\""\""Justine \\Tunney "" <sip:jart@google.com;isup-oli=29>;tag=deadbeef") ++ CRLF ++ CRLF))) = Some [mkaddr (Some (mkuri (B "sip") (B "jart") [] (B "google.com") 0 [((B "isup-oli"), (B "29"))] [])) (B """""Justine \Tunney ") [((B "tag"), (B "deadbeef"))]].
Proof. vm_compute. reflexivity. Qed.
Example addr_format_10 : addr_append [mkaddr (Some (mkuri (B "sip") (B "jart") [] (B "google.com") 0 [((B "isup-oli"), (B "29"))] [])) (B """""Justine \Tunney ") [((B "tag"), (B "deadbeef"))]] = (B """\""\""Justine \\Tunney "" <sip:jart@google.com;isup-oli=29>;tag=deadbeef").
Proof. vm_compute. reflexivity. Qed.
Example addr_reversed : map (fun a => option_map u_host (a_uri a)) (addr_Reversed [mkaddr (Some (mkuri (B "sip") [] [] (B "1.2.3.4") 5060 [] [])) [] []; mkaddr (Some (mkuri (B "sip") [] [] (B "2.3.4.5") 5060 [] [])) [] []]) = [Some (B "2.3.4.5"); Some (B "1.2.3.4")].
Proof. vm_compute. reflexivity. Qed.
Example sdp_0 : match sdp_parse (B "v=0" ++ [x0d; x0a] ++ B "o=root 31589 31589 IN IP4 10.0.0.38" ++ [x0d; x0a] ++ B "s=session" ++ [x0d; x0a] ++ B "c=IN IP4 10.0.0.38" ++ [x0d; x0a] ++ B "t=0 0" ++ [x0d; x0a] ++ B "m=audio 30126 RTP/AVP 0 101" ++ [x0d; x0a] ++ B "a=rtpmap:0 PCMU/8000" ++ [x0d; x0a] ++ B "a=rtpmap:101 telephone-event/8000" ++ [x0d; x0a] ++ B "a=fmtp:101 0-16" ++ [x0d; x0a] ++ B "a=silenceSupp:off - - - -" ++ [x0d; x0a] ++ B "a=ptime:20" ++ [x0d; x0a] ++ B "a=sendrecv" ++ [x0d; x0a]) with Ok (inl s) => Some (no_other s) | _ => None end = Some (mksdp (mkorigin (B "root") (B "31589") (B "31589") (B "10.0.0.38")) (B "10.0.0.38") (Some (mkmedia (B "RTP/AVP") 30126 [mkcodec 0 (B "PCMU") 8000 [] []; mkcodec 101 (B "telephone-event") 8000 [] (B "0-16")])) None (B "session") (B "0 0") 20 false false [((B "silenceSupp"), (B "off - - - -"))] []).
Proof. vm_compute. reflexivity. Qed.
Example sdp_format_0 : sdp_append (B "never") (mksdp (mkorigin (B "root") (B "31589") (B "31589") (B "10.0.0.38")) (B "10.0.0.38") (Some (mkmedia (B "RTP/AVP") 30126 [mkcodec 0 (B "PCMU") 8000 [] []; mkcodec 101 (B "telephone-event") 8000 [] (B "0-16")])) None (B "session") (B "0 0") 20 false false [((B "silenceSupp"), (B "off - - - -"))] []) = (B "v=0" ++ [x0d; x0a] ++ B "o=root 31589 31589 IN IP4 10.0.0.38" ++ [x0d; x0a] ++ B "s=session" ++ [x0d; x0a] ++ B "c=IN IP4 10.0.0.38" ++ [x0d; x0a] ++ B "t=0 0" ++ [x0d; x0a] ++ B "m=audio 30126 RTP/AVP 0 101" ++ [x0d; x0a] ++ B "a=rtpmap:0 PCMU/8000" ++ [x0d; x0a] ++ B "a=rtpmap:101 telephone-event/8000" ++ [x0d; x0a] ++ B "a=fmtp:101 0-16" ++ [x0d; x0a] ++ B "a=silenceSupp:off - - - -" ++ [x0d; x0a] ++ B "a=ptime:20" ++ [x0d; x0a] ++ B "a=sendrecv" ++ [x0d; x0a]).
Proof. vm_compute. reflexivity. Qed.
Example sdp_1 : match sdp_parse (B "v=0" ++ [x0d; x0a] ++ B "o=- 3366701332 3366701332 IN IP4 1.2.3.4" ++ [x0d; x0a] ++ B "c=IN IP4 1.2.3.4" ++ [x0d; x0a] ++ B "m=audio 32898 RTP/AVP 18" ++ [x0d; x0a] ++ B "m=video 32900 RTP/AVP 34" ++ [x0d; x0a] ++ B "a=fmtp:18 annexb=yes") with Ok (inl s) => Some (no_other s) | _ => None end = Some (mksdp (mkorigin (B "-") (B "3366701332") (B "3366701332") (B "1.2.3.4")) (B "1.2.3.4") (Some (mkmedia (B "RTP/AVP") 32898 [mkcodec 18 (B "G729") 8000 [] (B "annexb=yes")])) (Some (mkmedia (B "RTP/AVP") 32900 [mkcodec 34 (B "H263") 90000 [] []])) (B "pok" ++ [xc3; xa9] ++ B "mon") (B "0 0") 0 false false [] []).
Proof. vm_compute. reflexivity. Qed.
Example sdp_format_1 : sdp_append (B "never") (mksdp (mkorigin (B "-") (B "3366701332") (B "3366701332") (B "1.2.3.4")) (B "1.2.3.4") (Some (mkmedia (B "RTP/AVP") 32898 [mkcodec 18 (B "G729") 8000 [] (B "annexb=yes")])) (Some (mkmedia (B "RTP/AVP") 32900 [mkcodec 34 (B "H263") 90000 [] []])) (B "pok" ++ [xc3; xa9] ++ B "mon") (B "0 0") 0 false false [] []) = (B "v=0" ++ [x0d; x0a] ++ B "o=- 3366701332 3366701332 IN IP4 1.2.3.4" ++ [x0d; x0a] ++ B "s=pok" ++ [xc3; xa9] ++ B "mon" ++ [x0d; x0a] ++ B "c=IN IP4 1.2.3.4" ++ [x0d; x0a] ++ B "t=0 0" ++ [x0d; x0a] ++ B "m=audio 32898 RTP/AVP 18" ++ [x0d; x0a] ++ B "a=rtpmap:18 G729/8000" ++ [x0d; x0a] ++ B "a=fmtp:18 annexb=yes" ++ [x0d; x0a] ++ B "m=video 32900 RTP/AVP 34" ++ [x0d; x0a] ++ B "a=rtpmap:34 H263/90000" ++ [x0d; x0a] ++ B "a=sendrecv" ++ [x0d; x0a]).
Proof. vm_compute. reflexivity. Qed.
Example sdp_2 : match sdp_parse (B "v=0" ++ [x0d; x0a] ++ B "o=- 3366701332 3366701332 IN IP4 1.2.3.4" ++ [x0d; x0a] ++ B "s=-" ++ [x0d; x0a] ++ B "c=IN IP4 1.2.3.4" ++ [x0d; x0a] ++ B "t=0 0" ++ [x0d; x0a] ++ B "m=audio 32898 RTP/AVP 9 18 0 101" ++ [x0d; x0a] ++ B "a=rtpmap:101 telephone-event/8000" ++ [x0d; x0a] ++ B "a=ptime:20" ++ [x0d; x0a]) with Ok (inl s) => Some (no_other s) | _ => None end = Some (mksdp (mkorigin (B "-") (B "3366701332") (B "3366701332") (B "1.2.3.4")) (B "1.2.3.4") (Some (mkmedia (B "RTP/AVP") 32898 [mkcodec 9 (B "G722") 8000 [] []; mkcodec 18 (B "G729") 8000 [] []; mkcodec 0 (B "PCMU") 8000 [] []; mkcodec 101 (B "telephone-event") 8000 [] []])) None (B "-") (B "0 0") 20 false false [] []).
Proof. vm_compute. reflexivity. Qed.
Example sdp_format_2 : sdp_append (B "never") (mksdp (mkorigin (B "-") (B "3366701332") (B "3366701332") (B "1.2.3.4")) (B "1.2.3.4") (Some (mkmedia (B "RTP/AVP") 32898 [mkcodec 9 (B "G722") 8000 [] []; mkcodec 18 (B "G729") 8000 [] []; mkcodec 0 (B "PCMU") 8000 [] []; mkcodec 101 (B "telephone-event") 8000 [] []])) None (B "-") (B "0 0") 20 false false [] []) = (B "v=0" ++ [x0d; x0a] ++ B "o=- 3366701332 3366701332 IN IP4 1.2.3.4" ++ [x0d; x0a] ++ B "s=-" ++ [x0d; x0a] ++ B "c=IN IP4 1.2.3.4" ++ [x0d; x0a] ++ B "t=0 0" ++ [x0d; x0a] ++ B "m=audio 32898 RTP/AVP 9 18 0 101" ++ [x0d; x0a] ++ B "a=rtpmap:9 G722/8000" ++ [x0d; x0a] ++ B "a=rtpmap:18 G729/8000" ++ [x0d; x0a] ++ B "a=rtpmap:0 PCMU/8000" ++ [x0d; x0a] ++ B "a=rtpmap:101 telephone-event/8000" ++ [x0d; x0a] ++ B "a=ptime:20" ++ [x0d; x0a] ++ B "a=sendrecv" ++ [x0d; x0a]).
Proof. vm_compute. reflexivity. Qed.
Example sdp_3 : match sdp_parse (B "v=0" ++ [x0d; x0a] ++ B "o=- 3366701332 3366701332 IN IP6 dead:beef::666" ++ [x0d; x0a] ++ B "s=-" ++ [x0d; x0a] ++ B "c=IN IP6 dead:beef::666" ++ [x0d; x0a] ++ B "t=0 0" ++ [x0d; x0a] ++ B "m=audio 32898 RTP/AVP 9 18 0 101" ++ [x0d; x0a] ++ B "a=rtpmap:101 telephone-event/8000" ++ [x0d; x0a] ++ B "a=ptime:20" ++ [x0d; x0a]) with Ok (inl s) => Some (no_other s) | _ => None end = Some (mksdp (mkorigin (B "-") (B "3366701332") (B "3366701332") (B "dead:beef::666")) (B "dead:beef::666") (Some (mkmedia (B "RTP/AVP") 32898 [mkcodec 9 (B "G722") 8000 [] []; mkcodec 18 (B "G729") 8000 [] []; mkcodec 0 (B "PCMU") 8000 [] []; mkcodec 101 (B "telephone-event") 8000 [] []])) None (B "-") (B "0 0") 20 false false [] []).
Proof. vm_compute. reflexivity. Qed.
Example sdp_format_3 : sdp_append (B "never") (mksdp (mkorigin (B "-") (B "3366701332") (B "3366701332") (B "dead:beef::666")) (B "dead:beef::666") (Some (mkmedia (B "RTP/AVP") 32898 [mkcodec 9 (B "G722") 8000 [] []; mkcodec 18 (B "G729") 8000 [] []; mkcodec 0 (B "PCMU") 8000 [] []; mkcodec 101 (B "telephone-event") 8000 [] []])) None (B "-") (B "0 0") 20 false false [] []) = (B "v=0" ++ [x0d; x0a] ++ B "o=- 3366701332 3366701332 IN IP6 dead:beef::666" ++ [x0d; x0a] ++ B "s=-" ++ [x0d; x0a] ++ B "c=IN IP6 dead:beef::666" ++ [x0d; x0a] ++ B "t=0 0" ++ [x0d; x0a] ++ B "m=audio 32898 RTP/AVP 9 18 0 101" ++ [x0d; x0a] ++ B "a=rtpmap:9 G722/8000" ++ [x0d; x0a] ++ B "a=rtpmap:18 G729/8000" ++ [x0d; x0a] ++ B "a=rtpmap:0 PCMU/8000" ++ [x0d; x0a] ++ B "a=rtpmap:101 telephone-event/8000" ++ [x0d; x0a] ++ B "a=ptime:20" ++ [x0d; x0a] ++ B "a=sendrecv" ++ [x0d; x0a]).
Proof. vm_compute. reflexivity. Qed.
Example sdp_4 : match sdp_parse (B "v=0" ++ [x0d; x0a] ++ B "o=- 3457169218 3457169218 IN IP4 10.11.34.37" ++ [x0d; x0a] ++ B "s=pjmedia" ++ [x0d; x0a] ++ B "c=IN IP4 10.11.34.37" ++ [x0d; x0a] ++ B "t=0 0" ++ [x0d; x0a] ++ B "m=audio 4000 RTP/AVP 103 102 104 113 3 0 8 9 101" ++ [x0d; x0a] ++ B "a=rtpmap:103 speex/16000" ++ [x0d; x0a] ++ B "a=rtpmap:102 speex/8000" ++ [x0d; x0a] ++ B "a=rtpmap:104 speex/32000" ++ [x0d; x0a] ++ B "a=rtpmap:113 iLBC/8000" ++ [x0d; x0a] ++ B "a=fmtp:113 mode=30" ++ [x0d; x0a] ++ B "a=rtpmap:3 GSM/8000" ++ [x0d; x0a] ++ B "a=rtpmap:0 PCMU/8000" ++ [x0d; x0a] ++ B "a=rtpmap:8 PCMA/8000" ++ [x0d; x0a] ++ B "a=rtpmap:9 G722/8000" ++ [x0d; x0a] ++ B "a=rtpmap:101 telephone-event/8000" ++ [x0d; x0a] ++ B "a=fmtp:101 0-15" ++ [x0d; x0a] ++ B "a=rtcp:4001 IN IP4 10.11.34.37" ++ [x0d; x0a] ++ B "a=X-nat:0" ++ [x0d; x0a] ++ B "a=ptime:20" ++ [x0d; x0a] ++ B "a=sendrecv" ++ [x0d; x0a]) with Ok (inl s) => Some (no_other s) | _ => None end = Some (mksdp (mkorigin (B "-") (B "3457169218") (B "3457169218") (B "10.11.34.37")) (B "10.11.34.37") (Some (mkmedia (B "RTP/AVP") 4000 [mkcodec 103 (B "speex") 16000 [] []; mkcodec 102 (B "speex") 8000 [] []; mkcodec 104 (B "speex") 32000 [] []; mkcodec 113 (B "iLBC") 8000 [] (B "mode=30"); mkcodec 3 (B "GSM") 8000 [] []; mkcodec 0 (B "PCMU") 8000 [] []; mkcodec 8 (B "PCMA") 8000 [] []; mkcodec 9 (B "G722") 8000 [] []; mkcodec 101 (B "telephone-event") 8000 [] (B "0-15")])) None (B "pjmedia") (B "0 0") 20 false false [((B "rtcp"), (B "4001 IN IP4 10.11.34.37")); ((B "X-nat"), (B "0"))] []).
Proof. vm_compute. reflexivity. Qed.
Example sdp_format_4 : sdp_append (B "never") (mksdp (mkorigin (B "-") (B "3457169218") (B "3457169218") (B "10.11.34.37")) (B "10.11.34.37") (Some (mkmedia (B "RTP/AVP") 4000 [mkcodec 103 (B "speex") 16000 [] []; mkcodec 102 (B "speex") 8000 [] []; mkcodec 104 (B "speex") 32000 [] []; mkcodec 113 (B "iLBC") 8000 [] (B "mode=30"); mkcodec 3 (B "GSM") 8000 [] []; mkcodec 0 (B "PCMU") 8000 [] []; mkcodec 8 (B "PCMA") 8000 [] []; mkcodec 9 (B "G722") 8000 [] []; mkcodec 101 (B "telephone-event") 8000 [] (B "0-15")])) None (B "pjmedia") (B "0 0") 20 false false [((B "rtcp"), (B "4001 IN IP4 10.11.34.37")); ((B "X-nat"), (B "0"))] []) = (B "v=0" ++ [x0d; x0a] ++ B "o=- 3457169218 3457169218 IN IP4 10.11.34.37" ++ [x0d; x0a] ++ B "s=pjmedia" ++ [x0d; x0a] ++ B "c=IN IP4 10.11.34.37" ++ [x0d; x0a] ++ B "t=0 0" ++ [x0d; x0a] ++ B "m=audio 4000 RTP/AVP 103 102 104 113 3 0 8 9 101" ++ [x0d; x0a] ++ B "a=rtpmap:103 speex/16000" ++ [x0d; x0a] ++ B "a=rtpmap:102 speex/8000" ++ [x0d; x0a] ++ B "a=rtpmap:104 speex/32000" ++ [x0d; x0a] ++ B "a=rtpmap:113 iLBC/8000" ++ [x0d; x0a] ++ B "a=fmtp:113 mode=30" ++ [x0d; x0a] ++ B "a=rtpmap:3 GSM/8000" ++ [x0d; x0a] ++ B "a=rtpmap:0 PCMU/8000" ++ [x0d; x0a] ++ B "a=rtpmap:8 PCMA/8000" ++ [x0d; x0a] ++ B "a=rtpmap:9 G722/8000" ++ [x0d; x0a] ++ B "a=rtpmap:101 telephone-event/8000" ++ [x0d; x0a] ++ B "a=fmtp:101 0-15" ++ [x0d; x0a] ++ B "a=rtcp:4001 IN IP4 10.11.34.37" ++ [x0d; x0a] ++ B "a=X-nat:0" ++ [x0d; x0a] ++ B "a=ptime:20" ++ [x0d; x0a] ++ B "a=sendrecv" ++ [x0d; x0a]).
Proof. vm_compute. reflexivity. Qed.
Example sdp_5 : match sdp_parse (B "v=0" ++ [x0d; x0a] ++ B "o=- 3366701332 3366701334 IN IP4 10.11.34.37" ++ [x0d; x0a] ++ B "s=squigglies" ++ [x0d; x0a] ++ B "c=IN IP6 dead:beef::666" ++ [x0d; x0a] ++ B "t=0 0" ++ [x0d; x0a] ++ B "m=audio 80 TCP/IP 111" ++ [x0d; x0a] ++ B "a=rtpmap:111 MP3/44100/2" ++ [x0d; x0a] ++ B "a=sendonly" ++ [x0d; x0a]) with Ok (inl s) => Some (no_other s) | _ => None end = Some (mksdp (mkorigin (B "-") (B "3366701332") (B "3366701334") (B "10.11.34.37")) (B "dead:beef::666") (Some (mkmedia (B "TCP/IP") 80 [mkcodec 111 (B "MP3") 44100 (B "2") []])) None (B "squigglies") (B "0 0") 0 true false [] []).
Proof. vm_compute. reflexivity. Qed.
Example sdp_format_5 : sdp_append (B "never") (mksdp (mkorigin (B "-") (B "3366701332") (B "3366701334") (B "10.11.34.37")) (B "dead:beef::666") (Some (mkmedia (B "TCP/IP") 80 [mkcodec 111 (B "MP3") 44100 (B "2") []])) None (B "squigglies") (B "0 0") 0 true false [] []) = (B "v=0" ++ [x0d; x0a] ++ B "o=- 3366701332 3366701334 IN IP4 10.11.34.37" ++ [x0d; x0a] ++ B "s=squigglies" ++ [x0d; x0a] ++ B "c=IN IP6 dead:beef::666" ++ [x0d; x0a] ++ B "t=0 0" ++ [x0d; x0a] ++ B "m=audio 80 TCP/IP 111" ++ [x0d; x0a] ++ B "a=rtpmap:111 MP3/44100/2" ++ [x0d; x0a] ++ B "a=sendonly" ++ [x0d; x0a]).
Proof. vm_compute. reflexivity. Qed.
Example quote_0 : appendQuoted (B "hello") = (B "hello").
Proof. vm_compute. reflexivity. Qed.
Example quote_1 : appendQuoted (B "hello there") = (B "hello there").
Proof. vm_compute. reflexivity. Qed.
Example quote_2 : appendQuoted (B "hello there<") = (B """hello there<""").
Proof. vm_compute. reflexivity. Qed.
Example quote_3 : appendQuoted (B "hello" ++ [x0d; x0a] ++ B " there!") = (B """hello" ++ [x0d; x0a] ++ B " there!""").
Proof. vm_compute. reflexivity. Qed.
Example quote_4 : appendQuoted (B "hello" ++ [x0d; x0a] ++ B "there!") = (B """hello""").
Proof. vm_compute. reflexivity. Qed.
Example quote_5 : appendQuoted (B "hello""there") = (B """hello\""there""").
Proof. vm_compute. reflexivity. Qed.
Example quote_6 : appendQuoted (B "hello" ++ [xff] ++ B "there") = (B """hello""").
Proof. vm_compute. reflexivity. Qed.
Example escape_0 : appendEscaped paramc (B "hello") = (B "hello").
Proof. vm_compute. reflexivity. Qed.
Example escape_1 : appendEscaped userc (B "hello") = (B "hello").
Proof. vm_compute. reflexivity. Qed.
Example escape_2 : appendEscaped paramc (B "hello there") = (B "hello%20there").
Proof. vm_compute. reflexivity. Qed.
Example escape_3 : appendEscaped userc (B "hello there") = (B "hello%20there").
Proof. vm_compute. reflexivity. Qed.
Example rtp_header : let h := mkheader false true 42 1234 567891234 6789 in header_read (header_write h []) = Ok (inl h).
Proof. vm_compute. reflexivity. Qed.
Definition ulawTable : list Z := [(-32124); (-31100); (-30076); (-29052); (-28028); (-27004); (-25980); (-24956); (-23932); (-22908); (-21884); (-20860); (-19836); (-18812); (-17788); (-16764); (-15996); (-15484); (-14972); (-14460); (-13948); (-13436); (-12924); (-12412); (-11900); (-11388); (-10876); (-10364); (-9852); (-9340); (-8828); (-8316); (-7932); (-7676); (-7420); (-7164); (-6908); (-6652); (-6396); (-6140); (-5884); (-5628); (-5372); (-5116); (-4860); (-4604); (-4348); (-4092); (-3900); (-3772); (-3644); (-3516); (-3388); (-3260); (-3132); (-3004); (-2876); (-2748); (-2620); (-2492); (-2364); (-2236); (-2108); (-1980); (-1884); (-1820); (-1756); (-1692); (-1628); (-1564); (-1500); (-1436); (-1372); (-1308); (-1244); (-1180); (-1116); (-1052); (-988); (-924); (-876); (-844); (-812); (-780); (-748); (-716); (-684); (-652); (-620); (-588); (-556); (-524); (-492); (-460); (-428); (-396); (-372); (-356); (-340); (-324); (-308); (-292); (-276); (-260); (-244); (-228); (-212); (-196); (-180); (-164); (-148); (-132); (-120); (-112); (-104); (-96); (-88); (-80); (-72); (-64); (-56); (-48); (-40); (-32); (-24); (-16); (-8); 0; 32124; 31100; 30076; 29052; 28028; 27004; 25980; 24956; 23932; 22908; 21884; 20860; 19836; 18812; 17788; 16764; 15996; 15484; 14972; 14460; 13948; 13436; 12924; 12412; 11900; 11388; 10876; 10364; 9852; 9340; 8828; 8316; 7932; 7676; 7420; 7164; 6908; 6652; 6396; 6140; 5884; 5628; 5372; 5116; 4860; 4604; 4348; 4092; 3900; 3772; 3644; 3516; 3388; 3260; 3132; 3004; 2876; 2748; 2620; 2492; 2364; 2236; 2108; 1980; 1884; 1820; 1756; 1692; 1628; 1564; 1500; 1436; 1372; 1308; 1244; 1180; 1116; 1052; 988; 924; 876; 844; 812; 780; 748; 716; 684; 652; 620; 588; 556; 524; 492; 460; 428; 396; 372; 356; 340; 324; 308; 292; 276; 260; 244; 228; 212; 196; 180; 164; 148; 132; 120; 112; 104; 96; 88; 80; 72; 64; 56; 48; 40; 32; 24; 16; 8; 0].
Example ulaw_to_linear : map (fun n => UlawToLinear (Z.of_nat n)) (seq 0 256) = map Some ulawTable.
Proof. vm_compute. reflexivity. Qed.
Example linear_to_ulaw : (LinearToUlaw 0, LinearToUlaw (-100)) = (Some 255, Some 114).
Proof. vm_compute. reflexivity. Qed.
Example ulaw_there_and_back : map (fun x => match LinearToUlaw x with Some u => UlawToLinear u | None => None end) ulawTable = map Some ulawTable.
Proof. vm_compute. reflexivity. Qed.
Example mix : match L16MixSat160 (fun p => if p <? 4096 then (p - 1024) / 2 else 666) 1024 4096 with
  | Some m => (map (fun n => m (1024 + 2 * Z.of_nat n)) (seq 0 160), map (fun n => m (4096 + 2 * Z.of_nat n)) (seq 0 160)) = (map (fun n => Z.of_nat n + 666) (seq 0 160), repeat 666 160)
  | None => False
  end.
Proof. vm_compute. reflexivity. Qed.
Definition table (l : list (f64 * f64)) (x : f64) : f64 := match find (fun p => Beqb (fst p) x) l with Some p => snd p | None => B754_nan end.
Definition test_pow10 : f64 -> f64 := table [((binary_normalize 53 1024 _ _ mode_NE (-395190867301761) (-47) false), (binary_normalize 53 1024 _ _ mode_NE 896953118553333 (-59) false))].
Definition test_log : f64 -> f64 := table [((binary_normalize 53 1024 _ _ mode_NE 3474363872986819 (-53) false), (binary_normalize 53 1024 _ _ mode_NE (-4290186518883289) (-52) false)); ((binary_normalize 53 1024 _ _ mode_NE 3573566792755011 (-52) false), (binary_normalize 53 1024 _ _ mode_NE (-8333921759578059) (-55) false)); ((binary_normalize 53 1024 _ _ mode_NE 2610910297473455 (-53) false), (binary_normalize 53 1024 _ _ mode_NE (-5576921095104879) (-52) false))].
Fixpoint gets (n : nat) (s : noise) : list Z :=
  match n with O => [] | S n => match noise_get test_log 0 100 s with Some (s, v) => v :: gets n s | None => [] end end.
Example awgn : gets 5 (NewAWGN test_pow10 (of_int (-50))) = [64; (-28); 1; 34; (-73)].
Proof. vm_compute. reflexivity. Qed.
Definition phrases : list (Z * bytes) := [(100, (B "Trying")); (180, (B "Ringing")); (181, (B "Call Is Being Forwarded")); (182, (B "Queued")); (183, (B "Session Progress")); (200, (B "OK")); (202, (B "Accepted")); (204, (B "No Notification")); (300, (B "Multiple Choices")); (301, (B "Moved Permanently")); (302, (B "Moved Temporarily")); (305, (B "Use Proxy")); (380, (B "Alternative Service")); (400, (B "Bad Request")); (401, (B "Unauthorized")); (402, (B "Payment Required")); (403, (B "Forbidden")); (404, (B "Not Found")); (405, (B "Method Not Allowed")); (406, (B "Not Acceptable")); (407, (B "Proxy Authentication Required")); (408, (B "Request Timeout")); (409, (B "Conflict")); (410, (B "Gone")); (411, (B "Length Required")); (412, (B "Conditional Request Failed")); (413, (B "Request Entity Too Large")); (414, (B "Request-URI Too Long")); (415, (B "Unsupported Media Type")); (416, (B "Unsupported URI Scheme")); (417, (B "Unknown Resource-Priority")); (420, (B "Bad Extension")); (421, (B "Extension Required")); (422, (B "Session Interval Too Small")); (423, (B "Interval Too Brief")); (428, (B "Use Identity Header")); (429, (B "Provide Referrer Identity")); (430, (B "Flow Failed")); (433, (B "Anonymity Disallowed")); (436, (B "Bad Identity-Info")); (437, (B "Unsupported Certificate")); (438, (B "Invalid Identity Header")); (439, (B "First Hop Lacks Outbound Support")); (440, (B "Max-Breadth Exceeded")); (470, (B "Consent Needed")); (480, (B "Temporarily Unavailable")); (481, (B "Call/Transaction Does Not Exist")); (482, (B "Loop Detected")); (483, (B "Too Many Hops")); (484, (B "Address StatusIncomplete")); (485, (B "Ambiguous")); (486, (B "Busy Here")); (487, (B "Request Terminated")); (488, (B "Not Acceptable Here")); (489, (B "Bad Event")); (491, (B "Request Pending")); (493, (B "Undecipherable")); (494, (B "Security Agreement Required")); (500, (B "Internal Server Error")); (501, (B "Not Implemented")); (502, (B "Bad Gateway")); (503, (B "Service Unavailable")); (504, (B "Gateway Time-out")); (505, (B "Version Not Supported")); (513, (B "Message Too Large")); (580, (B "Precondition Failure")); (600, (B "Busy Everywhere")); (603, (B "Decline")); (604, (B "Does Not Exist Anywhere")); (606, (B "Not Acceptable")); (687, (B "Dialog Terminated"))].
Example phrase_table : map (fun p => Phrase (fst p)) phrases = map snd phrases.
Proof. vm_compute. reflexivity. Qed.
Definition codecs : list (Z * codec) := [(0, mkcodec 0 (B "PCMU") 8000 [] []); (3, mkcodec 3 (B "GSM") 8000 [] []); (4, mkcodec 4 (B "G723") 8000 [] []); (5, mkcodec 5 (B "DVI4") 8000 [] []); (6, mkcodec 6 (B "DVI4") 16000 [] []); (7, mkcodec 7 (B "LPC") 8000 [] []); (8, mkcodec 8 (B "PCMA") 8000 [] []); (9, mkcodec 9 (B "G722") 8000 [] []); (10, mkcodec 10 (B "L16") 44100 (B "2") []); (11, mkcodec 11 (B "L16") 44100 [] []); (12, mkcodec 12 (B "QCELP") 8000 [] []); (13, mkcodec 13 (B "CN") 8000 [] []); (14, mkcodec 14 (B "MPA") 90000 [] []); (15, mkcodec 15 (B "G728") 8000 [] []); (16, mkcodec 16 (B "DVI4") 11025 [] []); (17, mkcodec 17 (B "DVI4") 22050 [] []); (18, mkcodec 18 (B "G729") 8000 [] []); (25, mkcodec 25 (B "CelB") 90000 [] []); (26, mkcodec 26 (B "JPEG") 90000 [] []); (28, mkcodec 28 (B "nv") 90000 [] []); (31, mkcodec 31 (B "H261") 90000 [] []); (32, mkcodec 32 (B "MPV") 90000 [] []); (33, mkcodec 33 (B "MP2T") 90000 [] []); (34, mkcodec 34 (B "H263") 90000 [] [])].
Example codec_table : map (fun p => StandardCodecs (fst p)) codecs = map (fun p => Some (snd p)) codecs.
Proof. vm_compute. reflexivity. Qed.
Example codecs_named : [ULAWCodec; DTMFCodec; Opus] = [mkcodec 0 (B "PCMU") 8000 [] []; mkcodec 101 (B "telephone-event") 8000 [] (B "0-16"); mkcodec 111 (B "opus") 48000 (B "2") []].
Proof. vm_compute. reflexivity. Qed.
Definition byte_of (n : nat) : byte := match Byte.of_nat n with Some b => b | None => x00 end.
Example dtmf_codes : map dtmfCodes (map byte_of (seq 0 256)) = [0; 0; 0; 0; 0; 0; 0; 0; 0; 0; 0; 0; 0; 0; 0; 0; 0; 0; 0; 0; 0; 0; 0; 0; 0; 0; 0; 0; 0; 0; 0; 0; 0; 16; 0; 11; 0; 0; 0; 0; 0; 0; 10; 0; 0; 0; 0; 0; 0; 1; 2; 3; 4; 5; 6; 7; 8; 9; 0; 0; 0; 0; 0; 0; 0; 12; 13; 14; 15; 0; 0; 0; 0; 0; 0; 0; 0; 0; 0; 0; 0; 0; 0; 0; 0; 0; 0; 0; 0; 0; 0; 0; 0; 0; 0; 0; 0; 12; 13; 14; 15; 0; 0; 0; 0; 0; 0; 0; 0; 0; 0; 0; 0; 0; 0; 0; 0; 0; 0; 0; 0; 0; 0; 0; 0; 0; 0; 0; 0; 0; 0; 0; 0; 0; 0; 0; 0; 0; 0; 0; 0; 0; 0; 0; 0; 0; 0; 0; 0; 0; 0; 0; 0; 0; 0; 0; 0; 0; 0; 0; 0; 0; 0; 0; 0; 0; 0; 0; 0; 0; 0; 0; 0; 0; 0; 0; 0; 0; 0; 0; 0; 0; 0; 0; 0; 0; 0; 0; 0; 0; 0; 0; 0; 0; 0; 0; 0; 0; 0; 0; 0; 0; 0; 0; 0; 0; 0; 0; 0; 0; 0; 0; 0; 0; 0; 0; 0; 0; 0; 0; 0; 0; 0; 0; 0; 0; 0; 0; 0; 0; 0; 0; 0; 0; 0; 0; 0; 0; 0; 0; 0; 0; 0; 0; 0; 0; 0; 0; 0; 0; 0; 0; 0; 0; 0; 0].
Proof. vm_compute. reflexivity. Qed.
Example rtp_constants : (Z.of_nat rtpBindMaxAttempts, rtpBindPortMin, rtpBindPortMax, dtmfVolume, dtmfDuration, dtmfInterval) = (10, 16384, 32768, 6, 400, 100).
Proof. vm_compute. reflexivity. Qed.
Example dtmf_to_char : map (fun n => DtmfToChar (Z.of_nat n)) (seq 0 256) = map (option_map byte_of) [Some 48%nat; Some 49%nat; Some 50%nat; Some 51%nat; Some 52%nat; Some 53%nat; Some 54%nat; Some 55%nat; Some 56%nat; Some 57%nat; Some 42%nat; Some 35%nat; Some 65%nat; Some 66%nat; Some 67%nat; Some 68%nat; Some 33%nat; None; None; None; None; None; None; None; None; None; None; None; None; None; None; None; None; None; None; None; None; None; None; None; None; None; None; None; None; None; None; None; None; None; None; None; None; None; None; None; None; None; None; None; None; None; None; None; None; None; None; None; None; None; None; None; None; None; None; None; None; None; None; None; None; None; None; None; None; None; None; None; None; None; None; None; None; None; None; None; None; None; None; None; None; None; None; None; None; None; None; None; None; None; None; None; None; None; None; None; None; None; None; None; None; None; None; None; None; None; None; None; None; None; None; None; None; None; None; None; None; None; None; None; None; None; None; None; None; None; None; None; None; None; None; None; None; None; None; None; None; None; None; None; None; None; None; None; None; None; None; None; None; None; None; None; None; None; None; None; None; None; None; None; None; None; None; None; None; None; None; None; None; None; None; None; None; None; None; None; None; None; None; None; None; None; None; None; None; None; None; None; None; None; None; None; None; None; None; None; None; None; None; None; None; None; None; None; None; None; None; None; None; None; None; None; None; None; None; None; None; None; None; None; None; None; None; None; None; None; None; None; None; None; None; None; None; None; None; None].
Proof. vm_compute. reflexivity. Qed.
Example char_to_dtmf : map CharToDtmf (map byte_of (seq 0 256)) = [None; None; None; None; None; None; None; None; None; None; None; None; None; None; None; None; None; None; None; None; None; None; None; None; None; None; None; None; None; None; None; None; None; Some 16; None; Some 11; None; None; None; None; None; None; Some 10; None; None; None; None; None; Some 0; Some 1; Some 2; Some 3; Some 4; Some 5; Some 6; Some 7; Some 8; Some 9; None; None; None; None; None; None; None; Some 12; Some 13; Some 14; Some 15; None; None; None; None; None; None; None; None; None; None; None; None; None; None; None; None; None; None; None; None; None; None; None; None; None; None; None; None; Some 12; Some 13; Some 14; Some 15; None; None; None; None; None; None; None; None; None; None; None; None; None; None; None; None; None; None; None; None; None; None; None; None; None; None; None; None; None; None; None; None; None; None; None; None; None; None; None; None; None; None; None; None; None; None; None; None; None; None; None; None; None; None; None; None; None; None; None; None; None; None; None; None; None; None; None; None; None; None; None; None; None; None; None; None; None; None; None; None; None; None; None; None; None; None; None; None; None; None; None; None; None; None; None; None; None; None; None; None; None; None; None; None; None; None; None; None; None; None; None; None; None; None; None; None; None; None; None; None; None; None; None; None; None; None; None; None; None; None; None; None; None; None; None; None; None; None; None; None; None; None; None; None; None; None; None; None; None; None; None; None; None; None; None].
Proof. vm_compute. reflexivity. Qed.
Example class_headerc : map headerc (map byte_of (seq 0 256)) = [false; false; false; false; false; false; false; false; false; false; false; false; false; false; false; false; false; false; false; false; false; false; false; false; false; false; false; false; false; false; false; false; false; true; false; false; true; false; false; true; true; true; true; true; false; true; true; true; true; true; true; true; true; true; true; true; true; true; true; false; false; false; false; true; false; true; true; true; true; true; true; true; true; true; true; true; true; true; true; true; true; true; true; true; true; true; true; true; true; true; true; true; false; true; false; true; false; true; true; true; true; true; true; true; true; true; true; true; true; true; true; true; true; true; true; true; true; true; true; true; true; true; true; false; false; false; true; false; false; false; false; false; false; false; false; false; false; false; false; false; false; false; false; false; false; false; false; false; false; false; false; false; false; false; false; false; false; false; false; false; false; false; false; false; false; false; false; false; false; false; false; false; false; false; false; false; false; false; false; false; false; false; false; false; false; false; false; false; false; false; false; false; false; false; false; false; false; false; false; false; false; false; false; false; false; false; false; false; false; false; false; false; false; false; false; false; false; false; false; false; false; false; false; false; false; false; false; false; false; false; false; false; false; false; false; false; false; false; false; false; false; false; false; false; false; false; false; false; false; false; false; false; false; false; false; false].
Proof. vm_compute. reflexivity. Qed.
Example class_paramc : map paramc (map byte_of (seq 0 256)) = [false; false; false; false; false; false; false; false; false; false; false; false; false; false; false; false; false; false; false; false; false; false; false; false; false; false; false; false; false; false; false; false; false; true; false; false; true; false; true; true; true; true; true; true; false; true; true; true; true; true; true; true; true; true; true; true; true; true; true; false; false; false; false; false; false; true; true; true; true; true; true; true; true; true; true; true; true; true; true; true; true; true; true; true; true; true; true; true; true; true; true; true; false; true; false; true; false; true; true; true; true; true; true; true; true; true; true; true; true; true; true; true; true; true; true; true; true; true; true; true; true; true; true; false; false; false; true; false; false; false; false; false; false; false; false; false; false; false; false; false; false; false; false; false; false; false; false; false; false; false; false; false; false; false; false; false; false; false; false; false; false; false; false; false; false; false; false; false; false; false; false; false; false; false; false; false; false; false; false; false; false; false; false; false; false; false; false; false; false; false; false; false; false; false; false; false; false; false; false; false; false; false; false; false; false; false; false; false; false; false; false; false; false; false; false; false; false; false; false; false; false; false; false; false; false; false; false; false; false; false; false; false; false; false; false; false; false; false; false; false; false; false; false; false; false; false; false; false; false; false; false; false; false; false; false; false].
Proof. vm_compute. reflexivity. Qed.
Example class_passc : map passc (map byte_of (seq 0 256)) = [false; false; false; false; false; false; false; false; false; false; false; false; false; false; false; false; false; false; false; false; false; false; false; false; false; false; false; false; false; false; false; false; false; true; false; false; true; false; true; true; true; true; true; true; true; true; true; false; true; true; true; true; true; true; true; true; true; true; false; false; false; true; false; false; false; true; true; true; true; true; true; true; true; true; true; true; true; true; true; true; true; true; true; true; true; true; true; true; true; true; true; false; false; false; false; true; false; true; true; true; true; true; true; true; true; true; true; true; true; true; true; true; true; true; true; true; true; true; true; true; true; true; true; false; false; false; true; false; false; false; false; false; false; false; false; false; false; false; false; false; false; false; false; false; false; false; false; false; false; false; false; false; false; false; false; false; false; false; false; false; false; false; false; false; false; false; false; false; false; false; false; false; false; false; false; false; false; false; false; false; false; false; false; false; false; false; false; false; false; false; false; false; false; false; false; false; false; false; false; false; false; false; false; false; false; false; false; false; false; false; false; false; false; false; false; false; false; false; false; false; false; false; false; false; false; false; false; false; false; false; false; false; false; false; false; false; false; false; false; false; false; false; false; false; false; false; false; false; false; false; false; false; false; false; false; false].
Proof. vm_compute. reflexivity. Qed.
Example class_qdtextc : map qdtextc (map byte_of (seq 0 256)) = [false; false; false; false; false; false; false; false; false; true; true; false; false; true; false; false; false; false; false; false; false; false; false; false; false; false; false; false; false; false; false; false; true; true; false; true; true; true; true; true; true; true; true; true; true; true; true; true; true; true; true; true; true; true; true; true; true; true; true; true; true; true; true; true; true; true; true; true; true; true; true; true; true; true; true; true; true; true; true; true; true; true; true; true; true; true; true; true; true; true; true; true; false; true; true; true; true; true; true; true; true; true; true; true; true; true; true; true; true; true; true; true; true; true; true; true; true; true; true; true; true; true; true; true; true; true; true; false; false; false; false; false; false; false; false; false; false; false; false; false; false; false; false; false; false; false; false; false; false; false; false; false; false; false; false; false; false; false; false; false; false; false; false; false; false; false; false; false; false; false; false; false; false; false; false; false; false; false; false; false; false; false; false; false; false; false; false; false; false; false; false; false; false; false; false; false; false; false; false; false; false; false; false; false; false; false; false; false; false; false; false; false; false; false; false; false; false; false; false; false; false; false; false; false; false; false; false; false; false; false; false; false; false; false; false; false; false; false; false; false; false; false; false; false; false; false; false; false; false; false; false; false; false; false; false; false].
Proof. vm_compute. reflexivity. Qed.
Example class_tokenc : map tokenc (map byte_of (seq 0 256)) = [false; false; false; false; false; false; false; false; false; false; false; false; false; false; false; false; false; false; false; false; false; false; false; false; false; false; false; false; false; false; false; false; false; true; false; false; false; true; false; true; false; false; true; true; false; true; true; false; true; true; true; true; true; true; true; true; true; true; false; false; false; false; false; false; false; true; true; true; true; true; true; true; true; true; true; true; true; true; true; true; true; true; true; true; true; true; true; true; true; true; true; false; false; false; false; true; true; true; true; true; true; true; true; true; true; true; true; true; true; true; true; true; true; true; true; true; true; true; true; true; true; true; true; false; false; false; true; false; false; false; false; false; false; false; false; false; false; false; false; false; false; false; false; false; false; false; false; false; false; false; false; false; false; false; false; false; false; false; false; false; false; false; false; false; false; false; false; false; false; false; false; false; false; false; false; false; false; false; false; false; false; false; false; false; false; false; false; false; false; false; false; false; false; false; false; false; false; false; false; false; false; false; false; false; false; false; false; false; false; false; false; false; false; false; false; false; false; false; false; false; false; false; false; false; false; false; false; false; false; false; false; false; false; false; false; false; false; false; false; false; false; false; false; false; false; false; false; false; false; false; false; false; false; false; false; false].
Proof. vm_compute. reflexivity. Qed.
Example class_userc : map userc (map byte_of (seq 0 256)) = [false; false; false; false; false; false; false; false; false; false; false; false; false; false; false; false; false; false; false; false; false; false; false; false; false; false; false; false; false; false; false; false; false; true; false; false; true; false; true; true; true; true; true; true; true; true; true; true; true; true; true; true; true; true; true; true; true; true; false; true; false; true; false; true; false; true; true; true; true; true; true; true; true; true; true; true; true; true; true; true; true; true; true; true; true; true; true; true; true; true; true; false; false; false; false; true; false; true; true; true; true; true; true; true; true; true; true; true; true; true; true; true; true; true; true; true; true; true; true; true; true; true; true; false; false; false; true; false; false; false; false; false; false; false; false; false; false; false; false; false; false; false; false; false; false; false; false; false; false; false; false; false; false; false; false; false; false; false; false; false; false; false; false; false; false; false; false; false; false; false; false; false; false; false; false; false; false; false; false; false; false; false; false; false; false; false; false; false; false; false; false; false; false; false; false; false; false; false; false; false; false; false; false; false; false; false; false; false; false; false; false; false; false; false; false; false; false; false; false; false; false; false; false; false; false; false; false; false; false; false; false; false; false; false; false; false; false; false; false; false; false; false; false; false; false; false; false; false; false; false; false; false; false; false; false; false].
Proof. vm_compute. reflexivity. Qed.
Example append_order : msg_append [] (mkmsg 2 0 (B "OPTIONS") (Some (mkuri (B "sip") [] [] (B "h") 0 [] [])) 0 [] None None
    (fun f => [mkaddr (Some (mkuri (B "sip") [] [] (match f with Contact => B "Contact" | From => B "From" | PAssertedIdentity => B "PAssertedIdentity" | RecordRoute => B "RecordRoute" | RemotePartyID => B "RemotePartyID" | Route => B "Route" | To => B "To" end) 0 [] [])) [] []]) [mkvia (B "SIP") (B "2.0") (B "UDP") (B "v") 5060 []] (B "CallID") 1001 (B "OPTIONS") 1002 1003 1004
    (fun f => match f with Accept => B "Accept" | AcceptContact => B "AcceptContact" | AcceptEncoding => B "AcceptEncoding" | AcceptLanguage => B "AcceptLanguage" | AlertInfo => B "AlertInfo" | Allow => B "Allow" | AllowEvents => B "AllowEvents" | AuthenticationInfo => B "AuthenticationInfo" | Authorization => B "Authorization" | CallInfo => B "CallInfo" | ContentDisposition => B "ContentDisposition" | ContentEncoding => B "ContentEncoding" | ContentLanguage => B "ContentLanguage" | Date => B "Date" | ErrorInfo => B "ErrorInfo" | Event => B "Event" | InReplyTo => B "InReplyTo" | MIMEVersion => B "MIMEVersion" | Organization => B "Organization" | Priority => B "Priority" | ProxyAuthenticate => B "ProxyAuthenticate" | ProxyAuthorization => B "ProxyAuthorization" | ProxyRequire => B "ProxyRequire" | ReferTo => B "ReferTo" | ReferredBy => B "ReferredBy" | ReplyTo => B "ReplyTo" | Require => B "Require" | RetryAfter => B "RetryAfter" | Server => B "Server" | Subject => B "Subject" | Supported => B "Supported" | Timestamp => B "Timestamp" | Unsupported => B "Unsupported" | UserAgent => B "UserAgent" | Warning => B "Warning" | WWWAuthenticate => B "WWWAuthenticate" end) [(B "X", B "y")])
  = (B "OPTIONS sip:h SIP/2.0" ++ [x0d; x0a] ++ B "From: <sip:From>" ++ [x0d; x0a] ++ B "To: <sip:To>" ++ [x0d; x0a] ++ B "Via: SIP/2.0/UDP v" ++ [x0d; x0a] ++ B "Route: <sip:Route>" ++ [x0d; x0a] ++ B "Record-Route: <sip:RecordRoute>" ++ [x0d; x0a] ++ B "Contact: <sip:Contact>" ++ [x0d; x0a] ++ B "Call-ID: CallID" ++ [x0d; x0a] ++ B "CSeq: 1001 OPTIONS" ++ [x0d; x0a] ++ B "User-Agent: UserAgent" ++ [x0d; x0a] ++ B "Max-Forwards: 1002" ++ [x0d; x0a] ++ B "Accept: Accept" ++ [x0d; x0a] ++ B "Accept-Encoding: AcceptEncoding" ++ [x0d; x0a] ++ B "Accept-Language: AcceptLanguage" ++ [x0d; x0a] ++ B "Alert-Info: AlertInfo" ++ [x0d; x0a] ++ B "Allow: Allow" ++ [x0d; x0a] ++ B "Allow-Events: AllowEvents" ++ [x0d; x0a] ++ B "Authentication-Info: AuthenticationInfo" ++ [x0d; x0a] ++ B "Authorization: Authorization" ++ [x0d; x0a] ++ B "Call-Info: CallInfo" ++ [x0d; x0a] ++ B "Content-Disposition: ContentDisposition" ++ [x0d; x0a] ++ B "Content-Encoding: ContentEncoding" ++ [x0d; x0a] ++ B "Content-Language: ContentLanguage" ++ [x0d; x0a] ++ B "Date: Date" ++ [x0d; x0a] ++ B "Error-Info: ErrorInfo" ++ [x0d; x0a] ++ B "Event: Event" ++ [x0d; x0a] ++ B "Expires: 1003" ++ [x0d; x0a] ++ B "In-Reply-To: InReplyTo" ++ [x0d; x0a] ++ B "MIME-Version: MIMEVersion" ++ [x0d; x0a] ++ B "Min-Expires: 1004" ++ [x0d; x0a] ++ B "Organization: Organization" ++ [x0d; x0a] ++ B "P-Asserted-Identity: <sip:PAssertedIdentity>" ++ [x0d; x0a] ++ B "Priority: Priority" ++ [x0d; x0a] ++ B "Proxy-Authenticate: ProxyAuthenticate" ++ [x0d; x0a] ++ B "Proxy-Authorization: ProxyAuthorization" ++ [x0d; x0a] ++ B "Proxy-Require: ProxyRequire" ++ [x0d; x0a] ++ B "Refer-To: ReferTo" ++ [x0d; x0a] ++ B "Referred-By: ReferredBy" ++ [x0d; x0a] ++ B "Remote-Party-ID: <sip:RemotePartyID>" ++ [x0d; x0a] ++ B "Reply-To: ReplyTo" ++ [x0d; x0a] ++ B "Require: Require" ++ [x0d; x0a] ++ B "RetryAfter: RetryAfter" ++ [x0d; x0a] ++ B "Server: Server" ++ [x0d; x0a] ++ B "Subject: Subject" ++ [x0d; x0a] ++ B "Supported: Supported" ++ [x0d; x0a] ++ B "Timestamp: Timestamp" ++ [x0d; x0a] ++ B "Unsupported: Unsupported" ++ [x0d; x0a] ++ B "Warning: Warning" ++ [x0d; x0a] ++ B "WWW-Authenticate: WWWAuthenticate" ++ [x0d; x0a] ++ B "X: y" ++ [x0d; x0a] ++ B "Content-Length: 0" ++ [x0d; x0a; x0d; x0a]).
Proof. vm_compute. reflexivity. Qed.
