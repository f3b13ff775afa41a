(** Serialisers and list helpers of package sip: param.go, uri.go, uriparam.go, uriheader.go,
    via.go, addr.go, xheader.go, msg.go. *)
From Verif Require Import Bytes GoLib SdpModel SipText SipTypes.
Local Open Scope Z_scope.

(** sip/param.go:43-54  Param.Append: the tail is written first *)
Fixpoint param_append (p : list param) : bytes :=
  match p with
  | [] => []
  | (name, value) :: next =>
    param_append next ++ B ";" ++ appendSanitized tokenc name ++
    (match value with [] => [] | _ => B "=" ++ appendQuoted value end)
  end.

(** sip/uriparam.go:43-54  URIParam.Append *)
Fixpoint uriparam_append (p : list param) : bytes :=
  match p with
  | [] => []
  | (name, value) :: next =>
    uriparam_append next ++ B ";" ++ appendEscaped paramc name ++
    (match value with [] => [] | _ => B "=" ++ appendEscaped paramc value end)
  end.

(** sip/uriheader.go:43-58  URIHeader.Append *)
Fixpoint uriheader_append (p : list param) : bytes :=
  match p with
  | [] => []
  | (name, value) :: next =>
    (match next with [] => B "?" | _ => uriheader_append next ++ B "&" end) ++
    appendEscaped paramc name ++
    (match value with [] => [] | _ => B "=" ++ appendEscaped paramc value end)
  end.

(** sip/xheader.go:50-59  XHeader.Append *)
Fixpoint xheader_append (p : list param) : bytes :=
  match p with
  | [] => []
  | (name, value) :: next =>
    xheader_append next ++ appendSanitized tokenc name ++ B ": " ++ value ++ CRLF
  end.

(** sip/param.go:32-40, uriparam.go:32-40, uriheader.go:32-40, xheader.go:32-40  Get *)
Fixpoint param_get (p : list param) (name : bytes) : option param :=
  match p with
  | [] => None
  | (n, v) :: next => if equal_fold n name then Some (n, v) else param_get next name
  end.

(** util/util.go:109-111  Portstr *)
Definition Portstr (port : Z) : bytes := itoa port.

(** sip/uri.go:79-112  URI.Append on a non-nil URI *)
Definition uri_append (u : uri) : bytes :=
  (match u_scheme u with [] => B "sip:" | s => s ++ B ":" end) ++
  (match u_user u with
   | [] => []
   | _ => (match u_pass u with
           | [] => appendEscaped userc (u_user u)
           | _ => appendEscaped userc (u_user u) ++ B ":" ++ appendEscaped passc (u_pass u)
           end) ++ B "@"
   end) ++
  (if IsIPv6 (u_host u) then B "[" ++ u_host u ++ B "]" else u_host u) ++
  (if 0 <? u_port u then B ":" ++ Portstr (u_port u) else []) ++
  uriparam_append (u_param u) ++ uriheader_append (u_header u).
(** sip/uri.go:73-77  String; a nil URI is the empty string *)
Definition uri_string (u : option uri) : bytes := match u with Some u => uri_append u | None => [] end.

(** sip/uri.go:123-133  GetPort *)
Definition GetPort (u : uri) : Z :=
  if u_port u =? 0 then (if bseq (u_scheme u) (B "sips") then 5061 else 5060) else u_port u.
(** sip/uri.go:114-121  URI.CompareHostPort *)
Definition uri_CompareHostPort (a b : option uri) : bool :=
  match a, b with
  | Some a, Some b => bseq (u_host a) (u_host b) && (GetPort a =? GetPort b)
  | _, _ => false
  end.

(** sip/via.go:37-62  Via.Append *)
Definition via_append (v : via) : bytes :=
  (match v_protocol v with [] => B "SIP/" | p => p ++ B "/" end) ++
  (match v_version v with [] => B "2.0/" | p => p ++ B "/" end) ++
  (match v_transport v with [] => B "UDP " | p => p ++ B " " end) ++
  v_host v ++
  (if v_port v =? 5060 then [] else B ":" ++ itoa (v_port v)) ++
  param_append (v_param v).
(** sip/via.go:103-111  Via.CompareHostPort on list heads *)
Definition via_CompareHostPort (a b : list via) : bool :=
  match a, b with
  | a :: _, b :: _ => bseq (v_host a) (v_host b) && (v_port a =? v_port b)
  | _, _ => false
  end.
(** sip/via.go:113-124  Via.CompareBranch *)
Definition via_CompareBranch (a b : list via) : bool :=
  match a, b with
  | a :: _, b :: _ =>
    match param_get (v_param a) (B "branch"), param_get (v_param b) (B "branch") with
    | Some (_, x), Some (_, y) => bseq x y
    | _, _ => false
    end
  | _, _ => false
  end.
(** sip/via.go:81-84  Branch; [rnd] is the GenerateBranch result *)
Definition via_Branch (rnd : bytes) (v : via) : via :=
  mkvia (v_protocol v) (v_version v) (v_transport v) (v_host v) (v_port v) ((B "branch", rnd) :: v_param v).
(** sip/via.go:87-92  Detach, 95-101 Last *)
Definition via_Detach (l : list via) : res (list via) := match l with v :: _ => Ok [v] | [] => Panic end.
Definition via_Last (l : list via) : option via := hd_error (rev l).

(** sip/addr.go:70-87  Addr.Append on the list starting at the receiver *)
Fixpoint addr_append (l : list addr) : bytes :=
  match l with
  | [] => []
  | a :: next =>
    (match a_display a with [] => [] | d => appendQuoted d ++ B " " end) ++
    B "<" ++ uri_string (a_uri a) ++ B ">" ++ param_append (a_param a) ++
    (match next with [] => [] | _ => B ", " ++ addr_append next end)
  end.
(** sip/addr.go:90-99  Addr.Copy: every field but Display *)
Fixpoint addr_Copy (l : list addr) : list addr :=
  match l with [] => [] | a :: next => mkaddr (a_uri a) [] (a_param a) :: addr_Copy next end.
(** sip/uri.go:60-69, sip/via.go:65-78  URI.Copy, Via.Copy (values; sharing is in CopyHeap.v) *)
Definition uri_Copy (u : option uri) : option uri := u.
Fixpoint via_Copy (l : list via) : list via :=
  match l with
  | [] => []
  | v :: next => mkvia (v_protocol v) (v_version v) (v_transport v) (v_host v) (v_port v) (v_param v) :: via_Copy next
  end.
(** sip/addr.go:56-61 Or, 64-67 Tag, 101-108 CompareHostPort, 111-117 Last, 120-126 Len, 129-138 Reversed *)
Definition addr_Or (l other : list addr) : list addr := match l with [] => other | _ => l end.
Definition addr_Tag (rnd : bytes) (a : addr) : addr := mkaddr (a_uri a) (a_display a) ((B "tag", rnd) :: a_param a).
Definition addr_CompareHostPort (a b : list addr) : bool :=
  match a, b with
  | a :: _, b :: _ => uri_CompareHostPort (a_uri a) (a_uri b)
  | _, _ => false
  end.
Definition addr_Last (l : list addr) : option addr := hd_error (rev l).
Definition addr_Len (l : list addr) : Z := Z.of_nat (length l).
Fixpoint addr_Reversed_loop (l res : list addr) : list addr :=
  match l with [] => res | a :: next => addr_Reversed_loop next (a :: res) end.
Definition addr_Reversed (l : list addr) : list addr := addr_Reversed_loop l [].

(** sip/msg.go:100-102 *)
Definition IsResponse (m : msg) : bool := 0 <? status m.

(** sip/msg.go:110-127  Msg.Copy *)
Definition msg_Copy (m : msg) : msg :=
  set_addrs (fun f => addr_Copy (addrs m f))
    (set_vias (via_Copy (vias m)) (set_request (uri_Copy (request m)) m)).

(** sip/payload.go:27-33, sdp/sdp.go:277-288 *)
Definition ContentType (p : payload) : bytes := match p with Misc t _ => t | PSdp _ => B "application/sdp" end.
Definition Data (rid : bytes) (p : payload) : bytes := match p with Misc _ d => d | PSdp s => sdp_append rid s end.

(** sip/msg.go:465-474  appendVersion *)
Definition version_append (m : msg) : bytes :=
  B "SIP/" ++ (if vmaj m =? 0 then B "2.0" else itoa (vmaj m) ++ B "." ++ itoa (vmin m)).

(** A header line written only if the value is not empty *)
Definition opt_line (name : lit) (v : bytes) : bytes :=
  match v with [] => [] | _ => B name ++ v ++ CRLF end.
Definition opt_addr (name : lit) (l : list addr) : bytes :=
  match l with [] => [] | _ => B name ++ addr_append l ++ CRLF end.

Arguments opt_line name%lit_scope v.
Arguments opt_addr name%lit_scope l.

(** sip/msg.go:170-174 *)
Definition via_lines (l : list via) : bytes := concat (map (fun v => B "Via: " ++ via_append v ++ CRLF) l).

(** sip/msg.go:134-160  the start line *)
Definition start_line (m : msg) : bytes :=
  if negb (IsResponse m) then
    (match method m with [] => B "INVITE " | x => x ++ B " " end) ++
    (match request m with None => B "sip:www.nasa.gov:80" | Some u => uri_append u end) ++
    B " " ++ version_append m ++ CRLF
  else
    version_append m ++ B " " ++ itoa (status m) ++ B " " ++
    (match phrase m with [] => Phrase (status m) | x => x end) ++ CRLF.

(** sip/msg.go:130-463  Msg.Append, everything before the payload's headers *)
Definition head_lines (m : msg) : bytes :=
  start_line m ++
  B "From: " ++ addr_append (addrs m From) ++ CRLF ++
  B "To: " ++ addr_append (addrs m To) ++ CRLF ++
  via_lines (vias m) ++
  opt_addr "Route: " (addrs m Route) ++
  opt_addr "Record-Route: " (addrs m RecordRoute) ++
  opt_addr "Contact: " (addrs m Contact) ++
  B "Call-ID: " ++ callid m ++ CRLF ++
  B "CSeq: " ++ itoa (cseq m) ++ B " " ++ cseqmethod m ++ CRLF ++
  opt_line "User-Agent: " (strs m UserAgent) ++
  (if IsResponse m then []
   else B "Max-Forwards: " ++ (if maxforwards m =? 0 then B "70" else itoa (maxforwards m)) ++ CRLF) ++
  opt_line "Accept: " (strs m Accept) ++
  opt_line "Accept-Encoding: " (strs m AcceptEncoding) ++
  opt_line "Accept-Language: " (strs m AcceptLanguage) ++
  opt_line "Alert-Info: " (strs m AlertInfo) ++
  opt_line "Allow: " (strs m Allow) ++
  opt_line "Allow-Events: " (strs m AllowEvents) ++
  opt_line "Authentication-Info: " (strs m AuthenticationInfo) ++
  opt_line "Authorization: " (strs m Authorization) ++
  opt_line "Call-Info: " (strs m CallInfo) ++
  opt_line "Content-Disposition: " (strs m ContentDisposition) ++
  opt_line "Content-Encoding: " (strs m ContentEncoding) ++
  opt_line "Content-Language: " (strs m ContentLanguage) ++
  opt_line "Date: " (strs m Date) ++
  opt_line "Error-Info: " (strs m ErrorInfo) ++
  opt_line "Event: " (strs m Event) ++
  (if (0 <? expires m) || bseq (method m) (B "REGISTER") || bseq (cseqmethod m) (B "REGISTER")
   then B "Expires: " ++ itoa (expires m) ++ CRLF else []) ++
  opt_line "In-Reply-To: " (strs m InReplyTo) ++
  opt_line "MIME-Version: " (strs m MIMEVersion) ++
  (if 0 <? minexpires m then B "Min-Expires: " ++ itoa (minexpires m) ++ CRLF else []) ++
  opt_line "Organization: " (strs m Organization) ++
  opt_addr "P-Asserted-Identity: " (addrs m PAssertedIdentity) ++
  opt_line "Priority: " (strs m Priority) ++
  opt_line "Proxy-Authenticate: " (strs m ProxyAuthenticate) ++
  opt_line "Proxy-Authorization: " (strs m ProxyAuthorization) ++
  opt_line "Proxy-Require: " (strs m ProxyRequire) ++
  opt_line "Refer-To: " (strs m ReferTo) ++
  opt_line "Referred-By: " (strs m ReferredBy) ++
  opt_addr "Remote-Party-ID: " (addrs m RemotePartyID) ++
  opt_line "Reply-To: " (strs m ReplyTo) ++
  opt_line "Require: " (strs m Require) ++
  opt_line "RetryAfter: " (strs m RetryAfter) ++
  opt_line "Server: " (strs m Server) ++
  opt_line "Subject: " (strs m Subject) ++
  opt_line "Supported: " (strs m Supported) ++
  opt_line "Timestamp: " (strs m Timestamp) ++
  opt_line "Unsupported: " (strs m Unsupported) ++
  opt_line "Warning: " (strs m Warning) ++
  opt_line "WWW-Authenticate: " (strs m WWWAuthenticate) ++
  xheader_append (xheader m).

(** sip/msg.go:451-462 *)
Definition tail_lines (rid : bytes) (m : msg) : bytes :=
  match pay m with
  | Some p =>
    let data := Data rid p in
    B "Content-Type: " ++ ContentType p ++ CRLF ++
    B "Content-Length: " ++ itoa (Z.of_nat (length data)) ++ CRLF ++ CRLF ++ data
  | None => B "Content-Length: 0" ++ CRLF ++ CRLF
  end.

(** sip/msg.go:130-463  Msg.Append on a non-nil message: the bytes written ... *)
Definition msg_append (rid : bytes) (m : msg) : bytes := head_lines m ++ tail_lines rid m.
(** ... and the receiver afterwards (sip/msg.go:151-153 stores the default phrase) *)
Definition msg_append_effect (m : msg) : msg :=
  if IsResponse m then match phrase m with [] => set_phrase (Phrase (status m)) m | _ => m end else m.
