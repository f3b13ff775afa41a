(** Data structures of package sip. A pointer to a linked list node is the list of the nodes
    reachable from it; [nil] is the empty list. Pointers to single objects are options. *)
From Verif Require Import Bytes GoLib SdpModel.
Local Open Scope Z_scope.

(** sip/param.go:25-29, sip/uriparam.go:25-29, sip/uriheader.go:25-29: (Name, Value) nodes *)
Notation param := (bytes * bytes)%type (only parsing).

(** sip/uri.go:47-55  type URI *)
Record uri := mkuri {
  u_scheme : bytes; u_user : bytes; u_pass : bytes; u_host : bytes; u_port : Z;
  u_param : list param; u_header : list param
}.
(** new(URI) *)
Definition uri0 : uri := mkuri [] [] [] [] 0 [] [].

(** sip/addr.go:42-47  type Addr, without Next *)
Record addr := mkaddr { a_uri : option uri; a_display : bytes; a_param : list param }.

(** sip/via.go:27-35  type Via, without Next *)
Record via := mkvia {
  v_protocol : bytes; v_version : bytes; v_transport : bytes; v_host : bytes; v_port : Z; v_param : list param
}.

(** sip/payload.go:17-25  Payload: a MiscPayload or an SDP *)
Inductive payload := Misc (t d : bytes) | PSdp (s : sdp).

(** The string valued header fields of Msg (sip/msg.go:51-92) *)
Inductive sfield :=
| Accept
| AcceptContact
| AcceptEncoding
| AcceptLanguage
| AlertInfo
| Allow
| AllowEvents
| AuthenticationInfo
| Authorization
| CallInfo
| ContentDisposition
| ContentEncoding
| ContentLanguage
| Date
| ErrorInfo
| Event
| InReplyTo
| MIMEVersion
| Organization
| Priority
| ProxyAuthenticate
| ProxyAuthorization
| ProxyRequire
| ReferTo
| ReferredBy
| ReplyTo
| Require
| RetryAfter
| Server
| Subject
| Supported
| Timestamp
| Unsupported
| UserAgent
| Warning
| WWWAuthenticate.
(** The address valued header fields of Msg (sip/msg.go:41-46,75,82) *)
Inductive afield := | Contact | From | PAssertedIdentity | RecordRoute | RemotePartyID | Route | To.

Definition sfield_id (f : sfield) : Z :=
  match f with
  | Accept => 0
  | AcceptContact => 1
  | AcceptEncoding => 2
  | AcceptLanguage => 3
  | AlertInfo => 4
  | Allow => 5
  | AllowEvents => 6
  | AuthenticationInfo => 7
  | Authorization => 8
  | CallInfo => 9
  | ContentDisposition => 10
  | ContentEncoding => 11
  | ContentLanguage => 12
  | Date => 13
  | ErrorInfo => 14
  | Event => 15
  | InReplyTo => 16
  | MIMEVersion => 17
  | Organization => 18
  | Priority => 19
  | ProxyAuthenticate => 20
  | ProxyAuthorization => 21
  | ProxyRequire => 22
  | ReferTo => 23
  | ReferredBy => 24
  | ReplyTo => 25
  | Require => 26
  | RetryAfter => 27
  | Server => 28
  | Subject => 29
  | Supported => 30
  | Timestamp => 31
  | Unsupported => 32
  | UserAgent => 33
  | Warning => 34
  | WWWAuthenticate => 35
  end.
Definition sfield_eqb (f g : sfield) : bool := sfield_id f =? sfield_id g.
Definition afield_id (f : afield) : Z :=
  match f with | Contact => 0 | From => 1 | PAssertedIdentity => 2 | RecordRoute => 3 | RemotePartyID => 4 | Route => 5 | To => 6 end.
Definition afield_eqb (f g : afield) : bool := afield_id f =? afield_id g.

(** sip/msg.go:27-96  type Msg. The string and address headers are kept in two finite maps indexed
    by field. SourceAddr is (IP text, port). *)
Record msg := mkmsg {
  vmaj : Z; vmin : Z; method : bytes; request : option uri; status : Z; phrase : bytes;
  pay : option payload; source : option (bytes * Z);
  addrs : afield -> list addr; vias : list via;
  callid : bytes; cseq : Z; cseqmethod : bytes; maxforwards : Z; expires : Z; minexpires : Z;
  strs : sfield -> bytes; xheader : list param
}.
Definition msg0 : msg :=
  mkmsg 0 0 [] None 0 [] None None (fun _ => []) [] [] 0 [] 0 0 0 (fun _ => []) [].

(** Field updates *)
Definition set_vmaj v (m : msg) : msg := mkmsg v (vmin m) (method m) (request m) (status m) (phrase m) (pay m) (source m) (addrs m) (vias m) (callid m) (cseq m) (cseqmethod m) (maxforwards m) (expires m) (minexpires m) (strs m) (xheader m).
Definition set_vmin v (m : msg) : msg := mkmsg (vmaj m) v (method m) (request m) (status m) (phrase m) (pay m) (source m) (addrs m) (vias m) (callid m) (cseq m) (cseqmethod m) (maxforwards m) (expires m) (minexpires m) (strs m) (xheader m).
Definition set_method v (m : msg) : msg := mkmsg (vmaj m) (vmin m) v (request m) (status m) (phrase m) (pay m) (source m) (addrs m) (vias m) (callid m) (cseq m) (cseqmethod m) (maxforwards m) (expires m) (minexpires m) (strs m) (xheader m).
Definition set_request v (m : msg) : msg := mkmsg (vmaj m) (vmin m) (method m) v (status m) (phrase m) (pay m) (source m) (addrs m) (vias m) (callid m) (cseq m) (cseqmethod m) (maxforwards m) (expires m) (minexpires m) (strs m) (xheader m).
Definition set_status v (m : msg) : msg := mkmsg (vmaj m) (vmin m) (method m) (request m) v (phrase m) (pay m) (source m) (addrs m) (vias m) (callid m) (cseq m) (cseqmethod m) (maxforwards m) (expires m) (minexpires m) (strs m) (xheader m).
Definition set_phrase v (m : msg) : msg := mkmsg (vmaj m) (vmin m) (method m) (request m) (status m) v (pay m) (source m) (addrs m) (vias m) (callid m) (cseq m) (cseqmethod m) (maxforwards m) (expires m) (minexpires m) (strs m) (xheader m).
Definition set_pay v (m : msg) : msg := mkmsg (vmaj m) (vmin m) (method m) (request m) (status m) (phrase m) v (source m) (addrs m) (vias m) (callid m) (cseq m) (cseqmethod m) (maxforwards m) (expires m) (minexpires m) (strs m) (xheader m).
Definition set_source v (m : msg) : msg := mkmsg (vmaj m) (vmin m) (method m) (request m) (status m) (phrase m) (pay m) v (addrs m) (vias m) (callid m) (cseq m) (cseqmethod m) (maxforwards m) (expires m) (minexpires m) (strs m) (xheader m).
Definition set_addrs v (m : msg) : msg := mkmsg (vmaj m) (vmin m) (method m) (request m) (status m) (phrase m) (pay m) (source m) v (vias m) (callid m) (cseq m) (cseqmethod m) (maxforwards m) (expires m) (minexpires m) (strs m) (xheader m).
Definition set_vias v (m : msg) : msg := mkmsg (vmaj m) (vmin m) (method m) (request m) (status m) (phrase m) (pay m) (source m) (addrs m) v (callid m) (cseq m) (cseqmethod m) (maxforwards m) (expires m) (minexpires m) (strs m) (xheader m).
Definition set_callid v (m : msg) : msg := mkmsg (vmaj m) (vmin m) (method m) (request m) (status m) (phrase m) (pay m) (source m) (addrs m) (vias m) v (cseq m) (cseqmethod m) (maxforwards m) (expires m) (minexpires m) (strs m) (xheader m).
Definition set_cseq v (m : msg) : msg := mkmsg (vmaj m) (vmin m) (method m) (request m) (status m) (phrase m) (pay m) (source m) (addrs m) (vias m) (callid m) v (cseqmethod m) (maxforwards m) (expires m) (minexpires m) (strs m) (xheader m).
Definition set_cseqmethod v (m : msg) : msg := mkmsg (vmaj m) (vmin m) (method m) (request m) (status m) (phrase m) (pay m) (source m) (addrs m) (vias m) (callid m) (cseq m) v (maxforwards m) (expires m) (minexpires m) (strs m) (xheader m).
Definition set_maxforwards v (m : msg) : msg := mkmsg (vmaj m) (vmin m) (method m) (request m) (status m) (phrase m) (pay m) (source m) (addrs m) (vias m) (callid m) (cseq m) (cseqmethod m) v (expires m) (minexpires m) (strs m) (xheader m).
Definition set_expires v (m : msg) : msg := mkmsg (vmaj m) (vmin m) (method m) (request m) (status m) (phrase m) (pay m) (source m) (addrs m) (vias m) (callid m) (cseq m) (cseqmethod m) (maxforwards m) v (minexpires m) (strs m) (xheader m).
Definition set_minexpires v (m : msg) : msg := mkmsg (vmaj m) (vmin m) (method m) (request m) (status m) (phrase m) (pay m) (source m) (addrs m) (vias m) (callid m) (cseq m) (cseqmethod m) (maxforwards m) (expires m) v (strs m) (xheader m).
Definition set_strs v (m : msg) : msg := mkmsg (vmaj m) (vmin m) (method m) (request m) (status m) (phrase m) (pay m) (source m) (addrs m) (vias m) (callid m) (cseq m) (cseqmethod m) (maxforwards m) (expires m) (minexpires m) v (xheader m).
Definition set_xheader v (m : msg) : msg := mkmsg (vmaj m) (vmin m) (method m) (request m) (status m) (phrase m) (pay m) (source m) (addrs m) (vias m) (callid m) (cseq m) (cseqmethod m) (maxforwards m) (expires m) (minexpires m) (strs m) v.
Definition set_addr (f : afield) (l : list addr) (m : msg) : msg :=
  set_addrs (fun g => if afield_eqb f g then l else addrs m g) m.
Definition set_str (f : sfield) (s : bytes) (m : msg) : msg :=
  set_strs (fun g => if sfield_eqb f g then s else strs m g) m.

(** sip/status.go:111-116, 118-190  Phrase *)
Definition Phrase (status : Z) : bytes :=
  match status with
  | 100 => B "Trying"
  | 180 => B "Ringing"
  | 181 => B "Call Is Being Forwarded"
  | 182 => B "Queued"
  | 183 => B "Session Progress"
  | 200 => B "OK"
  | 202 => B "Accepted"
  | 204 => B "No Notification"
  | 300 => B "Multiple Choices"
  | 301 => B "Moved Permanently"
  | 302 => B "Moved Temporarily"
  | 305 => B "Use Proxy"
  | 380 => B "Alternative Service"
  | 400 => B "Bad Request"
  | 401 => B "Unauthorized"
  | 402 => B "Payment Required"
  | 403 => B "Forbidden"
  | 404 => B "Not Found"
  | 405 => B "Method Not Allowed"
  | 406 => B "Not Acceptable"
  | 407 => B "Proxy Authentication Required"
  | 408 => B "Request Timeout"
  | 409 => B "Conflict"
  | 410 => B "Gone"
  | 411 => B "Length Required"
  | 412 => B "Conditional Request Failed"
  | 413 => B "Request Entity Too Large"
  | 414 => B "Request-URI Too Long"
  | 415 => B "Unsupported Media Type"
  | 416 => B "Unsupported URI Scheme"
  | 417 => B "Unknown Resource-Priority"
  | 420 => B "Bad Extension"
  | 421 => B "Extension Required"
  | 422 => B "Session Interval Too Small"
  | 423 => B "Interval Too Brief"
  | 428 => B "Use Identity Header"
  | 429 => B "Provide Referrer Identity"
  | 430 => B "Flow Failed"
  | 433 => B "Anonymity Disallowed"
  | 436 => B "Bad Identity-Info"
  | 437 => B "Unsupported Certificate"
  | 438 => B "Invalid Identity Header"
  | 439 => B "First Hop Lacks Outbound Support"
  | 440 => B "Max-Breadth Exceeded"
  | 470 => B "Consent Needed"
  | 480 => B "Temporarily Unavailable"
  | 481 => B "Call/Transaction Does Not Exist"
  | 482 => B "Loop Detected"
  | 483 => B "Too Many Hops"
  | 484 => B "Address StatusIncomplete"
  | 485 => B "Ambiguous"
  | 486 => B "Busy Here"
  | 487 => B "Request Terminated"
  | 488 => B "Not Acceptable Here"
  | 489 => B "Bad Event"
  | 491 => B "Request Pending"
  | 493 => B "Undecipherable"
  | 494 => B "Security Agreement Required"
  | 500 => B "Internal Server Error"
  | 501 => B "Not Implemented"
  | 502 => B "Bad Gateway"
  | 503 => B "Service Unavailable"
  | 504 => B "Gateway Time-out"
  | 505 => B "Version Not Supported"
  | 513 => B "Message Too Large"
  | 580 => B "Precondition Failure"
  | 600 => B "Busy Everywhere"
  | 603 => B "Decline"
  | 604 => B "Does Not Exist Anywhere"
  | 606 => B "Not Acceptable"
  | 687 => B "Dialog Terminated"
  | _ => B "Unknown Status Code"
  end.
