(** What a message text is and what it denotes: the specification for C03, C09, C16, C17, C19-C21. It is written from the header syntax
    (RFC 3261 section 25, as restricted by sip/sip.rl) and does not refer to the automaton. The peculiarities of the code which it
    has to admit are marked (!). *)
From Verif Require Import Bytes GoLib SdpModel SipText SipTypes P_Text UriSpec.
Local Open Scope Z_scope.

(** ** Lexical elements *)
Definition DQ : byte := x22.
Definition BSL : byte := x5c.
Definition blank (c : byte) : bool := beq c SP || beq c HT.
Definition blanks (w : bytes) : Prop := forallb blank w = true.
Definition starts_blank (w : bytes) : bool := match w with c :: _ => blank c | [] => false end.
(** white space which may be folded once onto the next line: SWS; LWS is non-empty *)
Definition fold_ws (w : bytes) : Prop := exists a b, w = a ++ CRLF ++ b /\ blanks a /\ blanks b /\ b <> [].
Definition sws (w : bytes) : Prop := blanks w \/ fold_ws w.
Definition lws (w : bytes) : Prop := sws w /\ w <> [].
Definition token (w : bytes) : Prop := w <> [] /\ forallb token_class w = true.
(** one character of several bytes, encoded as UTF-8 is (overlong forms are not excluded) *)
Definition cont_class (c : byte) : bool := in_range 128 191 c.
Definition more_bytes (c : byte) : nat :=
  if in_range 192 223 c then 1 else if in_range 224 239 c then 2 else if in_range 240 247 c then 3 else if in_range 248 251 c then 4 else if in_range 252 253 c then 5 else 0.
Definition multibyte (w : bytes) : Prop :=
  exists c cs, w = c :: cs /\ cs <> [] /\ length cs = more_bytes c /\ forallb cont_class cs = true.
(** the text between double quotes, and what it stands for: a backslash makes the next character ordinary *)
Definition quoted_class (c : byte) : bool := beq c HT || (in_range 32 126 c && negb (beq c DQ) && negb (beq c BSL)).
Definition escapable (c : byte) : bool := in_range 0 127 c && negb (beq c CR) && negb (beq c LF).
Inductive quoted_text : bytes -> bytes -> Prop :=
| qt_nil : quoted_text [] []
| qt_char c t v : quoted_class c = true -> quoted_text t v -> quoted_text (c :: t) (c :: v)
| qt_fold c t v : blank c = true -> quoted_text t v -> quoted_text (CR :: LF :: c :: t) (CR :: LF :: c :: v)
| qt_pair c t v : escapable c = true -> quoted_text t v -> quoted_text (BSL :: c :: t) (c :: v)
| qt_multi w t v : multibyte w -> quoted_text t v -> quoted_text (w ++ t) (w ++ v).
(** a sequence of items, one text each *)
Inductive chain {X} (P : bytes -> X -> Prop) : bytes -> list X -> Prop :=
| chain_nil : chain P [] []
| chain_cons t x ts xs : P t x -> chain P ts xs -> chain P (t ++ ts) (x :: xs).
(** a separator with white space around it *)
Definition sep (c : byte) (t : bytes) : Prop := exists a b, t = a ++ [c] ++ b /\ sws a /\ sws b.
(** digits and their value *)
Definition number (t : bytes) (n : Z) : Prop := digits_value t = Some n.

(** ** Parameters *)
Definition pvalue_class (c : byte) : bool := token_class c || one_of (B "[]:") c.
Definition pvalue_text (t v : bytes) : Prop :=
  (t = v /\ v <> [] /\ forallb pvalue_class v = true) \/ exists q, t = [DQ] ++ q ++ [DQ] /\ quoted_text q v.
(** name ["=" value] *)
Definition param_text (t : bytes) (p : param) : Prop :=
  exists tv, t = fst p ++ tv /\ token (fst p) /\
    ((tv = [] /\ snd p = []) \/ exists e x, tv = e ++ x /\ sep "=" e /\ pvalue_text x (snd p)).
Definition semi_param (t : bytes) (p : param) : Prop := exists e x, t = e ++ x /\ sep ";" e /\ param_text x p.

(** ** Via: protocol / version / transport LWS host [":" port] *(";" param) *)
Definition viahost_class (c : byte) : bool := alnum c || one_of (B "-.") c.
Definition viahost_text (t v : bytes) : Prop :=
  v <> [] /\ ((t = v /\ forallb viahost_class v = true) \/ (t = B "[" ++ v ++ B "]" /\ forallb ip6_class v = true)).
(** (!) the port is taken modulo 2^16 *)
Definition viaport_text (t : bytes) (p : Z) : Prop :=
  (t = [] /\ p = 0) \/ exists e d n, t = e ++ d /\ sep ":" e /\ number d n /\ p = n mod 65536.
(** The parameters are newest first in the Via, oldest first in the text. *)
Definition via_text (t : bytes) (v : via) : Prop :=
  exists e1 e2 l h p ps,
    t = v_protocol v ++ e1 ++ v_version v ++ e2 ++ v_transport v ++ l ++ h ++ p ++ ps /\
    token (v_protocol v) /\ sep "/" e1 /\ token (v_version v) /\ sep "/" e2 /\ token (v_transport v) /\ lws l /\
    viahost_text h (v_host v) /\ viaport_text p (v_port v) /\ chain semi_param ps (rev (v_param v)).
Definition comma_via (t : bytes) (v : via) : Prop := exists e x, t = e ++ x /\ sep "," e /\ via_text x v.
Definition via_list (t : bytes) (l : list via) : Prop :=
  exists t1 v t2 l', t = t1 ++ t2 /\ l = v :: l' /\ via_text t1 v /\ chain comma_via t2 l'.

(** ** Addresses *)
(** words separated by white space *)
Inductive words : bytes -> Prop :=
| words_one w : token w -> words w
| words_more w l t : token w -> lws l -> words t -> words (w ++ l ++ t).
(** the part before "<": nothing, a quoted string, or words; (!) words must be followed by white space *)
Definition display_text (t d : bytes) : Prop :=
  (t = [] /\ d = []) \/
  (exists q w, t = [DQ] ++ q ++ [DQ] ++ w /\ quoted_text q d /\ sws w) \/
  (exists l, t = d ++ l /\ words d /\ lws l).
(** a URI outside "<" ">": after the scheme, the colon and one more character, neither "," nor ";" *)
Definition bare_uri (t : bytes) (u : uri) : Prop :=
  uri_text t u /\ exists s c r, t = s ++ B ":" ++ c :: r /\ forallb scheme_class s = true /\ forallb (fun x => negb (beq x "," || beq x ";")) r = true.
Definition addr_head (bare : bool) (t : bytes) (u : uri) (d : bytes) : Prop :=
  if bare then bare_uri t u /\ d = []
  else exists dt x w, t = dt ++ B "<" ++ x ++ B ">" ++ w /\ display_text dt d /\ uri_text x u /\ sws w.
(** (!) a separator right after a bare URI must have no white space after it, unless there is some before it *)
Definition addr_sep (bare : bool) (c : byte) (t : bytes) : Prop :=
  if bare then t = [c] \/ exists a b, t = a ++ [c] ++ b /\ lws a /\ sws b else sep c t.
(** the parameters; the result says whether the text so far ends in a bare URI *)
Definition addr_params (bare : bool) (t : bytes) (ps : list param) (bare' : bool) : Prop :=
  (t = [] /\ ps = [] /\ bare' = bare) \/
  exists e x p more ps', t = e ++ x ++ more /\ ps = p :: ps' /\ addr_sep bare ";" e /\ param_text x p /\ chain semi_param more ps' /\ bare' = false.
Definition addr_text (t : bytes) (a : addr) (bare' : bool) : Prop :=
  exists bare h ps u, t = h ++ ps /\ a_uri a = Some u /\ addr_head bare h u (a_display a) /\ addr_params bare ps (rev (a_param a)) bare'.
Inductive addr_list : bytes -> list addr -> Prop :=
| al_one t a b : addr_text t a b -> addr_list t [a]
| al_more t a b e t' l : addr_text t a b -> addr_sep b "," e -> addr_list t' l -> addr_list (t ++ e ++ t') (a :: l).

(** ** Header lines *)
(** What a header contributes *)
Inductive hkind :=
| HStr (f : sfield)    (* a text *)
| HAddr (f : afield)   (* addresses, appended to those already there *)
| HVia                 (* Via entries, appended *)
| HCtype | HCallID | HClen | HCSeq | HExpires | HMaxForwards | HMinExpires
| HAllow_u             (* (!) u: stored as Allow-Events only, although the grammar names Allow first (sip.rl:454-455) *)
| HLength_l.           (* (!) l: Content-Length, but also Expires, Max-Forwards and Min-Expires (sip.rl:493-497) *)
(** The header names, in lower case (sip.rl:437-497); one-letter names are the compact forms. *)
Definition known_headers : list (bytes * hkind) := [
  (B "accept", HStr Accept); (B "accept-contact", HStr AcceptContact); (B "a", HStr AcceptContact); (B "accept-encoding", HStr AcceptEncoding);
  (B "accept-language", HStr AcceptLanguage); (B "allow", HStr Allow); (B "allow-events", HStr AllowEvents); (B "u", HAllow_u);
  (B "alert-info", HStr AlertInfo); (B "authentication-info", HStr AuthenticationInfo); (B "authorization", HStr Authorization);
  (B "content-disposition", HStr ContentDisposition); (B "content-language", HStr ContentLanguage); (B "content-encoding", HStr ContentEncoding);
  (B "e", HStr ContentEncoding); (B "call-info", HStr CallInfo); (B "date", HStr Date); (B "error-info", HStr ErrorInfo); (B "event", HStr Event);
  (B "o", HStr Event); (B "in-reply-to", HStr InReplyTo); (B "reply-to", HStr ReplyTo); (B "mime-version", HStr MIMEVersion);
  (B "organization", HStr Organization); (B "priority", HStr Priority); (B "proxy-authenticate", HStr ProxyAuthenticate);
  (B "proxy-authorization", HStr ProxyAuthorization); (B "proxy-require", HStr ProxyRequire); (B "refer-to", HStr ReferTo); (B "r", HStr ReferTo);
  (B "referred-by", HStr ReferredBy); (B "b", HStr ReferredBy); (B "require", HStr Require); (B "retry-after", HStr RetryAfter);
  (B "server", HStr Server); (B "subject", HStr Subject); (B "s", HStr Subject); (B "supported", HStr Supported); (B "k", HStr Supported);
  (B "timestamp", HStr Timestamp); (B "unsupported", HStr Unsupported); (B "user-agent", HStr UserAgent); (B "warning", HStr Warning);
  (B "www-authenticate", HStr WWWAuthenticate);
  (B "contact", HAddr Contact); (B "m", HAddr Contact); (B "from", HAddr From); (B "f", HAddr From); (B "p-asserted-identity", HAddr PAssertedIdentity);
  (B "record-route", HAddr RecordRoute); (B "remote-party-id", HAddr RemotePartyID); (B "route", HAddr Route); (B "to", HAddr To); (B "t", HAddr To);
  (B "via", HVia); (B "v", HVia); (B "content-type", HCtype); (B "c", HCtype); (B "call-id", HCallID); (B "i", HCallID);
  (B "content-length", HClen); (B "cseq", HCSeq); (B "expires", HExpires); (B "max-forwards", HMaxForwards); (B "min-expires", HMinExpires);
  (B "l", HLength_l)].

(** The message so far, with what only becomes visible at the end: the declared length and type of the payload *)
Record draft := mkdraft { d_msg : msg; d_len : Z; d_type : bytes }.
Definition with_msg (f : msg -> msg) (d : draft) : draft := mkdraft (f (d_msg d)) (d_len d) (d_type d).

(** A header value: printable characters, blanks, folds and multi-byte characters *)
Definition value_class (c : byte) : bool := beq c HT || in_range 32 127 c.
Inductive value_text : bytes -> Prop :=
| vt_nil : value_text []
| vt_char c t : value_class c = true -> value_text t -> value_text (c :: t)
| vt_fold c t : blank c = true -> value_text t -> value_text (CR :: LF :: c :: t)
| vt_multi w t : multibyte w -> value_text t -> value_text (w ++ t).
(** [lead]: the white space after the colon, as much as there is; (!) a second fold belongs to the value *)
Definition lead_ws (w v : bytes) : Prop :=
  sws w /\ starts_blank v = false /\ (forall r, v = CR :: r -> fold_ws w).
Definition word_class (c : byte) : bool := token_class c || one_of (B "()<>:/[]?{}" ++ [DQ; BSL]) c.
Definition callid_text (t : bytes) : Prop :=
  exists a b, t = a ++ b /\ a <> [] /\ forallb word_class a = true /\ (b = [] \/ exists x, b = B "@" ++ x /\ x <> [] /\ forallb word_class x = true).
Definition ct_param (t : bytes) (_ : unit) : Prop :=
  exists e1 n e2 x, t = e1 ++ n ++ e2 ++ x /\ sep ";" e1 /\ token n /\ sep "=" e2 /\ (token x \/ exists q v, x = [DQ] ++ q ++ [DQ] /\ quoted_text q v).
Definition ctype_text (t ct : bytes) : Prop :=
  exists a b ps l, t = ct ++ ps /\ ct = a ++ B "/" ++ b /\ token a /\ token b /\ chain ct_param ps l.
(** one more address, after those already there *)
Definition add_addr (f : afield) (m : msg) (a : addr) : msg := set_addr f (addrs m f ++ [a]) m.
(** What the white space [w] and the value [v] after the colon do. Numbers are taken as Go's int, modulo 2^64;
    (!) a second CSeq header continues the number of the first. *)
Definition header_value (k : hkind) (w v : bytes) (d d' : draft) : Prop :=
  match k with
  | HStr f => lead_ws w v /\ value_text v /\ d' = with_msg (set_str f v) d
  | HAllow_u => lead_ws w v /\ value_text v /\ d' = with_msg (set_str AllowEvents v) d
  | HAddr f => sws w /\ exists l, addr_list v l /\ d' = with_msg (fun m => fold_left (add_addr f) l m) d
  | HVia => sws w /\ exists l, via_list v l /\ d' = with_msg (fun m => set_vias (vias m ++ l) m) d
  | HCtype => sws w /\ exists ct, ctype_text v ct /\ d' = mkdraft (d_msg d) (d_len d) ct
  | HCallID => sws w /\ callid_text v /\ d' = with_msg (set_callid v) d
  | HCSeq => sws w /\ exists x l n mth, v = x ++ l ++ mth /\ number x n /\ lws l /\ token mth /\
      d' = with_msg (fun m => set_cseqmethod mth (set_cseq (i64 (cseq m * 10 ^ Z.of_nat (length x) + n)) m)) d
  | HClen => sws w /\ exists n, number v n /\ d' = mkdraft (d_msg d) (i64 n) (d_type d)
  | HExpires => sws w /\ exists n, number v n /\ d' = with_msg (set_expires (i64 n)) d
  | HMaxForwards => sws w /\ exists n, number v n /\ d' = with_msg (set_maxforwards (i64 n)) d
  | HMinExpires => sws w /\ exists n, number v n /\ d' = with_msg (set_minexpires (i64 n)) d
  | HLength_l => sws w /\ exists n, number v n /\
      d' = mkdraft (set_minexpires (i64 n) (set_maxforwards (i64 n) (set_expires (i64 n) (d_msg d)))) (i64 n) (d_type d)
  end.
Fixpoint find_header (n : bytes) (l : list (bytes * hkind)) : option hkind :=
  match l with [] => None | (x, k) :: l' => if bseq x n then Some k else find_header n l' end.
Fixpoint is_prefix (a b : bytes) : bool :=
  match a, b with [], _ => true | x :: a', y :: b' => beq x y && is_prefix a' b' | _, _ => false end.
(** A line without its CRLF: name *WSP ":" SWS value. Case does not matter in names. A name which is not known is an extension
    header; (!) unless it is the beginning of a known name, then there is no such line. *)
Definition header_text (t : bytes) (d d' : draft) : Prop :=
  exists n b w v, t = n ++ b ++ B ":" ++ w ++ v /\ token n /\ blanks b /\
    match find_header (map lower n) known_headers with
    | Some k => header_value k w v d d'
    | None => forallb (fun x => negb (is_prefix (map lower n) (fst x))) known_headers = true /\
        lead_ws w v /\ value_text v /\ d' = with_msg (fun m => set_xheader ((n, v) :: xheader m) m) d
    end.
Inductive header_lines : bytes -> draft -> draft -> Prop :=
| ht_nil d : header_lines [] d d
| ht_cons t d d1 ts d2 : header_text t d d1 -> header_lines ts d1 d2 -> header_lines (t ++ CRLF ++ ts) d d2.

(** ** The start line *)
(** (!) version numbers are taken modulo 256 *)
Definition version_text (t : bytes) (maj min : Z) : Prop :=
  exists a b x y, t = B "SIP/" ++ a ++ B "." ++ b /\ number a x /\ number b y /\ maj = x mod 256 /\ min = y mod 256.
Definition reason_class (c : byte) : bool := unreserved c || one_of (B ";/?:@&=+$, " ++ [HT]) c.
Inductive reason_text : bytes -> bytes -> Prop :=
| rt_nil : reason_text [] []
| rt_char c t v : reason_class c = true -> reason_text t v -> reason_text (c :: t) (c :: v)
| rt_esc a b t v : hex_class a = true -> hex_class b = true -> reason_text t v ->
    reason_text ("%"%byte :: a :: b :: t) (zb (16 * hex_value a + hex_value b) :: v)
| rt_multi w t v : multibyte w -> reason_text t v -> reason_text (w ++ t) (w ++ v).
Definition start_text (t : bytes) (m : msg) : Prop :=
  (exists u x v maj min, t = method m ++ B " " ++ x ++ B " " ++ v /\ token (method m) /\ uri_text x u /\ version_text v maj min /\
     m = set_request (Some u) (set_method (method m) (set_vmin min (set_vmaj maj msg0)))) \/
  (exists v maj min d n x, t = v ++ B " " ++ d ++ B " " ++ x /\ version_text v maj min /\ length d = 3%nat /\ number d n /\
     x <> [] /\ reason_text x (phrase m) /\ m = set_phrase (phrase m) (set_status n (set_vmin min (set_vmaj maj msg0)))).

(** ** The payload: present only if a positive length was declared, which must be exact *)
Definition payload_text (body : bytes) (d : draft) (m : msg) : Prop :=
  (d_len d <= 0 /\ m = d_msg d) \/
  (0 < d_len d /\ d_len d = Z.of_nat (length body) /\
   ((d_type d = B "application/sdp" /\ exists p, sdp_parse body = Ok (inl p) /\ m = set_pay (Some (PSdp p)) (d_msg d)) \/
    (d_type d <> B "application/sdp" /\ m = set_pay (Some (Misc (d_type d) body)) (d_msg d)))).

(** ** The packet. (!) What follows the empty line must not start with a blank, because the line's CRLF would then count as a fold. *)
Definition msg_text (data : bytes) (m : msg) : Prop :=
  exists st m0 hs d body, data = st ++ CRLF ++ hs ++ CRLF ++ body /\ start_text st m0 /\
    header_lines hs (mkdraft m0 0 []) d /\ starts_blank body = false /\ payload_text body d m.
