(** sip/uri_parse.go: ParseURI, on the transcribed automaton of UriTable.v. *)
From Verif Require Import Bytes GoLib Auto UriTable SdpModel SipText SipTypes.
Local Open Scope Z_scope.

(** The local variables of ParseURI (uri_parse.go:45-53) which actions touch.
    [ubuf] is buf[0:amt]: bytes at and after amt are never read before being written again. *)
Record ustate := mkust { uout : uri; ubuf : bytes; ub1 : bytes; ub2 : bytes; uhex : Z }.
Definition ust0 : ustate := mkust uri0 [] [] [] 0.

(** The only way to leave from inside an action is an index panic. *)
Inductive upanic := UPanic.

Definition set_buf (s : ustate) (b : bytes) : ustate := mkust (uout s) b (ub1 s) (ub2 s) (uhex s).
Definition set_out (s : ustate) (u : uri) : ustate := mkust u (ubuf s) (ub1 s) (ub2 s) (uhex s).
(** buf[amt] = c; amt++ where len(buf) = cap *)
Definition put (cap : nat) (c : byte) (s : ustate) : ustate + upanic :=
  if Nat.ltb (length (ubuf s)) cap then inl (set_buf s (ubuf s ++ [c])) else inr UPanic.
(** data[p] *)
Definition fc (rest : bytes) (k : byte -> ustate + upanic) : ustate + upanic :=
  match rest with c :: _ => k c | [] => inr UPanic end.

(** The actions of uri_parse.rl:42-115, with buf of length [cap] and [rest] = data[p:]. *)
Definition uri_act (cap : nat) (a : uact) (rest : bytes) (s : ustate) : ustate + upanic :=
  let o := uout s in
  match a with
  | UStart => inl (set_buf s [])
  | UAppend => fc rest (fun c => put cap c s)
  | UHexHi => fc rest (fun c => inl (mkust o (ubuf s) (ub1 s) (ub2 s) (u8 (unhex c * 16))))
  | UHexLo => fc rest (fun c => let h := u8 (uhex s + unhex c) in put cap (zb h) (mkust o (ubuf s) (ub1 s) (ub2 s) h))
  | UScheme => inl (set_out s (mkuri (ubuf s) (u_user o) (u_pass o) (u_host o) (u_port o) (u_param o) (u_header o)))
  | UUser => inl (set_out s (mkuri (u_scheme o) (ubuf s) (u_pass o) (u_host o) (u_port o) (u_param o) (u_header o)))
  | UPass => inl (set_out s (mkuri (u_scheme o) (u_user o) (ubuf s) (u_host o) (u_port o) (u_param o) (u_header o)))
  | UHost => inl (set_out s (mkuri (u_scheme o) (u_user o) (u_pass o) (ubuf s) (u_port o) (u_param o) (u_header o)))
  | UPort => fc rest (fun c => inl (set_out s (mkuri (u_scheme o) (u_user o) (u_pass o) (u_host o) (u16 (u_port o * 10 + u8 (bz c - 48))) (u_param o) (u_header o))))
  | UB1 => inl (mkust o [] (ubuf s) (ub2 s) (uhex s))
  | UB2 => inl (mkust o [] (ub1 s) (ubuf s) (uhex s))
  | ULower => fc rest (fun c => put cap (if in_range 65 90 c then zb (bz c + 32) else c) s)
  | UParam => inl (set_out s (mkuri (u_scheme o) (u_user o) (u_pass o) (u_host o) (u_port o) ((ub1 s, ub2 s) :: u_param o) (u_header o)))
  | UHeader => inl (set_out s (mkuri (u_scheme o) (u_user o) (u_pass o) (u_host o) (u_port o) (u_param o) ((ub1 s, ub2 s) :: u_header o)))
  end.

(** The automaton looks at data[p] only. *)
Definition byte_look (rest : bytes) : option N := match rest with c :: _ => Some (Byte.to_N c) | [] => None end.

(** What ParseURI gives: a URI, an error value with its text, or a panic. *)
Inductive presult (A : Type) := POk (a : A) | PErr (e : bytes) | PPanic.
Arguments POk {A} a.
Arguments PErr {A} e.
Arguments PPanic {A}.

(** uri_parse.go:41-689  ParseURI on non-nil data. cs < uri_first_final is an error; its text depends on p == pe. *)
Definition parse_uri (data : bytes) : presult uri :=
  let cap := length data in
  let start := if contains_byte "@" data then uri_en_uriWithUser else uri_en_uriSansUser in
  let incomplete := PErr (B "Incomplete URI: " ++ data) in
  match run (uri_act cap) byte_look uri_row data ust0 start with
  | OErr _ => PPanic
  | OExit _ _ _ => PPanic   (* uri_row has no jumps *)
  | OBad _ rest _ => PErr (B "Error in URI at pos " ++ itoa (Z.of_nat (length data - length rest)) ++ B ": " ++ data)
  | OEof n s =>
    match acts (uri_act cap) (uri_eof n) [] s with
    | inr _ => PPanic
    | inl s' => if (n <? uri_first_final)%positive then incomplete else POk (uout s')
    end
  end.
(** ParseURI including nil data (uri_parse.go:42-44): nil URI, nil error *)
Definition ParseURI (data : option bytes) : presult (option uri) :=
  match data with
  | None => POk None
  | Some d => match parse_uri d with POk u => POk (Some u) | PErr e => PErr e | PPanic => PPanic end
  end.
