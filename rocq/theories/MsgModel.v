(** sip/msg_parse.go: ParseMsg, on the transcribed automaton of MsgTable.v. *)
From Verif Require Import Bytes GoLib Auto SdpModel SipText SipTypes UriTable UriModel MsgTable.
Local Open Scope Z_scope.

(** The local variables of ParseMsg (msg_parse.go:56-72) which actions touch.
    [m_buf] is buf[0:amt]. A position is represented by the rest of the packet from it on, so [m_mark] is data[mark:].
    [m_val] is the field value points to, [m_addrp] the address list addrp points to the end of. viap always points to the end
    of msg.Via: it starts there and only MVia moves it, to the Next of the node just stored. *)
Record mst := mkmst {
  m_msg : msg; m_buf : bytes; m_mark : bytes; m_hex : Z; m_clen : Z; m_ctype : bytes; m_name : bytes;
  m_val : option sfield; m_via : option via; m_addrp : option afield; m_addr : option addr
}.
Definition mst0 (data : bytes) : mst := mkmst msg0 [] data 0 0 [] [] None None None None.

(** How an action leaves: an index, slice or nil pointer panic, or [return nil, err]. *)
Inductive merr := MPanic | MReturn (e : bytes).

Definition put_msg m (s : mst) : mst := mkmst m (m_buf s) (m_mark s) (m_hex s) (m_clen s) (m_ctype s) (m_name s) (m_val s) (m_via s) (m_addrp s) (m_addr s).
Definition put_buf b (s : mst) : mst := mkmst (m_msg s) b (m_mark s) (m_hex s) (m_clen s) (m_ctype s) (m_name s) (m_val s) (m_via s) (m_addrp s) (m_addr s).
Definition put_mark k (s : mst) : mst := mkmst (m_msg s) (m_buf s) k (m_hex s) (m_clen s) (m_ctype s) (m_name s) (m_val s) (m_via s) (m_addrp s) (m_addr s).
Definition put_hex h (s : mst) : mst := mkmst (m_msg s) (m_buf s) (m_mark s) h (m_clen s) (m_ctype s) (m_name s) (m_val s) (m_via s) (m_addrp s) (m_addr s).
Definition put_clen n (s : mst) : mst := mkmst (m_msg s) (m_buf s) (m_mark s) (m_hex s) n (m_ctype s) (m_name s) (m_val s) (m_via s) (m_addrp s) (m_addr s).
Definition put_ctype t (s : mst) : mst := mkmst (m_msg s) (m_buf s) (m_mark s) (m_hex s) (m_clen s) t (m_name s) (m_val s) (m_via s) (m_addrp s) (m_addr s).
Definition put_name t (s : mst) : mst := mkmst (m_msg s) (m_buf s) (m_mark s) (m_hex s) (m_clen s) (m_ctype s) t (m_val s) (m_via s) (m_addrp s) (m_addr s).
Definition put_val f (s : mst) : mst := mkmst (m_msg s) (m_buf s) (m_mark s) (m_hex s) (m_clen s) (m_ctype s) (m_name s) f (m_via s) (m_addrp s) (m_addr s).
Definition put_via v (s : mst) : mst := mkmst (m_msg s) (m_buf s) (m_mark s) (m_hex s) (m_clen s) (m_ctype s) (m_name s) (m_val s) v (m_addrp s) (m_addr s).
Definition put_addrp f (s : mst) : mst := mkmst (m_msg s) (m_buf s) (m_mark s) (m_hex s) (m_clen s) (m_ctype s) (m_name s) (m_val s) (m_via s) f (m_addr s).
Definition put_addr a (s : mst) : mst := mkmst (m_msg s) (m_buf s) (m_mark s) (m_hex s) (m_clen s) (m_ctype s) (m_name s) (m_val s) (m_via s) (m_addrp s) a.

(** buf[amt] = c; amt++ where len(buf) = cap *)
Definition mput (cap : nat) (c : byte) (s : mst) : mst + merr :=
  if Nat.ltb (length (m_buf s)) cap then inl (put_buf (m_buf s ++ [c]) s) else inr MPanic.
(** data[p] *)
Definition mfc (rest : bytes) (k : byte -> mst + merr) : mst + merr := match rest with c :: _ => k c | [] => inr MPanic end.
(** data[mark:p-d] *)
Definition mslice (d : nat) (rest : bytes) (s : mst) (k : bytes -> mst + merr) : mst + merr :=
  if Nat.leb (length rest + d) (length (m_mark s)) then k (firstn (length (m_mark s) - (length rest + d)) (m_mark s)) else inr MPanic.
(** dereferencing via, addr *)
Definition on_via (s : mst) (k : via -> mst + merr) : mst + merr := match m_via s with Some v => k v | None => inr MPanic end.
Definition on_addr (s : mst) (k : addr -> mst + merr) : mst + merr := match m_addr s with Some a => k a | None => inr MPanic end.
Definition set_v v (s : mst) : mst + merr := inl (put_via (Some v) s).
(** sip.rl:197-203: the trailing white space of an unquoted display name is dropped *)
Fixpoint trim_end (l : bytes) : bytes :=
  match l with [] => [] | c :: l' => match trim_end l' with [] => if whitespacec c then [] else [c] | t => c :: t end end.
(** ParseURI(data[mark:p]); a slice expression is never nil *)
Definition call_uri (b : bytes) (k : uri -> mst + merr) : mst + merr :=
  match parse_uri b with POk u => k u | PErr e => inr (MReturn e) | PPanic => inr MPanic end.
(** n * 10 + (c - '0'), in int *)
Definition acc_int (n : Z) (c : byte) : Z := i64 (n * 10 + (bz c - 48)).

(** The actions of sip.rl:80-250, 437-497, 532-534, with buf of length [cap] and [rest] = data[p:]. *)
Definition msg_act (cap : nat) (a : mact) (rest : bytes) (s : mst) : mst + merr :=
  let m := m_msg s in
  match a with
  | MMark => inl (put_mark rest s)
  | MStart => inl (put_buf [] s)
  | MAppend => mfc rest (fun c => mput cap c s)
  | MHexHi => mfc rest (fun c => inl (put_hex (u8 (unhex c * 16)) s))
  | MHexLo => mfc rest (fun c => let h := u8 (m_hex s + unhex c) in mput cap (zb h) (put_hex h s))
  | MMethod => mslice 0 rest s (fun b => inl (put_msg (set_method b m) s))
  | MMajor => mfc rest (fun c => inl (put_msg (set_vmaj (u8 (vmaj m * 10 + (bz c - 48))) m) s))
  | MMinor => mfc rest (fun c => inl (put_msg (set_vmin (u8 (vmin m * 10 + (bz c - 48))) m) s))
  | MRequest => mslice 0 rest s (fun b => call_uri b (fun u => inl (put_msg (set_request (Some u) m) s)))
  | MStatus => mfc rest (fun c => inl (put_msg (set_status (acc_int (status m) c) m) s))
  | MPhrase => inl (put_msg (set_phrase (m_buf s) m) s)
  | MViaNew => inl (put_via (Some (mkvia [] [] [] [] 0 [])) s)
  | MVia => on_via s (fun v => inl (put_via None (put_msg (set_vias (vias m ++ [v]) m) s)))
  | MViaProtocol => mslice 0 rest s (fun b => on_via s (fun v => set_v (mkvia b (v_version v) (v_transport v) (v_host v) (v_port v) (v_param v)) s))
  | MViaVersion => mslice 0 rest s (fun b => on_via s (fun v => set_v (mkvia (v_protocol v) b (v_transport v) (v_host v) (v_port v) (v_param v)) s))
  | MViaTransport => mslice 0 rest s (fun b => on_via s (fun v => set_v (mkvia (v_protocol v) (v_version v) b (v_host v) (v_port v) (v_param v)) s))
  | MViaHost => mslice 0 rest s (fun b => on_via s (fun v => set_v (mkvia (v_protocol v) (v_version v) (v_transport v) b (v_port v) (v_param v)) s))
  | MViaPort => mfc rest (fun c => on_via s (fun v => set_v (mkvia (v_protocol v) (v_version v) (v_transport v) (v_host v) (u16 (v_port v * 10 + (bz c - 48))) (v_param v)) s))
  | MViaParam => on_via s (fun v => set_v (mkvia (v_protocol v) (v_version v) (v_transport v) (v_host v) (v_port v) ((m_name s, m_buf s) :: v_param v)) s)
  | MName => mslice 0 rest s (fun b => inl (put_name b s))
  | MValue => mslice 1 rest s (fun b =>
      match m_val s with
      | Some f => inl (put_msg (set_str f b m) s)
      | None => inl (put_msg (set_xheader ((m_name s, b) :: xheader m) m) s)
      end)
  | MAddrNew => inl (put_addr (Some (mkaddr None [] [])) s)
  | MDisplayQ => on_addr s (fun a => inl (put_addr (Some (mkaddr (a_uri a) (m_buf s) (a_param a))) s))
  | MDisplayU => mslice 0 rest s (fun b => on_addr s (fun a => inl (put_addr (Some (mkaddr (a_uri a) (trim_end b) (a_param a))) s)))
  | MAddrUri => mslice 0 rest s (fun b => call_uri b (fun u => on_addr s (fun a => inl (put_addr (Some (mkaddr (Some u) (a_display a) (a_param a))) s))))
  | MAddrParam => on_addr s (fun a => inl (put_addr (Some (mkaddr (a_uri a) (a_display a) ((m_name s, m_buf s) :: a_param a))) s))
  | MAddr => on_addr s (fun a =>
      match m_addrp s with
      | Some f => inl (put_addr None (put_msg (set_addr f (addrs m f ++ [a]) m) s))
      | None => inr MPanic
      end)
  | MCallID => mslice 0 rest s (fun b => inl (put_msg (set_callid b m) s))
  | MClen => mfc rest (fun c => inl (put_clen (acc_int (m_clen s) c) s))
  | MCtype => mslice 0 rest s (fun b => inl (put_ctype b s))
  | MCSeq => mfc rest (fun c => inl (put_msg (set_cseq (acc_int (cseq m) c) m) s))
  | MCSeqMethod => mslice 0 rest s (fun b => inl (put_msg (set_cseqmethod b m) s))
  | MExpires => mfc rest (fun c => inl (put_msg (set_expires (acc_int (expires m) c) m) s))
  | MMaxForwards => mfc rest (fun c => inl (put_msg (set_maxforwards (acc_int (maxforwards m) c) m) s))
  | MMinExpires => mfc rest (fun c => inl (put_msg (set_minexpires (acc_int (minexpires m) c) m) s))
  | MClen0 => inl (put_clen 0 s)
  | MExpires0 => inl (put_msg (set_expires 0 m) s)
  | MMaxForwards0 => inl (put_msg (set_maxforwards 0 m) s)
  | MMinExpires0 => inl (put_msg (set_minexpires 0 m) s)
  | MValueNil => inl (put_val None s)
  | MAddrp f => inl (put_addrp (Some f) s)
  | MValuep f => inl (put_val (Some f) s)
  end.

(** msg_parse.rl:79-81  lookAheadWSP: data[p+2] exists and is white space *)
Definition lookAheadWSP (rest : bytes) : bool :=
  match rest with _ :: _ :: c :: _ => beq c " " || beq c x09 | _ => false end.
(** The symbol a state switches on: data[p], widened for CR (_widec in msg_parse.go) *)
Definition msg_look (rest : bytes) : option N :=
  match rest with
  | [] => None
  | c :: _ => Some (if beq c CR && lookAheadWSP rest then 256%N else Byte.to_N c)
  end.

(** The errors of ParseMsg (msg_parse.rl:55-73): MsgIncompleteError, MsgParseError with its offset, the Content-Length error,
    and the errors passed on from ParseURI and sdp.Parse. *)
Inductive msg_err := EIncomplete | EParse (offset : nat) | ELength (clen : Z) (have : nat) | EUri (e : bytes) | ESdp (e : sdp_err).
(** What ParseMsg gives. [MFuel] is no result of the code: it stands for a run longer than the fuel allows. *)
Inductive mresult := MOk (m : msg) | MErr (e : msg_err) | MPanics | MFuel.

(** msg_parse.rl:62-76  after the header block, at position [rest] *)
Definition msg_finish (rest : bytes) (s : mst) : mresult :=
  if 0 <? m_clen s then
    if negb (m_clen s =? Z.of_nat (length rest)) then MErr (ELength (m_clen s) (length rest))
    else if bseq (m_ctype s) (B "application/sdp") then
      match sdp_parse rest with
      | Ok (inl p) => MOk (set_pay (Some (PSdp p)) (m_msg s))
      | Ok (inr e) => MErr (ESdp e)
      | Panic => MPanics
      end
    else MOk (set_pay (Some (Misc (m_ctype s) rest)) (m_msg s))
  else MOk (m_msg s).

(** The automaton from state n at position rest: machine after machine, then the test of cs (msg_parse.rl:55-61). At the end of
    the packet in a state of a header name the code jumps to st273, which is below msg_first_final as those states are
    (msg_parse.go:17835-17840), so the outcome is the same. *)
Fixpoint msg_drive (cap : nat) (fuel : nat) (rest : bytes) (s : mst) (n : positive) : mresult :=
  match fuel with
  | O => MFuel
  | S f =>
    match run (msg_act cap) msg_look msg_row rest s n with
    | OEof m s' => if (m <? msg_first_final)%positive then MErr EIncomplete else msg_finish [] s'
    | OBad _ r _ => MErr (EParse (cap - length r))
    | OErr MPanic => MPanics
    | OErr (MReturn e) => MErr (EUri e)
    | OExit Done r s' => msg_finish (tl r) s'
    | OExit (Go m) r s' => msg_drive cap f (tl r) s' m
    | OExit (Hold m) r s' => msg_drive cap f r s' m
    | OExit (Back m) r s' => msg_drive cap f (m_mark s') s' m
    end
  end.
(** Enough fuel for every packet (proved in MsgSafe.v). *)
Definition msg_fuel (data : bytes) : nat := 4 * length data + 4.
(** msg_parse.go:52  ParseMsg on non-nil data *)
Definition parse_msg (data : bytes) : mresult :=
  msg_drive (length data) (msg_fuel data) data (mst0 data) msg_en_main.
(** ParseMsg including nil data (msg_parse.go:53-55): nil message, nil error *)
Definition ParseMsg (data : option bytes) : option mresult := option_map parse_msg data.
