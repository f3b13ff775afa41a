(** Package rtp: rtp/rtp.go, rtp/dtmf.go, rtp/session.go (data path). *)
From Verif Require Import Bytes Asm DspModel.
Local Open Scope Z_scope.

(** rtp/rtp.go:52-59  type Header *)
Record header := mkheader {
  h_pad : bool; h_mark : bool; h_pt : Z; h_seq : Z; h_ts : Z; h_ssrc : Z
}.

(** rtp/rtp.go:22,24 *)
Definition HeaderSize : Z := 12.
Definition Version : Z := 2.
(** rtp/rtp.go:35-43: mask1 .. mask7 *)
Definition mask1 : Z := 1.
Definition mask2 : Z := 3.
Definition mask7 : Z := 127.

(** rtp/rtp.go:112-135  (h *Header) Write; appends to b *)
Definition header_write (h : header) (b : bytes) : bytes :=
  let b0 := u8 (Z.shiftl (Z.land Version mask2) 6) in
  let b0 := if h_pad h then Z.lor b0 (u8 (Z.shiftl (Z.land 1 mask1) 5)) else b0 in
  let b1 := Z.land (h_pt h) mask7 in
  let b1 := if h_mark h then Z.lor b1 (u8 (Z.shiftl (Z.land 1 mask1) 7)) else b1 in
  b ++ [zb b0; zb b1;
        zb (Z.shiftr (h_seq h) 8); zb (h_seq h);
        zb (Z.shiftr (h_ts h) 24); zb (Z.shiftr (h_ts h) 16); zb (Z.shiftr (h_ts h) 8); zb (h_ts h);
        zb (Z.shiftr (h_ssrc h) 24); zb (Z.shiftr (h_ssrc h) 16); zb (Z.shiftr (h_ssrc h) 8); zb (h_ssrc h)].

(** rtp/rtp.go:45-49 *)
Inductive rtp_err := ErrBadVersion | ErrTruncatedPacket | ErrExtendedHeadersNotSupported.

(** Indexing a byte slice; out of range is a Go panic. *)
Definition idx (b : bytes) (i : nat) : res Z :=
  match nth_error b i with Some x => Ok (bz x) | None => Panic end.

Notation "'do' x <- r ; k" := (rbind r (fun x => k)) (at level 200, x name, r at level 100, k at level 200).

(** rtp/rtp.go:138-154  (h *Header) Read *)
Definition header_read (b : bytes) : res (header + rtp_err) :=
  if (Z.of_nat (length b) <? 12) then Ok (inr ErrTruncatedPacket)
  else
    do b0 <- idx b 0;
    if negb (Z.shiftr b0 6 =? Version) then Ok (inr ErrBadVersion)
    else if negb (Z.land (Z.shiftr b0 4) 1 =? 0) then Ok (inr ErrExtendedHeadersNotSupported)
    else
      do b1 <- idx b 1; do b2 <- idx b 2; do b3 <- idx b 3;
      do b4 <- idx b 4; do b5 <- idx b 5; do b6 <- idx b 6; do b7 <- idx b 7;
      do b8 <- idx b 8; do b9 <- idx b 9; do b10 <- idx b 10; do b11 <- idx b 11;
      Ok (inl {| h_pad := Z.land (Z.shiftr b0 5) mask1 =? 1;
                 h_mark := Z.land (Z.shiftr b1 7) mask1 =? 1;
                 h_pt := Z.land b1 mask7;
                 h_seq := Z.lor (u16 (Z.shiftl b2 8)) b3;
                 h_ts := Z.lor (Z.lor (Z.lor (u32 (Z.shiftl b4 24)) (u32 (Z.shiftl b5 16))) (u32 (Z.shiftl b6 8))) b7;
                 h_ssrc := Z.lor (Z.lor (Z.lor (u32 (Z.shiftl b8 24)) (u32 (Z.shiftl b9 16))) (u32 (Z.shiftl b10 8))) b11 |}).

(** rtp/rtp.go:62-109  type EventHeader *)
Record event_header := mkevent {
  e_event : Z; e_E : bool; e_R : bool; e_volume : Z; e_duration : Z
}.

(** rtp/rtp.go:157-168  (h *EventHeader) Write: overwrites b[0..3] *)
Definition event_write (h : event_header) (b : bytes) : res bytes :=
  match b with
  | _ :: _ :: _ :: _ :: rest =>
    let b1 := Z.land (e_volume h) 63 in
    let b1 := if e_R h then Z.lor b1 (Z.shiftl 1 6) else b1 in
    let b1 := if e_E h then Z.lor b1 (Z.shiftl 1 7) else b1 in
    Ok (zb (e_event h) :: zb b1 :: zb (Z.shiftr (e_duration h) 8) :: zb (e_duration h) :: rest)
  | _ => Panic
  end.

(** rtp/rtp.go:171-177  (h *EventHeader) Read *)
Definition event_read (b : bytes) : res event_header :=
  do b0 <- idx b 0; do b1 <- idx b 1; do b2 <- idx b 2; do b3 <- idx b 3;
  Ok {| e_event := b0; e_E := Z.shiftr b1 7 =? 1; e_R := Z.land (Z.shiftr b1 6) 1 =? 1;
        e_volume := Z.land b1 63; e_duration := Z.lor (u16 (Z.shiftl b2 8)) b3 |}.

(** rtp/dtmf.go:25-64  DtmfToChar (the error text is not modelled) *)
Definition DtmfToChar (event : Z) : option byte :=
  match event with
  | 0 => Some "0" | 1 => Some "1" | 2 => Some "2" | 3 => Some "3" | 4 => Some "4"
  | 5 => Some "5" | 6 => Some "6" | 7 => Some "7" | 8 => Some "8" | 9 => Some "9"
  | 10 => Some "*" | 11 => Some "#" | 12 => Some "A" | 13 => Some "B" | 14 => Some "C"
  | 15 => Some "D" | 16 => Some "!" | _ => None
  end%byte.

(** rtp/dtmf.go:67-107  CharToDtmf *)
Definition CharToDtmf (ch : byte) : option Z :=
  match ch with
  | "0" => Some 0 | "1" => Some 1 | "2" => Some 2 | "3" => Some 3 | "4" => Some 4
  | "5" => Some 5 | "6" => Some 6 | "7" => Some 7 | "8" => Some 8 | "9" => Some 9
  | "*" => Some 10 | "#" => Some 11
  | "a" | "A" => Some 12 | "b" | "B" => Some 13 | "c" | "C" => Some 14 | "d" | "D" => Some 15
  | "!" => Some 16 | _ => None
  end%byte.

(** rtp/session.go:41  var dtmfCodes [256]byte (unlisted entries are 0) *)
Definition dtmfCodes (digit : byte) : Z :=
  match digit with
  | "0" => 0 | "1" => 1 | "2" => 2 | "3" => 3 | "4" => 4 | "5" => 5 | "6" => 6 | "7" => 7
  | "8" => 8 | "9" => 9 | "*" => 10 | "#" => 11
  | "a" | "A" => 12 | "b" | "B" => 13 | "c" | "C" => 14 | "d" | "D" => 15 | "!" => 16
  | _ => 0
  end%byte.

(** sdp/codecs.go: ULAWCodec.PT and DTMFCodec.PT *)
Definition ulaw_PT : Z := 0.
Definition dtmf_PT : Z := 101.
(** rtp/session.go:35-37 *)
Definition dtmfVolume : Z := 6.
Definition dtmfDuration : Z := 400.
Definition dtmfInterval : Z := 100.

(** The sending half of Session (rtp/session.go:49-67): [live] is
    [rs != nil && rs.Sock != nil && rs.Peer != nil]. *)
Record sess := mksess { live : bool; hdr : header }.

Definition set_pt (h : header) (v : Z) := mkheader (h_pad h) (h_mark h) v (h_seq h) (h_ts h) (h_ssrc h).
Definition set_mark (h : header) (v : bool) := mkheader (h_pad h) v (h_pt h) (h_seq h) (h_ts h) (h_ssrc h).
Definition set_seq (h : header) (v : Z) := mkheader (h_pad h) (h_mark h) (h_pt h) v (h_ts h) (h_ssrc h).
Definition set_ts (h : header) (v : Z) := mkheader (h_pad h) (h_mark h) (h_pt h) (h_seq h) v (h_ssrc h).

(** What the application can do, and what it sees. The socket outcome of the n-th
    WriteTo is an input: [true] means the datagram left. *)
Inductive send_err := WriteFailed | InvalidDigit.

(** LinearToUlaw on one sample, as a byte ([byte(dsp.LinearToUlaw(int64(frame[n])))]). *)
Definition encode_sample (x : Z) : byte :=
  match LinearToUlaw x with Some u => zb u | None => x00 end.
Definition decode_sample (b : byte) : Z :=
  match UlawToLinear (bz b) with Some x => i16 x | None => 0 end.

(** A WriteTo call: the datagram and whether it left the socket. *)
Definition attempt := (bool * bytes)%type.

(** Outcome of one call: new session, WriteTo calls in order, unused socket
    outcomes, result. *)
Definition out := (sess * list attempt * list bool * option send_err)%type.

Definition next_ok (o : list bool) : bool := match o with [] => true | x :: _ => x end.

(** rtp/session.go:95-109  Send. obuf has length 0 and capacity 1500, so the
    reslice to 172 bytes is in range. *)
Definition Send (s : sess) (frame : list Z) (o : list bool) : out :=
  if negb (live s) then (s, [], o, None)
  else
    let h := set_pt (hdr s) ulaw_PT in
    let buf := header_write h [] ++ map encode_sample frame in
    let h := set_seq (set_ts h (u32 (h_ts h + 160))) (u16 (h_seq h + 1)) in
    let s' := mksess true h in
    (s', [(next_ok o, buf)], tl o, if next_ok o then None else Some WriteFailed).

(** rtp/session.go:111-121  SendRaw *)
Definition SendRaw (s : sess) (pt : Z) (data : bytes) (samps : Z) (o : list bool) : out :=
  if negb (live s) then (s, [], o, None)
  else
    let h := set_pt (hdr s) pt in
    let buf := header_write h [] ++ data in
    let h := set_seq (set_ts h (u32 (h_ts h + samps))) (u16 (h_seq h + 1)) in
    let s' := mksess true h in
    (s', [(next_ok o, buf)], tl o, if next_ok o then None else Some WriteFailed).

(** rtp/session.go:134-139: the event payload *)
Definition event_bytes (code vol dur : Z) : bytes :=
  [zb code; zb vol; zb (Z.shiftr dur 8); zb (Z.land dur 0xff)].

(** rtp/session.go:137-150  the progress loop; the duration starts at 1, grows by
    100 and the loop ends when it is at least 400, so 5 rounds of fuel are enough. *)
Fixpoint dtmf_progress (fuel : nat) (h : header) (code dur : Z) (o : list bool)
  : header * list attempt * list bool * bool :=
  match fuel with
  | O => (h, [], o, true)
  | S f =>
    let pkt := header_write h [] ++ event_bytes code (Z.land dtmfVolume 0x3f) dur in
    if next_ok o then
      let h := set_mark (set_seq h (u16 (h_seq h + 1))) false in
      let dur := u16 (dur + dtmfInterval) in
      if dtmfDuration <=? dur then (h, [(true, pkt)], tl o, true)
      else let '(h', ps, o', ok) := dtmf_progress f h code dur (tl o) in (h', (true, pkt) :: ps, o', ok)
    else (h, [(false, pkt)], tl o, false)
  end.

(** rtp/session.go:151-161  the three end packets *)
Fixpoint dtmf_end (n : nat) (h : header) (code : Z) (o : list bool)
  : header * list attempt * list bool * bool :=
  match n with
  | O => (h, [], o, true)
  | S n' =>
    let pkt := header_write h [] ++ event_bytes code (Z.lor (Z.land dtmfVolume 0x3f) 0x80) dtmfDuration in
    if next_ok o then
      let h := set_seq h (u16 (h_seq h + 1)) in
      let '(h', ps, o', ok) := dtmf_end n' h code (tl o) in (h', (true, pkt) :: ps, o', ok)
    else (h, [(false, pkt)], tl o, false)
  end.

(** rtp/session.go:123-163  SendDTMF *)
Definition SendDTMF (s : sess) (digit : byte) (o : list bool) : out :=
  let code := dtmfCodes digit in
  if (code =? 0) && negb (beq digit "0") then (s, [], o, Some InvalidDigit)
  else if negb (live s) then (s, [], o, None)
  else
    let h := set_mark (set_pt (hdr s) dtmf_PT) true in
    let '(h1, ps1, o1, ok1) := dtmf_progress 5 h code 1 o in
    if negb ok1 then (mksess true h1, ps1, o1, Some WriteFailed)
    else
      let '(h2, ps2, o2, ok2) := dtmf_end 3 h1 code o1 in
      (mksess true h2, ps1 ++ ps2, o2, if ok2 then None else Some WriteFailed).

(** Application calls on the sending half. *)
Inductive op :=
| OpSend (frame : list Z)
| OpRaw (pt : Z) (data : bytes) (samps : Z)
| OpDTMF (digit : byte).

Definition do_op (s : sess) (x : op) (o : list bool) : out :=
  match x with
  | OpSend f => Send s f o
  | OpRaw pt d n => SendRaw s pt d n o
  | OpDTMF d => SendDTMF s d o
  end.

(** A whole history: all WriteTo calls, in order, and the unused socket outcomes. *)
Fixpoint run_ops (s : sess) (xs : list op) (o : list bool) : sess * list attempt * list bool :=
  match xs with
  | [] => (s, [], o)
  | x :: xs' =>
    let '(s1, ps, o1, _) := do_op s x o in
    let '(s2, ps2, o2) := run_ops s1 xs' o1 in
    (s2, ps ++ ps2, o2)
  end.

(** rtp/session.go:81-92  initial header of NewSession with a peer set *)
Definition new_session (ssrc : Z) : sess := mksess true (mkheader false false 0 666 0 ssrc).

(** ** Receive path *)
(** rtp/session.go:189,192: ReadFrom copies the datagram to the front of the 2048 byte
    buffer; the rest keeps what was there before. *)
Definition recv_into (buf pkt : bytes) : bytes * Z :=
  let p := firstn 2048 pkt in
  (p ++ skipn (length p) buf, Z.of_nat (length p)).

(** rtp/session.go:201-215  one received datagram: the decoded frame if it is delivered *)
Definition recv_packet (buf : bytes) (amt : Z) : res (option (list Z)) :=
  do r <- header_read buf;
  match r with
  | inr _ => Ok None
  | inl h =>
    if negb (h_pt h =? ulaw_PT) then Ok None
    else if negb (amt =? HeaderSize + 160) then Ok None
    else
      let body := firstn 160 (skipn 12 buf) in
      if Nat.eqb (length body) 160 then Ok (Some (map decode_sample body)) else Panic
  end.

(** rtp/session.go:191-218  the receive loop over a stream of datagrams *)
Fixpoint recv_stream (buf : bytes) (pkts : list bytes) : res (list (list Z)) :=
  match pkts with
  | [] => Ok []
  | p :: ps =>
    let '(buf', amt) := recv_into buf p in
    do f <- recv_packet buf' amt;
    do fs <- recv_stream buf' ps;
    Ok (match f with Some x => x :: fs | None => fs end)
  end.
