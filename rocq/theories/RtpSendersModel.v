(** Several goroutines which call Send of one RTP session at the same time (rtp/session.go:95-109). They share the Header of the session and its buffer obuf.
    Simplifications: there is one order of all accesses (Go promises that only without a data race); Header.Write reads the header and writes its twelve bytes in
    one step, and WriteTo reads the buffer in one step, so that there are fewer schedules than in the program: what is refuted here is wrong in the program too.
    The session has a socket and a peer, and WriteTo succeeds. *)
From Coq Require Import List ZArith.
From Verif Require Import Bytes RtpModel.
Import ListNotations.
Local Open Scope Z_scope.

(** what is shared: the header, the first 172 bytes of obuf, and what was written to the socket (the last datagram at the end) *)
Record shared := mkshared { sh_hdr : header; sh_buf : bytes; sh_wire : list bytes }.

(** where a goroutine is in Send:
    - Called: it has the frame (rtp/session.go:95-98);
    - Typed: PT is set (99);
    - Headed: the header is in the buffer (100-101);
    - ReadTS t, AddedTS: it has read TS, and written it back (102);
    - ReadSeq s: it has read Seq (103);
    - Filling n: Seq is written back, and the first n samples are in the buffer (103-106);
    - Sent: the buffer was given to WriteTo (107). *)
Inductive spot := Called | Typed | Headed | ReadTS (t : Z) | AddedTS | ReadSeq (s : Z) | Filling (n : nat) | Sent.

Definition overwrite {A} (i : nat) (x : A) (l : list A) : list A := firstn i l ++ x :: skipn (S i) l.

(** rtp/session.go:95-109  the next access of a goroutine that sends frame *)
Definition next_access (frame : list Z) (c : shared) (g : spot) : option (shared * spot) :=
  let 'mkshared h b w := c in
  match g with
  | Called => Some (mkshared (set_pt h ulaw_PT) b w, Typed)
  | Typed => Some (mkshared h (header_write h [] ++ skipn 12 b) w, Headed)
  | Headed => Some (c, ReadTS (h_ts h))
  | ReadTS t => Some (mkshared (set_ts h (u32 (t + 160))) b w, AddedTS)
  | AddedTS => Some (c, ReadSeq (h_seq h))
  | ReadSeq s => Some (mkshared (set_seq h (u16 (s + 1))) b w, Filling 0)
  | Filling n => if Nat.ltb n 160 then Some (mkshared h (overwrite (12 + n) (encode_sample (nth n frame 0)) b) w, Filling (S n))
                 else Some (mkshared h b (w ++ [b]), Sent)
  | Sent => None
  end.

(** the scheduler lets the i-th goroutine make its next access; a schedule names one goroutine after the other *)
Definition give_turn (frames : list (list Z)) (c : shared * list spot) (i : nat) : option (shared * list spot) :=
  match nth_error frames i, nth_error (snd c) i with
  | Some f, Some g => match next_access f (fst c) g with Some (s, g') => Some (s, overwrite i g' (snd c)) | None => None end
  | _, _ => None
  end.
Fixpoint schedule (frames : list (list Z)) (c : shared * list spot) (l : list nat) : option (shared * list spot) :=
  match l with
  | [] => Some c
  | i :: l' => match give_turn frames c i with Some c' => schedule frames c' l' | None => None end
  end.
(** rtp/session.go:69-93  a session with header h and a buffer just made; every goroutine has called Send *)
Definition all_called (h : header) (frames : list (list Z)) : shared * list spot := (mkshared h (repeat x00 172) [], repeat Called (length frames)).

(** SendDTMF in one goroutine and Send in another. Simplification: Send runs between two datagrams of the digit, as a whole. *)
(** rtp/session.go:134-161  the payloads of the seven datagrams of a digit *)
Definition dtmf_payloads (code : Z) : list bytes :=
  map (event_bytes code (Z.land dtmfVolume 0x3f)) [1; 101; 201; 301] ++ repeat (event_bytes code (Z.lor (Z.land dtmfVolume 0x3f) 0x80) dtmfDuration) 3.
(** rtp/session.go:140-147, 154-160  the datagrams with these payloads, and the header they leave *)
Fixpoint dtmf_from (h : header) (pls : list bytes) : list bytes * header :=
  match pls with
  | [] => ([], h)
  | pl :: pls' => let '(ps, h') := dtmf_from (set_mark (set_seq h (u16 (h_seq h + 1))) false) pls' in ((header_write h [] ++ pl) :: ps, h')
  end.
(** rtp/session.go:130-131  what SendDTMF does to the header before the first datagram *)
Definition dtmf_begun (h : header) : header := set_mark (set_pt h dtmf_PT) true.
(** the datagrams of a digit when Send is called after the first k of them *)
Definition digit_and_frame (h : header) (code : Z) (frame : list Z) (k : nat) : list bytes :=
  let '(ps, h1) := dtmf_from (dtmf_begun h) (firstn k (dtmf_payloads code)) in
  let '(s, sent, _, _) := Send (mksess true h1) frame [] in
  ps ++ map snd sent ++ fst (dtmf_from (hdr s) (skipn k (dtmf_payloads code))).
