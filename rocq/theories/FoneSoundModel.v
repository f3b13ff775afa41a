(** fone/main.go:180-215: what the telephone does with sound and with keys. The other cases of its select loop are in FoneModel.v. *)
From Verif Require Import Bytes RtpModel.
Local Open Scope Z_scope.

(** What can happen. A device's call returns; pa_simple_read gives 160 samples or fails, and awgn.Get gives the next sample of noise (C89). *)
Inductive sevent :=
| STick (mic : option (list Z)) (noise : list Z)   (* 181 the ticker: what reading the microphone gives, what 160 calls of awgn.Get give *)
| SKey (k : byte)                                  (* 197 a key *)
| SPacket (src : bytes * Z) (p : bytes)            (* a datagram arrives at the RTP socket *)
| SPeer (a : bytes * Z)                            (* 215 the dialog tells the address of the peer's RTP socket *)
| SFail.                                           (* 232-234 the RTP socket fails; rs.CloseAfterError sets rs.Sock to nil *)

(** What can be seen of it: a datagram given to the operating system, and whether it takes it; a frame given to the loudspeaker. *)
Inductive seffect :=
| SOut (dst : bytes * Z) (p : bytes) (ok : bool)
| SPlay (f : list Z).

(** rs.Peer, whether rs.Sock is not nil, rs.Header; the operating system's answers to come; the buffer of the receive goroutine *)
Record sound := mksound { sn_peer : option (bytes * Z); sn_open : bool; sn_header : header; sn_oks : list bool; sn_buf : bytes }.

(** a call of rs.Send or rs.SendDTMF: errors are logged and nothing else (192, 199) *)
Definition call (x : op) (s : sound) : sound * list seffect :=
  match sn_peer s with
  | Some a =>
    let '(r, l, o, _) := do_op (mksess (sn_open s) (sn_header s)) x (sn_oks s) in
    (mksound (sn_peer s) (sn_open s) (hdr r) o (sn_buf s), map (fun t => SOut a (snd t) (fst t)) l)
  | None =>
    (* rtp/session.go:96, 125  rs.Peer == nil *)
    let '(r, l, o, _) := do_op (mksess false (sn_header s)) x (sn_oks s) in (mksound None (sn_open s) (hdr r) o (sn_buf s), [])
  end.
(** One event. A frame of rs.C has 160 samples (it is an array), so 205 does not apply. *)
Definition sstep (mute : bool) (e : sevent) (s : sound) : res (sound * list seffect) :=
  match e with
  | STick mic noise =>
    if mute then Ok (call (OpSend noise) s)
    else match mic with Some f => Ok (call (OpSend f) s) | None => Ok (s, []) end
  | SKey k => Ok (call (OpDTMF k) s)
  | SPacket _ p =>
    if sn_open s then
      let '(b, n) := recv_into (sn_buf s) p in
      do f <- recv_packet b n;
      Ok (mksound (sn_peer s) (sn_open s) (sn_header s) (sn_oks s) b, match f with Some f => [SPlay f] | None => [] end)
    else Ok (s, [])
  | SPeer a => Ok (mksound (Some a) (sn_open s) (sn_header s) (sn_oks s) (sn_buf s), [])
  | SFail => Ok (mksound (sn_peer s) false (sn_header s) (sn_oks s) (sn_buf s), [])
  end.
Fixpoint srun (mute : bool) (l : list sevent) (s : sound) : res (list seffect) :=
  match l with
  | [] => Ok []
  | e :: l => do r <- sstep mute e s; do t <- srun mute l (fst r); Ok (snd r ++ t)
  end.
(** 104-109  the session as it is made *)
Definition sound_start (ssrc : Z) (oks : list bool) : sound := mksound None true (hdr (new_session ssrc)) oks (repeat x00 2048).
