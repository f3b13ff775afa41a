(** Specification vocabulary for RTP: RFC 3550 section 5.1 and RFC 4733 section 2.3,
    written as plain arithmetic on bytes, independent of the model. *)
From Verif Require Import Bytes.
Local Open Scope Z_scope.

(** Big-endian number. *)
Definition be (l : bytes) : Z := fold_left (fun a b => a * 256 + bz b) l 0.

Definition slice (l : bytes) (i n : nat) : bytes := firstn n (skipn i l).
Definition byte_at (l : bytes) (i : nat) : Z := be (slice l i 1).

Definition f_version (p : bytes) : Z := byte_at p 0 / 64.
Definition f_padding (p : bytes) : bool := (byte_at p 0 / 32) mod 2 =? 1.
Definition f_extension (p : bytes) : bool := (byte_at p 0 / 16) mod 2 =? 1.
Definition f_csrc_count (p : bytes) : Z := byte_at p 0 mod 16.
Definition f_marker (p : bytes) : bool := byte_at p 1 / 128 =? 1.
Definition f_pt (p : bytes) : Z := byte_at p 1 mod 128.
Definition f_seq (p : bytes) : Z := be (slice p 2 2).
Definition f_ts (p : bytes) : Z := be (slice p 4 4).
Definition f_ssrc (p : bytes) : Z := be (slice p 8 4).
Definition f_payload (p : bytes) : bytes := skipn 12 p.

(** RFC 4733 telephone-event payload. *)
Definition ev_code (pl : bytes) : Z := byte_at pl 0.
Definition ev_end (pl : bytes) : bool := byte_at pl 1 / 128 =? 1.
Definition ev_reserved (pl : bytes) : bool := (byte_at pl 1 / 64) mod 2 =? 1.
Definition ev_volume (pl : bytes) : Z := byte_at pl 1 mod 64.
Definition ev_duration (pl : bytes) : Z := be (slice pl 2 2).
