(** Opening the socket of an RTP session: rtp/session.go:30-34 and 222-239. The operating system is an oracle for net.ListenPacket, which
    gives the text of the error, if there is one; the generator of math/rand is a sequence of draws. Logging is not modelled. *)
From Verif Require Import Bytes GoLib DialogMsg.
Local Open Scope Z_scope.

(** strings.Contains(s, t) *)
Fixpoint contains (s t : bytes) : bool := has_prefix s t || match s with [] => false | _ :: s' => contains s' t end.
(** rtp/session.go:31-33 *)
Definition rtpBindMaxAttempts : nat := 10.
Definition rtpBindPortMin : Z := 16384.
Definition rtpBindPortMax : Z := 32768.
(** net.ListenPacket("udp", addr), the [i]-th time it is called: the text of the error; None is a socket bound to addr *)
Definition os := nat -> bytes -> option bytes.
(** rtp/session.go:227-230  the port for the draw [r] of rand.Int63 *)
Definition bind_port (r : Z) : Z :=
  let port := rtpBindPortMin + r mod (rtpBindPortMax - rtpBindPortMin + 1) in if port mod 2 =? 1 then port - 1 else port.
(** rtp/session.go:226-237  the loop, with [n] attempts left, the [i]-th attempt being next: the addresses tried, and the error of the last attempt *)
Fixpoint bind_loop (host : bytes) (draw : nat -> Z) (o : os) (n i : nat) (err : option bytes) : list bytes * option bytes :=
  match n with
  | O => ([], err)
  | S n =>
    let saddr := JoinHostPort host (itoa (bind_port (draw i))) in
    let err := o i saddr in
    if match err with None => true | Some e => negb (contains e (B "address already in use")) end then ([saddr], err)
    else let '(l, e) := bind_loop host draw o n (S i) err in (saddr :: l, e)
  end.
(** rtp/session.go:222-239  Listen: the addresses given to net.ListenPacket in turn, and the error. The socket returned is the one of the last call. *)
Definition Listen (host : bytes) (draw : nat -> Z) (o : os) : list bytes * option bytes :=
  if contains host (B ":") then ([host], o O host) else bind_loop host draw o rtpBindMaxAttempts 0 None.
