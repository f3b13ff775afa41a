(** dialog/trace.go: what is logged about a datagram that is sent or received when the flag -trace is given. *)
From Verif Require Import Bytes GoLib.
Local Open Scope Z_scope.

(** dialog/trace.go:31  strings.Repeat("-", 72) *)
Definition bar : bytes := repeat "-"%byte 72.
(** dialog/trace.go:29-45  trace: the text given to log.Printf. [network] and [address] are addr.Network() and addr.String(). *)
Definition trace (dir pkt network address : bytes) : bytes :=
  let size := Z.of_nat (length pkt) in
  let suffix := match rev pkt with c :: _ => if beq c LF then [] else CRLF | [] => CRLF end in
  dir ++ B " " ++ itoa size ++ B " bytes from " ++ network ++ B "/" ++ address ++ CRLF ++
  bar ++ CRLF ++
  pkt ++ suffix ++
  bar ++ CRLF.
(** log.Printf (Go's log/log.go, Output and formatHeader with the standard flags): the date and the time, 20 bytes, before the text; a line
    break is added after a text that does not end with one. *)
Definition logged (stamp text : bytes) : bytes :=
  stamp ++ text ++ (match rev text with c :: _ => if beq c LF then [] else [LF] | [] => [LF] end).
