(** Text helpers of package sip: charsets.go, escape.go, quote.go, util.go. *)
From Verif Require Import Bytes GoLib.
Local Open Scope Z_scope.

(** sip/charsets.go:19-26  a charset is [2]uint64 *)
Record charset := mkset { lo64 : Z; hi64 : Z }.
Definition empty_set : charset := mkset 0 0.

(** sip/charsets.go:87-89  charsetContains *)
Definition charsetContains (m : charset) (i : byte) : bool :=
  (bz i <? 128) &&
  negb (Z.land (if bz i / 64 =? 0 then lo64 m else hi64 m) (u64 (Z.shiftl 1 (bz i mod 64))) =? 0).

(** sip/charsets.go:91-95  charsetAdd (one element; all callers pass bytes below 128) *)
Definition charsetAdd1 (m : charset) (i : Z) : charset :=
  if i / 64 =? 0 then mkset (Z.lor (lo64 m) (u64 (Z.shiftl 1 (i mod 64)))) (hi64 m)
  else mkset (lo64 m) (Z.lor (hi64 m) (u64 (Z.shiftl 1 (i mod 64)))).
Definition charsetAdd (m : charset) (l : bytes) : charset := fold_left (fun m c => charsetAdd1 m (bz c)) l m.

(** sip/charsets.go:97-101  charsetAddRange (b below 255 in all calls, so the byte counter does not wrap) *)
Definition charsetAddRange (m : charset) (a b : Z) : charset :=
  fold_left (fun m k => charsetAdd1 m (a + Z.of_nat k)) (seq 0 (Z.to_nat (b - a + 1))) m.

(** sip/charsets.go:103-105  charsetAddMark *)
Definition charsetAddMark (m : charset) : charset := charsetAdd m (B "-_.!~*'()").
(** sip/charsets.go:107-111  charsetAddAlphaNumeric *)
Definition charsetAddAlphaNumeric (m : charset) : charset :=
  charsetAddRange (charsetAddRange (charsetAddRange m 97 122) 65 90) 48 57.

(** sip/charsets.go:62-85  init *)
Definition tokencMask : charset := charsetAdd (charsetAddAlphaNumeric empty_set) (B "-.!%*_+`'~").
Definition qdtextcMask : charset :=
  charsetAdd (charsetAddRange (charsetAddRange empty_set 0x23 0x5B) 0x5D 0x7E) [x0d; x0a; x09; " "%byte; "!"%byte].
Definition usercMask : charset := charsetAdd (charsetAddMark (charsetAddAlphaNumeric empty_set)) (B "&=+$,;?/").
Definition passcMask : charset := charsetAdd (charsetAddMark (charsetAddAlphaNumeric empty_set)) (B "&=+$,").
Definition paramcMask : charset := charsetAdd (charsetAddMark (charsetAddAlphaNumeric empty_set)) (B "[]/:&+$").
Definition headercMask : charset := charsetAdd (charsetAddMark (charsetAddAlphaNumeric empty_set)) (B "[]/?:+$").

(** sip/charsets.go:28-50 *)
Definition tokenc (c : byte) : bool := charsetContains tokencMask c.
Definition qdtextc (c : byte) : bool := charsetContains qdtextcMask c.
Definition userc (c : byte) : bool := charsetContains usercMask c.
Definition passc (c : byte) : bool := charsetContains passcMask c.
Definition paramc (c : byte) : bool := charsetContains paramcMask c.
Definition headerc (c : byte) : bool := charsetContains headercMask c.
(** sip/charsets.go:52-56 *)
Definition qdtextesc (c : byte) : bool :=
  ((0 <=? bz c) && (bz c <=? 9)) || ((11 <=? bz c) && (bz c <=? 12)) || ((14 <=? bz c) && (bz c <=? 127)).
(** sip/charsets.go:58-60 *)
Definition whitespacec (c : byte) : bool := beq c " " || beq c x09 || beq c x0d || beq c x0a.

(** sip/escape.go:21-23 *)
Definition hexChars : bytes := B "0123456789abcdef".
Definition hexChar (n : Z) : byte := nth (Z.to_nat n) hexChars x00.

(** sip/escape.go:26-37  appendEscaped; the buffer is the string appended *)
Fixpoint appendEscaped (p : byte -> bool) (s : bytes) : bytes :=
  match s with
  | [] => []
  | c :: s' =>
    if p c then c :: appendEscaped p s'
    else "%"%byte :: hexChar (Z.shiftr (bz c) 4) :: hexChar (bz c mod 16) :: appendEscaped p s'
  end.

(** sip/util.go:17-27  unhex *)
Definition unhex (b : byte) : Z :=
  if in_range 48 57 b then bz b - 48
  else if in_range 97 102 b then bz b - 97 + 10
  else if in_range 65 70 b then bz b - 65 + 10
  else 0.

(** sip/quote.go:22-28  appendSanitized *)
Definition appendSanitized (p : byte -> bool) (s : bytes) : bytes := filter p s.

(** sip/quote.go:49-64  the loop of appendQuoteQuoted; stopping is [break] *)
Fixpoint quote_loop (s : bytes) : bytes :=
  match s with
  | [] => []
  | c :: s' =>
    if qdtextc c then
      if beq c x0d then
        match s' with
        | d :: e :: _ => if beq d x0a && (beq e " " || beq e x09) then c :: quote_loop s' else []
        | _ => []
        end
      else c :: quote_loop s'
    else if negb (qdtextesc c) then []
    else x5c :: c :: quote_loop s'
  end.
(** sip/quote.go:47-66  appendQuoteQuoted *)
Definition appendQuoteQuoted (s : bytes) : bytes := [x22] ++ quote_loop s ++ [x22].
(** sip/quote.go:34-42  appendQuoted *)
Definition appendQuoted (s : bytes) : bytes :=
  if existsb (fun c => negb (tokenc c) && negb (beq c " ")) s then appendQuoteQuoted s else s.
