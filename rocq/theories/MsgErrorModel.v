(** The text of the errors of ParseMsg and of dialogs: sip/msgerror.go, sip/errors.go. *)
From Verif Require Import Bytes GoLib SipText SipTypes.
Local Open Scope Z_scope.

(** sip/msgerror.go:37-56  the loop over the lines: [i], [o], [line] and [lineOffset] as in the code; b is written front to back,
    so the result is what is appended to it, with the final values of line and lineOffset. len(lines)-1 is reached when nothing
    follows. *)
Fixpoint error_lines (off : Z) (lines : list bytes) (i o line lineOffset : Z) : Z * Z * bytes :=
  match lines with
  | [] => (line, lineOffset, [])
  | l :: next =>
    let here := (o <=? off) && (off <? o + Z.of_nat (length l)) in
    let line := if here then i + 1 else line in
    let lineOffset := if here then off - o else lineOffset in
    let '(a, b, text) := error_lines off next (i + 1) (o + Z.of_nat (length l) + 2) line lineOffset in
    (a, b, l ++ (if here then [LF] ++ repeat SP (Z.to_nat lineOffset) ++ B "^" else []) ++
           (match next with [] => [] | _ => [LF] end) ++ text)
  end.
(** sip/msgerror.go:35-58  MsgParseError.Error; %d is strconv.Itoa *)
Definition parse_error_text (msg : bytes) (off : Z) : bytes :=
  let '(line, lineOffset, text) := error_lines off (split_crlf msg) 0 0 0 0 in
  B "Error in SIP message at line " ++ itoa line ++ B " offset " ++ itoa lineOffset ++ B ":" ++ [LF] ++ text.
(** sip/msgerror.go:26-28  MsgIncompleteError.Error *)
Definition incomplete_error_text (msg : bytes) : bytes := B "Incomplete SIP message:" ++ [LF] ++ msg.
(** sip/errors.go:26-28  ResponseError.Error *)
Definition response_error_text (m : msg) : bytes := itoa (status m) ++ B ": " ++ phrase m.
