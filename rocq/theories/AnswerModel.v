(** Answering one request several times: the application keeps the request it received and makes each answer from it with NewResponse.
    The answers have the request's own Via and To objects (dialog/messages.go:43-57 copies the pointers), so what is written into
    them through an answer is in the request, and in the answers made from it later. *)
From Coq Require Import List.
From Verif Require Import Bytes SdpModel SipTypes SipAppend DialogMsg TransportModel P_Call.
Import ListNotations.

(** The request after its answer [m] was changed and sent. dialog/messages.go:47 and 49: Via and To are the same objects. Parameters
    are put in front of the first entry of either (sip/addr.go:64-67 Tag; dialog/receiver.go:93-101 addTimestamp). RouteMessage
    (dialog/route.go:81-83) can take Via entries off the answer; that moves the answer's pointer only, so the entries it passed are still
    in the request. *)
Definition after_answer (r m : msg) : msg :=
  set_vias (firstn (length (vias r) - length (vias m)) (vias r) ++ vias m) (set_addr To (addrs m To) r).

(** One answer after another: [reply_msg] is NewResponse with the additions of the application, Send is dialog/transport.go:79-104. The
    result is the request afterwards and what each call did. *)
Fixpoint answer_all (tp : transport) (r : msg) (xs : list (reply * net)) : res (msg * list sending) :=
  match xs with
  | [] => Ok (r, [])
  | (x, w) :: xs =>
    let* s := Send tp (mkheld (reply_msg r x) false) w in
    let* (r', l) := answer_all (sd_tp s) (after_answer r (h_msg (sd_held s))) xs in
    Ok (r', s :: l)
  end.
