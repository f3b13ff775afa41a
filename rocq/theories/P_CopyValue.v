(** C23  what copies of values are, and what Len counts *)
From Coq Require Import List ZArith Lia.
From Verif Require Import Bytes BytesLemmas SdpModel SipTypes SipAppend CopyHeap P_Copy P_Lists P_DialogMsg.
Import ListNotations.
Local Open Scope Z_scope.

(** Addr.Len counts the addresses: none in nil, one more in front of a list; copying and reversing keep the number. *)
Theorem addr_len_counts : addr_Len [] = 0 /\ forall a l,
  addr_Len (a :: l) = addr_Len l + 1 /\ addr_Len (addr_Reversed l) = addr_Len l /\ addr_Len (addr_Copy l) = addr_Len l.
Proof.
  split; [reflexivity|]. intros a l. unfold addr_Len. split; [cbn [length]; lia|]. split.
  - rewrite addr_reversed_rev, rev_length. reflexivity.
  - induction l as [|b l IH]; cbn [addr_Copy length]; [reflexivity|lia].
Qed.

Lemma addr_copy_map l : addr_Copy l = map no_display l.
Proof. induction l as [|a l IH]; cbn; [|rewrite IH]; reflexivity. Qed.

Lemma via_copy_same l : via_Copy l = l.
Proof. induction l as [|[] l IH]; cbn; [|rewrite IH]; reflexivity. Qed.

(** Msg.Copy on values is what the copy on the heap denotes, in every heap in which the original denotes [v]. *)
Theorem msg_copy_value : forall fuel h m v, msg_at h m v ->
  (forall f, (length (addrs v f) <= fuel)%nat) -> (length (vias v) <= fuel)%nat ->
  exists h' m' w, msg_copy fuel h m = Ok (h', m') /\ msg_at h' m' w /\
    request w = request (msg_Copy v) /\ vias w = vias (msg_Copy v) /\ (forall f, addrs w f = addrs (msg_Copy v) f) /\
    w = set_addrs (addrs w) (msg_Copy v).
Proof.
  intros fuel h m v M LA LV. destruct (msg_copy_independent fuel h m v M LA LV) as (h' & m' & E & C & _).
  exists h', m', (no_displays v). split; [exact E|]. split; [exact C|]. unfold msg_Copy, no_displays, uri_Copy.
  rewrite via_copy_same. destruct v. cbn. repeat split.
Qed.

(** In full: the copy of a value has the same text but for the display names, and copying twice is copying once. *)
Theorem msg_copy_fields : forall v,
  request (msg_Copy v) = request v /\ vias (msg_Copy v) = vias v /\
  (forall f, addrs (msg_Copy v) f = map no_display (addrs v f)) /\
  msg_Copy v = set_addrs (addrs (msg_Copy v)) v /\
  (forall f, addrs (msg_Copy (msg_Copy v)) f = addrs (msg_Copy v) f).
Proof.
  intros v. unfold msg_Copy, uri_Copy. rewrite !via_copy_same. destruct v. cbn. repeat split.
  intros f. change (addr_Copy (addr_Copy (addrs f)) = addr_Copy (addrs f)). induction (addrs f) as [|a l IH]; cbn; [|rewrite IH]; reflexivity.
Qed.

Print Assumptions addr_len_counts.
Print Assumptions msg_copy_value.
Print Assumptions msg_copy_fields.
