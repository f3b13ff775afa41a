(** Message values an application may serialise and expect to get back: the specification for C03 and C16. *)
From Verif Require Import Bytes GoLib SdpModel SdpProofs SipText SipTypes SipAppend P_Text UriSpec P_Uri MsgSpec P_MsgText.
Local Open Scope Z_scope.

(** ASCII text in which line breaks are folds *)
Inductive ascii_text : bytes -> Prop :=
| at_nil : ascii_text []
| at_char c t : bz c < 128 -> c <> CR -> c <> LF -> ascii_text t -> ascii_text (c :: t)
| at_fold c t : blank c = true -> ascii_text t -> ascii_text (CR :: LF :: c :: t).
(** it contains something else than token characters and spaces, and so it is written in quotes *)
Definition needs_quotes (s : bytes) : Prop := exists c, In c s /\ token_class c = false /\ c <> SP.
Definition quotable (s : bytes) : Prop := needs_quotes s /\ ascii_text s.

Definition display_ok (d : bytes) : Prop :=
  d = [] \/ quotable d \/ (words d /\ forallb (fun c => token_class c || beq c SP) d = true).
Definition param_ok (p : param) : Prop := token (fst p) /\ (snd p = [] \/ token (snd p) \/ quotable (snd p)).
Definition uri_ok (u : uri) : Prop := wf_uri u /\ Forall no_amp (u_header u).
Definition addr_ok (a : addr) : Prop := (exists u, a_uri a = Some u /\ uri_ok u) /\ display_ok (a_display a) /\ Forall param_ok (a_param a).
Definition via_ok (v : via) : Prop :=
  token (v_protocol v) /\ token (v_version v) /\ token (v_transport v) /\ v_host v <> [] /\ forallb viahost_class (v_host v) = true /\
  0 <= v_port v < 65536 /\ Forall param_ok (v_param v).
(** header texts: [header_val] says that it is made of printable text and folds and does not start with white space *)
Definition xheader_ok (p : param) : Prop := unknown_name (fst p) /\ header_val (snd p).
Definition payload_ok (rid : bytes) (p : payload) : Prop :=
  Z.of_nat (length (Data rid p)) < 2 ^ 63 /\
  match p with
  | Misc t d => (exists a b, t = a ++ B "/" ++ b /\ token a /\ token b) /\ t <> B "application/sdp" /\ d <> [] /\ starts_blank d = false
  | PSdp s => wf_sdp s
  end.
Definition start_ok (m : msg) : Prop :=
  (status m = 0 /\ token (method m) /\ exists u, request m = Some u /\ uri_ok u) \/
  (100 <= status m <= 999 /\ reason_text (phrase m) (phrase m)).
Definition msg_ok (rid : bytes) (m : msg) : Prop :=
  start_ok m /\ 0 <= vmaj m < 256 /\ 0 <= vmin m < 256 /\
  addrs m From <> [] /\ addrs m To <> [] /\ (forall f, Forall addr_ok (addrs m f)) /\ Forall via_ok (vias m) /\
  callid_text (callid m) /\ 0 <= cseq m < 2 ^ 63 /\ token (cseqmethod m) /\
  0 <= maxforwards m < 2 ^ 63 /\ 0 <= expires m < 2 ^ 63 /\ 0 <= minexpires m < 2 ^ 63 /\
  (forall f, header_val (strs m f)) /\ Forall xheader_ok (xheader m) /\ (forall p, pay m = Some p -> payload_ok rid p).
