(** C111: a response says what its status means. *)
From Coq Require Import List ZArith Lia.
From Verif Require Import Bytes BytesLemmas GoLib SdpModel SipText SipTypes SipAppend P_Append.
Import ListNotations.
Local Open Scope Z_scope.

(** ** Specification: the reason phrases of RFC 3261, 21 and 7.2 *)
Definition rfc3261_phrases : list (Z * bytes) :=
  [(100, B "Trying"); (180, B "Ringing"); (181, B "Call Is Being Forwarded"); (182, B "Queued");
   (183, B "Session Progress"); (200, B "OK"); (300, B "Multiple Choices"); (301, B "Moved Permanently");
   (302, B "Moved Temporarily"); (305, B "Use Proxy"); (380, B "Alternative Service"); (400, B "Bad Request");
   (401, B "Unauthorized"); (402, B "Payment Required"); (403, B "Forbidden"); (404, B "Not Found");
   (405, B "Method Not Allowed"); (406, B "Not Acceptable"); (407, B "Proxy Authentication Required"); (408, B "Request Timeout");
   (410, B "Gone"); (413, B "Request Entity Too Large"); (414, B "Request-URI Too Long"); (415, B "Unsupported Media Type");
   (416, B "Unsupported URI Scheme"); (420, B "Bad Extension"); (421, B "Extension Required"); (423, B "Interval Too Brief");
   (480, B "Temporarily Unavailable"); (481, B "Call/Transaction Does Not Exist"); (482, B "Loop Detected"); (483, B "Too Many Hops");
   (484, B "Address Incomplete"); (485, B "Ambiguous"); (486, B "Busy Here"); (487, B "Request Terminated");
   (488, B "Not Acceptable Here"); (491, B "Request Pending"); (493, B "Undecipherable"); (500, B "Server Internal Error");
   (501, B "Not Implemented"); (502, B "Bad Gateway"); (503, B "Service Unavailable"); (504, B "Server Time-out");
   (505, B "Version Not Supported"); (513, B "Message Too Large"); (600, B "Busy Everywhere"); (603, B "Decline");
   (604, B "Does Not Exist Anywhere"); (606, B "Not Acceptable")].
(** of the other RFCs the library knows (2543, 3265, 3329, 3312, 3903, 3892, 4028, 4412, 4474, 5079, 5360, 5393, 5626, 5839, 4538) *)
Definition other_phrases : list (Z * bytes) :=
  [(202, B "Accepted"); (204, B "No Notification"); (409, B "Conflict"); (411, B "Length Required");
   (412, B "Conditional Request Failed"); (417, B "Unknown Resource-Priority"); (422, B "Session Interval Too Small"); (428, B "Use Identity Header");
   (429, B "Provide Referrer Identity"); (430, B "Flow Failed"); (433, B "Anonymity Disallowed"); (436, B "Bad Identity-Info");
   (437, B "Unsupported Certificate"); (438, B "Invalid Identity Header"); (439, B "First Hop Lacks Outbound Support"); (440, B "Max-Breadth Exceeded");
   (470, B "Consent Needed"); (489, B "Bad Event"); (494, B "Security Agreement Required"); (580, B "Precondition Failure");
   (687, B "Dialog Terminated")].
(** the version an application asks for, or that of RFC 3261 *)
Definition version_of (m : msg) : bytes := if vmaj m =? 0 then B "2.0" else itoa (vmaj m) ++ B "." ++ itoa (vmin m).
(** the status line of RFC 3261, 7.2, and what follows it *)
Definition says_status (text : bytes) (version : bytes) (status : Z) (phrase : bytes) : Prop :=
  exists rest, text = B "SIP/" ++ version ++ B " " ++ itoa status ++ B " " ++ phrase ++ CRLF ++ rest.

(** ** Proof *)
Lemma response_says rid m : 0 < status m -> phrase m = [] -> says_status (msg_append rid m) (version_of m) (status m) (Phrase (status m)).
Proof.
  intros R P. unfold says_status, version_of, msg_append, head_lines, start_line, IsResponse, version_append. rewrite (proj2 (Z.ltb_lt _ _) R), P. cbn [negb]. eexists. rewrite <- !app_assoc. reflexivity.
Qed.
Lemma says_one t v s p q : says_status t v s p -> says_status t v s q -> exists r r', p ++ CRLF ++ r = q ++ CRLF ++ r'.
Proof.
  intros [r E] [r' E']. exists r, r'. rewrite E in E'. do 5 apply app_inv_head in E'. exact E'.
Qed.
Lemma table_checked : forallb (fun x => (bseq (Phrase (fst x)) (snd x) || existsb (Z.eqb (fst x)) [484; 500; 504]) && (0 <? fst x)) (rfc3261_phrases ++ other_phrases) = true.
Proof. vm_compute. reflexivity. Qed.
Lemma in_table s p : In (s, p) (rfc3261_phrases ++ other_phrases) -> s <> 484 -> s <> 500 -> s <> 504 -> Phrase s = p /\ 0 < s.
Proof.
  intros I N1 N2 N3. pose proof table_checked as H. rewrite forallb_forall in H. specialize (H _ I). cbn [fst snd] in H.
  apply Bool.andb_true_iff in H. destruct H as [H R]. split; [|apply Z.ltb_lt; exact R].
  apply Bool.orb_true_iff in H. destruct H as [H|H]; [apply bseq_spec; exact H|].
  cbn [existsb] in H. rewrite (proj2 (Z.eqb_neq _ _) N1), (proj2 (Z.eqb_neq _ _) N2), (proj2 (Z.eqb_neq _ _) N3) in H. discriminate H.
Qed.
Definition known : list Z := Eval vm_compute in map fst (rfc3261_phrases ++ other_phrases).
Lemma known_is : known = map fst (rfc3261_phrases ++ other_phrases).
Proof. vm_compute. reflexivity. Qed.
Ltac each := first [reflexivity | match goal with D : existsb _ known = false |- _ => exfalso; vm_compute in D; discriminate D end | match goal with p : positive |- _ => destruct p as [p|p|]; cbv beta iota; each end].
Lemma unknown_phrase p : existsb (Z.eqb (Z.pos p)) known = false -> Phrase (Z.pos p) = B "Unknown Status Code".
Proof. intros D. unfold Phrase. each. Qed.

(** * C111 *)
(** A response whose phrase the application left empty is written with the phrase of the RFC, for every status of the RFC but three. *)
Theorem phrase_of_status_partial : forall rid m s p, In (s, p) (rfc3261_phrases ++ other_phrases) -> s <> 484 -> s <> 500 -> s <> 504 ->
  status m = s -> phrase m = [] -> says_status (msg_append rid m) (version_of m) s p.
Proof.
  intros rid m s p I N1 N2 N3 S P. destruct (in_table s p I N1 N2 N3) as [E R].
  rewrite <- E, <- S. apply response_says; [lia|exact P].
Qed.
(** Every other status is written as unknown. *)
Theorem phrase_unknown : forall rid m, 0 < status m -> ~ In (status m) (map fst (rfc3261_phrases ++ other_phrases)) -> phrase m = [] ->
  says_status (msg_append rid m) (version_of m) (status m) (B "Unknown Status Code").
Proof.
  intros rid m R N P. assert (E : Phrase (status m) = B "Unknown Status Code"); [|rewrite <- E; apply response_says; assumption].
  rewrite <- known_is in N. destruct (status m) as [|q|q]; try (exfalso; lia). apply unknown_phrase.
  destruct (existsb (Z.eqb (Z.pos q)) known) eqn:X; [|reflexivity]. exfalso. apply existsb_exists in X. destruct X as (k & I & K). apply Z.eqb_eq in K. apply N. rewrite K. exact I.
Qed.
(** What the application put in is not replaced. *)
Theorem phrase_given : forall rid m, 0 < status m -> phrase m <> [] -> says_status (msg_append rid m) (version_of m) (status m) (phrase m).
Proof.
  intros rid m R P. unfold says_status, version_of, msg_append, head_lines, start_line, IsResponse, version_append. rewrite (proj2 (Z.ltb_lt _ _) R). cbn [negb]. destruct (phrase m) as [|c l]; [congruence|]. eexists. rewrite <- !app_assoc. reflexivity.
Qed.
(** The three: one phrase came out garbled, two are those of HTTP; the phrase of the RFC is not what is sent. *)
Theorem phrase_of_status_refuted : In (484, B "Address Incomplete") rfc3261_phrases /\ In (500, B "Server Internal Error") rfc3261_phrases /\ In (504, B "Server Time-out") rfc3261_phrases /\
  forall rid m, phrase m = [] ->
    (status m = 484 -> says_status (msg_append rid m) (version_of m) 484 (B "Address StatusIncomplete") /\ ~ says_status (msg_append rid m) (version_of m) 484 (B "Address Incomplete")) /\
    (status m = 500 -> says_status (msg_append rid m) (version_of m) 500 (B "Internal Server Error") /\ ~ says_status (msg_append rid m) (version_of m) 500 (B "Server Internal Error")) /\
    (status m = 504 -> says_status (msg_append rid m) (version_of m) 504 (B "Gateway Time-out") /\ ~ says_status (msg_append rid m) (version_of m) 504 (B "Server Time-out")).
Proof.
  split; [unfold rfc3261_phrases; repeat first [left; reflexivity|right]|].
  split; [unfold rfc3261_phrases; repeat first [left; reflexivity|right]|].
  split; [unfold rfc3261_phrases; repeat first [left; reflexivity|right]|].
  intros rid m P. pose proof (response_says rid m) as H.
  split; [|split]; intros E; rewrite E in H; specialize (H eq_refl P); (split; [exact H|]); intros H'; destruct (says_one _ _ _ _ _ H H') as (r & r' & X); vm_compute in X; discriminate X.
Qed.
(** A busy phone, and one whose status nobody knows. *)
Example phrase_example : forall rid m, phrase m = [] -> vmaj m = 0 ->
  (status m = 486 -> exists rest, msg_append rid m = B "SIP/2.0 486 Busy Here" ++ CRLF ++ rest) /\
  (status m = 499 -> exists rest, msg_append rid m = B "SIP/2.0 499 Unknown Status Code" ++ CRLF ++ rest).
Proof.
  intros rid m P V. pose proof (response_says rid m) as H. unfold says_status, version_of in H. rewrite V in H.
  split; intros E; rewrite E in H; specialize (H eq_refl P); destruct H as [rest H]; exists rest; rewrite H; reflexivity.
Qed.

Print Assumptions phrase_of_status_partial.
Print Assumptions phrase_unknown.
Print Assumptions phrase_given.
Print Assumptions phrase_of_status_refuted.
