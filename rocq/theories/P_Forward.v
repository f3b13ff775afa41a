(** C22: a message that was read and is written again. The text written consists of the lines that Append writes and of no others: nothing in the
    packet that was read can add a line to it, unless it is in the reason phrase. *)
From Verif Require Import Bytes BytesLemmas GoLib GoLibLemmas Auto SdpModel SdpProofs SipText SipTypes SipAppend UriModel MsgModel MsgSafe UriSpec P_Text P_Uri P_Msg MsgSpec MsgLines P_MsgText.
Local Open Scope Z_scope.

(** ** The pieces *)
Lemma fw_itoa n : folded (itoa n) = true.
Proof.
  assert (A : free_of CR (itoa n) = true) by apply itoa_free_CR.
  assert (C : free_of LF (itoa n) = true).
  { apply itoa_free; [|reflexivity]. intros d D. assert (K : implb (is_digit d) (negb (beq d LF)) = true) by (clear; revert d; by_bytes). rewrite D in K. apply negb_true_iff. exact K. }
  apply folded_plain. unfold free_of in *. rewrite forallb_forall in *. intros c I. specialize (A c I). specialize (C c I). apply negb_true_iff in A, C. unfold plain_byte. rewrite A, C. reflexivity.
Qed.
Lemma wsp_q d : MsgSafe.wsp d = true -> qdtextc d = true /\ beq d x0d = false.
Proof. intros H. assert (K : implb (MsgSafe.wsp d) (qdtextc d && negb (beq d x0d)) = true) by (clear; revert d; by_bytes). rewrite H in K. apply andb_prop in K. destruct K as [K1 K2]. apply negb_true_iff in K2. auto. Qed.
Lemma fw_quote s : folded s = true -> folded (quote_loop s) = true.
Proof.
  induction s as [|c s IH]; [reflexivity|]. intros H. cbn [folded] in H. apply andb_prop in H. destruct H as [H1 H2]. specialize (IH H2).
  destruct (beq c LF) eqn:E1.
  - apply beq_spec in E1. subst c. destruct s as [|d s]; [discriminate|]. destruct (wsp_q d H1) as [Q N].
    assert (K : quote_loop (LF :: d :: s) = LF :: quote_loop (d :: s)) by reflexivity. rewrite K. cbn [folded]. rewrite IH, andb_true_r. change (beq LF LF) with true. cbv iota.
    cbn [quote_loop]. rewrite Q, N. exact H1.
  - destruct (beq c CR) eqn:E2.
    + apply beq_spec in E2. subst c. destruct s as [|d s]; [discriminate|]. apply beq_spec in H1. subst d. cbn [folded] in H2. apply andb_prop in H2. destruct H2 as [H2 _].
      change (beq LF LF) with true in H2. cbv iota in H2. destruct s as [|e s]; [discriminate|].
      assert (K : quote_loop (CR :: LF :: e :: s) = CR :: quote_loop (LF :: e :: s)).
      { cbn [quote_loop]. change (qdtextc CR) with true. change (beq CR x0d) with true. change (beq LF x0a) with true. cbv iota. unfold MsgSafe.wsp in H2. cbn [andb]. rewrite H2. reflexivity. }
      rewrite K. cbn [folded]. rewrite IH, andb_true_r. reflexivity.
    + assert (P : forall x, folded x = true -> folded (c :: x) = true) by (intros x X; cbn [folded]; rewrite E1, E2, X; reflexivity).
      cbn [quote_loop]. change (beq c x0d) with (beq c CR). rewrite E2. destruct (qdtextc c); [apply P; exact IH|]. destruct (qdtextesc c); [|reflexivity]. cbn [negb].
      change (x5c :: c :: quote_loop s) with ([x5c] ++ c :: quote_loop s). apply folded_app; [reflexivity|]. apply P. exact IH.
Qed.
Lemma fw_quoted s : folded s = true -> folded (appendQuoted s) = true.
Proof. intros H. unfold appendQuoted. destruct (existsb _ s); [|exact H]. unfold appendQuoteQuoted. fold_parts. apply fw_quote. exact H. Qed.
Lemma fw_sanitized s : folded (appendSanitized tokenc s) = true.
Proof. destruct (sanitized_name s) as (H & _). revert H. apply class_folded. plainc. Qed.
Lemma fw_params l : (forall n v, In (n, v) l -> folded v = true) -> folded (param_append l) = true.
Proof.
  induction l as [|[n v] l IH]; intros H; [reflexivity|]. cbn [param_append]. fold_parts; [apply IH; intros a b I; apply (H a b); right; exact I|apply fw_sanitized|].
  destruct v as [|c v]; [reflexivity|]. fold_parts. apply fw_quoted. apply (H n). left. reflexivity.
Qed.
Lemma fw_esc p cls s : escaping p cls -> cls CR = false -> cls LF = false -> folded (appendEscaped p s) = true.
Proof. intros E H1 H2. apply (legal_folded cls); auto. apply (escape_legal p cls s E). Qed.
Lemma fw_escp s : folded (appendEscaped paramc s) = true.
Proof. apply (fw_esc paramc param_class); [constructor|reflexivity|reflexivity]. Qed.
Lemma fw_uriparams l : folded (uriparam_append l) = true.
Proof. induction l as [|[n v] l IH]; [reflexivity|]. cbn [uriparam_append]. fold_parts; [exact IH|apply fw_escp|]. destruct v; [reflexivity|]. fold_parts. apply fw_escp. Qed.
Lemma fw_uriheaders l : folded (uriheader_append l) = true.
Proof. induction l as [|[n v] l IH]; [reflexivity|]. cbn [uriheader_append]. fold_parts; [destruct l; fold_parts; exact IH|apply fw_escp|]. destruct v; [reflexivity|]. fold_parts. apply fw_escp. Qed.
Lemma fw_uri u : wf_uri u -> folded (uri_append u) = true.
Proof.
  intros ((c & r & E & A & S & _) & _ & (_ & _ & H) & _). unfold uri_append. fold_parts.
  - rewrite E. fold_parts. apply (f_one alpha_class); [plainc|exact A|]. revert S. apply class_folded. plainc.
  - destruct (u_user u) as [|x y]; [reflexivity|]. fold_parts. destruct (u_pass u) as [|z w]; fold_parts.
    + apply (fw_esc userc user_class); [constructor|reflexivity|reflexivity].
    + apply (fw_esc userc user_class); [constructor|reflexivity|reflexivity].
    + apply (fw_esc passc pass_class); [constructor|reflexivity|reflexivity].
  - assert (F : folded (u_host u) = true) by (destruct (existsb _ _); revert H; apply class_folded; plainc). destruct (IsIPv6 _); fold_parts; exact F.
  - destruct (0 <? u_port u); fold_parts. apply fw_itoa.
  - apply fw_uriparams.
  - apply fw_uriheaders.
Qed.
Definition good_addr (a : addr) : Prop := (exists u, a_uri a = Some u /\ wf_uri u) /\ folded (a_display a) = true /\ (forall n v, In (n, v) (a_param a) -> folded v = true).
Lemma fw_addrs l : Forall good_addr l -> folded (addr_append l) = true.
Proof.
  induction 1 as [|a l ((u & U & W) & D & P) F IH]; [reflexivity|]. cbn [addr_append]. fold_parts.
  - destruct (a_display a) as [|x y]; [reflexivity|]. fold_parts. apply fw_quoted. exact D.
  - rewrite U. cbn [uri_string]. apply fw_uri. exact W.
  - apply fw_params. exact P.
  - destruct l; [reflexivity|]. fold_parts. exact IH.
Qed.
Lemma fw_via v : folded (v_protocol v) = true -> folded (v_version v) = true -> folded (v_transport v) = true -> folded (v_host v) = true -> (forall n x, In (n, x) (v_param v) -> folded x = true) -> folded (via_append v) = true.
Proof.
  intros H1 H2 H3 H4 H5. unfold via_append. fold_parts.
  - destruct (v_protocol v); [reflexivity|]. fold_parts. exact H1.
  - destruct (v_version v); [reflexivity|]. fold_parts. exact H2.
  - destruct (v_transport v); [reflexivity|]. fold_parts. exact H3.
  - exact H4.
  - destruct (v_port v =? 5060); fold_parts. apply fw_itoa.
  - apply fw_params. exact H5.
Qed.
Lemma fw_Phrase n : folded (Phrase n) = true.
Proof. unfold Phrase. repeat match goal with |- folded (match ?x with _ => _ end) = true => destruct x; try reflexivity end. Qed.

(** ** Lines with names *)
Inductive sublist : list bytes -> list bytes -> Prop :=
| sl_nil : sublist [] []
| sl_keep x a b : sublist a b -> sublist (x :: a) (x :: b)
| sl_skip x a b : sublist a b -> sublist a (x :: b).
Lemma sublist_app a b : sublist a b -> forall c d, sublist c d -> sublist (a ++ c) (b ++ d).
Proof. induction 1; intros c d H2; cbn [app]; [exact H2|constructor; auto|constructor; auto]. Qed.
(** a line with the name [n] *)
Definition named (n t : bytes) : Prop := line t /\ exists v, t = n ++ B ": " ++ v.
Definition lines_of (names : list bytes) (x : bytes) : Prop := exists ts, x = join ts /\ Forall2 named names ts.
Lemma join_app a b : join (a ++ b) = join a ++ join b. Proof. unfold join. rewrite map_app, concat_app. reflexivity. Qed.
Lemma lo_nil : lines_of [] []. Proof. exists []. split; [reflexivity|constructor]. Qed.
Lemma lo_app a x b y : lines_of a x -> lines_of b y -> lines_of (a ++ b) (x ++ y).
Proof. intros (ts & -> & F) (us & -> & G). exists (ts ++ us). split; [rewrite join_app; reflexivity|]. apply Forall2_app; assumption. Qed.
Lemma lo_one n v : token n -> folded v = true -> lines_of [n] (n ++ B ": " ++ v ++ CRLF).
Proof.
  intros T F. exists [n ++ B ": " ++ v]. split; [unfold join; cbn [map concat]; rewrite app_nil_r, <- !app_assoc; reflexivity|].
  constructor; [|constructor]. split; [|eauto]. apply token_line; [exact T|]. fold_parts; [apply f_token; exact T|exact F].
Qed.
(** lines whose names are, in this order, some of [tab] *)
Definition some_lines (tab : list bytes) (x : bytes) : Prop := exists a, sublist a tab /\ lines_of a x.
Lemma so_app a x b y : some_lines a x -> some_lines b y -> some_lines (a ++ b) (x ++ y).
Proof. intros (c & S & L) (d & S2 & L2). exists (c ++ d). split; [apply sublist_app; assumption|apply lo_app; assumption]. Qed.
Lemma so_cons n x b y : some_lines [n] x -> some_lines b y -> some_lines (n :: b) (x ++ y).
Proof. intros A C. exact (so_app [n] x b y A C). Qed.
Lemma so_none n : some_lines [n] []. Proof. exists []. split; [repeat constructor|apply lo_nil]. Qed.
Lemma so_one n v : token n -> folded v = true -> some_lines [n] (n ++ B ": " ++ v ++ CRLF).
Proof. intros T F. exists [n]. split; [repeat constructor|apply lo_one; assumption]. Qed.
Lemma so_opt n v w : token n -> folded v = true -> B w = n ++ B ": " -> some_lines [n] (opt_line w v).
Proof.
  intros T F E. unfold opt_line. destruct v as [|c v]; [apply so_none|]. rewrite E, <- app_assoc. apply so_one; assumption.
Qed.
Lemma so_addr n l w : token n -> Forall good_addr l -> B w = n ++ B ": " -> some_lines [n] (opt_addr w l).
Proof.
  intros T F E. unfold opt_addr. destruct l as [|a l]; [apply so_none|]. rewrite E, <- app_assoc. apply so_one; [assumption|]. apply fw_addrs. exact F.
Qed.

(** ** What was read *)
(** the names of extension headers that were read are tokens *)
Lemma x_names data m : parse_msg data = MOk m -> Forall (fun p => token (fst p)) (xheader m).
Proof.
  intros E. apply msg_parse_exact in E. destruct E as (st & m0 & hs & d & body & _ & S & H & _ & P).
  assert (A : Forall (fun p => token (fst p)) (xheader m0)).
  { destruct S as [(u & x & v & maj & min & _ & _ & _ & _ & M)|(v & maj & min & e & n & x & _ & _ & _ & _ & _ & _ & M)]; rewrite M; constructor. }
  assert (L : forall hs d1 d2, header_lines hs d1 d2 -> Forall (fun p => token (fst p)) (xheader (d_msg d1)) -> Forall (fun p => token (fst p)) (xheader (d_msg d2))).
  { clear. induction 1 as [d|t d d1 ts d2 H1 _ IH]; intros I; [exact I|]. apply IH. clear IH. destruct H1 as (n & b & w & v & _ & T & _ & H1).
    destruct (find_header _ _) as [k|]; [|destruct H1 as (_ & _ & _ & ->); constructor; [exact T|exact I]].
    destruct k; cbn [header_value] in H1; decompose [and ex] H1; subst d1; cbn; try exact I. rewrite (proj2 (fold_addr_keeps _ _ _)). exact I. }
  specialize (L _ _ _ H A). destruct P as [[_ ->]|(_ & _ & [(_ & p & _ & ->)|(_ & ->)])]; exact L.
Qed.
Lemma fw_x l : Forall (fun p => token (fst p) /\ folded (snd p) = true) l -> lines_of (rev (map fst l)) (xheader_append l).
Proof.
  induction 1 as [|[n v] l [T F] _ IH]; [apply lo_nil|]. destruct (xheader_text n v l) as (tn & -> & _ & _ & K). cbn [fst snd] in *. rewrite (K (proj2 T)). cbn [map rev fst].
  apply lo_app; [exact IH|]. apply lo_one; assumption.
Qed.
Lemma fw_vias l : Forall (fun v => folded (via_append v) = true) l -> lines_of (repeat (B "Via") (length l)) (via_lines l).
Proof.
  induction 1 as [|v l F _ IH]; [apply lo_nil|]. unfold via_lines in *. cbn [map concat length repeat]. change (B "Via" :: repeat (B "Via") (length l)) with ([B "Via"] ++ repeat (B "Via") (length l)).
  apply lo_app; [|exact IH]. change (B "Via: ") with (B "Via" ++ B ": "). rewrite <- app_assoc. apply lo_one; [split; [discriminate|reflexivity]|exact F].
Qed.

(** The names of the lines that Append writes at most once, between the Via lines and the extension headers, in their order (sip/msg.go:176-449). *)
Definition single_names : list bytes :=
  [B "Route"; B "Record-Route"; B "Contact"; B "Call-ID"; B "CSeq"; B "User-Agent"; B "Max-Forwards"; B "Accept"; B "Accept-Encoding"; B "Accept-Language"; B "Alert-Info"; B "Allow";
   B "Allow-Events"; B "Authentication-Info"; B "Authorization"; B "Call-Info"; B "Content-Disposition"; B "Content-Encoding"; B "Content-Language"; B "Date"; B "Error-Info"; B "Event";
   B "Expires"; B "In-Reply-To"; B "MIME-Version"; B "Min-Expires"; B "Organization"; B "P-Asserted-Identity"; B "Priority"; B "Proxy-Authenticate"; B "Proxy-Authorization";
   B "Proxy-Require"; B "Refer-To"; B "Referred-By"; B "Remote-Party-ID"; B "Reply-To"; B "Require"; B "RetryAfter"; B "Server"; B "Subject"; B "Supported"; B "Timestamp"; B "Unsupported";
   B "Warning"; B "WWW-Authenticate"].
Ltac tok := split; [discriminate|reflexivity].
Lemma ctype_folded data m t b : parse_msg data = MOk m -> pay m = Some (Misc t b) -> folded t = true.
Proof.
  intros E. apply msg_parse_exact in E. destruct E as (st & m0 & hs & d & body & _ & S & H & _ & P).
  assert (N : forall p, pay m0 <> Some p).
  { destruct S as [(u & x & v & maj & min & _ & _ & _ & _ & M)|(v & maj & min & e & n & x & _ & _ & _ & _ & _ & _ & M)]; rewrite M; discriminate. }
  assert (L : forall hs d1 d2, header_lines hs d1 d2 -> folded (d_type d1) = true /\ (forall p, pay (d_msg d1) <> Some p) -> folded (d_type d2) = true /\ (forall p, pay (d_msg d2) <> Some p)).
  { clear. induction 1 as [d|t d d1 ts d2 H1 _ IH]; intros I; [exact I|]. apply IH. clear IH. destruct H1 as (n & b & w & v & _ & T & _ & H1).
    destruct (find_header _ _) as [k|]; [|destruct H1 as (_ & _ & _ & ->); exact I].
    destruct k; cbn [header_value] in H1; decompose [and ex] H1; subst d1; try exact I.
    - cbn. destruct I as [I1 I2]. split; [exact I1|]. intros p. assert (K : forall l m, pay (fold_left (add_addr f) l m) = pay m) by (clear; induction l as [|a l IH]; intros m; [reflexivity|]; cbn [fold_left]; rewrite IH; reflexivity). rewrite K. apply I2.
    - cbn. split; [|apply I]. match goal with H : ctype_text _ _ |- _ => destruct H as (a & c & ps & l & _ & -> & A & C & _) end. fold_parts; apply f_token; assumption. }
  destruct (L _ _ _ H (conj eq_refl N)) as [L1 L2]. intros Q.
  destruct P as [[_ ->]|(_ & _ & [(_ & p & _ & ->)|(_ & ->)])]; [destruct (L2 _ Q)|discriminate Q|]. injection Q as <- _. exact L1.
Qed.
(** The pieces of a message that was read *)
Lemma read_pieces data m : parse_msg data = MOk m -> folded (phrase m) = true ->
  (forall f, folded (strs m f) = true) /\ (forall f, Forall good_addr (addrs m f)) /\ Forall (fun v => folded (via_append v) = true) (vias m) /\
  Forall (fun p => token (fst p) /\ folded (snd p) = true) (xheader m) /\ folded (callid m) = true /\ folded (cseqmethod m) = true /\ exists st, folded st = true /\ start_line m = st ++ CRLF.
Proof.
  intros E FP. destruct (msg_complete_partial data m E) as (C & CA & CV & CR).
  assert (T : forall t, texts m t -> folded t = true) by (intros t; apply (msg_no_injection_partial data m t E)).
  assert (TS : forall f, folded (strs m f) = true) by (intros f; apply T; right; right; right; left; exists f; reflexivity).
  assert (TA : forall f, Forall good_addr (addrs m f)).
  { intros f. apply Forall_forall. intros a I. split; [exact (CA f a I)|]. split.
    - apply T. do 6 right. exists f, a. auto.
    - intros n v Q. apply T. do 6 right. exists f, a. split; [exact I|]. right. exists n, v. auto. }
  assert (TV : Forall (fun v => folded (via_append v) = true) (vias m)).
  { apply Forall_forall. intros v I. assert (K : forall t, t = v_protocol v \/ t = v_version v \/ t = v_transport v \/ t = v_host v \/ (exists n x, In (n, x) (v_param v) /\ (t = n \/ t = x)) -> folded t = true).
    { intros t Q. apply T. do 5 right. left. exists v. auto. }
    apply fw_via; [apply K; auto|apply K; auto|apply K; auto 6|apply K; auto 7|]. intros n x Q. apply K. do 4 right. exists n, x. auto. }
  assert (TX : Forall (fun p => token (fst p) /\ folded (snd p) = true) (xheader m)).
  { pose proof (x_names data m E) as X. rewrite Forall_forall in *. intros [n v] I. split; [exact (X _ I)|]. apply T. do 4 right. left. exists n, v. auto. }
  assert (FC : folded (callid m) = true) by (apply T; right; left; reflexivity).
  assert (FM : folded (cseqmethod m) = true) by (apply T; right; right; left; reflexivity).
  assert (ST : exists st, folded st = true /\ start_line m = st ++ CRLF).
  { unfold start_line. assert (FV : folded (version_append m) = true) by (unfold version_append; fold_parts; destruct (vmaj m =? 0); fold_parts; apply fw_itoa).
    destruct (IsResponse m); cbn [negb].
    - eexists. split; [|rewrite !app_assoc; reflexivity]. fold_parts; [exact FV|apply fw_itoa|]. destruct (phrase m); [apply fw_Phrase|exact FP].
    - eexists. split; [|rewrite !app_assoc; reflexivity]. fold_parts; [| |exact FV].
      + assert (FMe : folded (method m) = true) by (apply T; left; reflexivity). destruct (method m); [reflexivity|]. fold_parts. exact FMe.
      + destruct (request m) as [u|] eqn:R; [|reflexivity]. apply fw_uri. exact (CR u eq_refl). }
  split; [exact TS|]. split; [exact TA|]. split; [exact TV|]. split; [exact TX|]. split; [exact FC|]. split; [exact FM|exact ST].
Qed.
(** What an accepted packet makes us write. *)
Theorem written_again : forall rid data m, parse_msg data = MOk m -> folded (phrase m) = true ->
  exists st singles ts, msg_append rid m = packet st ts (match pay m with Some p => Data rid p | None => [] end) /\
    folded st = true /\ sublist singles single_names /\
    Forall2 (fun n t => line t /\ exists v, t = n ++ B ": " ++ v)
      ([B "From"; B "To"] ++ repeat (B "Via") (length (vias m)) ++ singles ++ rev (map fst (xheader m)) ++
       match pay m with Some _ => [B "Content-Type"; B "Content-Length"] | None => [B "Content-Length"] end) ts.
Proof.
  intros rid data m E FP. destruct (read_pieces data m E FP) as (TS & TA & TV & TX & FC & FM & ST).
  destruct ST as (st & FS & ES).
  assert (SG : some_lines single_names (
    opt_addr "Route: " (addrs m Route) ++ opt_addr "Record-Route: " (addrs m RecordRoute) ++ opt_addr "Contact: " (addrs m Contact) ++
    (B "Call-ID: " ++ callid m ++ CRLF) ++ (B "CSeq: " ++ (itoa (cseq m) ++ B " " ++ cseqmethod m) ++ CRLF) ++ opt_line "User-Agent: " (strs m UserAgent) ++
    (if IsResponse m then [] else B "Max-Forwards: " ++ (if maxforwards m =? 0 then B "70" else itoa (maxforwards m)) ++ CRLF) ++
    opt_line "Accept: " (strs m Accept) ++ opt_line "Accept-Encoding: " (strs m AcceptEncoding) ++ opt_line "Accept-Language: " (strs m AcceptLanguage) ++ opt_line "Alert-Info: " (strs m AlertInfo) ++
    opt_line "Allow: " (strs m Allow) ++ opt_line "Allow-Events: " (strs m AllowEvents) ++ opt_line "Authentication-Info: " (strs m AuthenticationInfo) ++ opt_line "Authorization: " (strs m Authorization) ++
    opt_line "Call-Info: " (strs m CallInfo) ++ opt_line "Content-Disposition: " (strs m ContentDisposition) ++ opt_line "Content-Encoding: " (strs m ContentEncoding) ++
    opt_line "Content-Language: " (strs m ContentLanguage) ++ opt_line "Date: " (strs m Date) ++ opt_line "Error-Info: " (strs m ErrorInfo) ++ opt_line "Event: " (strs m Event) ++
    (if (0 <? expires m) || bseq (method m) (B "REGISTER") || bseq (cseqmethod m) (B "REGISTER") then B "Expires: " ++ itoa (expires m) ++ CRLF else []) ++
    opt_line "In-Reply-To: " (strs m InReplyTo) ++ opt_line "MIME-Version: " (strs m MIMEVersion) ++ (if 0 <? minexpires m then B "Min-Expires: " ++ itoa (minexpires m) ++ CRLF else []) ++
    opt_line "Organization: " (strs m Organization) ++ opt_addr "P-Asserted-Identity: " (addrs m PAssertedIdentity) ++ opt_line "Priority: " (strs m Priority) ++
    opt_line "Proxy-Authenticate: " (strs m ProxyAuthenticate) ++ opt_line "Proxy-Authorization: " (strs m ProxyAuthorization) ++ opt_line "Proxy-Require: " (strs m ProxyRequire) ++
    opt_line "Refer-To: " (strs m ReferTo) ++ opt_line "Referred-By: " (strs m ReferredBy) ++ opt_addr "Remote-Party-ID: " (addrs m RemotePartyID) ++ opt_line "Reply-To: " (strs m ReplyTo) ++
    opt_line "Require: " (strs m Require) ++ opt_line "RetryAfter: " (strs m RetryAfter) ++ opt_line "Server: " (strs m Server) ++ opt_line "Subject: " (strs m Subject) ++
    opt_line "Supported: " (strs m Supported) ++ opt_line "Timestamp: " (strs m Timestamp) ++ opt_line "Unsupported: " (strs m Unsupported) ++ opt_line "Warning: " (strs m Warning) ++
    opt_line "WWW-Authenticate: " (strs m WWWAuthenticate))).
  { unfold single_names.
    repeat first [apply so_cons; [apply so_opt; [tok|apply TS|reflexivity]|] | apply so_cons; [apply so_addr; [tok|apply TA|reflexivity]|]
      | apply so_cons; [apply (so_one (B "Call-ID")); [tok|exact FC]|] | apply so_cons; [apply (so_one (B "CSeq")); [tok|fold_parts; [apply fw_itoa|exact FM]]|]
      | apply so_cons; [destruct (IsResponse m); [apply so_none|apply (so_one (B "Max-Forwards")); [tok|destruct (maxforwards m =? 0); [reflexivity|apply fw_itoa]]]|]
      | apply so_cons; [destruct ((0 <? expires m) || bseq (method m) (B "REGISTER") || bseq (cseqmethod m) (B "REGISTER")); [apply (so_one (B "Expires")); [tok|apply fw_itoa]|apply so_none]|]
      | apply so_cons; [destruct (0 <? minexpires m); [apply (so_one (B "Min-Expires")); [tok|apply fw_itoa]|apply so_none]|] ].
    apply so_opt; [tok|apply TS|reflexivity]. }
  destruct SG as (singles & SL & LS).
  assert (TL : exists x, tail_lines rid m = x ++ CRLF ++ match pay m with Some p => Data rid p | None => [] end /\ lines_of (match pay m with Some _ => [B "Content-Type"; B "Content-Length"] | None => [B "Content-Length"] end) x).
  { unfold tail_lines. destruct (pay m) as [p|] eqn:Q.
    - exists ((B "Content-Type: " ++ ContentType p ++ CRLF) ++ (B "Content-Length: " ++ itoa (Z.of_nat (length (Data rid p))) ++ CRLF)). split; [cbv zeta; rewrite <- !app_assoc; reflexivity|].
      apply (lo_app [B "Content-Type"] _ [B "Content-Length"]); [|apply (lo_one (B "Content-Length")); [tok|apply fw_itoa]]. apply (lo_one (B "Content-Type")); [tok|].
      destruct p as [t b|d]; [exact (ctype_folded data m t b E Q)|reflexivity].
    - exists (B "Content-Length: " ++ B "0" ++ CRLF). split; [reflexivity|]. apply (lo_one (B "Content-Length")); [tok|reflexivity]. }
  destruct TL as (tl & ET & LT).
  assert (LF1 : lines_of [B "From"] (B "From: " ++ addr_append (addrs m From) ++ CRLF)) by (apply (lo_one (B "From")); [tok|apply fw_addrs, TA]).
  assert (LF2 : lines_of [B "To"] (B "To: " ++ addr_append (addrs m To) ++ CRLF)) by (apply (lo_one (B "To")); [tok|apply fw_addrs, TA]).
  pose proof (lo_app _ _ _ _ (lo_app _ _ _ _ LF1 LF2) (lo_app _ _ _ _ (fw_vias _ TV) (lo_app _ _ _ _ LS (lo_app _ _ _ _ (fw_x _ TX) LT)))) as (ts & EJ & FJ).
  exists st, singles, ts. split; [|split; [exact FS|split; [exact SL|exact FJ]]].
  unfold packet. rewrite <- EJ. unfold msg_append, head_lines. rewrite ES, ET, <- !app_assoc. reflexivity.
Qed.
(** The phrase is the way in: whatever [w] is, a packet with no header at all is accepted and written again with [w] after the status, line breaks included. *)
Definition escape_all (w : bytes) : bytes := concat (map (fun c => ["%"%byte; hexChar (bz c / 16); hexChar (bz c mod 16)]) w).
Lemma escape_all_reads w : reason_text (escape_all w) w.
Proof.
  induction w as [|c w IH]; [constructor|]. unfold escape_all in *. cbn [map concat app].
  assert (K : hex_class (hexChar (bz c / 16)) && hex_class (hexChar (bz c mod 16)) && beq (zb (16 * hex_value (hexChar (bz c / 16)) + hex_value (hexChar (bz c mod 16)))) c = true) by (clear; revert c; by_bytes).
  apply andb_prop in K. destruct K as [K K3]. apply andb_prop in K. destruct K as [K1 K2]. apply beq_spec in K3. pose proof (rt_esc _ _ _ _ K1 K2 IH) as R. rewrite K3 in R. exact R.
Qed.
Theorem any_phrase_refuted : forall rid w, w <> [] -> exists st m rest, parse_msg (packet st [] []) = MOk m /\ folded st = true /\ msg_append rid m = B "SIP/2.0 200 " ++ w ++ CRLF ++ rest.
Proof.
  intros rid w N. set (m := set_phrase w (set_status 200 (set_vmin 0 (set_vmaj 2 msg0)))). exists (B "SIP/2.0" ++ B " " ++ B "200" ++ B " " ++ escape_all w), m.
  assert (R : reason_text (escape_all w) w) by apply escape_all_reads.
  assert (S : start_text (B "SIP/2.0" ++ B " " ++ B "200" ++ B " " ++ escape_all w) m).
  { right. exists (B "SIP/2.0"), 2, 0, (B "200"), 200, (escape_all w). split; [reflexivity|]. split; [exists (B "2"), (B "0"), 2, 0; repeat split; reflexivity|]. split; [reflexivity|]. split; [reflexivity|].
    split; [destruct w; [congruence|discriminate]|]. split; [exact R|reflexivity]. }
  eexists. split; [|split].
  - apply msg_parse_exact. exists (B "SIP/2.0" ++ B " " ++ B "200" ++ B " " ++ escape_all w), m, [], (mkdraft m 0 []), []. split; [reflexivity|]. split; [exact S|]. split; [constructor|]. split; [reflexivity|]. left. split; [cbn; lia|reflexivity].
  - exact (start_line_ok _ _ S).
  - unfold msg_append, head_lines. assert (E : start_line m = B "SIP/2.0 200 " ++ w ++ CRLF) by (unfold start_line, m; cbn; destruct w; [congruence|reflexivity]). rewrite E, <- !app_assoc. reflexivity.
Qed.
(** A packet with folds, quotes and an extension header, as it was read and as it is written again *)
Definition fw_packet : bytes :=
  B "SIP/2.0 200 OK" ++ nl ++ B "Via: SIP/2.0/UDP 1.2.3.4:5070" ++ nl ++ B "f: ""A" ++ nl ++ B " B"" <sip:%0d%0aEvil@h>" ++ nl ++ B "t: <sip:k@h>" ++ nl ++ B "i: x" ++ nl ++ B "CSeq: 7 INVITE" ++ nl ++ B "Subject: one" ++ nl ++ B " two" ++ nl ++ B "Zed: last" ++ nl ++ nl.
Example written_again_example : exists m, parse_msg fw_packet = MOk m /\ folded (phrase m) = true /\
  msg_append [] m = packet (B "SIP/2.0 200 OK")
    [B "From: ""A" ++ nl ++ B " B"" <sip:%0d%0aEvil@h>"; B "To: <sip:k@h>"; B "Via: SIP/2.0/UDP 1.2.3.4:5070"; B "Call-ID: x"; B "CSeq: 7 INVITE"; B "Subject: one" ++ nl ++ B " two"; B "Zed: last"; B "Content-Length: 0"] [].
Proof. eexists. split; [vm_compute; reflexivity|]. split; vm_compute; reflexivity. Qed.
(** A response with the status 000 is written again as an INVITE (to a host nobody named), because it is not taken for a response. *)
Theorem status_zero_written_refuted : exists m x, parse_msg (B "SIP/2.0 000 no" ++ nl ++ nl) = MOk m /\ msg_append [] m = B "INVITE sip:www.nasa.gov:80 SIP/2.0" ++ nl ++ x.
Proof. do 2 eexists. split; [vm_compute; reflexivity|]. vm_compute. reflexivity. Qed.

Print Assumptions written_again.
Print Assumptions any_phrase_refuted.
Print Assumptions status_zero_written_refuted.
