(** C105: which headers a message must have had to be passed on. *)
From Verif Require Import Bytes BytesLemmas GoLib GoLibLemmas Auto SdpModel SipText SipTypes SipAppend UriModel MsgModel MsgSafe UriSpec P_Text P_Uri P_Msg MsgSpec MsgNames MsgMeaning MsgLines P_MsgText P_Forward P_PassOn.
Local Open Scope Z_scope.

(** ** Texts made of lines, among them the lines [l] *)
Definition has (l : list bytes) (x : bytes) : Prop := exists ts, x = join ts /\ Forall line ts /\ incl l ts.
Lemma has_app a x b y : has a x -> has b y -> has (a ++ b) (x ++ y).
Proof.
  intros (ts & -> & F & I) (us & -> & G & J). exists (ts ++ us). split; [rewrite join_app; reflexivity|]. split; [apply Forall_app; auto|]. intros t H. apply in_app_iff in H. apply in_app_iff. destruct H; auto.
Qed.
Lemma has_none n x : some_lines [n] x -> has [] x.
Proof. intros (a & _ & ts & E & F). exists ts. split; [exact E|]. split; [|intros t []]. clear -F. induction F as [|p q u v [L _] _ IH]; constructor; assumption. Qed.
Lemma has_lines n x : lines_of n x -> has [] x.
Proof. intros (ts & E & F). exists ts. split; [exact E|]. split; [|intros t []]. clear -F. induction F as [|p q u v [L _] _ IH]; constructor; assumption. Qed.
Lemma has_one n v : token n -> folded v = true -> has [n ++ B ": " ++ v] (n ++ B ": " ++ v ++ CRLF).
Proof.
  intros T F. exists [n ++ B ": " ++ v]. split; [unfold join; cbn [map concat]; rewrite app_nil_r, <- !app_assoc; reflexivity|]. split; [|apply incl_refl].
  constructor; [|constructor]. apply token_line; [exact T|]. fold_parts; [apply f_token; exact T|exact F].
Qed.
(** the lines that are always written *)
Definition hops (m : msg) : bytes := if maxforwards m =? 0 then B "70" else itoa (maxforwards m).
Definition always (m : msg) : list bytes :=
  [B "From" ++ B ": " ++ addr_append (addrs m From); B "To" ++ B ": " ++ addr_append (addrs m To); B "Call-ID" ++ B ": " ++ callid m; B "CSeq" ++ B ": " ++ (itoa (cseq m) ++ B " " ++ cseqmethod m)] ++
  (if IsResponse m then [] else [B "Max-Forwards" ++ B ": " ++ hops m]) ++ match pay m with Some (Misc t _) => [B "Content-Type" ++ B ": " ++ t] | _ => [] end.
Lemma written_lines rid data m : parse_msg data = MOk m -> folded (phrase m) = true ->
  exists st ts body, msg_append rid m = packet st ts body /\ folded st = true /\ Forall line ts /\ incl (always m) ts.
Proof.
  intros E FP. destruct (read_pieces data m E FP) as (TS & TA & TV & TX & FC & FM & st & FS & ES).
  assert (SG : has ([B "Call-ID" ++ B ": " ++ callid m] ++ [B "CSeq" ++ B ": " ++ (itoa (cseq m) ++ B " " ++ cseqmethod m)] ++ if IsResponse m then [] else [B "Max-Forwards" ++ B ": " ++ hops m]) (
    opt_addr "Route: " (addrs m Route) ++ opt_addr "Record-Route: " (addrs m RecordRoute) ++ opt_addr "Contact: " (addrs m Contact) ++
    (B "Call-ID: " ++ callid m ++ CRLF) ++ (B "CSeq: " ++ (itoa (cseq m) ++ B " " ++ cseqmethod m) ++ CRLF) ++ opt_line "User-Agent: " (strs m UserAgent) ++
    (if IsResponse m then [] else B "Max-Forwards: " ++ (if maxforwards m =? 0 then B "70" else itoa (maxforwards m)) ++ CRLF) ++
    opt_line "Accept: " (strs m Accept) ++ opt_line "Accept-Encoding: " (strs m AcceptEncoding) ++ opt_line "Accept-Language: " (strs m AcceptLanguage) ++ opt_line "Alert-Info: " (strs m AlertInfo) ++
    opt_line "Allow: " (strs m Allow) ++ opt_line "Allow-Events: " (strs m AllowEvents) ++ opt_line "Authentication-Info: " (strs m AuthenticationInfo) ++ opt_line "Authorization: " (strs m Authorization) ++
    opt_line "Call-Info: " (strs m CallInfo) ++ opt_line "Content-Disposition: " (strs m ContentDisposition) ++ opt_line "Content-Encoding: " (strs m ContentEncoding) ++
    opt_line "Content-Language: " (strs m ContentLanguage) ++ opt_line "Date: " (strs m Date) ++ opt_line "Error-Info: " (strs m ErrorInfo) ++ opt_line "Event: " (strs m Event) ++
    (if (0 <? expires m) || bseq (method m) (B "REGISTER") || bseq (cseqmethod m) (B "REGISTER") then B "Expires: " ++ itoa (expires m) ++ CRLF else []) ++
    opt_line "In-Reply-To: " (strs m InReplyTo) ++ opt_line "MIME-Version: " (strs m MIMEVersion) ++ (if 0 <? minexpires m then B "Min-Expires: " ++ itoa (minexpires m) ++ CRLF else []) ++
    opt_line "Organization: " (strs m Organization) ++ opt_addr "P-Asserted-Identity: " (addrs m PAssertedIdentity) ++ opt_line "Priority: " (strs m Priority) ++
    opt_line "Proxy-Authenticate: " (strs m ProxyAuthenticate) ++ opt_line "Proxy-Authorization: " (strs m ProxyAuthorization) ++ opt_line "Proxy-Require: " (strs m ProxyRequire) ++
    opt_line "Refer-To: " (strs m ReferTo) ++ opt_line "Referred-By: " (strs m ReferredBy) ++ opt_addr "Remote-Party-ID: " (addrs m RemotePartyID) ++ opt_line "Reply-To: " (strs m ReplyTo) ++
    opt_line "Require: " (strs m Require) ++ opt_line "RetryAfter: " (strs m RetryAfter) ++ opt_line "Server: " (strs m Server) ++ opt_line "Subject: " (strs m Subject) ++
    opt_line "Supported: " (strs m Supported) ++ opt_line "Timestamp: " (strs m Timestamp) ++ opt_line "Unsupported: " (strs m Unsupported) ++ opt_line "Warning: " (strs m Warning) ++
    opt_line "WWW-Authenticate: " (strs m WWWAuthenticate))).
  { assert (O : forall w f, let n := removelast (removelast (B w)) in token n -> B w = n ++ B ": " -> forall b y, has b y -> has b (opt_line w (strs m f) ++ y)) by (intros w f n T W b y Y; apply (has_app [] _ b); [apply (has_none n), so_opt; [exact T|apply TS|exact W]|exact Y]).
    assert (A : forall w f, let n := removelast (removelast (B w)) in token n -> B w = n ++ B ": " -> forall b y, has b y -> has b (opt_addr w (addrs m f) ++ y)) by (intros w f n T W b y Y; apply (has_app [] _ b); [apply (has_none n), so_addr; [exact T|apply TA|exact W]|exact Y]).
    do 3 (apply A; [tok|reflexivity|]). apply has_app; [apply (has_one (B "Call-ID")); [tok|exact FC]|]. apply has_app; [apply (has_one (B "CSeq")); [tok|fold_parts; [apply fw_itoa|exact FM]]|].
    apply O; [tok|reflexivity|]. rewrite <- (app_nil_r (if IsResponse m then [] else [_])). apply has_app; [destruct (IsResponse m); [apply (has_lines []), lo_nil|apply (has_one (B "Max-Forwards")); [tok|unfold hops; destruct (maxforwards m =? 0); [reflexivity|apply fw_itoa]]]|].
    repeat first [apply O; [tok|reflexivity|] | apply A; [tok|reflexivity|]
      | apply (has_app [] _ []); [destruct ((0 <? expires m) || bseq (method m) (B "REGISTER") || bseq (cseqmethod m) (B "REGISTER")); [apply (has_lines [B "Expires"]), (lo_one (B "Expires")); [tok|apply fw_itoa]|apply (has_lines []), lo_nil]|]
      | apply (has_app [] _ []); [destruct (0 <? minexpires m); [apply (has_lines [B "Min-Expires"]), (lo_one (B "Min-Expires")); [tok|apply fw_itoa]|apply (has_lines []), lo_nil]|] ].
    apply (has_none (B "WWW-Authenticate")), so_opt; [tok|apply TS|reflexivity]. }
  assert (TL : exists x, tail_lines rid m = x ++ CRLF ++ match pay m with Some p => Data rid p | None => [] end /\ has (match pay m with Some (Misc t _) => [B "Content-Type" ++ B ": " ++ t] | _ => [] end) x).
  { unfold tail_lines. destruct (pay m) as [p|] eqn:Q.
    - exists ((B "Content-Type: " ++ ContentType p ++ CRLF) ++ (B "Content-Length: " ++ itoa (Z.of_nat (length (Data rid p))) ++ CRLF)). split; [cbv zeta; rewrite <- !app_assoc; reflexivity|].
      rewrite <- (app_nil_r (match p with Misc t _ => _ | PSdp _ => _ end)). apply has_app; [|apply (has_lines [B "Content-Length"]), (lo_one (B "Content-Length")); [tok|apply fw_itoa]].
      destruct p as [t b|d]; [apply (has_one (B "Content-Type")); [tok|exact (ctype_folded data m t b E Q)]|apply (has_lines [B "Content-Type"]), (lo_one (B "Content-Type")); [tok|reflexivity]].
    - exists (B "Content-Length: " ++ B "0" ++ CRLF). split; [reflexivity|]. apply (has_lines [B "Content-Length"]), (lo_one (B "Content-Length")); [tok|reflexivity]. }
  destruct TL as (tl & ET & LT).
  pose proof (has_app _ _ _ _ (has_app _ _ _ _ (has_one (B "From") (addr_append (addrs m From)) ltac:(tok) (fw_addrs _ (TA From))) (has_one (B "To") (addr_append (addrs m To)) ltac:(tok) (fw_addrs _ (TA To))))
    (has_app _ _ _ _ (has_lines _ _ (fw_vias _ TV)) (has_app _ _ _ _ SG (has_app _ _ _ _ (has_lines _ _ (fw_x _ TX)) LT)))) as (ts & EJ & FJ & IJ).
  exists st, ts, (match pay m with Some p => Data rid p | None => [] end). split; [|split; [exact FS|split; [exact FJ|]]].
  - unfold packet. rewrite <- EJ. unfold msg_append, head_lines. rewrite ES, ET, <- !app_assoc. reflexivity.
  - intros t I. apply IJ. unfold always in I. cbn [app] in I |- *. destruct I as [I|[I|[I|[I|I]]]]; [left; exact I|right; left; exact I|right; right; left; exact I|right; right; right; left; exact I|].
    do 4 right. exact I.
Qed.

(** ** Lines that are not read *)
Lemma step_in t ts : In t ts -> forall d d', steps ts d d' -> exists d1 d2, header_text t d1 d2.
Proof. induction ts as [|x ts IH]; intros I d d' H; [destruct I|]. inversion H as [|? ? ? d1 ? H1 H2]; subst. destruct I as [<-|I]; [eauto|exact (IH I _ _ H2)]. Qed.
Lemma line_read n k x d d' : find_header (map lower n) known_headers = Some k -> header_text (n ++ B ": " ++ x) d d' -> exists w v, SP :: x = w ++ v /\ header_value k w v d d'.
Proof.
  intros K (n1 & b1 & w & v & E & T & B1 & H). destruct (name_unique n n1 [] b1 (SP :: x) (w ++ v) (known_lower_token _ _ K) T eq_refl B1 E) as (<- & <- & E2). rewrite K in H. eauto.
Qed.
(** the value begins at the first character that is not white space, or before *)
Lemma value_at c x w v : sws w -> SP :: c :: x = w ++ v -> blank c = false -> c <> CR -> exists s, v = s ++ c :: x /\ (s = [] \/ s = [SP]).
Proof.
  intros W E C N. destruct w as [|a w]; [exists [SP]; split; [symmetry; exact E|auto]|]. injection E as <- E. destruct w as [|a w]; [exists []; split; [symmetry; exact E|auto]|]. injection E as <- E. exfalso.
  destruct W as [W|(p & q & W & P & Q & _)]; [unfold blanks in W; cbn [forallb] in W; rewrite C in W; discriminate W|]. destruct p as [|y p]; [discriminate W|]. injection W as <- W. destruct p as [|y p]; [injection W as -> _; congruence|].
  injection W as <- W. unfold blanks in P. cbn [forallb] in P. rewrite C in P. discriminate P.
Qed.
Lemma value_empty w v : sws w -> [SP] = w ++ v -> v = [] \/ v = [SP].
Proof. intros W E. destruct w as [|a w]; [right; symmetry; exact E|]. injection E as _ E. destruct w; [|discriminate E]. left. symmetry. exact E. Qed.
Lemma number_first c t n : number (c :: t) n -> is_digit c = true.
Proof. unfold number, digits_value. cbn [dec_value]. unfold digit_val. destruct (is_digit c); [reflexivity|intros H; discriminate H]. Qed.
Lemma number_nonempty t n : number t n -> t <> []. Proof. intros H ->. discriminate H. Qed.
Lemma token_starts t : token t -> exists c r, t = c :: r /\ blank c = false /\ token_class c = true.
Proof.
  intros [N H]. destruct t as [|c r]; [congruence|]. exists c, r. split; [reflexivity|]. cbn [forallb] in H. apply andb_prop in H. destruct H as [H _]. split; [|exact H].
  assert (K : implb (token_class c) (negb (blank c)) = true) by (clear; revert c; by_bytes). rewrite H in K. apply negb_true_iff. exact K.
Qed.
Definition starts (t : bytes) : Prop := exists c r, t = c :: r /\ blank c = false.
Lemma starts_app a b : starts a -> starts (a ++ b). Proof. intros (c & r & -> & H). exists c, (r ++ b). auto. Qed.
Lemma token_st t : token t -> starts t. Proof. intros H. destruct (token_starts t H) as (c & r & E & K & _). exists c, r. auto. Qed.
Lemma words_st t : words t -> starts t. Proof. intros [w T|w l u T _ _]; [|apply starts_app]; apply token_st; exact T. Qed.
Lemma addr_st t a b : addr_text t a b -> starts t.
Proof.
  intros (bare & h & ps & u & -> & _ & H & _). apply starts_app. destruct bare; cbn [addr_head] in H.
  - destruct H as [[_ (s & c & r & -> & S & _)] _]. destruct s as [|x s]; [exists ":"%byte, (c :: r); auto|]. exists x, (s ++ B ":" ++ c :: r). split; [reflexivity|]. cbn [forallb] in S. apply andb_prop in S. destruct S as [S _].
    assert (K : implb (scheme_class x) (negb (blank x)) = true) by (clear; revert x; by_bytes). rewrite S in K. apply negb_true_iff. exact K.
  - destruct H as (dt & x & w & -> & D & _). destruct D as [[-> _]|[(q & w1 & -> & _)|(l & -> & W & _)]]; [exists "<"%byte, (x ++ B ">" ++ w); auto|exists DQ, ((q ++ [DQ] ++ w1) ++ B "<" ++ x ++ B ">" ++ w); split; [rewrite <- !app_assoc; reflexivity|reflexivity]|]. do 2 apply starts_app. apply words_st. exact W.
Qed.
Lemma addrs_st t l : addr_list t l -> starts t.
Proof. intros [t0 a b H|t0 a b e t' l0 H _ _]; [|apply starts_app]; exact (addr_st _ _ _ H). Qed.
Lemma empty_not w v : sws w -> [SP] = w ++ v -> ~ starts v.
Proof. intros W E (c & r & -> & C). destruct (value_empty _ _ W E) as [K|K]; [discriminate K|]. injection K as -> _. discriminate C. Qed.
Lemma itoa_negative z : z < 0 -> exists r, itoa z = "-"%byte :: r.
Proof. intros H. unfold itoa. destruct (z <? 0) eqn:E; [eexists; reflexivity|lia]. Qed.
Lemma negative_start z x w v : z < 0 -> sws w -> SP :: itoa z ++ x = w ++ v -> forall y n u, v = y ++ u -> number y n -> False.
Proof.
  intros Z W E y n u -> N. destruct (itoa_negative z Z) as (r & R). rewrite R in E. destruct (value_at "-" (r ++ x) w (y ++ u) W E eq_refl ltac:(discriminate)) as (s & S & C). destruct y as [|c y]; [destruct (number_nonempty _ _ N eq_refl)|].
  apply number_first in N. destruct C as [-> | ->]; cbn in S; injection S as -> _; discriminate N.
Qed.
(** ** What a message must have *)
Definition lacks (m : msg) : Prop :=
  addrs m From = [] \/ addrs m To = [] \/ callid m = [] \/ cseqmethod m = [] \/ cseq m < 0 \/ (status m = 0 /\ maxforwards m < 0) \/ exists x, pay m = Some (Misc [] x).
Theorem lacking_rejected_refuted : forall rid data m, parse_msg data = MOk m -> folded (phrase m) = true -> lacks m -> exists e, parse_msg (msg_append rid m) = MErr e.
Proof.
  intros rid data m E FP L. destruct (written_lines rid data m E FP) as (st & ts & body & EM & FS & FL & I). destruct (parse_msg (msg_append rid m)) as [m1|e| |] eqn:P; [exfalso|eauto|destruct (msg_parse_no_panic _ P)|destruct (msg_parse_stops _ P)].
  rewrite EM in P. apply packet_exact in P; [|exact FS|exact FL]. destruct P as (m0 & d & _ & S & _). assert (R : forall t, In t (always m) -> exists d1 d2, header_text t d1 d2) by (intros t T; exact (step_in t ts (I t T) _ _ S)). clear - L R.
  destruct L as [L|[L|[L|[L|[L|[[L1 L]|(x & L)]]]]]].
  - destruct (R (B "From" ++ B ": " ++ addr_append (addrs m From))) as (d1 & d2 & H); [left; reflexivity|]. rewrite L in H. apply (line_read (B "From") (HAddr From)) in H; [|reflexivity]. destruct H as (w & v & EV & W & l & A & _). apply (empty_not w v W EV). exact (addrs_st _ _ A).
  - destruct (R (B "To" ++ B ": " ++ addr_append (addrs m To))) as (d1 & d2 & H); [right; left; reflexivity|]. rewrite L in H. apply (line_read (B "To") (HAddr To)) in H; [|reflexivity]. destruct H as (w & v & EV & W & l & A & _). apply (empty_not w v W EV). exact (addrs_st _ _ A).
  - destruct (R (B "Call-ID" ++ B ": " ++ callid m)) as (d1 & d2 & H); [right; right; left; reflexivity|]. rewrite L in H. apply (line_read (B "Call-ID") HCallID) in H; [|reflexivity]. destruct H as (w & v & EV & W & (a & b & -> & NA & A & _) & _). apply (empty_not w (a ++ b) W EV). apply starts_app.
    destruct a as [|c a]; [congruence|]. exists c, a. split; [reflexivity|]. cbn [forallb] in A. apply andb_prop in A. destruct A as [A _]. assert (K : implb (word_class c) (negb (blank c)) = true) by (clear; revert c; by_bytes). rewrite A in K. apply negb_true_iff. exact K.
  - destruct (R (B "CSeq" ++ B ": " ++ (itoa (cseq m) ++ B " " ++ cseqmethod m))) as (d1 & d2 & H); [right; right; right; left; reflexivity|]. rewrite L in H. apply (line_read (B "CSeq") HCSeq) in H; [|reflexivity].
    destruct H as (w & v & EV & W & x & l & n & mth & -> & _ & _ & T & _). assert (Q : last ((SP :: itoa (cseq m)) ++ [SP]) x00 = last (w ++ x ++ l ++ mth) x00) by (rewrite <- EV; reflexivity).
    rewrite last_last in Q. destruct T as [TN T]. destruct (exists_last TN) as (q & c & ->). rewrite !app_assoc, last_last in Q. subst c. rewrite forallb_app in T. cbn in T. apply andb_prop in T. destruct T as [_ T]. discriminate T.
  - destruct (R (B "CSeq" ++ B ": " ++ (itoa (cseq m) ++ B " " ++ cseqmethod m))) as (d1 & d2 & H); [right; right; right; left; reflexivity|]. apply (line_read (B "CSeq") HCSeq) in H; [|reflexivity].
    destruct H as (w & v & EV & W & x & l & n & mth & V & N & _). exact (negative_start _ _ _ _ L W EV _ _ _ V N).
  - destruct (R (B "Max-Forwards" ++ B ": " ++ hops m)) as (d1 & d2 & H).
    { unfold always. apply in_app_iff. right. apply in_app_iff. left. unfold IsResponse. rewrite L1. left. reflexivity. }
    apply (line_read (B "Max-Forwards") HMaxForwards) in H; [|reflexivity]. destruct H as (w & v & EV & W & n & N & _). unfold hops in EV. destruct (Z.eqb_spec (maxforwards m) 0); [lia|].
    apply (negative_start _ [] w v L W) with (y := v) (n := n) (u := []); [rewrite app_nil_r; exact EV|rewrite app_nil_r; reflexivity|exact N].
  - destruct (R (B "Content-Type" ++ B ": " ++ [])) as (d1 & d2 & H).
    { unfold always. apply in_app_iff. right. apply in_app_iff. right. rewrite L. left. reflexivity. }
    apply (line_read (B "Content-Type") HCtype) in H; [|reflexivity]. destruct H as (w & v & EV & W & ct & (a & b & ps & l & -> & -> & A & _) & _). apply (empty_not w _ W EV). do 2 apply starts_app. apply token_st. exact A.
Qed.
Example lacking_example : exists m, parse_msg (po_lines [B "INVITE sip:h SIP/2.0"; B "From: <sip:k@h>;tag=a"; B "To: <sip:b@h>"; B "CSeq: 7 INVITE"; B ""]) = MOk m /\ folded (phrase m) = true /\ lacks m.
Proof. eexists. split; [vm_compute; reflexivity|]. split; [reflexivity|]. right. right. left. reflexivity. Qed.
Print Assumptions lacking_rejected_refuted.
