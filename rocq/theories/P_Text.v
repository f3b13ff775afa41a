(** Properties C01, C02, C04 (escaping, quoting, sanitising) and C58 (identifiers). *)
From Verif Require Import Bytes BytesLemmas GoLib GoLibLemmas SdpModel SipText SipTypes SipAppend UtilModel.
Local Open Scope Z_scope.

(** ** Specification vocabulary *)
Definition one_of (cs : bytes) (c : byte) : bool := existsb (beq c) cs.
Definition alnum (c : byte) : bool :=
  one_of (B "abcdefghijklmnopqrstuvwxyzABCDEFGHIJKLMNOPQRSTUVWXYZ0123456789") c.
(** RFC 3261 section 25.1 *)
Definition unreserved (c : byte) : bool := alnum c || one_of (B "-_.!~*'()") c.
Definition user_class (c : byte) : bool := unreserved c || one_of (B "&=+$,;?/") c.
Definition pass_class (c : byte) : bool := unreserved c || one_of (B "&=+$,") c.
Definition param_class (c : byte) : bool := unreserved c || one_of (B "[]/:&+$") c.
Definition token_class (c : byte) : bool := alnum c || one_of (B "-.!%*_+`'~") c.

Definition hex_class (c : byte) : bool := one_of (B "0123456789abcdefABCDEF") c.
Definition hex_value (c : byte) : Z :=
  match index_byte (lower c) (B "0123456789abcdef") with Some n => Z.of_nat n | None => 0 end.

(** A text made of characters of a class and percent triples. *)
Fixpoint legal_text (cls : byte -> bool) (s : bytes) : bool :=
  match s with
  | [] => true
  | c :: t =>
    if beq c "%" then match t with h :: l :: t' => hex_class h && hex_class l && legal_text cls t' | _ => false end
    else cls c && legal_text cls t
  end.
(** Percent decoding. *)
Fixpoint pct_decode (s : bytes) : bytes :=
  match s with
  | [] => []
  | c :: t =>
    if beq c "%" then match t with h :: l :: t' => zb (16 * hex_value h + hex_value l) :: pct_decode t' | _ => s end
    else c :: pct_decode t
  end.

(** ** C01 *)
Lemma hex_pair c :
  hex_class (hexChar (Z.shiftr (bz c) 4)) && hex_class (hexChar (bz c mod 16)) &&
  beq (zb (16 * hex_value (hexChar (Z.shiftr (bz c) 4)) + hex_value (hexChar (bz c mod 16)))) c = true.
Proof. revert c. by_bytes. Qed.

Lemma escape_ok (p cls : byte -> bool) :
  (forall c, p c = true -> cls c = true /\ beq c "%" = false) ->
  forall s rest, legal_text cls (appendEscaped p s ++ rest) = legal_text cls rest /\
                 pct_decode (appendEscaped p s ++ rest) = s ++ pct_decode rest.
Proof.
  intros Hp. induction s as [|c s IH]; intros rest; cbn [appendEscaped app]; [auto|].
  destruct (p c) eqn:E.
  - destruct (Hp c E) as [H1 H2]. cbn [app legal_text pct_decode]. rewrite H1, H2. cbn [andb].
    destruct (IH rest) as [-> ->]. auto.
  - cbn [app legal_text pct_decode]. rewrite beq_refl.
    pose proof (hex_pair c) as K. rewrite !andb_true_iff in K. destruct K as [[-> ->] K]. apply beq_spec in K.
    rewrite K. cbn [andb]. destruct (IH rest) as [-> ->]. auto.
Qed.

Lemma class_ok (p cls : byte -> bool) :
  forallb (fun c => negb (p c) || (cls c && negb (beq c "%"))) all_bytes = true ->
  forall c, p c = true -> cls c = true /\ beq c "%" = false.
Proof.
  intros H c Hc. pose proof (forall_bytes _ H c) as K. cbv beta in K. rewrite Hc in K. cbn [negb orb] in K.
  apply andb_true_iff in K. destruct K as [K1 K2]. apply negb_true_iff in K2. auto.
Qed.

(** The classes used by the serialiser, with the characters RFC 3261 allows there. *)
Inductive escaping : (byte -> bool) -> (byte -> bool) -> Prop :=
| Esc_user : escaping userc user_class
| Esc_pass : escaping passc pass_class
| Esc_param : escaping paramc param_class.

Lemma escaping_ok p cls : escaping p cls -> forall c, p c = true -> cls c = true /\ beq c "%" = false.
Proof. intros H. apply class_ok. destruct H; vm_compute; reflexivity. Qed.

Theorem escape_legal : forall p cls s, escaping p cls -> legal_text cls (appendEscaped p s) = true.
Proof.
  intros p cls s H. pose proof (escape_ok p cls (escaping_ok p cls H) s []) as [L _].
  rewrite app_nil_r in L. exact L.
Qed.

Theorem escape_decodes : forall p cls s, escaping p cls -> pct_decode (appendEscaped p s) = s.
Proof.
  intros p cls s H. pose proof (escape_ok p cls (escaping_ok p cls H) s []) as [_ D].
  rewrite app_nil_r in D. rewrite D. apply app_nil_r.
Qed.

Theorem escape_injective : forall p cls s t, escaping p cls -> appendEscaped p s = appendEscaped p t -> s = t.
Proof. intros p cls s t H E. rewrite <- (escape_decodes p cls s H), <- (escape_decodes p cls t H), E. reflexivity. Qed.

(** What this means for URI.String: where user, password, parameters and headers appear. *)
Definition slot (cls : byte -> bool) (value text : bytes) : Prop :=
  legal_text cls text = true /\ pct_decode text = value.

(** [items sep l t]: t is the concatenation, in order, of one name[=value] text per element. *)
Inductive items (first sep : bytes) : list param -> bytes -> Prop :=
| items_one n v tn tv :
    slot param_class n tn -> (v = [] /\ tv = [] \/ v <> [] /\ exists x, tv = B "=" ++ x /\ slot param_class v x) ->
    items first sep [(n, v)] (first ++ tn ++ tv)
| items_more l n v t tn tv :
    items first sep l t -> slot param_class n tn ->
    (v = [] /\ tv = [] \/ v <> [] /\ exists x, tv = B "=" ++ x /\ slot param_class v x) ->
    items first sep (l ++ [(n, v)]) (t ++ sep ++ tn ++ tv).

Lemma slot_esc p cls s : escaping p cls -> slot cls s (appendEscaped p s).
Proof. intros H. split; [eapply escape_legal; eauto|eapply escape_decodes; eauto]. Qed.

Lemma items_params l : l <> [] -> items (B ";") (B ";") (rev l) (uriparam_append l).
Proof.
  induction l as [|[n v] l IH]; [congruence|]. intros _. cbn [rev uriparam_append].
  assert (V : v = [] /\ (match v with [] => [] | _ => B "=" ++ appendEscaped paramc v end) = [] \/
     v <> [] /\ exists x, (match v with [] => [] | _ => B "=" ++ appendEscaped paramc v end) = B "=" ++ x /\ slot param_class v x).
  { destruct v; [left; auto|right]. split; [discriminate|]. eexists. split; [reflexivity|]. apply slot_esc. constructor. }
  destruct l as [|p l].
  - cbn [rev uriparam_append app]. apply items_one; [apply slot_esc; constructor|exact V].
  - apply items_more; [apply IH; discriminate|apply slot_esc; constructor|exact V].
Qed.

Lemma items_headers l : l <> [] -> items (B "?") (B "&") (rev l) (uriheader_append l).
Proof.
  induction l as [|[n v] l IH]; [congruence|]. intros _. cbn [rev uriheader_append].
  assert (V : v = [] /\ (match v with [] => [] | _ => B "=" ++ appendEscaped paramc v end) = [] \/
     v <> [] /\ exists x, (match v with [] => [] | _ => B "=" ++ appendEscaped paramc v end) = B "=" ++ x /\ slot param_class v x).
  { destruct v; [left; auto|right]. split; [discriminate|]. eexists. split; [reflexivity|]. apply slot_esc. constructor. }
  destruct l as [|p l].
  - cbn [rev app]. apply items_one; [apply slot_esc; constructor|exact V].
  - rewrite <- app_assoc. apply items_more; [apply IH; discriminate|apply slot_esc; constructor|exact V].
Qed.

(** Every URI: scheme, [user[:password]@], host[:port], parameters and headers in insertion order
    (oldest first; the Go lists are newest first), each in escaped form. *)
Theorem uri_string_shape : forall u, exists tu tp params headers,
  uri_string (Some u) =
    (if bseq (u_scheme u) [] then B "sip" else u_scheme u) ++ B ":" ++
    (if bseq (u_user u) [] then [] else tu ++ (if bseq (u_pass u) [] then [] else B ":" ++ tp) ++ B "@") ++
    (if contains_byte ":" (u_host u) then B "[" ++ u_host u ++ B "]" else u_host u) ++
    (if 0 <? u_port u then B ":" ++ itoa (u_port u) else []) ++ params ++ headers /\
  slot user_class (u_user u) tu /\ slot pass_class (u_pass u) tp /\
  (u_param u = [] /\ params = [] \/ items (B ";") (B ";") (rev (u_param u)) params) /\
  (u_header u = [] /\ headers = [] \/ items (B "?") (B "&") (rev (u_header u)) headers).
Proof.
  intros u. exists (appendEscaped userc (u_user u)), (appendEscaped passc (u_pass u)), (uriparam_append (u_param u)), (uriheader_append (u_header u)).
  split.
  - unfold uri_string, uri_append, IsIPv6, Portstr.
    destruct (u_scheme u), (u_user u), (u_pass u); cbn [bseq]; rewrite <- ?app_assoc; reflexivity.
  - split; [apply slot_esc; constructor|]. split; [apply slot_esc; constructor|]. split.
    + destruct (u_param u) eqn:E; [left; auto|right; apply items_params; discriminate].
    + destruct (u_header u) eqn:E; [left; auto|right; apply items_headers; discriminate].
Qed.

(** ** C02: quoting *)
(** Reader of a quoted string after its opening quote: the rest after the closing quote. *)
Fixpoint close_quote (s : bytes) : option bytes :=
  match s with
  | [] => None
  | c :: t =>
    if beq c x22 then Some t
    else if beq c x5c then match t with _ :: t' => close_quote t' | [] => None end
    else close_quote t
  end.

Definition wsp (c : byte) : bool := beq c " " || beq c x09.
(** Every CR in the text starts a folded continuation CR LF (space or tab). *)
Fixpoint cr_folded (s : bytes) : bool :=
  match s with
  | [] => true
  | c :: t => (if beq c CR then match t with d :: e :: _ => beq d LF && wsp e | _ => false end else true) && cr_folded t
  end.
(** Every LF in the text is preceded by a CR. *)
Fixpoint lf_after_cr (prev : byte) (s : bytes) : bool :=
  match s with
  | [] => true
  | c :: t => (negb (beq c LF) || beq prev CR) && lf_after_cr c t
  end.

Lemma quote_class c : qdtextc c = negb (beq c x22) && negb (beq c x5c) && (in_range 32 126 c || beq c x09 || beq c CR || beq c LF).
Proof. apply eqb_prop. revert c. by_bytes. Qed.

Lemma quote_close s : forall rest, close_quote (quote_loop s ++ x22 :: rest) = Some rest.
Proof.
  induction s as [|c s IH]; intros rest; cbn [quote_loop app].
  - reflexivity.
  - destruct (qdtextc c) eqn:Q.
    + rewrite quote_class, !andb_true_iff, !negb_true_iff in Q. destruct Q as [[Q1 Q2] _].
      destruct (beq c x0d).
      * destruct s as [|d [|e s']]; try reflexivity.
        destruct (beq d x0a && (beq e " " || beq e x09)); [|reflexivity].
        rewrite <- app_comm_cons. cbn [close_quote]. rewrite Q1, Q2. apply IH.
      * rewrite <- app_comm_cons. cbn [close_quote]. rewrite Q1, Q2. apply IH.
    + destruct (qdtextesc c); cbn [negb]; [|reflexivity].
      rewrite <- !app_comm_cons. cbn [close_quote]. change (beq x5c x22) with false. change (beq x5c x5c) with true. cbv iota. apply IH.
Qed.

Lemma quote_folded s : cr_folded (quote_loop s ++ [x22]) = true.
Proof.
  induction s as [|c s IH]; cbn [quote_loop]; [reflexivity|].
  destruct (qdtextc c) eqn:Q.
  - destruct (beq c x0d) eqn:C.
    + destruct s as [|d [|e s']]; try reflexivity.
      destruct (beq_reflect d x0a) as [->|]; [|reflexivity]. cbn [andb].
      destruct (beq e " " || beq e x09) eqn:W; [|reflexivity].
      cbn [app cr_folded]. unfold CR. rewrite C.
      assert (Qe : qdtextc e = true /\ beq e x0d = false).
      { clear -W. assert (K : negb (beq e " " || beq e x09) || (qdtextc e && negb (beq e x0d)) = true) by (clear; revert e; by_bytes).
        rewrite W in K. cbn [negb orb] in K. apply andb_true_iff in K. destruct K as [K1 K2]. apply negb_true_iff in K2. auto. }
      destruct Qe as [Qe1 Qe2].
      change (quote_loop (x0a :: e :: s')) with (x0a :: quote_loop (e :: s')) in *.
      assert (E : quote_loop (e :: s') = e :: quote_loop s') by (cbn [quote_loop]; rewrite Qe1, Qe2; reflexivity).
      rewrite E in *. cbn [app]. unfold wsp at 1, LF. rewrite beq_refl, W. exact IH.
    + cbn [app cr_folded]. unfold CR. rewrite C. exact IH.
  - destruct (qdtextesc c) eqn:X; cbn [negb]; [|reflexivity].
    cbn [app cr_folded]. change (beq x5c CR) with false. cbn [andb].
    assert (C : beq c CR = false).
    { clear -Q. assert (K : qdtextc c || negb (beq c CR) = true) by (clear; revert c; by_bytes). rewrite Q in K. apply negb_true_iff. exact K. }
    rewrite C. exact IH.
Qed.

(** The text written for a display name or parameter value [s]: *)
Theorem quoted_cannot_close_early : forall s,
  (forallb (fun c => token_class c || beq c " ") s = true /\ appendQuoted s = s) \/
  (exists body, appendQuoted s = x22 :: body ++ [x22] /\ forall rest, close_quote (body ++ x22 :: rest) = Some rest).
Proof.
  intros s. unfold appendQuoted.
  destruct (existsb (fun c => negb (tokenc c) && negb (beq c " ")) s) eqn:E.
  - right. exists (quote_loop s). split; [reflexivity|]. apply quote_close.
  - left. split; [|reflexivity]. apply forallb_forall. intros c Hc.
    destruct (token_class c || beq c " ") eqn:K; [reflexivity|]. exfalso.
    assert (N : existsb (fun c => negb (tokenc c) && negb (beq c " ")) s = true); [|congruence].
    apply existsb_exists. exists c. split; [exact Hc|].
    apply orb_false_iff in K. destruct K as [K1 K2]. rewrite K2.
    assert (T : Bool.eqb (tokenc c) (token_class c) = true) by (clear; revert c; by_bytes).
    apply eqb_prop in T. rewrite T, K1. reflexivity.
Qed.

Lemma no_cr_folded s : forallb (fun c => negb (beq c CR)) s = true -> cr_folded s = true.
Proof.
  induction s as [|c s IH]; [reflexivity|]. cbn [forallb]. rewrite andb_true_iff. intros [N1 N2].
  apply negb_true_iff in N1. cbn [cr_folded]. rewrite N1. apply IH, N2.
Qed.

Lemma no_lf_after s : forall p, forallb (fun c => negb (beq c LF)) s = true -> lf_after_cr p s = true.
Proof.
  induction s as [|c s IH]; [reflexivity|]. intros p. cbn [forallb]. rewrite andb_true_iff. intros [N1 N2].
  cbn [lf_after_cr]. rewrite N1. apply IH, N2.
Qed.

Lemma unquoted s : existsb (fun c => negb (tokenc c) && negb (beq c " ")) s = false ->
  forallb (fun c => token_class c || beq c " ") s = true.
Proof.
  intros E. apply forallb_forall. intros c Hc.
  destruct (token_class c || beq c " ") eqn:K; [reflexivity|]. exfalso.
  assert (N : existsb (fun c => negb (tokenc c) && negb (beq c " ")) s = true); [|congruence].
  apply existsb_exists. exists c. split; [exact Hc|].
  apply orb_false_iff in K. destruct K as [K1 K2]. rewrite K2.
  assert (T : Bool.eqb (tokenc c) (token_class c) = true) by (clear; revert c; by_bytes).
  apply eqb_prop in T. rewrite T, K1. reflexivity.
Qed.

Theorem quoted_folds_line_breaks : forall s, cr_folded (appendQuoted s) = true.
Proof.
  intros s. unfold appendQuoted. destruct (existsb _ s) eqn:E.
  - unfold appendQuoteQuoted. cbn [app cr_folded]. change (beq x22 CR) with false. cbn [andb]. apply quote_folded.
  - apply no_cr_folded. eapply forallb_byte_impl; [|apply unquoted, E]. vm_compute. reflexivity.
Qed.

Lemma quote_lf s : forall p, lf_after_cr p s = true -> lf_after_cr p (quote_loop s ++ [x22]) = true.
Proof.
  induction s as [|c s IH]; intros p; cbn [quote_loop lf_after_cr]; [reflexivity|].
  rewrite andb_true_iff. intros [L1 L2].
  destruct (qdtextc c) eqn:Q.
  - destruct (beq c x0d) eqn:C.
    + destruct s as [|d [|e s']]; try reflexivity.
      destruct (beq d x0a && (beq e " " || beq e x09)); [|reflexivity].
      rewrite <- app_comm_cons. cbn [lf_after_cr]. rewrite L1. apply IH, L2.
    + rewrite <- app_comm_cons. cbn [lf_after_cr]. rewrite L1. apply IH, L2.
  - destruct (qdtextesc c) eqn:X; cbn [negb]; [|reflexivity].
    rewrite <- !app_comm_cons. cbn [lf_after_cr]. change (beq x5c LF) with false. cbn [negb orb andb].
    assert (C : beq c LF = false).
    { clear -Q. assert (K : qdtextc c || negb (beq c LF) = true) by (clear; revert c; by_bytes). rewrite Q in K. apply negb_true_iff. exact K. }
    rewrite C. apply IH, L2.
Qed.

(** If no LF stands alone in the value, no LF stands alone in the text: with the previous theorem, every line
    break written is inside a fold, so no header can be started. *)
Theorem quoted_no_new_line : forall s, lf_after_cr x00 s = true -> lf_after_cr x00 (appendQuoted s) = true.
Proof.
  intros s H. unfold appendQuoted. destruct (existsb _ s) eqn:E.
  - unfold appendQuoteQuoted. cbn [app lf_after_cr]. change (beq x22 LF) with false. cbn [negb orb andb].
    apply quote_lf. destruct s as [|c s]; [reflexivity|]. cbn [lf_after_cr] in *.
    change (beq x00 CR) with false in H. exact H.
  - exact H.
Qed.

(** A lone LF in the value is written as it stands. *)
Theorem quoted_lone_lf_refuted : exists s, lf_after_cr x00 (appendQuoted s) = false.
Proof. exists (B "Bob" ++ [LF] ++ B "Evil: yes"). reflexivity. Qed.

(** Reading a quoted string back: quoted pairs unescaped. *)
Fixpoint unquote (s : bytes) : bytes :=
  match s with
  | [] => []
  | c :: t =>
    if beq c x22 then []
    else if beq c x5c then match t with d :: t' => d :: unquote t' | [] => [] end
    else c :: unquote t
  end.
(** Values made of bytes below 128 without line breaks are written in full; *)
Theorem quoted_lossless : forall s,
  forallb (fun c => (bz c <? 128) && negb (beq c CR) && negb (beq c LF)) s = true ->
  (forallb (fun c => token_class c || beq c " ") s = true /\ appendQuoted s = s) \/
  (exists body, appendQuoted s = x22 :: body /\ unquote body = s).
Proof.
  intros s H. unfold appendQuoted. destruct (existsb _ s) eqn:E.
  - right. exists (quote_loop s ++ [x22]). split; [reflexivity|]. clear E.
    induction s as [|c s IH]; [reflexivity|]. cbn [forallb] in H. apply andb_true_iff in H. destruct H as [H1 H2].
    specialize (IH H2). cbn [quote_loop].
    rewrite !andb_true_iff, !negb_true_iff in H1. destruct H1 as [[H1 Hc] Hl].
    destruct (qdtextc c) eqn:Q.
    + unfold CR in Hc. rewrite Hc. rewrite quote_class, !andb_true_iff, !negb_true_iff in Q. destruct Q as [[Q1 Q2] _].
      cbn [app unquote]. rewrite Q1, Q2, IH. reflexivity.
    + assert (X : qdtextesc c = true).
      { clear -H1 Hc Hl. assert (K : negb (bz c <? 128) || beq c CR || beq c LF || qdtextesc c = true) by (clear; revert c; by_bytes).
        rewrite H1, Hc, Hl in K. exact K. }
      rewrite X. cbn [negb app unquote]. change (beq x5c x22) with false. change (beq x5c x5c) with true. cbv iota. rewrite IH. reflexivity.
  - left. split; [apply unquoted, E|reflexivity].
Qed.

(** but a byte of 128 or more (any UTF-8 letter outside ASCII) cuts the value short. *)
Theorem quoted_utf8_lost_refuted : forall s c rest, forallb (fun d => negb (beq d CR)) s = true -> 128 <= bz c ->
  appendQuoted (s ++ c :: rest) = appendQuoted (s ++ [c]).
Proof.
  intros s c rest N H.
  assert (Q : qdtextc c = false /\ qdtextesc c = false /\ tokenc c = false /\ beq c " " = false).
  { apply Z.leb_le in H. assert (K : negb (128 <=? bz c) || (negb (qdtextc c) && negb (qdtextesc c) && negb (tokenc c) && negb (beq c " ")) = true) by (clear; revert c; by_bytes).
    rewrite H in K. cbn [negb orb] in K. rewrite !andb_true_iff, !negb_true_iff in K. tauto. }
  destruct Q as (Q1 & Q2 & Q3 & Q4).
  assert (E : forall r, existsb (fun c => negb (tokenc c) && negb (beq c " ")) (s ++ c :: r) = true).
  { intros r. apply existsb_exists. exists c. split; [apply in_app_iff; right; left; reflexivity|]. rewrite Q3, Q4. reflexivity. }
  unfold appendQuoted. rewrite !E. unfold appendQuoteQuoted. cbn [app]. f_equal. f_equal. clear E.
  induction s as [|d s IH]; cbn [app].
  - cbn [quote_loop]. rewrite Q1, Q2. reflexivity.
  - cbn [forallb] in N. apply andb_true_iff in N. destruct N as [N1 N2]. apply negb_true_iff in N1.
    cbn [quote_loop]. unfold CR in N1. rewrite N1, (IH N2). reflexivity.
Qed.

Example quote_nonvacuous :
  appendQuoted (B "Bob ""Evil"" <sip:x>") = B """Bob \""Evil\"" <sip:x>""" /\
  appendQuoted (B "a" ++ CRLF ++ B " b") = [x22] ++ B "a" ++ CRLF ++ B " b" ++ [x22] /\
  appendQuoted (B "a" ++ CRLF ++ B "Via: x") = B """a""".
Proof. repeat split. Qed.
Example escape_nonvacuous :
  appendEscaped userc (B "a b@c%") = B "a%20b%40c%25" /\ pct_decode (B "a%20b%40c%25") = B "a b@c%".
Proof. split; reflexivity. Qed.

(** ** C04: header and parameter names *)
(** t is s with some bytes left out *)
Inductive subseq : bytes -> bytes -> Prop :=
| sub_nil : subseq [] []
| sub_keep c t s : subseq t s -> subseq (c :: t) (c :: s)
| sub_skip c t s : subseq t s -> subseq t (c :: s).

Theorem sanitized_name : forall s,
  forallb token_class (appendSanitized tokenc s) = true /\
  subseq (appendSanitized tokenc s) s /\
  (forall c, token_class c = true -> count_occ byte_eq_dec (appendSanitized tokenc s) c = count_occ byte_eq_dec s c) /\
  (forallb token_class s = true -> appendSanitized tokenc s = s).
Proof.
  assert (T : forall c, tokenc c = token_class c) by (intros c; apply eqb_prop; revert c; by_bytes).
  intros s. repeat split.
  - unfold appendSanitized. induction s as [|c s IH]; [reflexivity|]. cbn [filter]. rewrite T.
    destruct (token_class c) eqn:E; [cbn [forallb]; rewrite E|]; exact IH.
  - unfold appendSanitized. induction s as [|c s IH]; [constructor|]. cbn [filter]. rewrite T.
    destruct (token_class c) eqn:E; constructor; exact IH.
  - intros c Hc. unfold appendSanitized. induction s as [|d s IH]; [reflexivity|]. cbn [filter count_occ]. rewrite T.
    destruct (token_class d) eqn:E; [cbn [count_occ]|]; destruct (byte_eq_dec d c); congruence.
  - unfold appendSanitized. induction s as [|c s IH]; [reflexivity|]. cbn [forallb filter]. rewrite andb_true_iff, T.
    intros [-> H]. rewrite (IH H). reflexivity.
Qed.

(** One Via or address parameter: ";" name, and "=" value if the value is not empty. *)
Theorem param_text : forall n v l, exists tn tv,
  param_append ((n, v) :: l) = param_append l ++ B ";" ++ tn ++ tv /\
  forallb token_class tn = true /\ subseq tn n /\ (forallb token_class n = true -> tn = n) /\
  cr_folded tv = true /\
  (v = [] /\ tv = [] \/ v <> [] /\
    ((forallb (fun c => token_class c || beq c " ") v = true /\ tv = B "=" ++ v) \/
     exists body, tv = B "=" ++ [x22] ++ body ++ [x22] /\ forall rest, close_quote (body ++ x22 :: rest) = Some rest)).
Proof.
  intros n v l. destruct (sanitized_name n) as (S1 & S2 & _ & S3).
  exists (appendSanitized tokenc n), (match v with [] => [] | _ => B "=" ++ appendQuoted v end).
  split. { cbn [param_append]. reflexivity. }
  split; [exact S1|]. split; [exact S2|]. split; [exact S3|]. split.
  - destruct v as [|c v]; [reflexivity|]. change (B "=") with ["="%byte]. cbn [app cr_folded].
    change (beq "=" CR) with false. cbn [andb]. apply quoted_folds_line_breaks.
  - destruct v as [|c v]; [left; auto|right]. split; [discriminate|].
    destruct (quoted_cannot_close_early (c :: v)) as [[H ->]|(body & -> & K)]; [left; auto|right; exists body; auto].
Qed.

(** One extension header: name, ": ", value, CRLF. The name is sanitised, the value is not. *)
Theorem xheader_text : forall n v l, exists tn,
  xheader_append ((n, v) :: l) = xheader_append l ++ tn ++ B ": " ++ v ++ CRLF /\
  forallb token_class tn = true /\ subseq tn n /\ (forallb token_class n = true -> tn = n).
Proof.
  intros n v l. destruct (sanitized_name n) as (S1 & S2 & _ & S3).
  exists (appendSanitized tokenc n). split; [|auto]. cbn [xheader_append]. rewrite <- ?app_assoc. reflexivity.
Qed.

(** So an application-supplied value with a line break does start a new header. *)
Theorem xheader_value_injection_refuted :
  xheader_append [(B "X-Note", B "hi" ++ CRLF ++ B "Via: evil")] = B "X-Note: hi" ++ CRLF ++ B "Via: evil" ++ CRLF.
Proof. reflexivity. Qed.

Example sanitize_nonvacuous :
  appendSanitized tokenc (B "X-Evil: 1" ++ CRLF ++ B "Via") = B "X-Evil1Via" /\
  param_append [(B "b", B "2 3;"); (B "a", B "1")] = B ";a=1;b=""2 3;""".
Proof. split; reflexivity. Qed.

(** ** C58: identifiers *)
Definition lower_hex (c : byte) : bool := one_of (B "0123456789abcdef") c.

Lemma hex_encode_hex b : forallb lower_hex (hex_encode b) = true.
Proof.
  induction b as [|c b IH]; [reflexivity|]. cbn [hex_encode forallb].
  assert (K : lower_hex (hexChar (bz c / 16)) && lower_hex (hexChar (bz c mod 16)) = true) by (clear; revert c; by_bytes).
  apply andb_true_iff in K. destruct K as [-> ->]. exact IH.
Qed.
Lemma hex_encode_length b : length (hex_encode b) = (2 * length b)%nat.
Proof. induction b as [|c b IH]; [reflexivity|]. cbn [hex_encode length]. lia. Qed.
Lemma hex_encode_inj a : forall b, hex_encode a = hex_encode b -> a = b.
Proof.
  assert (D : forall c, zb (16 * hex_value (hexChar (bz c / 16)) + hex_value (hexChar (bz c mod 16))) = c).
  { intros c. apply beq_spec. revert c. by_bytes. }
  induction a as [|c a IH]; intros [|d b]; cbn [hex_encode]; try discriminate; [reflexivity|].
  intros H. inversion H as [[H1 H2 H3]]. f_equal; [|apply IH, H3].
  rewrite <- (D c), <- (D d), H1, H2. reflexivity.
Qed.

Theorem tags_and_branches : forall r r', length r = 6%nat ->
  length (GenerateTag r) = 12%nat /\ forallb lower_hex (GenerateTag r) = true /\
  (exists t, GenerateBranch r = B "z9hG4bK-" ++ t /\ length t = 12%nat /\ forallb lower_hex t = true) /\
  (GenerateTag r = GenerateTag r' -> r = r') /\ (GenerateBranch r = GenerateBranch r' -> r = r').
Proof.
  intros r r' H. unfold GenerateTag, GenerateBranch.
  assert (L : length (hex_encode r) = 12%nat) by (rewrite hex_encode_length; lia).
  split; [exact L|]. split; [apply hex_encode_hex|]. split; [exists (hex_encode r); auto using hex_encode_hex|].
  split; [apply hex_encode_inj|]. intros K. apply app_inv_head in K. apply hex_encode_inj, K.
Qed.

(** RFC 4122 text form of a version 4 UUID *)
Definition uuid4 (s : bytes) : Prop := exists a b c d e,
  s = a ++ B "-" ++ b ++ B "-4" ++ c ++ B "-a" ++ d ++ B "-" ++ e /\
  length a = 8%nat /\ length b = 4%nat /\ length c = 3%nat /\ length d = 3%nat /\ length e = 12%nat /\
  forallb lower_hex (a ++ b ++ c ++ d ++ e) = true.

Lemma list30 {A} (h : list A) : length h = 30%nat -> h =
  firstn 8 h ++ firstn 4 (skipn 8 h) ++ firstn 3 (skipn 12 h) ++ firstn 3 (skipn 15 h) ++ firstn 12 (skipn 18 h).
Proof. intros L. do 30 (destruct h as [|? h]; [discriminate L|]). destruct h; [reflexivity|discriminate L]. Qed.

Theorem callid_is_uuid : forall r, length r = 15%nat -> exists s, GenerateCallID r = Ok s /\ uuid4 s /\ length s = 36%nat.
Proof.
  intros r H. assert (L : length (hex_encode r) = 30%nat) by (rewrite hex_encode_length; lia).
  pose proof (hex_encode_hex r) as X. unfold GenerateCallID. set (h := hex_encode r) in *. clearbody h. clear H r.
  unfold slice_of, rbind. rewrite L. cbn [Nat.leb andb Nat.sub].
  eexists. split; [reflexivity|]. split.
  - do 5 eexists. split; [reflexivity|].
    rewrite !firstn_length, !skipn_length, L. do 5 (split; [lia|]).
    rewrite (list30 h L) in X. exact X.
  - rewrite !app_length, !firstn_length, !skipn_length, L. reflexivity.
Qed.

Lemma app_inv_len {A} (a b a' b' : list A) : length a = length a' -> a ++ b = a' ++ b' -> a = a' /\ b = b'.
Proof.
  revert a'. induction a as [|x a IH]; intros [|y a'] L H; try discriminate; [auto|].
  cbn in *. injection H as -> H. injection L as L. destruct (IH a' L H) as [-> ->]. auto.
Qed.

Theorem callid_injective : forall r r', length r = 15%nat -> length r' = 15%nat -> GenerateCallID r = GenerateCallID r' -> r = r'.
Proof.
  intros r r' H H' E. apply hex_encode_inj.
  assert (L : length (hex_encode r) = 30%nat) by (rewrite hex_encode_length; lia).
  assert (L' : length (hex_encode r') = 30%nat) by (rewrite hex_encode_length; lia).
  unfold GenerateCallID in E. set (h := hex_encode r) in *. set (h' := hex_encode r') in *. clearbody h h'.
  unfold slice_of, rbind in E. rewrite L, L' in E. cbn [Nat.leb andb Nat.sub] in E.
  change (skipn 0 h) with h in E. change (skipn 0 h') with h' in E.
  assert (okinj : forall x y : bytes, Ok x = Ok y -> x = y) by (intros x y K; congruence). apply okinj in E.
  assert (A : forall (x y z w : bytes) n, length x = n -> length y = n -> x ++ z = y ++ w -> x = y /\ z = w)
    by (intros x y z w n K1 K2; apply app_inv_len; congruence).
  rewrite (list30 h L), (list30 h' L').
  assert (F : forall a b, (a + b <= 30)%nat -> length (firstn a (skipn b h)) = a /\ length (firstn a (skipn b h')) = a)
    by (intros a b K; rewrite !firstn_length, !skipn_length, L, L'; split; lia).
  pose proof (F 8 0 ltac:(lia))%nat as [? ?]. pose proof (F 4 8 ltac:(lia))%nat as [? ?].
  pose proof (F 3 12 ltac:(lia))%nat as [? ?]. pose proof (F 3 15 ltac:(lia))%nat as [? ?].
  eapply A in E; [|eassumption..]. destruct E as [-> E]. apply app_inv_head in E.
  eapply A in E; [|eassumption..]. destruct E as [-> E]. apply app_inv_head in E.
  eapply A in E; [|eassumption..]. destruct E as [-> E]. apply app_inv_head in E.
  eapply A in E; [|eassumption..]. destruct E as [-> E]. apply app_inv_head in E. rewrite E. reflexivity.
Qed.

Theorem cseq_and_origin : forall d,
  0 <= GenerateCSeq d < 50000 /\
  exists n, 0 <= n < 2 ^ 32 - 1 /\ GenerateOriginID d = itoa n /\ digits_value (GenerateOriginID d) = Some n /\
    forallb (one_of (B "0123456789")) (GenerateOriginID d) = true /\ GenerateOriginID d <> [].
Proof.
  intros d. split; [unfold GenerateCSeq; lia|].
  exists (d mod (2 ^ 32 - 1)). assert (R : 0 <= d mod (2 ^ 32 - 1) < 2 ^ 32 - 1) by lia.
  split; [exact R|]. unfold GenerateOriginID. split; [reflexivity|].
  rewrite itoa_nonneg by lia. split; [apply utoa_value; lia|]. split; [|apply utoa_nonempty].
  eapply forallb_byte_impl; [|apply utoa_digits; lia]. vm_compute. reflexivity.
  Unshelve. all: lia.
Qed.

(** Tokens are written without quotes, so tags and branches appear on the wire as generated; Call-IDs are written raw
    (sip/msg.go:195) and are tokens too. *)
Lemma token_unquoted s : forallb token_class s = true -> appendQuoted s = s.
Proof.
  intros H. unfold appendQuoted. replace (existsb _ s) with false; [reflexivity|]. symmetry.
  induction s as [|c s IH]; [reflexivity|]. cbn [forallb existsb] in *. apply andb_prop in H. destruct H as [H1 H2]. rewrite (IH H2).
  assert (K : negb (token_class c) || tokenc c = true) by (clear; revert c; by_bytes). rewrite H1 in K. cbn in K. rewrite K. reflexivity.
Qed.
Theorem identifiers_unquoted : forall r,
  (forall t, t = GenerateTag r \/ t = GenerateBranch r -> forallb token_class t = true /\ appendQuoted t = t) /\
  (forall t, GenerateCallID r = Ok t -> length r = 15%nat -> forallb token_class t = true /\ appendQuoted t = t).
Proof.
  intros r.
  assert (X : forall b, forallb lower_hex b = true -> forallb token_class b = true) by (intros b; apply forallb_byte_impl; vm_compute; reflexivity).
  assert (T : forallb token_class (GenerateTag r) = true) by (apply X, hex_encode_hex).
  split.
  - intros t [->| ->].
    + split; [exact T|apply token_unquoted, T].
    + assert (K : forallb token_class (GenerateBranch r) = true) by (unfold GenerateBranch; rewrite forallb_app', T; reflexivity).
      split; [exact K|apply token_unquoted, K].
  - intros t E L. destruct (callid_is_uuid r L) as (s & E' & (a & b & c & d & e & -> & _ & _ & _ & _ & _ & F) & _).
    rewrite E in E'. assert (E2 : t = a ++ B "-" ++ b ++ B "-4" ++ c ++ B "-a" ++ d ++ B "-" ++ e) by congruence. subst t.
    apply X in F. rewrite !forallb_app' in F. repeat (apply andb_prop in F; destruct F as [? F]).
    match goal with |- forallb token_class ?s = true /\ _ => assert (K : forallb token_class s = true) end.
    { rewrite !forallb_app'. repeat (apply andb_true_intro; split); try assumption; reflexivity. }
    split; [exact K|apply token_unquoted, K].
Qed.

Example identifiers_nonvacuous :
  GenerateBranch (B "abcdef") = B "z9hG4bK-616263646566" /\
  GenerateCallID (B "abcdefghijklmno") = Ok (B "61626364-6566-4676-a869-6a6b6c6d6e6f").
Proof. split; vm_compute; reflexivity. Qed.

Print Assumptions escape_legal.
Print Assumptions escape_decodes.
Print Assumptions uri_string_shape.
Print Assumptions quoted_cannot_close_early.
Print Assumptions quoted_folds_line_breaks.
Print Assumptions quoted_no_new_line.
Print Assumptions quoted_lossless.
Print Assumptions sanitized_name.
Print Assumptions param_text.
Print Assumptions xheader_text.
Print Assumptions tags_and_branches.
Print Assumptions callid_is_uuid.
Print Assumptions callid_injective.
Print Assumptions cseq_and_origin.
Print Assumptions identifiers_unquoted.
