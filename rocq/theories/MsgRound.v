(** Reading back what Msg.Append writes: the lemmas, and the general form of the round trip (C16). *)
From Verif Require Import Bytes BytesLemmas GoLib GoLibLemmas SdpModel SdpProofs SipText SipTypes SipAppend P_Text UriSpec UriModel P_Uri P_Sdp MsgModel MsgSafe MsgSpec MsgNames MsgMeaning MsgLines P_Msg P_MsgText MsgWf.
Local Open Scope Z_scope.

(** ** Quoting *)
Lemma tokenc_class c : tokenc c = token_class c.
Proof. apply eqb_prop. revert c. by_bytes. Qed.
Lemma needs_quotes_exists s : needs_quotes s -> existsb (fun c => negb (tokenc c) && negb (beq c " ")) s = true.
Proof. intros (c & I & T & N). apply existsb_exists. exists c. split; [exact I|]. rewrite tokenc_class, T. apply beq_neq in N. change SP with " "%byte in N. rewrite N. reflexivity. Qed.
Lemma plain_unquoted s : forallb (fun c => token_class c || beq c SP) s = true -> appendQuoted s = s.
Proof.
  intros H. unfold appendQuoted. replace (existsb _ s) with false; [reflexivity|]. symmetry. apply not_true_iff_false. intros E. apply existsb_exists in E. destruct E as (c & I & E).
  rewrite forallb_forall in H. specialize (H c I). rewrite tokenc_class in E. change SP with " "%byte in H. destruct (token_class c), (beq c " "); discriminate.
Qed.
Lemma quote_text s : ascii_text s -> quoted_text (quote_loop s) s.
Proof.
  induction 1 as [|c t A N1 N2 H IH|c t Bc H IH]; [constructor| |].
  - cbn [quote_loop]. destruct (qdtextc c) eqn:Q.
    + apply beq_neq in N1. unfold CR in N1. rewrite N1. constructor; [|exact IH].
      assert (K : implb (qdtextc c && negb (beq c x0d) && negb (beq c x0a)) (quoted_class c) = true) by (clear; revert c; by_bytes).
      apply beq_neq in N2. unfold LF in N2. rewrite Q, N1, N2 in K. exact K.
    + assert (K : implb ((bz c <? 128) && negb (beq c x0d) && negb (beq c x0a)) (qdtextesc c && escapable c) = true) by (clear; revert c; by_bytes).
      apply beq_neq in N1, N2. unfold CR, LF in *. rewrite N1, N2 in K. replace (bz c <? 128) with true in K by (symmetry; apply Z.ltb_lt; exact A). cbn in K. apply andb_prop in K. destruct K as [K1 K2].
      rewrite K1. cbn [negb]. constructor; assumption.
  - cbn [quote_loop]. change (qdtextc CR) with true. change (beq CR x0d) with true. cbv iota.
    assert (QL : qdtextc LF = true) by reflexivity. assert (QC : qdtextc c = true) by (assert (K : implb (blank c) (qdtextc c) = true) by (clear; revert c; by_bytes); rewrite Bc in K; exact K).
    assert (NC : beq c x0d = false) by (assert (K : implb (blank c) (negb (beq c x0d)) = true) by (clear; revert c; by_bytes); rewrite Bc in K; apply negb_true_iff; exact K).
    change (beq LF x0a) with true. replace (beq c " " || beq c x09) with true by (symmetry; exact Bc). cbv iota. change (beq LF x0d) with false. rewrite QL, QC, NC. cbv iota.
    constructor; [exact Bc|exact IH].
Qed.
Lemma quotable_text s : quotable s -> exists q, appendQuoted s = [DQ] ++ q ++ [DQ] /\ quoted_text q s.
Proof.
  intros [N A]. exists (quote_loop s). split; [|apply quote_text; exact A]. unfold appendQuoted. rewrite (needs_quotes_exists s N). reflexivity.
Qed.
Lemma token_unquoted s : token s -> appendQuoted s = s.
Proof. intros [_ H]. apply plain_unquoted. revert H. apply forallb_impl. intros c ->. reflexivity. Qed.
Lemma token_sanitized s : token s -> appendSanitized tokenc s = s.
Proof.
  intros [_ H]. unfold appendSanitized. induction s as [|c s IH]; [reflexivity|]. cbn [forallb filter] in *. apply andb_prop in H. destruct H as [H1 H2]. rewrite tokenc_class, H1, (IH H2). reflexivity.
Qed.
Lemma sws_nil : sws []. Proof. left. reflexivity. Qed.
Lemma sep_one c : sep c [c]. Proof. exists [], []. repeat split; apply sws_nil. Qed.

(** ** The pieces of a message as they are written *)
Lemma chain_app {X} (P : bytes -> X -> Prop) a xs b ys : chain P a xs -> chain P b ys -> chain P (a ++ b) (xs ++ ys).
Proof. induction 1 as [|t x ts xs H _ IH]; intros K; [exact K|]. rewrite <- app_assoc. cbn [app]. constructor; auto. Qed.
Lemma params_chain ps : Forall param_ok ps -> chain semi_param (param_append ps) (rev ps).
Proof.
  induction 1 as [|[n v] ps (T & V) _ IH]; [constructor|]. cbn [param_append rev fst snd] in *. apply chain_app; [exact IH|].
  rewrite <- (app_nil_r (B ";" ++ _)). constructor; [|constructor]. exists (B ";"). eexists. split; [reflexivity|]. split; [apply sep_one|]. eexists. cbn [fst snd]. split; [rewrite (token_sanitized n T); reflexivity|].
  split; [exact T|]. destruct v as [|c v]; [left; auto|right]. exists (B "="). eexists. split; [reflexivity|]. split; [apply sep_one|].
  destruct V as [V|[V|V]]; [discriminate| |].
  - rewrite (token_unquoted _ V). left. split; [reflexivity|]. split; [apply V|]. destruct V as [_ V]. revert V. apply forallb_impl. intros x E. unfold pvalue_class. rewrite E. reflexivity.
  - destruct (quotable_text _ V) as (q & -> & Q). right. eauto.
Qed.
Lemma addr_written a : addr_ok a -> exists u, a_uri a = Some u /\
  addr_text ((match a_display a with [] => [] | d => appendQuoted d ++ B " " end) ++ B "<" ++ uri_string (a_uri a) ++ B ">" ++ param_append (a_param a)) a false.
Proof.
  intros ((u & EU & W & NA) & D & P). exists u. split; [exact EU|]. rewrite EU.
  exists false, ((match a_display a with [] => [] | d => appendQuoted d ++ B " " end) ++ B "<" ++ uri_string (Some u) ++ B ">" ++ []), (param_append (a_param a)), u.
  split; [rewrite <- !app_assoc; reflexivity|]. split; [exact EU|]. split.
  - cbn [addr_head]. eexists _, _, []. split; [reflexivity|]. split; [|split; [apply uri_parse_exact; apply uri_round_trip_partial; assumption|apply sws_nil]].
    destruct (a_display a) as [|c d]; [left; auto|right]. destruct D as [D|[D|[D1 D2]]]; [discriminate| |].
    + left. destruct (quotable_text _ D) as (q & -> & Q). exists q, (B " "). rewrite <- !app_assoc. split; [reflexivity|]. split; [exact Q|]. left. reflexivity.
    + right. rewrite (plain_unquoted _ D2). exists (B " "). split; [reflexivity|]. split; [exact D1|]. split; [left; reflexivity|discriminate].
  - pose proof (params_chain _ P) as C. inversion C as [E1 E2|t x ts xs (e & y & -> & S & Q) C2 E1 E2]; [left; auto|right].
    exists e, y, x, ts, xs. rewrite <- app_assoc. auto 8.
Qed.
Lemma addrs_written l : l <> [] -> Forall addr_ok l -> addr_list (addr_append l) l.
Proof.
  intros N F. induction F as [|a l A F IH]; [congruence|]. destruct (addr_written a A) as (u & _ & H). destruct l as [|a' l].
  - cbn [addr_append]. rewrite app_nil_r. econstructor. exact H.
  - change (addr_append (a :: a' :: l)) with ((match a_display a with [] => [] | d => appendQuoted d ++ B " " end) ++ B "<" ++ uri_string (a_uri a) ++ B ">" ++ param_append (a_param a) ++ B ", " ++ addr_append (a' :: l)).
    specialize (IH ltac:(discriminate)). revert IH. generalize (addr_append (a' :: l)). intros r IH.
    replace (_ ++ _) with (((match a_display a with [] => [] | d => appendQuoted d ++ B " " end) ++ B "<" ++ uri_string (a_uri a) ++ B ">" ++ param_append (a_param a)) ++ B ", " ++ r) by (rewrite <- !app_assoc; reflexivity).
    econstructor; [exact H| |exact IH]. exists [], (B " "). split; [reflexivity|]. split; [apply sws_nil|]. left. reflexivity.
Qed.
(** a port of 5060 is not written and reads back as 0 *)
Definition default_port_dropped (v : via) : via :=
  mkvia (v_protocol v) (v_version v) (v_transport v) (v_host v) (if v_port v =? 5060 then 0 else v_port v) (v_param v).
Lemma itoa_number n : 0 <= n -> number (itoa n) n.
Proof. intros H. rewrite itoa_nonneg by exact H. apply utoa_value. exact H. Qed.
Lemma via_written v : via_ok v -> via_text (via_append v) (default_port_dropped v).
Proof.
  intros (T1 & T2 & T3 & HN & HF & PR & PS). exists (B "/"), (B "/"), (B " "), (v_host v). eexists (if v_port v =? 5060 then [] else _), (param_append (v_param v)).
  cbn [default_port_dropped v_protocol v_version v_transport v_host v_port v_param]. split.
  { unfold via_append. destruct (v_protocol v) as [|c1 p1]; [destruct T1; congruence|]. destruct (v_version v) as [|c2 p2]; [destruct T2; congruence|]. destruct (v_transport v) as [|c3 p3]; [destruct T3; congruence|].
    rewrite <- !app_assoc. reflexivity. }
  split; [exact T1|]. split; [apply sep_one|]. split; [exact T2|]. split; [apply sep_one|]. split; [exact T3|]. split; [split; [left; reflexivity|discriminate]|].
  split; [split; [exact HN|left; auto]|]. split; [|apply params_chain; exact PS]. destruct (v_port v =? 5060); [left; auto|right].
  exists (B ":"), (itoa (v_port v)), (v_port v). split; [reflexivity|]. split; [apply sep_one|]. split; [apply itoa_number; lia|]. symmetry. apply Z.mod_small. exact PR.
Qed.

(** ** Lines *)
Lemma hl_app a d d1 b d2 : header_lines a d d1 -> header_lines b d1 d2 -> header_lines (a ++ b) d d2.
Proof. induction 1 as [d|t d d1 ts d' H _ IH]; intros K; [exact K|]. rewrite <- !app_assoc. econstructor; eauto. Qed.
Lemma hl_one t d d1 : header_text t d d1 -> header_lines (t ++ CRLF) d d1.
Proof. intros H. rewrite <- (app_nil_r CRLF). econstructor; [exact H|constructor]. Qed.
Lemma known_line n k v d d' : find_header (map lower n) known_headers = Some k -> header_value k (B " ") v d d' -> header_lines (n ++ B ": " ++ v ++ CRLF) d d'.
Proof.
  intros K H. replace (n ++ B ": " ++ v ++ CRLF) with ((n ++ [] ++ B ":" ++ B " " ++ v) ++ CRLF) by (rewrite <- !app_assoc; reflexivity). apply hl_one.
  exists n, [], (B " "), v. split; [reflexivity|]. split; [exact (known_lower_token _ _ K)|]. split; [reflexivity|]. rewrite K. exact H.
Qed.
Lemma sws_sp : sws (B " "). Proof. left. reflexivity. Qed.

Definition put_str (f : sfield) (v : bytes) (s : sfield -> bytes) : sfield -> bytes := match v with [] => s | _ => fun g => if sfield_eqb f g then v else s g end.
Definition op_str (f : sfield) (v : bytes) (m : msg) : msg := set_strs (put_str f v (strs m)) m.
Definition op_addr (f : afield) (l : list addr) (m : msg) : msg := set_addrs (addrs (fold_left (add_addr f) l m)) m.
Definition op_via (l : list via) (m : msg) : msg := set_vias (vias m ++ l) m.
Definition op_x (l : list param) (m : msg) : msg := set_xheader (l ++ xheader m) m.
Lemma op_addr_fold f l : forall m, fold_left (add_addr f) l m = op_addr f l m.
Proof.
  unfold op_addr. induction l as [|a l IH]; intros m; [destruct m; reflexivity|]. cbn [fold_left]. rewrite IH at 1. reflexivity.
Qed.
Lemma op_addr_get f l : forall m g, addrs (op_addr f l m) g = if afield_eqb f g then addrs m g ++ l else addrs m g.
Proof.
  unfold op_addr. induction l as [|a l IH]; intros m g; cbn [fold_left addrs set_addrs].
  - rewrite app_nil_r. destruct (afield_eqb f g); reflexivity.
  - specialize (IH (add_addr f m a) g). cbn [addrs set_addrs] in IH. rewrite IH. unfold add_addr, set_addr. cbn [addrs set_addrs]. destruct (afield_eqb f g) eqn:E; [|reflexivity].
    assert (f = g) by (destruct f, g; try discriminate; reflexivity). subst. rewrite <- app_assoc. reflexivity.
Qed.
Lemma op_str_get f v m g : strs (op_str f v m) g = (if sfield_eqb f g && match v with [] => false | _ => true end then v else strs m g).
Proof. destruct v; cbn; destruct (sfield_eqb f g); reflexivity. Qed.

Lemma str_line name n f v d : B name = n ++ B ": " -> find_header (map lower n) known_headers = Some (HStr f) -> header_val v ->
  header_lines (opt_line name v) d (with_msg (op_str f v) d).
Proof.
  intros E K [V S]. unfold opt_line, op_str. destruct v as [|c v]; [destruct d as [[] ? ?]; constructor|]. rewrite E, <- !app_assoc. apply (known_line n (HStr f)); [exact K|].
  split; [apply val_lead; [apply sws_sp|exact S]|]. auto.
Qed.
Lemma addr_line n f l d : find_header (map lower n) known_headers = Some (HAddr f) -> l <> [] -> Forall addr_ok l ->
  header_lines (n ++ B ": " ++ addr_append l ++ CRLF) d (with_msg (op_addr f l) d).
Proof.
  intros K N F. apply (known_line n (HAddr f)); [exact K|]. split; [apply sws_sp|]. exists l. split; [apply addrs_written; assumption|]. unfold with_msg. rewrite op_addr_fold. reflexivity.
Qed.
Lemma opt_addr_line name n f l d : B name = n ++ B ": " -> find_header (map lower n) known_headers = Some (HAddr f) -> Forall addr_ok l ->
  header_lines (opt_addr name l) d (with_msg (op_addr f l) d).
Proof.
  intros E K F. unfold opt_addr. destruct l as [|a l]; [destruct d as [m x y]; unfold with_msg; rewrite <- op_addr_fold; constructor|]. rewrite E, <- !app_assoc. apply addr_line; [exact K|discriminate|exact F].
Qed.
Lemma via_lines_text l : Forall via_ok l -> forall d, header_lines (via_lines l) d (with_msg (op_via (map default_port_dropped l)) d).
Proof.
  induction 1 as [|v l V _ IH]; intros d.
  - cbn. unfold op_via. destruct d as [m x y]. unfold with_msg. cbn. rewrite app_nil_r. destruct m. constructor.
  - cbn [via_lines map concat]. fold (via_lines l). rewrite <- !app_assoc. eapply (hl_app (B "Via: " ++ via_append v ++ CRLF)) || idtac.
    replace (B "Via: " ++ via_append v ++ CRLF ++ via_lines l) with ((B "Via" ++ B ": " ++ via_append v ++ CRLF) ++ via_lines l) by (rewrite <- !app_assoc; reflexivity).
    eapply hl_app.
    + apply (known_line (B "Via") HVia); [reflexivity|]. split; [apply sws_sp|]. exists [default_port_dropped v]. split; [|reflexivity].
      exists (via_append v), (default_port_dropped v), [], []. split; [rewrite app_nil_r; reflexivity|]. split; [reflexivity|]. split; [apply via_written; exact V|constructor].
    + specialize (IH (with_msg (fun m => set_vias (vias m ++ [default_port_dropped v]) m) d)). unfold with_msg, op_via in *. cbn [d_msg d_len d_type vias set_vias] in IH.
      rewrite <- app_assoc in IH. exact IH.
Qed.
Lemma xheader_lines l : Forall xheader_ok l -> forall d, header_lines (xheader_append l) d (with_msg (op_x l) d).
Proof.
  induction 1 as [|[n v] l (U & V & S) _ IH]; intros d.
  - cbn. unfold op_x. destruct d as [m x y]. destruct m. constructor.
  - cbn [xheader_append fst snd] in *. eapply hl_app; [apply IH|]. rewrite (token_sanitized n (proj1 U)). destruct (unknown_find n U) as [U1 U2].
    replace (n ++ B ": " ++ v ++ CRLF) with ((n ++ [] ++ B ":" ++ B " " ++ v) ++ CRLF) by (rewrite <- !app_assoc; reflexivity). apply hl_one.
    exists n, [], (B " "), v. split; [reflexivity|]. split; [apply U|]. split; [reflexivity|]. rewrite U1. split; [exact U2|]. split; [apply val_lead; [apply sws_sp|exact S]|]. split; [exact V|]. reflexivity.
Qed.

Definition op_maxf (resp : bool) (n : Z) (m : msg) : msg := set_maxforwards (if resp then maxforwards m else if n =? 0 then 70 else n) m.
Definition op_expires (wr : bool) (n : Z) (m : msg) : msg := set_expires (if wr then n else expires m) m.
Definition op_minexpires (wr : bool) (n : Z) (m : msg) : msg := set_minexpires (if wr then n else minexpires m) m.
Lemma maxf_line (resp : bool) n d : 0 <= n < 2 ^ 63 ->
  header_lines (if resp then [] else B "Max-Forwards: " ++ (if n =? 0 then B "70" else itoa n) ++ CRLF) d (with_msg (op_maxf resp n) d).
Proof.
  intros R. unfold op_maxf. destruct resp; [destruct d as [[] ? ?]; constructor|]. change (B "Max-Forwards: ") with (B "Max-Forwards" ++ B ": "). rewrite <- app_assoc.
  apply (known_line (B "Max-Forwards") HMaxForwards); [reflexivity|]. split; [apply sws_sp|]. exists (if n =? 0 then 70 else n). split; [destruct (n =? 0); [reflexivity|apply itoa_number; lia]|].
  rewrite i64_id; [reflexivity|]. destruct (n =? 0); lia.
Qed.
Lemma expires_line (wr : bool) n d : 0 <= n < 2 ^ 63 -> header_lines (if wr then B "Expires: " ++ itoa n ++ CRLF else []) d (with_msg (op_expires wr n) d).
Proof.
  intros R. unfold op_expires. destruct wr; [|destruct d as [[] ? ?]; constructor]. change (B "Expires: ") with (B "Expires" ++ B ": "). rewrite <- app_assoc.
  apply (known_line (B "Expires") HExpires); [reflexivity|]. split; [apply sws_sp|]. exists n. split; [apply itoa_number; lia|]. rewrite i64_id by lia. reflexivity.
Qed.
Lemma minexpires_line (wr : bool) n d : 0 <= n < 2 ^ 63 -> header_lines (if wr then B "Min-Expires: " ++ itoa n ++ CRLF else []) d (with_msg (op_minexpires wr n) d).
Proof.
  intros R. unfold op_minexpires. destruct wr; [|destruct d as [[] ? ?]; constructor]. change (B "Min-Expires: ") with (B "Min-Expires" ++ B ": "). rewrite <- app_assoc.
  apply (known_line (B "Min-Expires") HMinExpires); [reflexivity|]. split; [apply sws_sp|]. exists n. split; [apply itoa_number; lia|]. rewrite i64_id by lia. reflexivity.
Qed.
Lemma callid_line c d : callid_text c -> header_lines (B "Call-ID: " ++ c ++ CRLF) d (with_msg (set_callid c) d).
Proof.
  intros H. change (B "Call-ID: ") with (B "Call-ID" ++ B ": "). rewrite <- app_assoc. apply (known_line (B "Call-ID") HCallID); [reflexivity|]. split; [apply sws_sp|]. auto.
Qed.
Definition op_cseq (n : Z) (mth : bytes) (m : msg) : msg := set_cseqmethod mth (set_cseq n m).
Lemma cseq_line n mth d : 0 <= n < 2 ^ 63 -> token mth -> cseq (d_msg d) = 0 -> header_lines (B "CSeq: " ++ itoa n ++ B " " ++ mth ++ CRLF) d (with_msg (op_cseq n mth) d).
Proof.
  intros R T Z0. replace (B "CSeq: " ++ itoa n ++ B " " ++ mth ++ CRLF) with (B "CSeq" ++ B ": " ++ (itoa n ++ B " " ++ mth) ++ CRLF) by (rewrite <- !app_assoc; reflexivity).
  apply (known_line (B "CSeq") HCSeq); [reflexivity|]. split; [apply sws_sp|]. exists (itoa n), (B " "), n, mth. split; [reflexivity|]. split; [apply itoa_number; lia|]. split; [split; [apply sws_sp|discriminate]|]. split; [exact T|].
  unfold with_msg, op_cseq. rewrite Z0, Z.mul_0_l, Z.add_0_l, i64_id by lia. reflexivity.
Qed.
(** Retry-After is written under another name, so it comes back as an extension header *)
Definition retry_x (v : bytes) : list param := match v with [] => [] | _ => [(B "RetryAfter", v)] end.
Lemma retry_line v d : header_val v -> header_lines (opt_line "RetryAfter: " v) d (with_msg (op_x (retry_x v)) d).
Proof.
  intros [V S]. unfold opt_line, retry_x. destruct v as [|c v]; [destruct d as [[] ? ?]; constructor|].
  replace (B "RetryAfter: " ++ (c :: v) ++ CRLF) with ((B "RetryAfter" ++ [] ++ B ":" ++ B " " ++ (c :: v)) ++ CRLF) by (rewrite <- !app_assoc; reflexivity). apply hl_one.
  exists (B "RetryAfter"), [], (B " "), (c :: v). split; [reflexivity|]. split; [split; [discriminate|reflexivity]|]. split; [reflexivity|]. cbn [map]. 
  change (find_header (map lower (B "RetryAfter")) known_headers) with (@None hkind). cbv iota. split; [reflexivity|]. split; [apply val_lead; [apply sws_sp|exact S]|]. split; [exact V|]. reflexivity.
Qed.
(** the payload's header lines *)
Definition tail_head (rid : bytes) (m : msg) : bytes :=
  match pay m with
  | Some p => (B "Content-Type: " ++ ContentType p ++ CRLF) ++ (B "Content-Length: " ++ itoa (Z.of_nat (length (Data rid p))) ++ CRLF)
  | None => B "Content-Length: 0" ++ CRLF
  end.
Definition tail_body (rid : bytes) (m : msg) : bytes := match pay m with Some p => Data rid p | None => [] end.
Lemma tail_split rid m : tail_lines rid m = tail_head rid m ++ CRLF ++ tail_body rid m.
Proof. unfold tail_lines, tail_head, tail_body. destruct (pay m); rewrite <- ?app_assoc; reflexivity. Qed.
Definition op_tail (rid : bytes) (m : msg) (d : draft) : draft :=
  match pay m with Some p => mkdraft (d_msg d) (Z.of_nat (length (Data rid p))) (ContentType p) | None => mkdraft (d_msg d) 0 (d_type d) end.
Lemma tail_lines_text rid m d : (forall p, pay m = Some p -> payload_ok rid p) -> header_lines (tail_head rid m) d (op_tail rid m d).
Proof.
  intros H. unfold tail_head, op_tail. destruct (pay m) as [p|].
  - specialize (H p eq_refl). destruct H as [L H]. eapply hl_app.
    + change (B "Content-Type: ") with (B "Content-Type" ++ B ": "). rewrite <- app_assoc. apply (known_line (B "Content-Type") HCtype); [reflexivity|]. split; [apply sws_sp|].
      exists (ContentType p). split; [|reflexivity]. assert (T : exists a b, ContentType p = a ++ B "/" ++ b /\ token a /\ token b).
      { destruct p as [t d0|s]; [apply H|]. exists (B "application"), (B "sdp"). repeat split; discriminate. }
      destruct T as (a & b & E & A & C). exists a, b, [], []. rewrite app_nil_r. repeat split; try apply A; try apply C; try exact E. constructor.
    + change (B "Content-Length: ") with (B "Content-Length" ++ B ": "). rewrite <- app_assoc. apply (known_line (B "Content-Length") HClen); [reflexivity|]. split; [apply sws_sp|].
      eexists. split; [apply itoa_number; lia|]. rewrite i64_id by lia. reflexivity.
  - change (B "Content-Length: 0" ++ CRLF) with (B "Content-Length" ++ B ": " ++ B "0" ++ CRLF). apply (known_line (B "Content-Length") HClen); [reflexivity|]. split; [apply sws_sp|].
    exists 0. split; reflexivity.
Qed.
Lemma tail_payload rid m d : (forall p, pay m = Some p -> payload_ok rid p) -> pay (d_msg d) = None ->
  starts_blank (tail_body rid m) = false /\ payload_text (tail_body rid m) (op_tail rid m d) (set_pay (pay m) (d_msg d)).
Proof.
  intros H N. unfold tail_body, op_tail. destruct (pay m) as [[t x|s]|]; cbn [ContentType Data].
  - destruct (H _ eq_refl) as [L (_ & T & NE & SB)]. split; [exact SB|]. right. cbn [d_len d_type d_msg]. split; [destruct x; [congruence|cbn; lia]|]. split; [reflexivity|]. right. auto.
  - destruct (H _ eq_refl) as [L W]. cbn in W. split; [reflexivity|]. right. cbn [d_len d_type d_msg]. split; [unfold sdp_append; rewrite app_length; cbn; lia|].
    split; [reflexivity|]. left. split; [reflexivity|]. exists s. split; [apply sdp_roundtrip; exact W|reflexivity].
  - split; [reflexivity|]. left. split; [cbn; lia|]. cbn [d_msg]. rewrite <- N. destruct (d_msg d); reflexivity.
Qed.

(** the start line *)
Definition the_phrase (m : msg) : bytes := match phrase m with [] => Phrase (status m) | x => x end.
Lemma Phrase_ok n : 100 <= n <= 999 -> Phrase n <> [] /\ reason_text (Phrase n) (Phrase n).
Proof.
  intros R. assert (K : forallb (fun k => negb (bseq (Phrase (Z.of_nat k)) []) && forallb reason_class (Phrase (Z.of_nat k))) (seq 100 900) = true) by (vm_compute; reflexivity).
  rewrite forallb_forall in K. specialize (K (Z.to_nat n) ltac:(apply in_seq; lia)). rewrite Z2Nat.id in K by lia. apply andb_prop in K. destruct K as [K1 K2]. split.
  - intros E. rewrite E in K1. discriminate.
  - revert K2. generalize (Phrase n). clear. intros b. induction b as [|c b IH]; [constructor|]. cbn [forallb]. intros H. apply andb_prop in H. destruct H. constructor; auto.
Qed.
(** a message without a version is one of version 2.0 *)
Definition the_vmaj (m : msg) : Z := if vmaj m =? 0 then 2 else vmaj m.
Definition the_vmin (m : msg) : Z := if vmaj m =? 0 then 0 else vmin m.
Lemma version_ok m : 0 <= vmaj m < 256 -> 0 <= vmin m < 256 -> version_text (version_append m) (the_vmaj m) (the_vmin m).
Proof.
  intros A C. unfold version_append, the_vmaj, the_vmin. destruct (vmaj m =? 0).
  - exists (B "2"), (B "0"), 2, 0. repeat split; reflexivity.
  - exists (itoa (vmaj m)), (itoa (vmin m)), (vmaj m), (vmin m). rewrite !Z.mod_small by lia. repeat split; apply itoa_number; lia.
Qed.
Lemma three_digits n : 100 <= n <= 999 -> length (itoa n) = 3%nat.
Proof.
  intros R. assert (K : forallb (fun k => Nat.eqb (length (itoa (Z.of_nat k))) 3) (seq 100 900) = true) by (vm_compute; reflexivity).
  rewrite forallb_forall in K. specialize (K (Z.to_nat n) ltac:(apply in_seq; lia)). rewrite Z2Nat.id in K by lia. apply Nat.eqb_eq. exact K.
Qed.
Definition start_fields (m m0 : msg) : Prop :=
  m0 = (if IsResponse m then set_phrase (the_phrase m) (set_status (status m) (set_vmin (the_vmin m) (set_vmaj (the_vmaj m) msg0)))
    else set_request (request m) (set_method (method m) (set_vmin (the_vmin m) (set_vmaj (the_vmaj m) msg0)))).
Lemma start_written m : start_ok m -> 0 <= vmaj m < 256 -> 0 <= vmin m < 256 -> exists st m0, start_line m = st ++ CRLF /\ start_text st m0 /\ start_fields m m0.
Proof.
  intros S A C. pose proof (version_ok m A C) as V. unfold start_line, start_fields, IsResponse. destruct S as [(Z0 & T & u & EU & W & NA)|(R & P)].
  - rewrite Z0. cbn [Z.ltb Z.compare negb]. rewrite EU. destruct (method m) as [|c t] eqn:EM; [destruct T; congruence|]. eexists ((c :: t) ++ B " " ++ uri_append u ++ B " " ++ version_append m), _.
    split; [rewrite <- !app_assoc; reflexivity|]. split; [|reflexivity]. left. exists u, (uri_append u), (version_append m), (the_vmaj m), (the_vmin m). cbn [method set_request set_method]. split; [reflexivity|]. split; [exact T|].
    split; [apply uri_parse_exact; exact (uri_round_trip_partial u W NA)|]. split; [exact V|reflexivity].
  - replace (0 <? status m) with true by (symmetry; apply Z.ltb_lt; lia). cbn [negb]. eexists (version_append m ++ B " " ++ itoa (status m) ++ B " " ++ the_phrase m), _.
    split; [rewrite <- !app_assoc; reflexivity|]. split; [|reflexivity]. right. exists (version_append m), (the_vmaj m), (the_vmin m), (itoa (status m)), (status m), (the_phrase m). cbn [phrase set_phrase].
    split; [reflexivity|]. split; [exact V|]. split; [apply three_digits; exact R|]. split; [apply itoa_number; lia|].
    destruct (Phrase_ok _ R) as [P1 P2]. unfold the_phrase. destruct (phrase m); auto. split; [discriminate|]. auto.
Qed.

(** what is the same in the message which comes back *)
Definition survives (m m' : msg) : Prop :=
  (IsResponse m = false -> method m' = method m /\ request m' = request m /\ status m' = 0 /\
     maxforwards m' = (if maxforwards m =? 0 then 70 else maxforwards m)) /\
  (IsResponse m = true -> status m' = status m /\ phrase m' = the_phrase m) /\
  vias m' = map default_port_dropped (vias m) /\ (forall f, addrs m' f = addrs m f) /\
  callid m' = callid m /\ cseq m' = cseq m /\ cseqmethod m' = cseqmethod m /\ expires m' = expires m /\ minexpires m' = minexpires m /\
  (forall f, f <> AcceptContact -> f <> RetryAfter -> strs m' f = strs m f) /\
  xheader m' = xheader m ++ retry_x (strs m RetryAfter) /\ pay m' = pay m /\ vmaj m' = the_vmaj m /\ vmin m' = the_vmin m.

Lemma w_msg g d : d_msg (with_msg g d) = g (d_msg d). Proof. reflexivity. Qed.
Lemma addrs_str f v m : addrs (op_str f v m) = addrs m. Proof. reflexivity. Qed.
Lemma addrs_via v m : addrs (op_via v m) = addrs m. Proof. reflexivity. Qed.
Lemma addrs_x v m : addrs (op_x v m) = addrs m. Proof. reflexivity. Qed.
Lemma addrs_maxf f v m : addrs (op_maxf f v m) = addrs m. Proof. reflexivity. Qed.
Lemma addrs_exp f v m : addrs (op_expires f v m) = addrs m. Proof. reflexivity. Qed.
Lemma addrs_mexp f v m : addrs (op_minexpires f v m) = addrs m. Proof. reflexivity. Qed.
Lemma addrs_cseq f v m : addrs (op_cseq f v m) = addrs m. Proof. reflexivity. Qed.
Lemma addrs_callid v m : addrs (set_callid v m) = addrs m. Proof. reflexivity. Qed.
Lemma addrs_pay v m : addrs (set_pay v m) = addrs m. Proof. reflexivity. Qed.
Lemma strs_via v m : strs (op_via v m) = strs m. Proof. reflexivity. Qed.
Lemma strs_x v m : strs (op_x v m) = strs m. Proof. reflexivity. Qed.
Lemma strs_maxf f v m : strs (op_maxf f v m) = strs m. Proof. reflexivity. Qed.
Lemma strs_exp f v m : strs (op_expires f v m) = strs m. Proof. reflexivity. Qed.
Lemma strs_mexp f v m : strs (op_minexpires f v m) = strs m. Proof. reflexivity. Qed.
Lemma strs_cseq f v m : strs (op_cseq f v m) = strs m. Proof. reflexivity. Qed.
Lemma strs_callid v m : strs (set_callid v m) = strs m. Proof. reflexivity. Qed.
Lemma strs_pay v m : strs (set_pay v m) = strs m. Proof. reflexivity. Qed.
Lemma strs_addr f v m : strs (op_addr f v m) = strs m. Proof. reflexivity. Qed.
#[local] Hint Rewrite w_msg op_addr_get op_str_get addrs_str addrs_via addrs_x addrs_maxf addrs_exp addrs_mexp addrs_cseq addrs_callid addrs_pay strs_via strs_x strs_maxf strs_exp strs_mexp strs_cseq strs_callid strs_pay strs_addr : ops.
Lemma write_exp e (b : bool) : 0 <= e -> (if (0 <? e) || b then e else 0) = e.
Proof. intros H. destruct (Z.ltb_spec 0 e); [reflexivity|]. destruct b; [reflexivity|]. cbn. lia. Qed.
Theorem msg_round_trip_partial : forall rid m, msg_ok rid m -> exists m', parse_msg (msg_append rid m) = MOk m' /\ survives m m'.
Proof.
  intros rid m (S & VA & VI & NF & NT & AD & VS & CI & CS & CM & MF & EX & ME & ST & XS & PY).
  destruct (start_written m S VA VI) as (st & m0 & ES & HS & SF).
  assert (CQ0 : cseq m0 = 0) by (unfold start_fields in SF; subst m0; destruct (IsResponse m); reflexivity).
  assert (PY0 : pay m0 = None) by (unfold start_fields in SF; subst m0; destruct (IsResponse m); reflexivity).
  eassert (HL : header_lines _ (mkdraft m0 0 []) _).
  { eapply hl_app; [exact (addr_line (B "From") From (addrs m From) _ eq_refl NF (AD From))|].
    eapply hl_app; [exact (addr_line (B "To") To (addrs m To) _ eq_refl NT (AD To))|].
    eapply hl_app; [exact (via_lines_text (vias m) VS _)|].
    eapply hl_app; [exact (opt_addr_line "Route: "%lit (B "Route") Route (addrs m Route) _ eq_refl eq_refl (AD Route))|].
    eapply hl_app; [exact (opt_addr_line "Record-Route: "%lit (B "Record-Route") RecordRoute (addrs m RecordRoute) _ eq_refl eq_refl (AD RecordRoute))|].
    eapply hl_app; [exact (opt_addr_line "Contact: "%lit (B "Contact") Contact (addrs m Contact) _ eq_refl eq_refl (AD Contact))|].
    eapply hl_app; [exact (callid_line (callid m) _ CI)|].
    eapply hl_app; [apply (cseq_line (cseq m) (cseqmethod m) _ CS CM); exact CQ0|].
    eapply hl_app; [exact (str_line "User-Agent: "%lit (B "User-Agent") UserAgent (strs m UserAgent) _ eq_refl eq_refl (ST UserAgent))|].
    eapply hl_app; [exact (maxf_line (IsResponse m) (maxforwards m) _ MF)|].
    eapply hl_app; [exact (str_line "Accept: "%lit (B "Accept") Accept (strs m Accept) _ eq_refl eq_refl (ST Accept))|].
    eapply hl_app; [exact (str_line "Accept-Encoding: "%lit (B "Accept-Encoding") AcceptEncoding (strs m AcceptEncoding) _ eq_refl eq_refl (ST AcceptEncoding))|].
    eapply hl_app; [exact (str_line "Accept-Language: "%lit (B "Accept-Language") AcceptLanguage (strs m AcceptLanguage) _ eq_refl eq_refl (ST AcceptLanguage))|].
    eapply hl_app; [exact (str_line "Alert-Info: "%lit (B "Alert-Info") AlertInfo (strs m AlertInfo) _ eq_refl eq_refl (ST AlertInfo))|].
    eapply hl_app; [exact (str_line "Allow: "%lit (B "Allow") Allow (strs m Allow) _ eq_refl eq_refl (ST Allow))|].
    eapply hl_app; [exact (str_line "Allow-Events: "%lit (B "Allow-Events") AllowEvents (strs m AllowEvents) _ eq_refl eq_refl (ST AllowEvents))|].
    eapply hl_app; [exact (str_line "Authentication-Info: "%lit (B "Authentication-Info") AuthenticationInfo (strs m AuthenticationInfo) _ eq_refl eq_refl (ST AuthenticationInfo))|].
    eapply hl_app; [exact (str_line "Authorization: "%lit (B "Authorization") Authorization (strs m Authorization) _ eq_refl eq_refl (ST Authorization))|].
    eapply hl_app; [exact (str_line "Call-Info: "%lit (B "Call-Info") CallInfo (strs m CallInfo) _ eq_refl eq_refl (ST CallInfo))|].
    eapply hl_app; [exact (str_line "Content-Disposition: "%lit (B "Content-Disposition") ContentDisposition (strs m ContentDisposition) _ eq_refl eq_refl (ST ContentDisposition))|].
    eapply hl_app; [exact (str_line "Content-Encoding: "%lit (B "Content-Encoding") ContentEncoding (strs m ContentEncoding) _ eq_refl eq_refl (ST ContentEncoding))|].
    eapply hl_app; [exact (str_line "Content-Language: "%lit (B "Content-Language") ContentLanguage (strs m ContentLanguage) _ eq_refl eq_refl (ST ContentLanguage))|].
    eapply hl_app; [exact (str_line "Date: "%lit (B "Date") Date (strs m Date) _ eq_refl eq_refl (ST Date))|].
    eapply hl_app; [exact (str_line "Error-Info: "%lit (B "Error-Info") ErrorInfo (strs m ErrorInfo) _ eq_refl eq_refl (ST ErrorInfo))|].
    eapply hl_app; [exact (str_line "Event: "%lit (B "Event") Event (strs m Event) _ eq_refl eq_refl (ST Event))|].
    eapply hl_app; [exact (expires_line ((0 <? expires m) || bseq (method m) (B "REGISTER") || bseq (cseqmethod m) (B "REGISTER")) (expires m) _ EX)|].
    eapply hl_app; [exact (str_line "In-Reply-To: "%lit (B "In-Reply-To") InReplyTo (strs m InReplyTo) _ eq_refl eq_refl (ST InReplyTo))|].
    eapply hl_app; [exact (str_line "MIME-Version: "%lit (B "MIME-Version") MIMEVersion (strs m MIMEVersion) _ eq_refl eq_refl (ST MIMEVersion))|].
    eapply hl_app; [exact (minexpires_line (0 <? minexpires m) (minexpires m) _ ME)|].
    eapply hl_app; [exact (str_line "Organization: "%lit (B "Organization") Organization (strs m Organization) _ eq_refl eq_refl (ST Organization))|].
    eapply hl_app; [exact (opt_addr_line "P-Asserted-Identity: "%lit (B "P-Asserted-Identity") PAssertedIdentity (addrs m PAssertedIdentity) _ eq_refl eq_refl (AD PAssertedIdentity))|].
    eapply hl_app; [exact (str_line "Priority: "%lit (B "Priority") Priority (strs m Priority) _ eq_refl eq_refl (ST Priority))|].
    eapply hl_app; [exact (str_line "Proxy-Authenticate: "%lit (B "Proxy-Authenticate") ProxyAuthenticate (strs m ProxyAuthenticate) _ eq_refl eq_refl (ST ProxyAuthenticate))|].
    eapply hl_app; [exact (str_line "Proxy-Authorization: "%lit (B "Proxy-Authorization") ProxyAuthorization (strs m ProxyAuthorization) _ eq_refl eq_refl (ST ProxyAuthorization))|].
    eapply hl_app; [exact (str_line "Proxy-Require: "%lit (B "Proxy-Require") ProxyRequire (strs m ProxyRequire) _ eq_refl eq_refl (ST ProxyRequire))|].
    eapply hl_app; [exact (str_line "Refer-To: "%lit (B "Refer-To") ReferTo (strs m ReferTo) _ eq_refl eq_refl (ST ReferTo))|].
    eapply hl_app; [exact (str_line "Referred-By: "%lit (B "Referred-By") ReferredBy (strs m ReferredBy) _ eq_refl eq_refl (ST ReferredBy))|].
    eapply hl_app; [exact (opt_addr_line "Remote-Party-ID: "%lit (B "Remote-Party-ID") RemotePartyID (addrs m RemotePartyID) _ eq_refl eq_refl (AD RemotePartyID))|].
    eapply hl_app; [exact (str_line "Reply-To: "%lit (B "Reply-To") ReplyTo (strs m ReplyTo) _ eq_refl eq_refl (ST ReplyTo))|].
    eapply hl_app; [exact (str_line "Require: "%lit (B "Require") Require (strs m Require) _ eq_refl eq_refl (ST Require))|].
    eapply hl_app; [exact (retry_line (strs m RetryAfter) _ (ST RetryAfter))|].
    eapply hl_app; [exact (str_line "Server: "%lit (B "Server") Server (strs m Server) _ eq_refl eq_refl (ST Server))|].
    eapply hl_app; [exact (str_line "Subject: "%lit (B "Subject") Subject (strs m Subject) _ eq_refl eq_refl (ST Subject))|].
    eapply hl_app; [exact (str_line "Supported: "%lit (B "Supported") Supported (strs m Supported) _ eq_refl eq_refl (ST Supported))|].
    eapply hl_app; [exact (str_line "Timestamp: "%lit (B "Timestamp") Timestamp (strs m Timestamp) _ eq_refl eq_refl (ST Timestamp))|].
    eapply hl_app; [exact (str_line "Unsupported: "%lit (B "Unsupported") Unsupported (strs m Unsupported) _ eq_refl eq_refl (ST Unsupported))|].
    eapply hl_app; [exact (str_line "Warning: "%lit (B "Warning") Warning (strs m Warning) _ eq_refl eq_refl (ST Warning))|].
    eapply hl_app; [exact (str_line "WWW-Authenticate: "%lit (B "WWW-Authenticate") WWWAuthenticate (strs m WWWAuthenticate) _ eq_refl eq_refl (ST WWWAuthenticate))|].
    eapply hl_app; [exact (xheader_lines (xheader m) XS _)|].
    exact (tail_lines_text rid m _ PY). }
  match type of HL with header_lines ?h _ (op_tail _ _ ?d) => set (hs := h) in HL; set (dd := d) in HL end.
  assert (E : msg_append rid m = st ++ CRLF ++ hs ++ CRLF ++ tail_body rid m).
  { unfold msg_append, head_lines. rewrite ES, tail_split. unfold hs. rewrite <- !app_assoc. reflexivity. }
  destruct (tail_payload rid m dd PY PY0) as [SB PT].
  exists (set_pay (pay m) (d_msg dd)). split.
  { apply msg_parse_exact. exists st, m0, hs, (op_tail rid m dd), (tail_body rid m). auto 10. }
  unfold start_fields in SF. unfold survives. split; [|split; [|split; [|split; [|split; [|split; [|split; [|split; [|split; [|split; [|split; [|split]]]]]]]]]]].
  - intros IR. subst dd. cbn [d_msg with_msg set_pay]. rewrite IR in *. subst m0. repeat split; reflexivity.
  - intros IR. rewrite IR in SF. subst m0. split; reflexivity.
  - assert (V0 : vias m0 = []) by (subst m0; destruct (IsResponse m); reflexivity). change (vias m0 ++ map default_port_dropped (vias m) = map default_port_dropped (vias m)). rewrite V0. reflexivity.
  - assert (A0 : forall f, addrs m0 f = []) by (subst m0; destruct (IsResponse m); reflexivity).
    intros f. subst dd. autorewrite with ops. cbn [d_msg]. rewrite A0. clear. destruct f; reflexivity.
  - reflexivity.
  - reflexivity.
  - reflexivity.
  - assert (E0 : expires m0 = 0) by (subst m0; destruct (IsResponse m); reflexivity).
    change ((if (0 <? expires m) || bseq (method m) (B "REGISTER") || bseq (cseqmethod m) (B "REGISTER") then expires m else expires m0) = expires m). rewrite E0, <- orb_assoc. apply write_exp. lia.
  - assert (E0 : minexpires m0 = 0) by (subst m0; destruct (IsResponse m); reflexivity).
    change ((if 0 <? minexpires m then minexpires m else minexpires m0) = minexpires m). rewrite E0. destruct (Z.ltb_spec 0 (minexpires m)); lia.
  - assert (S0 : forall f, strs m0 f = []) by (subst m0; destruct (IsResponse m); reflexivity).
    intros f N1 N2. subst dd. autorewrite with ops. cbn [d_msg]. rewrite S0. clear - N1 N2. destruct f; try congruence; cbn [sfield_eqb andb]; match goal with |- context [match ?x with [] => false | _ => _ end] => destruct x; reflexivity end.
  - assert (X0 : xheader m0 = []) by (subst m0; destruct (IsResponse m); reflexivity).
    change (xheader m ++ retry_x (strs m RetryAfter) ++ xheader m0 = xheader m ++ retry_x (strs m RetryAfter)). rewrite X0, app_nil_r. reflexivity.
  - reflexivity.
  - change (vmaj m0 = the_vmaj m /\ vmin m0 = the_vmin m). subst m0. destruct (IsResponse m); split; reflexivity.
Qed.
