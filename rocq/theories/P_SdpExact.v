(** C84: sdp.Parse, line by line: which texts it accepts and what it returns, exactly. *)
From Verif Require Import Bytes BytesLemmas GoLib GoLibLemmas SdpModel SdpProofs P_Sdp.
Local Open Scope Z_scope.

(** ** Specification *)
(** the lines of a text: separated by CRLF, none of them containing one *)
Definition text_lines (t : bytes) (L : list bytes) : Prop := L <> [] /\ join CRLF L = t /\ forall l a b, In l L -> l <> a ++ CRLF ++ b.
(** what follows [p] in the lines that begin with [p], in their order; and the same without the lines that say nothing *)
Definition values (p : bytes) (L : list bytes) : list bytes := flat_map (fun l => if has_prefix l p then [skipn (length p) l] else []) L.
Definition texts (p : bytes) (L : list bytes) : list bytes := filter (fun t => negb (bseq t [])) (values p L).
(** network type and address; an origin *)
Definition conn_text (t a : bytes) : Prop := exists net, net_type net /\ t = B "IN " ++ net ++ B " " ++ a /\ free_of " " a = true /\ free_of "/" a = true.
Definition origin_text (t : bytes) (o : origin) : Prop := exists net, net_type net /\
  t = o_user o ++ B " " ++ o_id o ++ B " " ++ o_version o ++ B " IN " ++ net ++ B " " ++ o_addr o /\
  free_of " " (o_user o) = true /\ free_of " " (o_id o) = true /\ free_of " " (o_version o) = true /\ free_of " " (o_addr o) = true /\ free_of "/" (o_addr o) = true.
(** name/rate[/channels[/anything]] *)
Definition rtpmap_text (t name : bytes) (rate : Z) (param : bytes) : Prop := exists r rest,
  t = name ++ B "/" ++ r ++ rest /\ free_of "/" name = true /\ free_of "/" r = true /\ atoi r = Some rate /\
  (rest = [] /\ param = [] \/ exists more, rest = B "/" ++ param ++ more /\ free_of "/" param = true /\ slash_or_end more).
(** The codec of a payload type: described by the first rtpmap for the type, or, if there is none or it gives no name, by RFC 3551; format
    parameters are those of the first fmtp for the type. *)
Definition codec_of (rtpmaps fmtps : list bytes) (c : codec) : Prop :=
  let mine := values (itoa (c_pt c) ++ B " ") in
  match mine rtpmaps with
  | [] => codec_from_table c
  | t :: _ => exists name rate param, rtpmap_text t name rate param /\ (name <> [] /\ c_name c = name /\ c_rate c = rate /\ c_param c = param \/ name = [] /\ codec_from_table c)
  end /\ c_fmtp c = hd [] (mine fmtps).
(** port[/ports] protocol type {type} *)
Definition media_text (rtpmaps fmtps : list bytes) (t : bytes) (m : media) : Prop := exists port suffix toks,
  t = port ++ suffix ++ B " " ++ m_proto m ++ concat (map (fun x => B " " ++ x) toks) /\ free_of " " suffix = true /\ free_of " " (m_proto m) = true /\
  digits_value port = Some (m_port m) /\ m_port m < 65536 /\ slash_or_end suffix /\ toks <> [] /\
  Forall2 (fun x c => digits_value x = Some (c_pt c) /\ c_pt c < 256 /\ codec_of rtpmaps fmtps c) toks (m_codecs m).
(** an attribute without a field of its own: name[:value] *)
Fixpoint cut (c : byte) (t : bytes) : bytes * bytes := match t with [] => ([], []) | x :: k => if beq x c then ([], k) else (x :: fst (cut c k), snd (cut c k)) end.
Definition attribute (t : bytes) : list (bytes * bytes) :=
  if existsb (has_prefix t) [B "rtpmap:"; B "fmtp:"; B "ptime:"; B ":"] || existsb (bseq t) [B "sendrecv"; B "sendonly"; B "recvonly"] then [] else [cut ":" t].
(** any other line: one letter, an equals sign and a text (a letter which is itself an equals sign is dropped) *)
Definition other_line (l : bytes) : list (bytes * bytes) :=
  match l with k :: e :: (_ :: _) as v => if beq e "=" && negb (existsb (beq k) (B "mstcoa=")) then [([k], skipn 2 l)] else [] | _ => [] end.
Definition milliseconds (t : bytes) : list Z := match atoi t with Some n => if 0 <? n then [n] else [] | None => [] end.
Definition media_of_lines (L : list bytes) (p : bytes) (m : option media) : Prop :=
  let t := last (values p L) [] in
  match m with None => t = [] | Some m => t <> [] /\ media_text (values (B "a=rtpmap:") L) (values (B "a=fmtp:") L) t m end.

(** The description [d] which the text [s] gives. *)
Definition sdp_reads (s : bytes) (d : sdp) : Prop := exists rest L, s = B "v=0" ++ CRLF ++ rest /\ text_lines rest L /\ (2 <= length L)%nat /\
  (* the first c= line counts, the last o= line; no o= line may be malformed *)
  (exists t ts, texts (B "c=") L = t :: ts /\ conn_text t (s_addr d)) /\
  (exists os, Forall2 origin_text (texts (B "o=") L) (os ++ [s_origin d])) /\
  (* the last line of each kind of medium counts *)
  media_of_lines L (B "m=audio ") (s_audio d) /\ media_of_lines L (B "m=video ") (s_video d) /\ (s_audio d <> None \/ s_video d <> None) /\
  s_session d = last (texts (B "s=") L) (B "pok" ++ [xc3; xa9] ++ B "mon") /\ s_time d = last (texts (B "t=") L) (B "0 0") /\
  s_ptime d = last (flat_map milliseconds (values (B "a=ptime:") L)) 0 /\
  (s_sendonly d = true <-> In (B "a=sendonly") L) /\ (s_recvonly d = true <-> In (B "a=recvonly") L) /\
  s_attrs d = flat_map attribute (texts (B "a=") L) /\ s_other d = flat_map other_line L.

(** ** Lines *)
Lemma split_crlf_join s : join CRLF (split_crlf s) = s.
Proof.
  remember (length s) as n eqn:N. assert (G : (length s <= n)%nat) by lia. clear N. revert s G. induction n as [|n IH]; intros s G; [destruct s; [reflexivity|cbn in G; lia]|].
  destruct s as [|c s]; [reflexivity|]. rewrite split_crlf_step. cbn [length] in G.
  assert (K : forall l, l <> [] -> join CRLF (cons_hd c l) = c :: join CRLF l) by (intros [|x [|y l]] H; [congruence|reflexivity|reflexivity]).
  destruct s as [|d s]; [reflexivity|]. destruct (beq_reflect c CR) as [->|]; cbn [andb]; [destruct (beq_reflect d LF) as [->|]|].
  - cbn [length] in G. pose proof (IH s ltac:(lia)) as E. pose proof (split_crlf_nonempty s) as NE. destruct (split_crlf s) as [|x l]; [congruence|]. change (join CRLF ([] :: x :: l)) with ([] ++ CRLF ++ join CRLF (x :: l)). rewrite E. reflexivity.
  - rewrite K by apply split_crlf_nonempty. rewrite IH by (cbn [length] in *; lia). reflexivity.
  - rewrite K by apply split_crlf_nonempty. rewrite IH by (cbn [length] in *; lia). reflexivity.
Qed.
Definition crlf_free (l : bytes) : Prop := forall a b, l <> a ++ CRLF ++ b.
Lemma crlf_free_cons c l : crlf_free l -> (c = CR -> hd CR l <> LF) -> crlf_free (c :: l).
Proof. intros F H a b E. destruct a as [|x a]; cbn in E; [injection E as -> ->; apply H; reflexivity|injection E as _ E; exact (F a b E)]. Qed.
Lemma crlf_free_tail c l : crlf_free (c :: l) -> crlf_free l. Proof. intros F a b E. apply (F (c :: a) b). rewrite E. reflexivity. Qed.
Lemma split_crlf_clean s : Forall crlf_free (split_crlf s).
Proof.
  assert (Z0 : crlf_free []) by (intros a b E; destruct a; discriminate).
  remember (length s) as n eqn:N. assert (G : (length s <= n)%nat) by lia. clear N. revert s G. induction n as [|n IH]; intros s G; [destruct s; [repeat constructor; exact Z0|cbn in G; lia]|].
  destruct s as [|c s]; [repeat constructor; exact Z0|]. rewrite split_crlf_step. cbn [length] in G.
  destruct s as [|d s]; [repeat constructor; apply crlf_free_cons; [exact Z0|discriminate]|].
  assert (K : ~ (c = CR /\ d = LF) -> Forall crlf_free (cons_hd c (split_crlf (d :: s)))).
  { intros H. specialize (IH (d :: s) ltac:(cbn [length] in *; lia)). rewrite split_crlf_step in *. destruct s as [|e s].
    - inversion IH as [|? ? I1 I2]; subst. constructor; [|exact I2]. apply crlf_free_cons; [exact I1|]. intros ->. cbn. intros ->. auto.
    - destruct (beq d CR && beq e LF) eqn:B; [inversion IH as [|? ? I1 I2]; subst; constructor; [apply crlf_free_cons; [exact I1|discriminate]|exact I2]|].
      destruct (split_crlf (e :: s)) as [|x l]; cbn [cons_hd] in *; inversion IH as [|? ? I1 I2]; subst; constructor; try exact I2; (apply crlf_free_cons; [exact I1|]; intros ->; cbn; intros ->; auto). }
  destruct (beq_reflect c CR) as [->|]; cbn [andb]; [destruct (beq_reflect d LF) as [->|]|]; [constructor; [exact Z0|apply IH; cbn [length] in *; lia]| |]; apply K; intros [? ?]; congruence.
Qed.
Lemma split_crlf_unique L : L <> [] -> Forall crlf_free L -> split_crlf (join CRLF L) = L.
Proof.
  assert (O : forall l, crlf_free l -> split_crlf l = [l]).
  { induction l as [|c l IH]; intros F; [reflexivity|]. rewrite split_crlf_step, (IH (crlf_free_tail _ _ F)). destruct l as [|d l]; [reflexivity|].
    destruct (beq_reflect c CR) as [->|]; [|reflexivity]. destruct (beq_reflect d LF) as [->|]; [|reflexivity]. exfalso. apply (F [] l). reflexivity. }
  assert (M : forall l r, crlf_free l -> split_crlf (l ++ CRLF ++ r) = l :: split_crlf r).
  { induction l as [|c l IH]; intros r F; [reflexivity|]. rewrite <- app_comm_cons, split_crlf_step, (IH r (crlf_free_tail _ _ F)). destruct l as [|d l]; cbn [app].
    - change (CRLF ++ r) with (CR :: LF :: r). cbn iota. change (beq CR LF) with false. rewrite andb_false_r. reflexivity.
    - destruct (beq_reflect c CR) as [->|]; [|reflexivity]. destruct (beq_reflect d LF) as [->|]; [|reflexivity]. exfalso. apply (F [] l). reflexivity. }
  induction L as [|l L IH]; intros N F; [congruence|]. inversion F as [|? ? F1 F2]; subst. destruct L as [|x L]; [apply O; exact F1|].
  change (join CRLF (l :: x :: L)) with (l ++ CRLF ++ join CRLF (x :: L)). rewrite M by exact F1. rewrite IH; [reflexivity|discriminate|exact F2].
Qed.
Lemma text_lines_iff t L : text_lines t L <-> L = split_crlf t.
Proof.
  split.
  - intros (N & <- & F). symmetry. apply split_crlf_unique; [exact N|]. apply Forall_forall. intros l I a b. exact (F l a b I).
  - intros ->. split; [apply split_crlf_nonempty|]. split; [apply split_crlf_join|]. intros l a b I. pose proof (split_crlf_clean t) as F. rewrite Forall_forall in F. exact (F l I a b).
Qed.

(** ** Pieces of a line *)
Lemma split_tokens l : l <> [] -> Forall (fun x => free_of " " x = true) l -> split_byte " " (join (B " ") l) = l.
Proof.
  induction l as [|x l IH]; intros N F; [congruence|]. inversion F as [|? ? F1 F2]; subst. destruct l as [|y l]; [apply split_byte_free; exact F1|].
  change (join (B " ") (x :: y :: l)) with (x ++ " "%byte :: join (B " ") (y :: l)). rewrite split_byte_cons by exact F1. rewrite IH; [reflexivity|discriminate|exact F2].
Qed.
Lemma conn_iff t a : parseConnLine (B "c=" ++ t) = Ok (inl a) <-> conn_text t a.
Proof.
  split.
  - intros E. pose proof (conn_inv [B "c=" ++ t] t a (or_introl eq_refl) E) as (net & NT & [I|[]] & F1 & F2). exists net. split; [exact NT|]. split; [|auto]. apply (app_inv_head (B "c=")). exact I.
  - intros (net & NT & -> & F1 & F2). unfold parseConnLine. rewrite from_c. cbn [rbind].
    replace (split_byte " " (B "IN " ++ net ++ B " " ++ a)) with [B "IN"; net; a] by (symmetry; apply (split_tokens [B "IN"; net; a]); [discriminate|]; repeat constructor; [destruct NT as [-> | ->]; reflexivity|exact F1]).
    cbn [length Nat.eqb negb at_ nth_error rbind]. rewrite (index_byte_free _ _ F2). destruct NT as [-> | ->]; reflexivity.
Qed.
Lemma origin_iff t o : parseOriginLine (B "o=" ++ t) = Ok (inl o) <-> origin_text t o.
Proof.
  split.
  - intros E. pose proof (origin_inv [B "o=" ++ t] t o (or_introl eq_refl) E) as (net & NT & [I|[]] & F1 & F2). exists net. split; [exact NT|]. rewrite !free_of_app, !andb_true_iff in F1. destruct F1 as (F3 & F4 & F5 & F6).
    split; [|auto]. apply (app_inv_head (B "o=")). exact I.
  - intros (net & NT & -> & F1 & F2 & F3 & F4 & F5). unfold parseOriginLine. rewrite from_o. cbn [rbind].
    replace (split_byte " " (o_user o ++ B " " ++ o_id o ++ B " " ++ o_version o ++ B " IN " ++ net ++ B " " ++ o_addr o)) with [o_user o; o_id o; o_version o; B "IN"; net; o_addr o]
      by (symmetry; apply (split_tokens [o_user o; o_id o; o_version o; B "IN"; net; o_addr o]); [discriminate|]; repeat constructor; try assumption; destruct NT as [-> | ->]; reflexivity).
    cbn [length Nat.eqb negb at_ nth_error rbind]. rewrite (index_byte_free _ _ F5). destruct o; destruct NT as [-> | ->]; reflexivity.
Qed.
Lemma rtpmap_iff pt t c : parseRtpmapInfo pt t = Ok (inl c) <-> exists n r p, rtpmap_text t n r p /\ c = mkcodec pt n r p [].
Proof.
  split.
  - unfold parseRtpmapInfo. destruct (split_byte "/" t) as [|t0 [|t1 l]] eqn:E; cbn [length Nat.leb]; try discriminate.
    cbn [at_ nth_error rbind]. apply split_eq in E. destruct E as [-> F]. inversion F as [|? ? F0 Fa]; subst. inversion Fa as [|? ? F1 Fb]; subst.
    destruct (atoi t1) as [r|] eqn:A; [|discriminate]. destruct l as [|t2 l]; cbn [nth_error rbind length Nat.leb]; intros K; injection K as <-; eexists _, _, _; (split; [|reflexivity]).
    + exists t1, []. rewrite app_nil_r. repeat split; auto.
    + exists t1, (B "/" ++ join ["/"%byte] (t2 :: l)). inversion Fb as [|? ? F2 _]; subst. repeat (split; [assumption || reflexivity|]). right. destruct l as [|t3 l]; [exists []|exists (B "/" ++ join ["/"%byte] (t3 :: l))].
      * cbn [join]. rewrite app_nil_r. repeat split; [exact F2|left; reflexivity].
      * repeat split; [exact F2|right; eexists; reflexivity].
  - intros (n & r & p & (rate & rest & -> & F1 & F2 & A & R) & ->). unfold parseRtpmapInfo. change (n ++ B "/" ++ rate ++ rest) with (n ++ "/"%byte :: rate ++ rest). rewrite split_byte_cons by exact F1.
    destruct R as [[-> ->]|(more & -> & F3 & SE)].
    + rewrite app_nil_r, split_byte_free by exact F2. cbn [length Nat.leb at_ nth_error rbind]. rewrite A. reflexivity.
    + change (rate ++ B "/" ++ p ++ more) with (rate ++ "/"%byte :: p ++ more). rewrite split_byte_cons by exact F2. destruct SE as [-> |(u & ->)].
      * rewrite app_nil_r, split_byte_free by exact F3. cbn [length Nat.leb at_ nth_error rbind]. rewrite A. reflexivity.
      * change (p ++ B "/" ++ u) with (p ++ "/"%byte :: u). rewrite split_byte_cons by exact F3. cbn [length Nat.leb at_ nth_error rbind]. rewrite A. reflexivity.
Qed.
Lemma find_values p l : find_prefix p l = hd_error (values p l).
Proof. unfold values. induction l as [|x l IH]; [reflexivity|]. cbn [find_prefix flat_map]. destruct (has_prefix x p); [reflexivity|exact IH]. Qed.
Lemma populate_one_iff pt maps fm c : populate_one pt maps fm = Ok (inl c) <-> c_pt c = pt /\ codec_of maps fm c.
Proof.
  unfold populate_one. rewrite !find_values.
  assert (G : forall d, Ok (inl (match hd_error (values (itoa pt ++ B " ") fm) with Some f => mkcodec (c_pt d) (c_name d) (c_rate d) (c_param d) f | None => d end) : codec + sdp_err) = Ok (inl c) <->
    c = mkcodec (c_pt d) (c_name d) (c_rate d) (c_param d) (hd (c_fmtp d) (values (itoa pt ++ B " ") fm))).
  { intros d. destruct (values (itoa pt ++ B " ") fm) as [|f fs]; cbn [hd_error hd]; split; intros E; try (injection E as <-); try (rewrite E); destruct d; reflexivity. }
  assert (T : forall r, (r = inr EDynamic \/ r = inr EUnknownCodec \/ exists v, r = inl v /\ StandardCodecs pt = Some v) -> (forall v, StandardCodecs pt = Some v -> r = inl v) ->
    (match r with inr e => Ok (inr e) | inl d => Ok (inl (match hd_error (values (itoa pt ++ B " ") fm) with Some f => mkcodec (c_pt d) (c_name d) (c_rate d) (c_param d) f | None => d end)) end = Ok (inl c) <->
     c_pt c = pt /\ codec_from_table c /\ c_fmtp c = hd [] (values (itoa pt ++ B " ") fm))).
  { intros r R SC. split.
    - destruct R as [-> |[-> |(v & -> & V)]]; [discriminate|discriminate|]. rewrite G. intros ->. apply table_rfc in V. destruct V as (V1 & V2 & V3). cbn [c_pt c_fmtp]. rewrite V2. auto.
    - intros (P & TB & FM). set (v := mkcodec (c_pt c) (c_name c) (c_rate c) (c_param c) []). assert (V : StandardCodecs pt = Some v) by (apply table_rfc; auto). rewrite (SC v V). apply G. unfold v. cbn [c_pt c_name c_rate c_param c_fmtp]. rewrite <- FM. destruct c; reflexivity. }
  assert (S : let r := if isDynamicPT pt then inr EDynamic else match StandardCodecs pt with Some v => inl v | None => inr EUnknownCodec end in
    (r = inr EDynamic \/ r = inr EUnknownCodec \/ exists v, r = inl v /\ StandardCodecs pt = Some v) /\ (forall v, StandardCodecs pt = Some v -> r = @inl codec sdp_err v)).
  { cbv zeta. destruct (isDynamicPT pt) eqn:D; [split; [auto|]; intros v V; apply table_rfc in V; destruct V as (V1 & _ & V3); apply table_static in V3; unfold isDynamicPT in D; lia|].
    destruct (StandardCodecs pt) as [v|]; (split; [eauto 6|congruence]). }
  destruct S as (S1 & S2).
  assert (X : codec_of maps fm c -> c_pt c = pt -> (match values (itoa pt ++ B " ") maps with [] => codec_from_table c | t :: _ => exists name rate param, rtpmap_text t name rate param /\ (name <> [] /\ c_name c = name /\ c_rate c = rate /\ c_param c = param \/ name = [] /\ codec_from_table c) end) /\ c_fmtp c = hd [] (values (itoa pt ++ B " ") fm)) by (intros K <-; exact K).
  assert (Y : c_pt c = pt -> (match values (itoa pt ++ B " ") maps with [] => codec_from_table c | t :: _ => exists name rate param, rtpmap_text t name rate param /\ (name <> [] /\ c_name c = name /\ c_rate c = rate /\ c_param c = param \/ name = [] /\ codec_from_table c) end) /\ c_fmtp c = hd [] (values (itoa pt ++ B " ") fm) -> codec_of maps fm c) by (intros <- K; exact K).
  destruct (values (itoa pt ++ B " ") maps) as [|t ts]; cbn [hd_error].
  - cbn [rbind c_name]. rewrite (T _ S1 S2). split; [intros (P & TB & FM); split; [exact P|]; apply Y; auto|intros (P & K); destruct (X K P); auto].
  - destruct (ok_rtpmap pt t) as [[d|e] E]; rewrite E; cbn [rbind].
    + pose proof (proj1 (rtpmap_iff pt t d) E) as (n & r & p & RT & ->). cbn [c_name]. destruct n as [|x n].
      * rewrite (T _ S1 S2). split; [intros (P & TB & FM); split; [exact P|]; apply Y; [exact P|]; split; [|exact FM]; exists [], r, p; auto|].
        intros (P & K). destruct (X K P) as ((n' & r' & p' & RT' & K') & FM). assert (E' := proj2 (rtpmap_iff pt t _) (ex_intro _ n' (ex_intro _ r' (ex_intro _ p' (conj RT' eq_refl))))). rewrite E in E'. injection E' as <- <- <-. destruct K' as [(K' & _)|(_ & K')]; [congruence|auto].
      * rewrite G. cbn [c_pt c_name c_rate c_param c_fmtp]. split; [intros ->; split; [reflexivity|]; apply Y; [reflexivity|]; split; [|reflexivity]; exists (x :: n), r, p; split; [exact RT|]; left; repeat split; discriminate|].
        intros (P & K). destruct (X K P) as ((n' & r' & p' & RT' & K') & FM). assert (E' := proj2 (rtpmap_iff pt t _) (ex_intro _ n' (ex_intro _ r' (ex_intro _ p' (conj RT' eq_refl))))). rewrite E in E'. injection E' as <- <- <-. destruct K' as [(_ & <- & <- & <-)|(K' & _)]; [|discriminate]. rewrite <- FM, <- P. destruct c; reflexivity.
    + split; [discriminate|]. intros (P & K). destruct (X K P) as ((n' & r' & p' & RT' & K') & FM). assert (E' := proj2 (rtpmap_iff pt t _) (ex_intro _ n' (ex_intro _ r' (ex_intro _ p' (conj RT' eq_refl))))). congruence.
Qed.
Lemma populate_iff maps fm pts : forall cs, populateCodecs pts maps fm = Ok (inl cs) <-> Forall2 (fun pt c => c_pt c = pt /\ codec_of maps fm c) pts cs.
Proof.
  induction pts as [|pt pts IH]; intros cs; cbn [populateCodecs].
  - split; [intros E; injection E as <-; constructor|intros F; inversion F; reflexivity].
  - split.
    + destruct (populate_one pt maps fm) as [[c|e]|] eqn:E; cbn [rbind]; try discriminate. destruct (populateCodecs pts maps fm) as [[l|e]|]; cbn [rbind]; try discriminate. intros K. injection K as <-. constructor; [apply populate_one_iff; exact E|apply IH; reflexivity].
    + intros F. inversion F as [|? c ? l F1 F2]; subst. apply populate_one_iff in F1. rewrite F1. cbn [rbind]. apply IH in F2. rewrite F2. reflexivity.
Qed.
Lemma digits_no c t n : digits_value t = Some n -> is_digit c = false -> free_of c t = true /\ 0 <= n.
Proof.
  intros D C. split; [|destruct t; [discriminate|]; exact (dec_value_nonneg _ 0 n ltac:(lia) D)].
  assert (K : forall a s, dec_value a s <> None -> free_of c s = true).
  { intros a s. revert a. induction s as [|x s IH]; intros a H; [reflexivity|]. cbn [dec_value] in H. unfold digit_val in H. cbn [free_of forallb]. destruct (is_digit x) eqn:X; [|congruence]. destruct (beq_reflect x c) as [->|]; [congruence|]. exact (IH _ H). }
  destruct t as [|x t]; [discriminate|]. apply (K 0). unfold digits_value in D. congruence.
Qed.
Lemma parse_pts_iff toks : forall pts, parse_pts toks = inl pts <-> Forall2 (fun t p => digits_value t = Some p /\ p < 256) toks pts.
Proof.
  induction toks as [|t ts IH]; intros pts; cbn [parse_pts]; [split; [intros E; injection E as <-; constructor|intros F; inversion F; reflexivity]|]. split.
  - intros E. apply (parse_pts_inv (t :: ts)) in E. clear -E. induction E as [|? ? ? ? (? & ? & ?)]; constructor; auto.
  - intros F. inversion F as [|? p ? l (D & R) F2]; subst. unfold parse_uint. rewrite D. destruct (digits_no " " _ _ D eq_refl) as [_ P]. change (2 ^ 8) with 256. destruct (Z.ltb_spec p 256); [|lia]. apply IH in F2. rewrite F2, u8_id by lia. reflexivity.
Qed.
Lemma media_iff maps fm t m : parse_media t maps fm = Ok (inl (Some m)) <-> t <> [] /\ media_text maps fm t m.
Proof.
  split.
  - unfold parse_media. destruct t as [|x t]; [discriminate|]. intros H. split; [discriminate|]. revert H. generalize (x :: t). clear x t. intros s.
    unfold parseMediaInfo. destruct (split_byte " " s) as [|t0 [|t1 [|t2 l]]] eqn:E; cbn [length Nat.ltb Nat.leb rbind]; try discriminate.
    cbn [at_ nth_error rbind skipn]. apply split_eq in E. destruct E as [-> F]. inversion F as [|? ? F0 Fa]; subst. inversion Fa as [|? ? F1 Fb]; subst.
    assert (PS : exists portS suffix, t0 = portS ++ suffix /\ slash_or_end suffix /\ match index_byte "/" t0 with Some (S n) => upto (S n) t0 | _ => Ok t0 end = Ok portS).
    { destruct (index_byte "/" t0) as [[|n]|] eqn:X.
      - exists t0, []. rewrite app_nil_r. repeat split; [left; reflexivity].
      - pose proof (index_byte_lt _ _ _ X). apply index_byte_some in X. destruct X as (a & b & -> & X & _).
        exists a, (B "/" ++ b). split; [reflexivity|]. split; [right; eexists; reflexivity|]. rewrite upto_ok by lia. rewrite <- X, firstn_app, firstn_all, Nat.sub_diag. cbn [firstn]. rewrite app_nil_r. reflexivity.
      - exists t0, []. rewrite app_nil_r. repeat split; [left; reflexivity]. }
    destruct PS as (portS & suffix & -> & SS & PS). rewrite PS. clear PS. cbn [rbind].
    unfold parse_uint. destruct (digits_value portS) as [v|] eqn:D; cbn [rbind]; [|discriminate].
    destruct (v <? 2 ^ 16) eqn:LV; cbn [rbind]; [|discriminate]. change (2 ^ 16) with 65536 in LV.
    destruct (parse_pts (t2 :: l)) as [pts|e] eqn:P; cbn [rbind]; [|discriminate].
    destruct (populateCodecs pts maps fm) as [[cs|e]|] eqn:PC; cbn [rbind]; try discriminate. intros K. injection K as <-.
    assert (0 <= v) by (destruct portS; [discriminate|]; apply (dec_value_nonneg _ 0 v ltac:(lia) D)).
    apply populate_iff in PC. apply parse_pts_iff in P. exists portS, suffix, (t2 :: l). cbn [m_proto m_port m_codecs]. rewrite u16_id by lia. rewrite free_of_app in F0. apply andb_true_iff in F0. destruct F0 as [_ F0].
    split; [rewrite join_concat; cbn [map concat]; rewrite <- !app_assoc; reflexivity|]. split; [exact F0|]. split; [exact F1|]. split; [exact D|]. split; [lia|]. split; [exact SS|]. split; [discriminate|].
    clear -P PC. revert cs PC. induction P as [|x p xs ps (P1 & P2) _ IH]; intros cs PC; inversion PC as [|? c ? cs' (C1 & C2) PC']; subst; constructor; auto.
  - intros (N & port & suffix & toks & -> & F1 & F2 & D & PB & SE & NT & FT). unfold parse_media. set (t := port ++ _) in *.
    assert (SP : split_byte " " t = (port ++ suffix) :: m_proto m :: toks).
    { unfold t. replace (port ++ suffix ++ B " " ++ m_proto m ++ concat (map (fun x => B " " ++ x) toks)) with (join (B " ") ((port ++ suffix) :: m_proto m :: toks)) by (rewrite join_concat; cbn [map concat]; rewrite <- !app_assoc; reflexivity).
      apply split_tokens; [discriminate|]. constructor; [rewrite free_of_app, F1, (proj1 (digits_no " " _ _ D eq_refl)); reflexivity|]. constructor; [exact F2|]. clear -FT. induction FT as [|x c xs cs (D & _) _ IH]; constructor; [exact (proj1 (digits_no " " _ _ D eq_refl))|exact IH]. }
    clearbody t. destruct t as [|x t]; [congruence|]. unfold parseMediaInfo. rewrite SP. destruct toks as [|t2 l]; [congruence|]. cbn [length Nat.ltb Nat.leb at_ nth_error rbind skipn].
    assert (PS : match index_byte "/" (port ++ suffix) with Some (S n) => upto (S n) (port ++ suffix) | _ => Ok (port ++ suffix) end = Ok port).
    { destruct (digits_no "/" _ _ D eq_refl) as [FD _]. destruct SE as [-> |(u & ->)]; [rewrite app_nil_r, (index_byte_free _ _ FD); reflexivity|]. change (port ++ B "/" ++ u) with (port ++ "/"%byte :: u). rewrite index_byte_app by exact FD.
      destruct (length port) as [|k] eqn:LP; [destruct port; [discriminate D|discriminate LP]|]. rewrite upto_ok by (rewrite app_length; lia). rewrite <- LP, firstn_app, firstn_all, Nat.sub_diag. cbn [firstn]. rewrite app_nil_r. reflexivity. }
    rewrite PS. cbn [rbind]. unfold parse_uint. rewrite D. destruct (digits_no "/" _ _ D eq_refl) as [_ PP]. change (2 ^ 16) with 65536. destruct (Z.ltb_spec (m_port m) 65536); [|lia]. cbn [rbind].
    assert (PT : parse_pts (t2 :: l) = inl (map c_pt (m_codecs m))). { apply parse_pts_iff. clear -FT. induction FT as [|x c xs cs (D & R & _) _ IH]; constructor; auto. }
    rewrite PT. assert (PC : populateCodecs (map c_pt (m_codecs m)) maps fm = Ok (inl (m_codecs m))). { apply populate_iff. clear -FT. induction FT as [|x c xs cs (D & R & C) _ IH]; constructor; auto. }
    rewrite PC. cbn [rbind]. rewrite u16_id by lia. destruct m; reflexivity.
Qed.
Lemma media_none maps fm t : parse_media t maps fm = Ok (inl None) <-> t = [].
Proof.
  split; [|intros ->; reflexivity]. unfold parse_media. destruct t as [|x t]; [reflexivity|]. destruct (parseMediaInfo (x :: t)) as [[[[p proto] pts]|e]|]; cbn [rbind]; try discriminate. destruct (populateCodecs pts maps fm) as [[l|e]|]; cbn [rbind]; discriminate.
Qed.

(** ** What a number of lines does to the variables of Parse *)
Definition conn_rel (a : option bytes) (L : list bytes) (a' : option bytes) : Prop :=
  match a with Some _ => a' = a | None => match texts (B "c=") L with [] => a' = None | t :: _ => exists x, conn_text t x /\ a' = Some x end end.
Definition origin_rel (o : option origin) (L : list bytes) (o' : option origin) : Prop := exists os, Forall2 origin_text (texts (B "o=") L) os /\ o' = last (map Some os) o.
Definition upd (st : pst) (L : list bytes) (cn : option bytes) (og : option origin) : pst :=
  mkpst (p_room st) (last (values (B "m=audio ") L) (p_audio st)) (last (values (B "m=video ") L) (p_video st)) (p_rtpmaps st ++ values (B "a=rtpmap:") L) (p_fmtps st ++ values (B "a=fmtp:") L)
    (p_attrs st ++ flat_map attribute (texts (B "a=") L)) (p_other st ++ flat_map other_line L) (last (texts (B "s=") L) (p_session st)) (last (texts (B "t=") L) (p_time st)) cn og
    (last (flat_map milliseconds (values (B "a=ptime:") L)) (p_ptime st)) (p_sendonly st || existsb (bseq (B "a=sendonly")) L) (p_recvonly st || existsb (bseq (B "a=recvonly")) L).
Lemma value_one k q c0 r : values (k :: "="%byte :: q) [c0 :: "="%byte :: r] = if beq k c0 then values q [r] else [].
Proof. unfold values. cbn [flat_map has_prefix length skipn]. change (beq "=" "=") with true. destruct (beq k c0); reflexivity. Qed.
Lemma text_one k c0 r : r <> [] -> texts [k; "="%byte] [c0 :: "="%byte :: r] = if beq k c0 then [r] else [].
Proof. intros N. unfold texts. rewrite value_one. destruct (beq k c0); [|reflexivity]. unfold values. cbn [flat_map has_prefix length skipn app filter]. destruct r; [congruence|reflexivity]. Qed.
Lemma upd_one st c0 r cn og : r <> [] -> upd st [c0 :: "="%byte :: r] cn og =
  let w (k : byte) {A} (l : list A) := if beq k c0 then l else [] in
  mkpst (p_room st) (last (w "m"%byte (values (B "audio ") [r])) (p_audio st)) (last (w "m"%byte (values (B "video ") [r])) (p_video st)) (p_rtpmaps st ++ w "a"%byte (values (B "rtpmap:") [r])) (p_fmtps st ++ w "a"%byte (values (B "fmtp:") [r]))
    (p_attrs st ++ w "a"%byte (attribute r)) (p_other st ++ if existsb (beq c0) (B "mstcoa=") then [] else [([c0], r)]) (last (w "s"%byte [r]) (p_session st)) (last (w "t"%byte [r]) (p_time st)) cn og
    (last (flat_map milliseconds (w "a"%byte (values (B "ptime:") [r]))) (p_ptime st)) (p_sendonly st || beq "a" c0 && bseq (B "sendonly") r) (p_recvonly st || beq "a" c0 && bseq (B "recvonly") r).
Proof.
  intros N. cbv zeta. unfold upd.
  change (B "m=audio ") with ("m" :: "=" :: B "audio ")%byte. change (B "m=video ") with ("m" :: "=" :: B "video ")%byte. change (B "a=rtpmap:") with ("a" :: "=" :: B "rtpmap:")%byte. change (B "a=fmtp:") with ("a" :: "=" :: B "fmtp:")%byte. change (B "a=ptime:") with ("a" :: "=" :: B "ptime:")%byte.
  change (B "a=") with ["a"; "="]%byte. change (B "s=") with ["s"; "="]%byte. change (B "t=") with ["t"; "="]%byte. rewrite !value_one, !(text_one _ _ _ N).
  assert (E : existsb (bseq (B "a=sendonly")) [c0 :: "="%byte :: r] = beq "a" c0 && bseq (B "sendonly") r) by (cbn [existsb]; rewrite orb_false_r; reflexivity).
  assert (E' : existsb (bseq (B "a=recvonly")) [c0 :: "="%byte :: r] = beq "a" c0 && bseq (B "recvonly") r) by (cbn [existsb]; rewrite orb_false_r; reflexivity).
  assert (O : flat_map other_line [c0 :: "="%byte :: r] = if existsb (beq c0) (B "mstcoa=") then [] else [([c0], r)]).
  { cbn [flat_map]. rewrite app_nil_r. destruct r as [|x r]; [congruence|]. cbn [other_line skipn]. change (beq "=" "=") with true. cbn [andb]. destruct (existsb (beq c0) (B "mstcoa=")); reflexivity. }
  assert (T : flat_map attribute (if beq "a" c0 then [r] else []) = if beq "a" c0 then attribute r else []) by (destruct (beq "a" c0); [cbn [flat_map]; apply app_nil_r|reflexivity]).
  rewrite E, E', O, T. reflexivity.
Qed.
Lemma cut_index c t : cut c t = match index_byte c t with Some n => (firstn n t, skipn (n + 1) t) | None => (t, []) end.
Proof. induction t as [|x t IH]; [reflexivity|]. cbn [cut index_byte]. destruct (beq x c); [reflexivity|]. rewrite IH. destruct (index_byte c t); reflexivity. Qed.
Lemma value_self q r : values q [r] = if has_prefix r q then [skipn (length q) r] else [].
Proof. unfold values. cbn [flat_map]. apply app_nil_r. Qed.
Lemma prefix_byte k x s : has_prefix (x :: s) [k] = beq k x. Proof. cbn [has_prefix]. destruct s; apply andb_true_r. Qed.
Lemma attr_line st t n : room (S n) st -> t <> [] -> parse_attr st t = Ok (upd st [B "a=" ++ t] (p_conn st) (p_origin st)).
Proof.
  intros (R1 & R2 & R3) N. change (B "a=" ++ t) with ("a"%byte :: "="%byte :: t). rewrite upd_one by exact N. cbv zeta beta. change (beq "m" "a") with false. change (beq "s" "a") with false. change (beq "t" "a") with false. change (beq "a" "a") with true.
  change (existsb (beq "a") (B "mstcoa=")) with true. cbn [last andb]. rewrite !value_self, app_nil_r. unfold parse_attr.
  assert (T : forall l : list bytes, (length l + S n <= p_room st)%nat -> Nat.ltb (length l) (p_room st) = true) by (intros; apply Nat.ltb_lt; lia).
  assert (T' : forall l : list (bytes * bytes), (length l + S n <= p_room st)%nat -> Nat.ltb (length l) (p_room st) = true) by (intros; apply Nat.ltb_lt; lia).
  unfold attribute. cbn [existsb]. rewrite !(bseq_sym t).
  destruct (has_prefix t (B "rtpmap:")) eqn:P1.
  { assert (X : exists v, t = B "rtpmap:" ++ v) by (eexists; exact (has_prefix_split _ _ P1)). destruct X as [v ->]. change (from 7 (B "rtpmap:" ++ v)) with (from (length (B "rtpmap:")) (B "rtpmap:" ++ v)). rewrite from_prefix. cbn [rbind]. rewrite T by lia.
    change (has_prefix (B "rtpmap:" ++ v) (B "fmtp:")) with false. change (has_prefix (B "rtpmap:" ++ v) (B "ptime:")) with false. change (bseq (B "sendonly") (B "rtpmap:" ++ v)) with false. change (bseq (B "recvonly") (B "rtpmap:" ++ v)) with false.
    change (skipn (length (B "rtpmap:")) (B "rtpmap:" ++ v)) with v. cbn [flat_map last orb]. rewrite !app_nil_r, !orb_false_r. reflexivity. }
  destruct (has_prefix t (B "fmtp:")) eqn:P2.
  { assert (X : exists v, t = B "fmtp:" ++ v) by (eexists; exact (has_prefix_split _ _ P2)). destruct X as [v ->]. change (from 5 (B "fmtp:" ++ v)) with (from (length (B "fmtp:")) (B "fmtp:" ++ v)). rewrite from_prefix. cbn [rbind]. rewrite T by lia.
    change (has_prefix (B "fmtp:" ++ v) (B "ptime:")) with false. change (bseq (B "sendonly") (B "fmtp:" ++ v)) with false. change (bseq (B "recvonly") (B "fmtp:" ++ v)) with false.
    change (skipn (length (B "fmtp:")) (B "fmtp:" ++ v)) with v. cbn [flat_map last orb]. rewrite !app_nil_r, !orb_false_r. reflexivity. }
  destruct (has_prefix t (B "ptime:")) eqn:P3.
  { assert (X : exists v, t = B "ptime:" ++ v) by (eexists; exact (has_prefix_split _ _ P3)). destruct X as [v ->]. rewrite from_ptime. cbn [rbind].
    change (bseq (B "sendonly") (B "ptime:" ++ v)) with false. change (bseq (B "recvonly") (B "ptime:" ++ v)) with false.
    change (skipn (length (B "ptime:")) (B "ptime:" ++ v)) with v. cbn [flat_map orb]. rewrite !app_nil_r, !orb_false_r. unfold milliseconds. destruct (atoi v) as [k|]; [destruct (0 <? k)|]; destruct st; reflexivity. }
  destruct (bseq_reflect (B "sendrecv") t) as [<-|N1]; [cbn; rewrite !app_nil_r, !orb_false_r; destruct st; reflexivity|].
  destruct (bseq_reflect (B "sendonly") t) as [<-|N2]; [cbn; rewrite !app_nil_r, ?orb_false_r, ?orb_true_r; destruct st; reflexivity|].
  destruct (bseq_reflect (B "recvonly") t) as [<-|N3]; [cbn; rewrite !app_nil_r, ?orb_false_r, ?orb_true_r; destruct st; reflexivity|].
  rewrite cut_index. cbn [flat_map last]. rewrite !app_nil_r, !orb_false_r. cbn [orb].
  destruct (index_byte ":" t) as [i|] eqn:E.
  - pose proof (index_byte_lt _ _ _ E) as LT. apply index_byte_some in E. destruct E as (a & b & -> & E & F). destruct a as [|x a]; cbn [length] in E; subst i.
    + change ([] ++ ":"%byte :: b) with (B ":" ++ b). rewrite has_prefix_app. rewrite app_nil_r. destruct st; reflexivity.
    + rewrite upto_ok, from_ok by lia. cbn [rbind]. rewrite T' by lia. assert (HP : has_prefix ((x :: a) ++ ":"%byte :: b) (B ":") = false) by (change (B ":") with [":"%byte]; cbn [app]; rewrite prefix_byte; cbn [free_of forallb] in F; apply andb_true_iff in F; destruct F as [F _]; destruct (beq_reflect ":" x) as [<-|NX]; [discriminate F|reflexivity]).
      rewrite HP. reflexivity.
  - rewrite T' by lia. apply index_byte_none in E. assert (HP : has_prefix t (B ":") = false) by (destruct t as [|x t]; [congruence|]; change (B ":") with [":"%byte]; rewrite prefix_byte; cbn [free_of forallb] in E; apply andb_true_iff in E; destruct E as [E _]; destruct (beq_reflect ":" x) as [<-|NX]; [discriminate E|reflexivity]).
    rewrite HP. reflexivity.
Qed.
Lemma line_iff st l n st' : room (S n) st ->
  (parse_line st l = Ok (inl st') <-> exists cn og, conn_rel (p_conn st) [l] cn /\ origin_rel (p_origin st) [l] og /\ st' = upd st [l] cn og).
Proof.
  intros R.
  assert (PL : texts (B "c=") [l] = [] -> texts (B "o=") [l] = [] -> parse_line st l = Ok (inl (upd st [l] (p_conn st) (p_origin st))) ->
    (parse_line st l = Ok (inl st') <-> exists cn og, conn_rel (p_conn st) [l] cn /\ origin_rel (p_origin st) [l] og /\ st' = upd st [l] cn og)).
  { intros C O E. rewrite E. unfold conn_rel, origin_rel. rewrite C, O. split.
    - intros K. assert (K' : st' = upd st [l] (p_conn st) (p_origin st)) by congruence. exists (p_conn st), (p_origin st). split; [destruct (p_conn st); reflexivity|]. split; [exists []; split; [constructor|reflexivity]|exact K'].
    - intros (cn & og & C1 & (os & F & ->) & ->). inversion F; subst. cbn [map last]. assert (cn = p_conn st) as -> by (destruct (p_conn st); exact C1). reflexivity. }
  assert (E0 : forall l0, (forall k, texts [k; "="%byte] [l0] = []) -> (forall k x q, values (k :: "="%byte :: x :: q) [l0] = []) -> other_line l0 = [] -> (forall x q, bseq ("a" :: "=" :: x :: q)%byte l0 = false) -> forall cn og, upd st [l0] cn og = mkpst (p_room st) (p_audio st) (p_video st) (p_rtpmaps st) (p_fmtps st) (p_attrs st) (p_other st) (p_session st) (p_time st) cn og (p_ptime st) (p_sendonly st) (p_recvonly st)).
  { intros l0 V' V O S cn og. unfold upd. change (B "m=audio ") with ("m" :: "=" :: "a" :: B "udio ")%byte. change (B "m=video ") with ("m" :: "=" :: "v" :: B "ideo ")%byte. change (B "a=rtpmap:") with ("a" :: "=" :: "r" :: B "tpmap:")%byte. change (B "a=fmtp:") with ("a" :: "=" :: "f" :: B "mtp:")%byte. change (B "a=ptime:") with ("a" :: "=" :: "p" :: B "time:")%byte.
    change (B "a=") with ["a"; "="]%byte. change (B "s=") with ["s"; "="]%byte. change (B "t=") with ["t"; "="]%byte. change (B "a=sendonly") with ("a" :: "=" :: "s" :: B "endonly")%byte. change (B "a=recvonly") with ("a" :: "=" :: "r" :: B "ecvonly")%byte. rewrite !V, !V'. cbn [flat_map existsb last]. rewrite O, !S. cbn [app]. rewrite !app_nil_r, !orb_false_r. reflexivity. }
  assert (NO : (forall k, texts [k; "="%byte] [l] = []) -> (forall k x q, values (k :: "="%byte :: x :: q) [l] = []) -> other_line l = [] -> (forall x q, bseq ("a" :: "=" :: x :: q)%byte l = false) -> parse_line st l = Ok (inl st) ->
    (parse_line st l = Ok (inl st') <-> exists cn og, conn_rel (p_conn st) [l] cn /\ origin_rel (p_origin st) [l] og /\ st' = upd st [l] cn og)).
  { intros V' V O S E. apply PL; [apply V'|apply V'|]. rewrite E, (E0 l V' V O S). destruct st; reflexivity. }
  destruct l as [|c0 [|c1 [|c2 t]]].
  - apply NO; try reflexivity.
  - apply NO; try reflexivity; intros; unfold texts, values; cbn [flat_map has_prefix bseq]; rewrite ?andb_false_r; reflexivity.
  - (* two bytes *)
    apply NO; try reflexivity.
    + intros k. unfold texts, values. cbn [flat_map has_prefix length skipn]. destruct (beq k c0 && (beq "=" c1 && true)); reflexivity.
    + intros k x q. unfold values. cbn [flat_map has_prefix]. rewrite !andb_false_r. reflexivity.
    + intros x q. cbn [bseq]. rewrite !andb_false_r. reflexivity.
  - destruct (beq_reflect c1 "=") as [->|NE].
    2:{ assert (NE' : beq "=" c1 = false) by (apply beq_neq; congruence). apply NO.
        - intros k. unfold texts, values. cbn [flat_map has_prefix]. rewrite NE'. cbn [andb]. rewrite andb_false_r. reflexivity.
        - intros k x q. unfold values. cbn [flat_map has_prefix]. rewrite NE'. cbn [andb]. rewrite andb_false_r. reflexivity.
        - cbn [other_line]. apply beq_neq in NE. rewrite NE. reflexivity.
        - intros x q. cbn [bseq]. rewrite NE'. cbn [andb]. apply andb_false_r.
        - apply beq_neq in NE. unfold parse_line. cbn [length Nat.ltb Nat.leb at_ nth_error rbind]. rewrite NE. reflexivity. }
    set (r := c2 :: t) in *. assert (N : r <> []) by discriminate.
    assert (TX : forall k, texts [k; "="%byte] [c0 :: "="%byte :: r] = if beq k c0 then [r] else []) by (intros k; apply text_one; exact N).
    destruct (beq_reflect c0 "m") as [->|N1].
    { apply PL; [apply (TX "c"%byte)|apply (TX "o"%byte)|]. change ("m" :: "=" :: r)%byte with (B "m=" ++ r) at 1. rewrite pl_m by exact N. rewrite upd_one by exact N. cbv zeta beta. change (beq "m" "m") with true. change (beq "a" "m") with false. change (beq "s" "m") with false. change (beq "t" "m") with false. change (existsb (beq "m") (B "mstcoa=")) with true.
      cbn [flat_map last andb]. rewrite !app_nil_r, !orb_false_r, !value_self. destruct (has_prefix r (B "audio ")) eqn:P1.
      { assert (X : exists v, r = B "audio " ++ v) by (eexists; exact (has_prefix_split _ _ P1)). destruct X as [v X]. rewrite X. rewrite from_audio. reflexivity. }
      destruct (has_prefix r (B "video ")) eqn:P2; [|cbn; destruct st; reflexivity].
      assert (X : exists v, r = B "video " ++ v) by (eexists; exact (has_prefix_split _ _ P2)). destruct X as [v X]. rewrite X. rewrite from_video. reflexivity. }
    destruct (beq_reflect c0 "s") as [->|N2].
    { apply PL; [apply (TX "c"%byte)|apply (TX "o"%byte)|]. change ("s" :: "=" :: r)%byte with (B "s=" ++ r) at 1. rewrite pl_s by exact N. rewrite upd_one by exact N. cbn. rewrite !app_nil_r, !orb_false_r. reflexivity. }
    destruct (beq_reflect c0 "t") as [->|N3].
    { apply PL; [apply (TX "c"%byte)|apply (TX "o"%byte)|]. change ("t" :: "=" :: r)%byte with (B "t=" ++ r) at 1. rewrite pl_t by exact N. rewrite upd_one by exact N. cbn. rewrite !app_nil_r, !orb_false_r. reflexivity. }
    destruct (beq_reflect c0 "c") as [->|N4].
    { assert (U : forall cn og, upd st ["c" :: "=" :: r]%byte cn og = mkpst (p_room st) (p_audio st) (p_video st) (p_rtpmaps st) (p_fmtps st) (p_attrs st) (p_other st) (p_session st) (p_time st) cn og (p_ptime st) (p_sendonly st) (p_recvonly st)) by (intros cn og; rewrite upd_one by exact N; cbn; rewrite !app_nil_r, !orb_false_r; reflexivity).
      pose proof (TX "c"%byte) as T1. pose proof (TX "o"%byte) as T2. change (beq "c" "c") with true in T1. change (beq "o" "c") with false in T2. cbv iota in T1, T2.
      unfold conn_rel, origin_rel. change (B "c=") with ["c"; "="]%byte. change (B "o=") with ["o"; "="]%byte. rewrite T1, T2. clear T1 T2 TX.
      assert (PLC : parse_line st ("c" :: "=" :: r)%byte = match p_conn st with
          | Some _ => Ok (inl st)
          | None => rbind (parseConnLine (B "c=" ++ r)) (fun r => Ok (match r with inr e => inr e | inl a => inl (mkpst (p_room st) (p_audio st) (p_video st) (p_rtpmaps st) (p_fmtps st) (p_attrs st) (p_other st)
                   (p_session st) (p_time st) (Some a) (p_origin st) (p_ptime st) (p_sendonly st) (p_recvonly st)) end)) end) by reflexivity.
      rewrite PLC. destruct (p_conn st) as [a|] eqn:C.
      - split.
        + intros K. exists (Some a), (p_origin st). split; [reflexivity|]. split; [exists []; split; [constructor|reflexivity]|]. rewrite U. assert (st' = st) as -> by congruence. destruct st. cbn in C |- *. congruence.
        + intros (cn & og & -> & (os & F & ->) & ->). inversion F; subst. rewrite U. cbn [map last]. rewrite <- C. destruct st; reflexivity.
      - destruct (ok_conn (B "c=" ++ r)) as [[a|e] E]; [cbn; lia| |]; rewrite E; cbn [rbind].
        + split.
          * intros K. exists (Some a), (p_origin st). split; [exists a; split; [apply conn_iff; exact E|reflexivity]|]. split; [exists []; split; [constructor|reflexivity]|]. rewrite U. congruence.
          * intros (cn & og & (x & X & ->) & (os & F & ->) & ->). inversion F; subst. apply conn_iff in X. rewrite E in X. injection X as <-. rewrite U. reflexivity.
        + split; [discriminate|]. intros (cn & og & (x & X & ->) & _). apply conn_iff in X. congruence. }
    destruct (beq_reflect c0 "o") as [->|N5].
    { assert (U : forall cn og, upd st ["o" :: "=" :: r]%byte cn og = mkpst (p_room st) (p_audio st) (p_video st) (p_rtpmaps st) (p_fmtps st) (p_attrs st) (p_other st) (p_session st) (p_time st) cn og (p_ptime st) (p_sendonly st) (p_recvonly st)) by (intros cn og; rewrite upd_one by exact N; cbn; rewrite !app_nil_r, !orb_false_r; reflexivity).
      pose proof (TX "c"%byte) as T1. pose proof (TX "o"%byte) as T2. change (beq "c" "o") with false in T1. change (beq "o" "o") with true in T2. cbv iota in T1, T2.
      unfold conn_rel, origin_rel. change (B "c=") with ["c"; "="]%byte. change (B "o=") with ["o"; "="]%byte. rewrite T1, T2. clear T1 T2 TX.
      assert (PLC : parse_line st ("o" :: "=" :: r)%byte = rbind (parseOriginLine (B "o=" ++ r)) (fun r => Ok (match r with inr e => inr e | inl o => inl (mkpst (p_room st) (p_audio st) (p_video st) (p_rtpmaps st) (p_fmtps st) (p_attrs st) (p_other st)
                   (p_session st) (p_time st) (p_conn st) (Some o) (p_ptime st) (p_sendonly st) (p_recvonly st)) end))) by reflexivity.
      rewrite PLC. destruct (ok_origin (B "o=" ++ r)) as [[a|e] E]; [cbn; lia| |]; rewrite E; cbn [rbind].
      - split.
        + intros K. exists (p_conn st), (Some a). split; [destruct (p_conn st); reflexivity|]. split; [exists [a]; split; [repeat constructor; apply origin_iff; exact E|reflexivity]|]. rewrite U. congruence.
        + intros (cn & og & C1 & (os & F & ->) & ->). inversion F as [|? x ? ? X F']; subst. inversion F'; subst. apply origin_iff in X. rewrite E in X. injection X as <-. rewrite U. cbn [map last]. assert (cn = p_conn st) as -> by (destruct (p_conn st); exact C1). reflexivity.
      - split; [discriminate|]. intros (cn & og & _ & (os & F & _) & _). inversion F as [|? x ? ? X F']; subst. apply origin_iff in X. congruence. }
    destruct (beq_reflect c0 "a") as [->|N6].
    { apply PL; [apply (TX "c"%byte)|apply (TX "o"%byte)|]. change ("a" :: "=" :: r)%byte with (B "a=" ++ r). rewrite pl_a by exact N. rewrite (attr_line st r n R N). reflexivity. }
    apply PL; [change (B "c=") with ["c"; "="]%byte; rewrite TX; destruct (beq_reflect "c" c0); [congruence|reflexivity]|change (B "o=") with ["o"; "="]%byte; rewrite TX; destruct (beq_reflect "o" c0); [congruence|reflexivity]|].
    assert (NB : forall k, c0 <> k -> beq k c0 = false) by (intros k H; apply beq_neq; congruence).
    rewrite upd_one by exact N. cbv zeta beta. rewrite !NB by assumption. cbn [last flat_map andb]. rewrite !app_nil_r, !orb_false_r. unfold r. clear TX NB.
    unfold parse_line. cbn [length Nat.ltb Nat.leb at_ nth_error rbind]. change (beq "=" "=") with true. cbn [negb]. apply beq_neq in N1, N2, N3, N4, N5, N6. rewrite N1, N2, N3, N4, N5, N6.
    cbn [index_byte]. assert (ME : existsb (beq c0) (B "mstcoa=") = beq c0 "=") by (cbn [existsb B]; rewrite N1, N2, N3, N4, N5, N6; cbn [orb]; apply orb_false_r). rewrite ME. destruct (beq c0 "="); [rewrite app_nil_r; destruct st; reflexivity|]. change (beq "=" "=") with true. cbn [option_map]. reflexivity.
Qed.

(** ** All lines *)
Lemma last_app2 {A} (a b : list A) d : last (a ++ b) d = last b (last a d).
Proof. revert d. induction a as [|x a IH]; intros d; [reflexivity|]. destruct a as [|y a]; [cbn; destruct b as [|z b]; [reflexivity|]; clear; revert z; induction b as [|w b IH]; intros z; [reflexivity|cbn [last] in *; apply IH]|]. change (last ((x :: y :: a) ++ b) d) with (last ((y :: a) ++ b) d). rewrite IH. reflexivity. Qed.
Lemma values_cons p l L : values p (l :: L) = values p [l] ++ values p L.
Proof. unfold values. cbn [flat_map]. rewrite app_nil_r. reflexivity. Qed.
Lemma texts_cons p l L : texts p (l :: L) = texts p [l] ++ texts p L.
Proof. unfold texts. rewrite values_cons. apply filter_app. Qed.
Lemma upd_upd st l L cn og cn' og' : upd (upd st [l] cn og) L cn' og' = upd st (l :: L) cn' og'.
Proof.
  unfold upd at 1 3. rewrite !(values_cons _ l L), !(texts_cons _ l L), !flat_map_app, !last_app2, !app_assoc. cbn [flat_map existsb]. unfold upd. cbn [p_room p_audio p_video p_rtpmaps p_fmtps p_attrs p_other p_session p_time p_ptime p_sendonly p_recvonly flat_map existsb].
  rewrite !app_nil_r, !orb_assoc, !orb_false_r. rewrite <- !app_assoc. reflexivity.
Qed.
Lemma conn_rel_cons a l L a' : conn_rel a (l :: L) a' <-> exists b, conn_rel a [l] b /\ conn_rel b L a' /\ (b = None -> texts (B "c=") [l] = []).
Proof.
  unfold conn_rel. rewrite texts_cons. destruct a as [x|].
  - split; [intros ->; exists (Some x); repeat split; congruence|intros (b & -> & H & _); exact H].
  - assert (K : texts (B "c=") [l] = [] \/ exists t, texts (B "c=") [l] = [t]).
    { unfold texts. rewrite value_self. destruct (has_prefix l (B "c=")); [|left; reflexivity]. cbn [filter]. destruct (negb (bseq (skipn (length (B "c=")) l) [])); [right; eexists; reflexivity|left; reflexivity]. }
    destruct K as [K|[t K]]; rewrite K; cbn [app].
    + split; [intros H; exists None; repeat split; assumption|intros (b & -> & H & _); exact H].
    + split; [intros (x & X & ->); exists (Some x); repeat split; [exists x; split; [exact X|reflexivity]|congruence]|intros (b & (x & X & ->) & -> & _); exists x; split; [exact X|reflexivity]].
Qed.
Lemma origin_rel_cons a l L a' : origin_rel a (l :: L) a' <-> exists b, origin_rel a [l] b /\ origin_rel b L a'.
Proof.
  unfold origin_rel. rewrite texts_cons. split.
  - intros (os & F & ->). apply Forall2_app_inv_l in F. destruct F as (o1 & o2 & F1 & F2 & ->). exists (last (map Some o1) a). split; [exists o1; split; [exact F1|reflexivity]|]. exists o2. split; [exact F2|]. rewrite map_app. apply last_app2.
  - intros (b & (o1 & F1 & ->) & (o2 & F2 & ->)). exists (o1 ++ o2). split; [apply Forall2_app; assumption|]. rewrite map_app. symmetry. apply last_app2.
Qed.
Lemma lines_iff L : forall st st', room (length L) st ->
  (parse_lines st L = Ok (inl st') <-> exists cn og, conn_rel (p_conn st) L cn /\ origin_rel (p_origin st) L og /\ st' = upd st L cn og).
Proof.
  induction L as [|l L IH]; intros st st' R.
  - cbn [parse_lines]. unfold conn_rel, origin_rel. change (texts (B "c=") []) with (@nil bytes). change (texts (B "o=") []) with (@nil bytes).
    assert (U : upd st [] (p_conn st) (p_origin st) = st) by (unfold upd; cbn; rewrite !app_nil_r, !orb_false_r; destruct st; reflexivity). split.
    + intros K. exists (p_conn st), (p_origin st). split; [destruct (p_conn st); reflexivity|]. split; [exists []; split; [constructor|reflexivity]|]. rewrite U. congruence.
    + intros (cn & og & C & (os & F & ->) & ->). inversion F; subst. cbn [map last]. assert (cn = p_conn st) as -> by (destruct (p_conn st); exact C). rewrite U. reflexivity.
  - cbn [parse_lines]. cbn [length] in R. pose proof (line_iff st l (length L)) as LI. split.
    + destruct (ok_line st l (length L) R) as [[e ->]|(st1 & E & H)]; [discriminate|]. rewrite E. cbn [rbind]. intros K. apply (IH _ _ H) in K. destruct K as (cn & og & C & O & ->). apply (LI st1 R) in E. destruct E as (cn1 & og1 & C1 & O1 & ->).
      cbn [upd p_conn p_origin] in C, O. exists cn, og. split; [|split].
      * apply conn_rel_cons. exists cn1. split; [exact C1|]. split; [exact C|]. intros ->. unfold conn_rel in C1. destruct (p_conn st); [discriminate|]. destruct (texts (B "c=") [l]); [reflexivity|]. destruct C1 as (x & _ & X). discriminate.
      * apply origin_rel_cons. exists og1. split; [exact O1|exact O].
      * apply upd_upd.
    + intros (cn & og & C & O & ->). apply conn_rel_cons in C. destruct C as (cn1 & C1 & C & _). apply origin_rel_cons in O. destruct O as (og1 & O1 & O).
      assert (E : parse_line st l = Ok (inl (upd st [l] cn1 og1))) by (apply (LI _ R); exists cn1, og1; auto). destruct (ok_line st l (length L) R) as [[e X]|(st1 & X & H)]; [congruence|]. assert (st1 = upd st [l] cn1 og1) as -> by congruence.
      rewrite E. cbn [rbind]. apply (IH _ _ H). exists cn, og. split; [exact C|]. split; [exact O|]. symmetry. apply upd_upd.
Qed.

(** ** Theorem *)
Lemma last_some (os : list origin) o : last (map Some os) None = Some o <-> exists l, os = l ++ [o].
Proof.
  split; [|intros [l ->]; rewrite map_app; cbn [map]; apply last_last]. destruct os as [|x l _] using rev_ind; [discriminate|]. rewrite map_app. cbn [map]. rewrite last_last. intros [= ->]. eauto.
Qed.
Lemma media_of_lines_iff L p m : parse_media (last (values p L) []) (values (B "a=rtpmap:") L) (values (B "a=fmtp:") L) = Ok (inl m) <-> media_of_lines L p m.
Proof. unfold media_of_lines. destruct m as [m|]; [apply media_iff|apply media_none]. Qed.
Lemma existsb_in t L : existsb (bseq t) L = true <-> In t L.
Proof. rewrite existsb_exists. split; [intros (x & H & E); apply bseq_spec in E; subst; exact H|intros H; exists t; split; [exact H|apply bseq_refl]]. Qed.

Theorem sdp_parse_exact : forall s d, sdp_parse s = Ok (inl d) <-> sdp_reads s d.
Proof.
  intros s d. unfold sdp_parse, sdp_reads. destruct (has_prefix s (B "v=0" ++ CRLF)) eqn:P.
  2:{ split; [discriminate|]. intros (rest & L & -> & _). rewrite app_assoc, has_prefix_app in P. discriminate. }
  assert (X : exists v, s = (B "v=0" ++ CRLF) ++ v) by (eexists; exact (has_prefix_split _ _ P)). destruct X as [v ->]. cbn [negb].
  change (from 5 ((B "v=0" ++ CRLF) ++ v)) with (from (length (B "v=0" ++ CRLF)) ((B "v=0" ++ CRLF) ++ v)). rewrite from_prefix. cbn [rbind]. cbv zeta.
  set (L := split_crlf v).
  assert (W : forall Q : bytes -> list bytes -> Prop, Q v L <-> exists rest L', (B "v=0" ++ CRLF) ++ v = B "v=0" ++ CRLF ++ rest /\ text_lines rest L' /\ Q rest L').
  { intros Q. split; [intros H; exists v, L; split; [symmetry; apply app_assoc|]; split; [apply text_lines_iff; reflexivity|exact H]|]. intros (rest & L' & E & T & H). rewrite <- app_assoc in E. apply app_inv_head in E. apply app_inv_head in E. subst rest. apply text_lines_iff in T. subst L'. exact H. }
  match goal with |- _ <-> exists rest L0, _ /\ _ /\ ?R => rewrite <- (W (fun rest L0 => R)) end. clear W. cbv beta. destruct (Nat.ltb_spec (length L) 2) as [H2|H2]; [split; [discriminate|intros [H _]; lia]|].
  match goal with |- context [parse_lines ?s0 L] => set (st0 := s0) end. assert (R : room (length L) st0) by (repeat split; cbn; lia).
  assert (U : forall cn og, conn_rel None L cn -> origin_rel None L og -> parse_lines st0 L = Ok (inl (upd st0 L cn og))) by (intros cn og C O; apply (lines_iff L st0 _ R); exists cn, og; auto).
  split.
  - destruct (ok_lines L st0 R) as [[st|e] E]; rewrite E; cbn [rbind]; [|discriminate]. apply (lines_iff L st0 _ R) in E. destruct E as (cn & og & C & O & ->). cbn [upd p_conn p_origin p_audio p_video p_rtpmaps p_fmtps p_session p_time p_ptime p_sendonly p_recvonly p_attrs p_other st0 app orb] in *.
    destruct cn as [addr|]; [|discriminate]. destruct og as [o|]; [|discriminate].
    destruct (parse_media (last (values (B "m=audio ") L) []) _ _) as [[am|e]|] eqn:EA; cbn [rbind]; try discriminate.
    destruct (parse_media (last (values (B "m=video ") L) []) _ _) as [[vm|e]|] eqn:EV; cbn [rbind]; try discriminate.
    intros K. assert (K' : d = mksdp o addr am vm (last (texts (B "s=") L) (B "pok" ++ [xc3; xa9] ++ B "mon")) (last (texts (B "t=") L) (B "0 0")) (last (flat_map milliseconds (values (B "a=ptime:") L)) 0) (existsb (bseq (B "a=sendonly")) L) (existsb (bseq (B "a=recvonly")) L) (flat_map attribute (texts (B "a=") L)) (flat_map other_line L) /\ (am <> None \/ vm <> None)).
    { destruct am as [am|]; [|destruct vm as [vm|]; [|discriminate]]; (split; [apply (f_equal (fun r => match r with Ok (inl x) => x | _ => d end)) in K; symmetry; exact K|]); [left|right]; discriminate. }
    clear K. destruct K' as [-> N]. cbn [s_addr s_origin s_audio s_video s_session s_time s_ptime s_sendonly s_recvonly s_attrs s_other].
    split; [exact H2|]. split. { unfold conn_rel in C. destruct (texts (B "c=") L) as [|t ts]; [discriminate|]. destruct C as (x & X & [= ->]). exists t, ts. auto. }
    split. { destruct O as (os & F & O). symmetry in O. apply last_some in O. destruct O as [l ->]. exists l. exact F. }
    apply media_of_lines_iff in EA, EV. repeat split; auto; try (apply existsb_in).
  - intros (_ & (t & ts & C & CT) & (os & F) & MA & MV & N & ES & ET & EP & ESO & ERO & EAT & EO).
    rewrite (U (Some (s_addr d)) (Some (s_origin d))).
    2:{ unfold conn_rel. rewrite C. exists (s_addr d). auto. }
    2:{ exists (os ++ [s_origin d]). split; [exact F|]. symmetry. apply last_some. eauto. }
    cbn [rbind upd p_conn p_origin p_audio p_video p_rtpmaps p_fmtps p_session p_time p_ptime p_sendonly p_recvonly p_attrs p_other st0 app orb].
    apply media_of_lines_iff in MA, MV. rewrite MA, MV. cbn [rbind].
    assert (B1 : existsb (bseq (B "a=sendonly")) L = s_sendonly d) by (apply eq_true_iff_eq; rewrite existsb_in; symmetry; exact ESO).
    assert (B2 : existsb (bseq (B "a=recvonly")) L = s_recvonly d) by (apply eq_true_iff_eq; rewrite existsb_in; symmetry; exact ERO).
    rewrite B1, B2, <- EAT, <- EO, <- EP. rewrite <- ET. match goal with |- context [last (texts (B "s=") L) ?x] => replace (last (texts (B "s=") L) x) with (s_session d) by exact ES end.
    clear - N. destruct d as [o a au vi se ti pt so ro at_ ot]. cbn in *. destruct au; [reflexivity|]. destruct vi; [reflexivity|]. destruct N; congruence.
Qed.

(** ... and every other text is refused with an error: Parse never crashes. *)
Corollary sdp_refused : forall s, (forall d, ~ sdp_reads s d) <-> exists e, sdp_parse s = Ok (inr e).
Proof.
  intros s. split.
  - intros N. destruct (sdp_parse_ok s) as [[d|e] E]; [|eauto]. apply sdp_parse_exact in E. destruct (N d E).
  - intros [e E] d R. apply sdp_parse_exact in R. congruence.
Qed.

(** A text with two c= lines, of which the first counts, an attribute before the media, one static payload type and one described by an
    rtpmap, and a line of another kind. *)
Definition odd_text : bytes := B "v=0" ++ CRLF ++ join CRLF [B "o=- 1 2 IN IP4 10.0.0.1"; B "c=IN IP4 10.0.0.2"; B "c=nonsense"; B "b=AS:64"; B "s="; B "a=tool:x:y"; B "m=audio 5004/2 RTP/AVP 0 97"; B "a=rtpmap:97 speex/16000/1/z"; B "a=fmtp:97 mode=3"; B "a=ptime:0"; B "a=ptime:30"; B "a=sendonly"; B ""].
Definition odd_sdp : sdp := mksdp (mkorigin (B "-") (B "1") (B "2") (B "10.0.0.1")) (B "10.0.0.2")
  (Some (mkmedia (B "RTP/AVP") 5004 [mkcodec 0 (B "PCMU") 8000 [] []; mkcodec 97 (B "speex") 16000 (B "1") (B "mode=3")])) None (B "pok" ++ [xc3; xa9] ++ B "mon") (B "0 0") 30 true false [(B "tool", B "x:y")] [(B "b", B "AS:64")].
Example odd_read : sdp_reads odd_text odd_sdp.
Proof. apply sdp_parse_exact. vm_compute. reflexivity. Qed.
Example odd_refused : exists e, sdp_parse (B "v=0" ++ CRLF ++ join CRLF [B "o=- 1 2 IN IP4 10.0.0.1"; B "c=nonsense"; B "c=IN IP4 10.0.0.2"; B "m=audio 5004 RTP/AVP 0"; B ""]) = Ok (inr e).
Proof. eexists. vm_compute. reflexivity. Qed.
