(** Properties C24, C25 and C26 (session descriptions). *)
From Verif Require Import Bytes BytesLemmas GoLib GoLibLemmas SdpModel SdpProofs.
Local Open Scope Z_scope.

(** ** C24 *)
Theorem sdp_parse_total : forall s, sdp_parse s <> Panic.
Proof. intros s. destruct (sdp_parse_ok s) as [a ->]. discriminate. Qed.

(** ** C25 *)
(** [wf_sdp] (SdpProofs.v) spells out the well-formed descriptions: non-empty single-word origin fields and
    addresses, non-empty session and time texts, media with at least one codec, payload types below 256 that
    name one codec each, attributes that are not one of those with a field of their own, one-letter other keys. *)
Theorem sdp_roundtrip : forall rid s, wf_sdp s -> sdp_parse (sdp_append rid s) = Ok (inl s).
Proof. exact sdp_roundtrip_lemma. Qed.

Corollary sdp_text_determines : forall r1 r2 s1 s2, wf_sdp s1 -> wf_sdp s2 -> sdp_append r1 s1 = sdp_append r2 s2 -> s1 = s2.
Proof.
  intros r1 r2 s1 s2 W1 W2 E. pose proof (sdp_roundtrip r1 s1 W1) as H. rewrite E, (sdp_roundtrip r2 s2 W2) in H. congruence.
Qed.

Definition sample : sdp :=
  mksdp (mkorigin (B "-") (B "1") (B "2") (B "10.0.0.1")) (B "::1")
    (Some (mkmedia (B "RTP/AVP") 30126 [ULAWCodec; DTMFCodec])) (Some (mkmedia (B "RTP/AVP") 99 [Opus]))
    (B "a call") (B "0 0") 20 true false [(B "tool", B "x:y"); (B "silenceSupp", [])] [(B "b", B "AS:64")].
Ltac sdp_media_eq := match goal with H : Some _ = Some _ |- _ => injection H as <-; reflexivity | H : None = Some _ |- _ => discriminate H end.
Example roundtrip_nonvacuous : wf_sdp sample.
Proof.
  unfold wf_sdp. repeat split; try reflexivity; try (cbn; lia).
  - left. discriminate.
  - intros m [H|H]; cbn in H; sdp_media_eq.
  - intros c d Hc Hd E. cbn in Hc, Hd. repeat destruct Hc as [<-|Hc]; try destruct Hc; repeat destruct Hd as [<-|Hd]; try destruct Hd; try reflexivity; discriminate E.
Qed.
(** Descriptions made by New are well-formed as soon as a session and a time text are filled in *)
Example new_nonvacuous : exists s, sdp_new (B "1.2.3.4") 5004 (B "77") [ULAWCodec; DTMFCodec] = s /\
  wf_sdp (mksdp (mkorigin (B "-") (o_id (s_origin s)) (o_version (s_origin s)) (o_addr (s_origin s))) (s_addr s) (s_audio s) (s_video s) (B "x") (B "0 0") 0 false false [] []).
Proof.
  eexists. split; [reflexivity|]. unfold wf_sdp. repeat split; try reflexivity; try (cbn; lia).
  - left. discriminate.
  - intros m [H|H]; cbn in H; sdp_media_eq.
  - intros c d Hc Hd E. cbn in Hc, Hd. repeat destruct Hc as [<-|Hc]; try destruct Hc; repeat destruct Hd as [<-|Hd]; try destruct Hd; try reflexivity; discriminate E.
Qed.

(** What is lost outside the well-formed descriptions *)
Theorem sdp_sendonly_recvonly_refuted : exists s s', s_sendonly s = true /\ s_recvonly s = true /\
  sdp_parse (sdp_append [] s) = Ok (inl s') /\ s_recvonly s' = false.
Proof.
  exists (mksdp (s_origin sample) (s_addr sample) (s_audio sample) None (B "a") (B "0 0") 0 true true [] []).
  eexists. vm_compute. repeat split.
Qed.
Theorem sdp_line_injection_refuted : exists s s', s_attrs s = [] /\
  sdp_parse (sdp_append [] s) = Ok (inl s') /\ s_attrs s' = [(B "evil", [])].
Proof.
  exists (mksdp (s_origin sample) (s_addr sample) (s_audio sample) None (B "a" ++ CRLF ++ B "a=evil") (B "0 0") 0 false false [] []).
  eexists. vm_compute. repeat split.
Qed.
Theorem sdp_other_key_lost_refuted : exists s s', s_other s = [(B "xy", B "1")] /\
  sdp_parse (sdp_append [] s) = Ok (inl s') /\ s_other s' = [].
Proof.
  exists (mksdp (s_origin sample) (s_addr sample) (s_audio sample) None (B "a") (B "0 0") 0 false false [] [(B "xy", B "1")]).
  eexists. vm_compute. repeat split.
Qed.

(** ** C26 *)
(** Where each part of an accepted description comes from. [lines] are the CRLF separated lines of the text. *)
Definition lines_of (s : bytes) : list bytes := split_crlf (skipn 5 s).
Definition net_type (n : bytes) : Prop := n = B "IP4" \/ n = B "IP6".
Definition conn_from (lines : list bytes) (a : bytes) : Prop :=
  exists net, net_type net /\ In (B "c=IN " ++ net ++ B " " ++ a) lines /\ free_of " " a = true /\ free_of "/" a = true.
Definition origin_from (lines : list bytes) (o : origin) : Prop :=
  exists net, net_type net /\
    In (B "o=" ++ o_user o ++ B " " ++ o_id o ++ B " " ++ o_version o ++ B " IN " ++ net ++ B " " ++ o_addr o) lines /\
    free_of " " (o_user o ++ o_id o ++ o_version o ++ o_addr o) = true /\ free_of "/" (o_addr o) = true.
Definition slash_or_end (t : bytes) : Prop := t = [] \/ exists u, t = B "/" ++ u.
(** name, rate and parameter of a codec from an rtpmap line *)
Definition codec_from_rtpmap (lines : list bytes) (c : codec) : Prop :=
  exists rate rest, In (B "a=rtpmap:" ++ itoa (c_pt c) ++ B " " ++ c_name c ++ B "/" ++ rate ++ rest) lines /\
    free_of "/" (c_name c) = true /\ free_of "/" rate = true /\ slash_or_end rest /\ atoi rate = Some (c_rate c).
(** the static payload types of RFC 3551, tables 4 and 5: type, name, clock rate, channels if more than one *)
Definition rfc3551 : list (Z * bytes * Z * bytes) :=
  [(0, B "PCMU", 8000, []); (3, B "GSM", 8000, []); (4, B "G723", 8000, []); (5, B "DVI4", 8000, []); (6, B "DVI4", 16000, []); (7, B "LPC", 8000, []);
   (8, B "PCMA", 8000, []); (9, B "G722", 8000, []); (10, B "L16", 44100, B "2"); (11, B "L16", 44100, []); (12, B "QCELP", 8000, []); (13, B "CN", 8000, []);
   (14, B "MPA", 90000, []); (15, B "G728", 8000, []); (16, B "DVI4", 11025, []); (17, B "DVI4", 22050, []); (18, B "G729", 8000, []);
   (25, B "CelB", 90000, []); (26, B "JPEG", 90000, []); (28, B "nv", 90000, []); (31, B "H261", 90000, []); (32, B "MPV", 90000, []); (33, B "MP2T", 90000, []); (34, B "H263", 90000, [])].
Definition codec_from_table (c : codec) : Prop := In (c_pt c, c_name c, c_rate c, c_param c) rfc3551.
Definition media_from (lines : list bytes) (ty : bytes) (m : media) : Prop :=
  exists port suffix toks,
    In (B "m=" ++ ty ++ B " " ++ port ++ suffix ++ B " " ++ m_proto m ++ concat (map (fun t => B " " ++ t) toks)) lines /\
    digits_value port = Some (m_port m) /\ 0 <= m_port m < 65536 /\ slash_or_end suffix /\ toks <> [] /\
    Forall2 (fun t c => digits_value t = Some (c_pt c) /\ 0 <= c_pt c < 256) toks (m_codecs m) /\
    Forall (fun c => c_name c <> [] /\ (codec_from_rtpmap lines c \/ codec_from_table c)) (m_codecs m).

Definition inv (L : list bytes) (st : pst) : Prop :=
  (forall r, In r (p_rtpmaps st) -> In (B "a=rtpmap:" ++ r) L) /\
  (forall a, p_conn st = Some a -> conn_from L a) /\
  (forall o, p_origin st = Some o -> origin_from L o) /\
  (p_audio st <> [] -> In (B "m=audio " ++ p_audio st) L) /\
  (p_video st <> [] -> In (B "m=video " ++ p_video st) L) /\
  0 <= p_ptime st.

Lemma split_eq sep s l : split_byte sep s = l -> s = join [sep] l /\ Forall (fun x => free_of sep x = true) l.
Proof. intros <-. split; [symmetry; apply split_byte_join|apply split_byte_free_all]. Qed.

Lemma from_inv n s t : from n s = Ok t -> s = firstn n s ++ t /\ (n <= length s)%nat.
Proof.
  unfold from. destruct (Nat.leb_spec n (length s)); [|discriminate]. intros E. injection E as <-. rewrite firstn_skipn. auto.
Qed.
Lemma at_inv {A} (l : list A) i x : at_ l i = Ok x -> nth_error l i = Some x.
Proof. unfold at_. destruct (nth_error l i); congruence. Qed.

Lemma conn_inv L t a : In (B "c=" ++ t) L -> parseConnLine (B "c=" ++ t) = Ok (inl a) -> conn_from L a.
Proof.
  intros I. unfold parseConnLine. rewrite from_c. cbn [rbind].
  destruct (split_byte " " t) as [|t0 [|t1 [|t2 [|t3 l]]]] eqn:E; cbn [length Nat.eqb negb]; try discriminate.
  cbn [at_ nth_error rbind]. apply split_eq in E. destruct E as [-> F]. inversion F as [|? ? F0 F']; subst. inversion F' as [|? ? F1 F'']; subst. inversion F'' as [|? ? F2 _]; subst.
  destruct (negb (bseq t0 (B "IN")) || negb (bseq t1 (B "IP4")) && negb (bseq t1 (B "IP6"))) eqn:K; [discriminate|].
  destruct (index_byte "/" t2) eqn:X; [discriminate|]. intros H. assert (t2 = a) by congruence. subst t2.
  apply orb_false_iff in K. destruct K as [K1 K2]. apply negb_false_iff, bseq_spec in K1. subst t0.
  exists t1. split; [|split; [|split; [exact F2|apply index_byte_none, X]]].
  - destruct (bseq_reflect t1 (B "IP4")); [left; auto|]. destruct (bseq_reflect t1 (B "IP6")); [right; auto|discriminate].
  - exact I.
Qed.
Lemma origin_inv L t a : In (B "o=" ++ t) L -> parseOriginLine (B "o=" ++ t) = Ok (inl a) -> origin_from L a.
Proof.
  intros I. unfold parseOriginLine. rewrite from_o. cbn [rbind].
  destruct (split_byte " " t) as [|t0 [|t1 [|t2 [|t3 [|t4 [|t5 [|t6 l]]]]]]] eqn:E; cbn [length Nat.eqb negb]; try discriminate.
  cbn [at_ nth_error rbind]. apply split_eq in E. destruct E as [-> F].
  inversion F as [|? ? F0 Fa]; subst. inversion Fa as [|? ? F1 Fb]; subst. inversion Fb as [|? ? F2 Fc]; subst.
  inversion Fc as [|? ? F3 Fd]; subst. inversion Fd as [|? ? F4 Fe]; subst. inversion Fe as [|? ? F5 _]; subst.
  destruct (negb (bseq t3 (B "IN")) || negb (bseq t4 (B "IP4")) && negb (bseq t4 (B "IP6"))) eqn:K; [discriminate|].
  destruct (index_byte "/" t5) eqn:X; [discriminate|]. intros H. assert (a = mkorigin t0 t1 t2 t5) by congruence. subst a.
  apply orb_false_iff in K. destruct K as [K1 K2]. apply negb_false_iff, bseq_spec in K1. subst t3.
  exists t4. cbn [o_user o_id o_version o_addr]. split; [|split; [|split; [|apply index_byte_none, X]]].
  - destruct (bseq_reflect t4 (B "IP4")); [left; auto|]. destruct (bseq_reflect t4 (B "IP6")); [right; auto|discriminate].
  - exact I.
  - rewrite !free_of_app, F0, F1, F2, F5. reflexivity.
Qed.

Lemma attr_inv L t st st' : In (B "a=" ++ t) L -> inv L st -> parse_attr st t = Ok st' -> inv L st'.
Proof.
  intros I V. unfold parse_attr. destruct (has_prefix t (B "rtpmap:")) eqn:P1.
  { apply has_prefix_split in P1. rewrite P1 at 1. change (from 7 (B "rtpmap:" ++ skipn (length (B "rtpmap:")) t)) with (from (length (B "rtpmap:")) (B "rtpmap:" ++ skipn (length (B "rtpmap:")) t)).
    rewrite from_prefix. cbn [rbind]. destruct (Nat.ltb _ _); [|discriminate]. intros E. assert (Est : st' = with_rtp st [skipn (length (B "rtpmap:")) t] []) by (unfold with_rtp; rewrite app_nil_r; congruence).
    subst st'. destruct V as (V1 & V2 & V3 & V4 & V5 & V6). unfold with_rtp. split; [|repeat split; assumption].
    cbn [p_rtpmaps]. intros r Hr. apply in_app_iff in Hr. destruct Hr as [Hr|[<-|[]]]; [auto|]. rewrite P1 in I. exact I. }
  destruct (has_prefix t (B "fmtp:")) eqn:P2.
  { destruct (from 5 t); [|discriminate]. cbn [rbind]. destruct (Nat.ltb _ _); [|discriminate]. intros E.
    assert (st' = with_rtp st [] [a]) by (unfold with_rtp; rewrite app_nil_r; congruence). subst st'.
    destruct V as (V1 & V2 & V3 & V4 & V5 & V6). unfold with_rtp. split; [|repeat split; assumption]. cbn [p_rtpmaps]. rewrite app_nil_r. exact V1. }
  destruct (has_prefix t (B "ptime:")) eqn:P3.
  { destruct (from 6 t); [|discriminate]. cbn [rbind]. destruct (atoi a) as [n|]; [|congruence].
    destruct (Z.ltb_spec 0 n); [|congruence]. intros E. injection E as <-. destruct V as (V1 & V2 & V3 & V4 & V5 & V6).
    repeat split; try assumption. cbn [p_ptime]. lia. }
  destruct (bseq t (B "sendrecv")); [congruence|].
  destruct (bseq t (B "sendonly")); [intros E; injection E as <-; exact V|].
  destruct (bseq t (B "recvonly")); [intros E; injection E as <-; exact V|].
  destruct (index_byte ":" t) as [[|n]|]; [congruence| |].
  - destruct (upto (S n) t); [|discriminate]. cbn [rbind]. destruct (from (S n + 1) t); [|discriminate]. cbn [rbind].
    destruct (Nat.ltb _ _); [|discriminate]. intros E. injection E as <-. exact V.
  - destruct (Nat.ltb _ _); [|discriminate]. intros E. injection E as <-. exact V.
Qed.

Lemma line_inv L line st st' : In line L -> inv L st -> parse_line st line = Ok (inl st') -> inv L st'.
Proof.
  intros I V. destruct line as [|c0 [|c1 [|c2 t]]].
  - cbn. congruence.
  - cbn. congruence.
  - cbn. congruence.
  - destruct (beq_reflect c1 "=") as [->|NE].
    2:{ apply beq_neq in NE. unfold parse_line. cbn [length Nat.ltb Nat.leb at_ nth_error rbind]. rewrite NE. cbn. congruence. }
    destruct (beq_reflect c0 "m") as [->|N1].
    { change ("m"%byte :: "="%byte :: c2 :: t) with (B "m=" ++ c2 :: t) in *. rewrite pl_m by discriminate. set (l := c2 :: t) in *.
      destruct V as (V1 & V2 & V3 & V4 & V5 & V6).
      destruct (has_prefix l (B "audio ")) eqn:P1.
      { apply has_prefix_split in P1. rewrite P1 in I |- * at 1. rewrite from_audio. cbn [rbind]. intros E. injection E as <-.
        repeat split; try assumption. intros _. exact I. }
      destruct (has_prefix l (B "video ")) eqn:P2; [|intros E; injection E as <-; repeat split; assumption].
      apply has_prefix_split in P2. rewrite P2 in I |- * at 1. rewrite from_video. cbn [rbind]. intros E. injection E as <-.
      repeat split; try assumption. intros _. exact I. }
    destruct (beq_reflect c0 "s") as [->|N2].
    { change ("s"%byte :: "="%byte :: c2 :: t) with (B "s=" ++ c2 :: t) in *. rewrite pl_s by discriminate. intros E. injection E as <-. exact V. }
    destruct (beq_reflect c0 "t") as [->|N3].
    { change ("t"%byte :: "="%byte :: c2 :: t) with (B "t=" ++ c2 :: t) in *. rewrite pl_t by discriminate. intros E. injection E as <-. exact V. }
    destruct (beq_reflect c0 "c") as [->|N4].
    { change ("c"%byte :: "="%byte :: c2 :: t) with (B "c=" ++ c2 :: t) in *. set (l := c2 :: t) in *.
      destruct (p_conn st) as [a|] eqn:C.
      - unfold parse_line, l. cbn [B app length Nat.ltb Nat.leb at_ nth_error rbind]. rewrite C.
        change (beq "=" "=") with true. change (beq "c" "m") with false. change (beq "c" "s") with false. change (beq "c" "t") with false. change (beq "c" "c") with true. cbn [negb]. congruence.
      - destruct (parseConnLine (B "c=" ++ l)) as [[a|e]|] eqn:E.
        + rewrite (pl_c st l a) by (assumption || discriminate). intros K. injection K as <-.
          destruct V as (V1 & V2 & V3 & V4 & V5 & V6). repeat split; try assumption. cbn [p_conn]. intros b Hb. injection Hb as <-. eapply conn_inv; eauto.
        + change (parse_line st (B "c=" ++ l)) with (match p_conn st with
          | Some _ => Ok (inl st)
          | None =>
            do r <- parseConnLine (B "c=" ++ l);
            Ok (match r with
                | inr e => inr e
                | inl a => inl (mkpst (p_room st) (p_audio st) (p_video st) (p_rtpmaps st) (p_fmtps st) (p_attrs st) (p_other st)
                   (p_session st) (p_time st) (Some a) (p_origin st) (p_ptime st) (p_sendonly st) (p_recvonly st))
                end)
          end). rewrite C, E. discriminate.
        + destruct (ok_conn (B "c=" ++ l)) as [x K]; [cbn; lia|congruence]. }
    destruct (beq_reflect c0 "o") as [->|N5].
    { change ("o"%byte :: "="%byte :: c2 :: t) with (B "o=" ++ c2 :: t) in *. set (l := c2 :: t) in *.
      destruct (parseOriginLine (B "o=" ++ l)) as [[a|e]|] eqn:E.
      + rewrite (pl_o st l a) by (assumption || discriminate). intros K. injection K as <-.
        destruct V as (V1 & V2 & V3 & V4 & V5 & V6). repeat split; try assumption. cbn [p_origin]. intros b Hb. injection Hb as <-. eapply origin_inv; eauto.
      + change (parse_line st (B "o=" ++ l)) with (
            do r <- parseOriginLine (B "o=" ++ l);
            Ok (match r with
                | inr e => inr e
                | inl o => inl (mkpst (p_room st) (p_audio st) (p_video st) (p_rtpmaps st) (p_fmtps st) (p_attrs st) (p_other st)
                   (p_session st) (p_time st) (p_conn st) (Some o) (p_ptime st) (p_sendonly st) (p_recvonly st))
                end)). rewrite E. discriminate.
      + destruct (ok_origin (B "o=" ++ l)) as [x K]; [cbn; lia|congruence]. }
    destruct (beq_reflect c0 "a") as [->|N6].
    { change ("a"%byte :: "="%byte :: c2 :: t) with (B "a=" ++ c2 :: t) in *. rewrite pl_a by discriminate. set (l := c2 :: t) in *.
      destruct (parse_attr st l) as [s1|] eqn:E; [|discriminate]. cbn [rbind]. intros K. injection K as <-. eapply attr_inv; eauto. }
    apply beq_neq in N1, N2, N3, N4, N5, N6.
    unfold parse_line. cbn [length Nat.ltb Nat.leb at_ nth_error rbind]. change (beq "=" "=") with true. cbn [negb].
    rewrite N1, N2, N3, N4, N5, N6. destruct (index_byte "=" (c0 :: "="%byte :: c2 :: t)) as [[|n]|].
    + congruence.
    + destruct (upto _ _); [|discriminate]. cbn [rbind]. destruct (from _ _); [|discriminate]. cbn [rbind]. intros E. injection E as <-. exact V.
    + intros E. injection E as <-. exact V.
Qed.

Lemma lines_inv L lines : forall st st', incl lines L -> inv L st -> parse_lines st lines = Ok (inl st') -> inv L st'.
Proof.
  induction lines as [|l ls IH]; intros st st' I V; cbn [parse_lines]; [congruence|].
  destruct (parse_line st l) as [[s1|e]|] eqn:E; cbn [rbind]; try discriminate. intros K.
  apply (IH s1 st'); [intros x Hx; apply I; right; exact Hx|eapply line_inv; eauto; apply I; left; reflexivity|exact K].
Qed.

Lemma parse_pts_inv toks : forall pts, parse_pts toks = inl pts -> Forall2 (fun t p => digits_value t = Some p /\ 0 <= p < 256) toks pts.
Proof.
  induction toks as [|t ts IH]; intros pts; cbn [parse_pts]; [intros E; injection E as <-; constructor|].
  unfold parse_uint. destruct (digits_value t) as [v|] eqn:D; [|discriminate]. destruct (v <? 2 ^ 8) eqn:L; [|discriminate].
  destruct (parse_pts ts) as [l|]; [|discriminate]. intros E. injection E as <-.
  assert (0 <= v) by (destruct t; [discriminate|]; apply (dec_value_nonneg _ 0 v ltac:(lia) D)).
  change (2 ^ 8) with 256 in L. constructor; [rewrite u8_id by lia; split; [exact D|lia]|apply IH; reflexivity].
Qed.

Lemma find_prefix_inv p l x : find_prefix p l = Some x -> In (p ++ x) l.
Proof.
  induction l as [|y l IH]; cbn [find_prefix]; [discriminate|]. destruct (has_prefix y p) eqn:E.
  - intros K. injection K as <-. left. apply has_prefix_split, E.
  - intros K. right. apply IH, K.
Qed.

Lemma rtpmap_inv pt s c : parseRtpmapInfo pt s = Ok (inl c) ->
  c_pt c = pt /\ exists rate rest, s = c_name c ++ B "/" ++ rate ++ rest /\ free_of "/" (c_name c) = true /\ free_of "/" rate = true /\ slash_or_end rest /\ atoi rate = Some (c_rate c).
Proof.
  unfold parseRtpmapInfo. destruct (split_byte "/" s) as [|t0 [|t1 l]] eqn:E; cbn [length Nat.leb]; try discriminate.
  cbn [at_ nth_error rbind]. apply split_eq in E. destruct E as [-> F]. inversion F as [|? ? F0 Fa]; subst. inversion Fa as [|? ? F1 _]; subst.
  destruct (atoi t1) as [r|] eqn:A; [|discriminate]. destruct l as [|t2 l]; cbn [nth_error rbind length Nat.leb]; intros K; injection K as <-; cbn [c_pt c_name c_rate]; (split; [reflexivity|]).
  - exists t1, []. rewrite app_nil_r. repeat split; auto. left. reflexivity.
  - exists t1, (B "/" ++ join ["/"%byte] (t2 :: l)). repeat split; auto. right. eexists. reflexivity.
Qed.

Lemma table_pt pt d : StandardCodecs pt = Some d -> c_pt d = pt /\ c_name d <> [].
Proof.
  intros H. unfold StandardCodecs in H.
  repeat match type of H with match ?x with _ => _ end = _ => destruct x; try discriminate end; injection H as <-; split; (reflexivity || discriminate).
Qed.

Lemma table_rfc pt d : StandardCodecs pt = Some d <-> c_pt d = pt /\ c_fmtp d = [] /\ codec_from_table d.
Proof.
  split.
  - intros H. unfold StandardCodecs in H. repeat match type of H with match ?x with _ => _ end = _ => destruct x; try discriminate end; injection H as <-; (split; [reflexivity|]; split; [reflexivity|]; vm_compute; tauto).
  - destruct d as [p n r q f]. unfold codec_from_table. cbn [c_pt c_name c_rate c_param c_fmtp]. intros (-> & -> & I). repeat (destruct I as [I|I]; [injection I as <- <- <- <-; reflexivity|]). destruct I.
Qed.
Lemma table_static d : codec_from_table d -> c_pt d < 96.
Proof. unfold codec_from_table. intros I. repeat (destruct I as [I|I]; [injection I as <- _ _ _; reflexivity|]). destruct I. Qed.
Lemma populate_one_inv L rtp f pt c : (forall r, In r rtp -> In (B "a=rtpmap:" ++ r) L) -> populate_one pt rtp f = Ok (inl c) ->
  c_pt c = pt /\ c_name c <> [] /\ (codec_from_rtpmap L c \/ codec_from_table c).
Proof.
  intros R. unfold populate_one.
  assert (G : forall c0 d, (c_pt d = pt /\ c_name d <> [] /\ (codec_from_rtpmap L d \/ codec_from_table d)) ->
    Ok (inl (match find_prefix (itoa pt ++ B " ") f with Some f0 => mkcodec (c_pt d) (c_name d) (c_rate d) (c_param d) f0 | None => d end) : codec + sdp_err) = Ok (inl c0) ->
    c_pt c0 = pt /\ c_name c0 <> [] /\ (codec_from_rtpmap L c0 \/ codec_from_table c0)).
  { intros c0 d H E. destruct (find_prefix (itoa pt ++ B " ") f); injection E as <-; exact H. }
  destruct (find_prefix (itoa pt ++ B " ") rtp) as [info|] eqn:FP.
  - apply find_prefix_inv in FP. apply R in FP.
    destruct (parseRtpmapInfo pt info) as [[d|e]|] eqn:E; cbn [rbind]; try discriminate.
    apply rtpmap_inv in E. destruct E as (Ept & rate & rest & -> & E1 & E2 & E3 & E4).
    destruct (c_name d) as [|x nm] eqn:EN.
    + destruct (isDynamicPT pt) eqn:DY; [discriminate|]. destruct (StandardCodecs pt) as [v|] eqn:SC; [|discriminate].
      apply G. pose proof (table_pt _ _ SC) as [T1 T2]. split; [exact T1|]. split; [exact T2|]. right. apply (table_rfc pt v). exact SC.
    + apply G. split; [exact Ept|]. rewrite EN. split; [discriminate|]. left. exists rate, rest. rewrite Ept, EN.
      rewrite <- app_assoc in FP. auto.
  - cbn [rbind c_name]. destruct (isDynamicPT pt) eqn:DY; [discriminate|]. destruct (StandardCodecs pt) as [v|] eqn:SC; [|discriminate].
    apply G. pose proof (table_pt _ _ SC) as [T1 T2]. split; [exact T1|]. split; [exact T2|]. right. apply (table_rfc pt v). exact SC.
Qed.

Lemma populate_inv L rtp f pts : (forall r, In r rtp -> In (B "a=rtpmap:" ++ r) L) -> forall cs, populateCodecs pts rtp f = Ok (inl cs) ->
  map c_pt cs = pts /\ Forall (fun c => c_name c <> [] /\ (codec_from_rtpmap L c \/ codec_from_table c)) cs.
Proof.
  intros R. induction pts as [|pt pts IH]; intros cs; cbn [populateCodecs].
  - intros E. injection E as <-. split; [reflexivity|constructor].
  - destruct (populate_one pt rtp f) as [[c|e]|] eqn:E; cbn [rbind]; try discriminate.
    destruct (populateCodecs pts rtp f) as [[l|e]|]; cbn [rbind]; try discriminate. intros K. injection K as <-.
    destruct (IH l eq_refl) as [<- IH2]. destruct (populate_one_inv L rtp f pt c R E) as (<- & H). split; [reflexivity|constructor; auto].
Qed.

Lemma join_concat sep x l : join sep (x :: l) = x ++ concat (map (fun t => sep ++ t) l).
Proof.
  revert x. induction l as [|y l IH]; intros x; [cbn; rewrite app_nil_r; reflexivity|].
  change (join sep (x :: y :: l)) with (x ++ sep ++ join sep (y :: l)). rewrite IH. cbn [map concat]. rewrite <- app_assoc. reflexivity.
Qed.

Lemma media_inv L ty info rtp f m : (forall r, In r rtp -> In (B "a=rtpmap:" ++ r) L) -> (info <> [] -> In (B "m=" ++ ty ++ B " " ++ info) L) ->
  parse_media info rtp f = Ok (inl (Some m)) -> media_from L ty m.
Proof.
  intros R I. unfold parse_media. destruct info as [|x info]; [discriminate|]. specialize (I ltac:(discriminate)).
  revert I. generalize (x :: info). clear x info. intros s I.
  unfold parseMediaInfo. destruct (split_byte " " s) as [|t0 [|t1 [|t2 l]]] eqn:E; cbn [length Nat.ltb Nat.leb rbind]; try discriminate.
  cbn [at_ nth_error rbind skipn]. apply split_eq in E. destruct E as [-> F].
  assert (PS : exists portS suffix, t0 = portS ++ suffix /\ slash_or_end suffix /\
     match index_byte "/" t0 with Some (S n) => upto (S n) t0 | _ => Ok t0 end = Ok portS).
  { destruct (index_byte "/" t0) as [[|n]|] eqn:X.
    - exists t0, []. rewrite app_nil_r. repeat split; [left; reflexivity].
    - pose proof (index_byte_lt _ _ _ X). apply index_byte_some in X. destruct X as (a & b & -> & X & _).
      exists a, (B "/" ++ b). split; [reflexivity|]. split; [right; eexists; reflexivity|]. rewrite upto_ok by lia. rewrite <- X, firstn_app, firstn_all, Nat.sub_diag. cbn [firstn]. rewrite app_nil_r. reflexivity.
    - exists t0, []. rewrite app_nil_r. repeat split; [left; reflexivity]. }
  destruct PS as (portS & suffix & -> & SS & PS). rewrite PS. clear PS. cbn [rbind].
  unfold parse_uint. destruct (digits_value portS) as [v|] eqn:D; cbn [rbind]; [|discriminate].
  destruct (v <? 2 ^ 16) eqn:LV; cbn [rbind]; [|discriminate]. change (2 ^ 16) with 65536 in LV.
  destruct (parse_pts (t2 :: l)) as [pts|e] eqn:P; cbn [rbind]; [|discriminate].
  destruct (populateCodecs pts rtp f) as [[cs|e]|] eqn:PC; cbn [rbind]; try discriminate. intros K. injection K as <-.
  assert (0 <= v) by (destruct portS; [discriminate|]; apply (dec_value_nonneg _ 0 v ltac:(lia) D)).
  destruct (populate_inv L rtp f pts R cs PC) as [<- PF]. apply parse_pts_inv in P.
  exists portS, suffix, (t2 :: l). cbn [m_proto m_port m_codecs]. rewrite u16_id by lia.
  split; [|repeat split; auto; try lia; try discriminate].
  - rewrite join_concat in I. cbn [map concat] in I |- *. rewrite <- !app_assoc in I. exact I.
  - clear -P. remember (t2 :: l) as ts. clear Heqts. revert ts P. induction cs as [|c cs IH]; intros ts P; cbn [map] in P; inversion P; subst; constructor; auto.
Qed.

Theorem sdp_accepted_usable : forall s d, sdp_parse s = Ok (inl d) ->
  (exists rest, s = B "v=0" ++ CRLF ++ rest /\ lines_of s = split_crlf rest) /\
  conn_from (lines_of s) (s_addr d) /\ origin_from (lines_of s) (s_origin d) /\
  (s_audio d <> None \/ s_video d <> None) /\
  (forall m, s_audio d = Some m -> media_from (lines_of s) (B "audio") m) /\
  (forall m, s_video d = Some m -> media_from (lines_of s) (B "video") m) /\
  0 <= s_ptime d.
Proof.
  intros s d. unfold sdp_parse. destruct (has_prefix s (B "v=0" ++ CRLF)) eqn:P; cbn [negb]; [|discriminate].
  apply has_prefix_split in P. change (length (B "v=0" ++ CRLF)) with 5%nat in P.
  rewrite (from_ok 5 s) by (rewrite P; rewrite app_length; cbn [B CRLF length app]; lia). cbn [rbind]. fold (lines_of s).
  destruct (Nat.ltb _ _); [discriminate|].
  set (st0 := mkpst _ _ _ _ _ _ _ _ _ _ _ _ _ _).
  destruct (parse_lines st0 (lines_of s)) as [[st|e]|] eqn:E; cbn [rbind]; try discriminate.
  apply (lines_inv (lines_of s)) in E; [|apply incl_refl|repeat split; cbn; try congruence; [intros r []|lia]].
  destruct E as (V1 & V2 & V3 & V4 & V5 & V6).
  destruct (p_conn st) as [a|]; [|discriminate]. destruct (p_origin st) as [o|]; [|discriminate].
  destruct (parse_media (p_audio st) (p_rtpmaps st) (p_fmtps st)) as [[ma|e]|] eqn:MA; cbn [rbind]; try discriminate.
  destruct (parse_media (p_video st) (p_rtpmaps st) (p_fmtps st)) as [[mv|e]|] eqn:MV; cbn [rbind]; try discriminate.
  intros K. assert (N : (ma <> None \/ mv <> None) /\ d = mksdp o a ma mv (p_session st) (p_time st) (p_ptime st) (p_sendonly st) (p_recvonly st) (p_attrs st) (p_other st)).
  { destruct ma, mv; try discriminate; (split; [try (left; discriminate); right; discriminate|congruence]). }
  destruct N as [N ->]. cbn [s_addr s_origin s_audio s_video s_ptime].
  split; [exists (skipn 5 s); split; [rewrite P at 1; rewrite <- app_assoc; reflexivity|reflexivity]|].
  split; [apply V2; reflexivity|]. split; [apply V3; reflexivity|]. split; [exact N|]. split; [|split; [|exact V6]].
  - intros m ->. eapply media_inv; [exact V1|exact V4|exact MA].
  - intros m ->. eapply media_inv; [exact V1|exact V5|exact MV].
Qed.

(** A dynamic payload type in an accepted description always has an rtpmap line. *)
Corollary sdp_dynamic_has_rtpmap : forall s d m c, sdp_parse s = Ok (inl d) -> s_audio d = Some m \/ s_video d = Some m ->
  In c (m_codecs m) -> 96 <= c_pt c -> codec_from_rtpmap (lines_of s) c.
Proof.
  intros s d m c H Hm Hc Hp. destruct (sdp_accepted_usable s d H) as (_ & _ & _ & _ & HA & HV & _).
  assert (F : Forall (fun c => c_name c <> [] /\ (codec_from_rtpmap (lines_of s) c \/ codec_from_table c)) (m_codecs m)).
  { destruct Hm as [Hm|Hm]; [apply HA in Hm|apply HV in Hm]; destruct Hm as (? & ? & ? & _ & _ & _ & _ & _ & _ & F); exact F. }
  rewrite Forall_forall in F. destruct (F c Hc) as [_ [K|K]]; [exact K|apply table_static in K; lia].
Qed.

(** What "usable" does not include: the connection address may be empty, and the rate may be zero or negative. *)
Theorem sdp_blank_connection_refuted : exists s d, sdp_parse s = Ok (inl d) /\ s_addr d = [] /\
  exists m c, s_audio d = Some m /\ In c (m_codecs m) /\ c_rate c < 0.
Proof.
  exists (B "v=0" ++ CRLF ++ B "o=- 1 1 IN IP4 h" ++ CRLF ++ B "c=IN IP4 " ++ CRLF ++ B "m=audio 1 RTP/AVP 96" ++ CRLF ++ B "a=rtpmap:96 x/-8000" ++ CRLF).
  eexists. split; [vm_compute; reflexivity|]. split; [reflexivity|]. eexists. exists (mkcodec 96 (B "x") (-8000) [] []). split; [reflexivity|]. split; [left; reflexivity|reflexivity].
Qed.

Example usable_nonvacuous : exists d, sdp_parse (sdp_append [] sample) = Ok (inl d).
Proof. exists sample. apply sdp_roundtrip. apply roundtrip_nonvacuous. Qed.

Print Assumptions sdp_parse_total.
Print Assumptions sdp_roundtrip.
Print Assumptions sdp_accepted_usable.
Print Assumptions sdp_dynamic_has_rtpmap.
