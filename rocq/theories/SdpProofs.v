(** Lemmas about the session description parser. *)
From Verif Require Import Bytes BytesLemmas GoLib GoLibLemmas SdpModel.
Local Open Scope Z_scope.

Lemma from_ok n s : (n <= length s)%nat -> from n s = Ok (skipn n s).
Proof. intros H. unfold from. apply Nat.leb_le in H. rewrite H. reflexivity. Qed.
Lemma upto_ok n s : (n <= length s)%nat -> upto n s = Ok (firstn n s).
Proof. intros H. unfold upto. apply Nat.leb_le in H. rewrite H. reflexivity. Qed.
Lemma at_ok {A} (l : list A) i : (i < length l)%nat -> exists x, at_ l i = Ok x /\ nth_error l i = Some x.
Proof.
  intros H. unfold at_. destruct (nth_error l i) eqn:E; [eauto|]. apply nth_error_None in E. lia.
Qed.
Lemma has_prefix_len s p : has_prefix s p = true -> (length p <= length s)%nat.
Proof. intros H. rewrite (has_prefix_split s p H), app_length. lia. Qed.
Lemma index_byte_lt c s n : index_byte c s = Some n -> (n < length s)%nat.
Proof.
  intros H. apply index_byte_some in H. destruct H as [a [b [-> [H _]]]]. rewrite app_length. cbn. lia.
Qed.

(** ** No panic *)
Definition ok {A} (r : res A) : Prop := exists a, r = Ok a.
Lemma ok_bind {A C} (r : res A) (f : A -> res C) : ok r -> (forall a, r = Ok a -> ok (f a)) -> ok (rbind r f).
Proof. intros [a ->] H. cbn. apply H. reflexivity. Qed.
Lemma ok_Ok {A} (a : A) : ok (Ok a). Proof. exists a. reflexivity. Qed.
Global Hint Resolve ok_Ok : core.
Lemma ok_from n s : (n <= length s)%nat -> ok (from n s). Proof. intros. rewrite from_ok; auto. Qed.
Lemma ok_upto n s : (n <= length s)%nat -> ok (upto n s). Proof. intros. rewrite upto_ok; auto. Qed.
Lemma ok_at {A} (l : list A) i : (i < length l)%nat -> ok (at_ l i).
Proof. intros H. destruct (at_ok l i H) as (x & -> & _). auto. Qed.

Lemma ok_conn line : (2 <= length line)%nat -> ok (parseConnLine line).
Proof.
  intros H. unfold parseConnLine. apply ok_bind; [apply ok_from, H|]. intros l _.
  destruct (Nat.eqb_spec (length (split_byte " " l)) 3) as [E|]; cbn [negb]; [|auto].
  do 3 (apply ok_bind; [apply ok_at; lia|intros ? _]).
  destruct (_ || _); [auto|]. destruct (index_byte _ _); auto.
Qed.
Lemma ok_origin line : (2 <= length line)%nat -> ok (parseOriginLine line).
Proof.
  intros H. unfold parseOriginLine. apply ok_bind; [apply ok_from, H|]. intros l _.
  destruct (Nat.eqb_spec (length (split_byte " " l)) 6) as [E|]; cbn [negb]; [|auto].
  do 6 (apply ok_bind; [apply ok_at; lia|intros ? _]).
  destruct (_ || _); [auto|]. destruct (index_byte _ _); auto.
Qed.
Lemma ok_mediainfo s : ok (parseMediaInfo s).
Proof.
  unfold parseMediaInfo. destruct (Nat.ltb_spec (length (split_byte " " s)) 3); [auto|].
  apply ok_bind; [apply ok_at; lia|]. intros t0 _.
  apply ok_bind.
  - destruct (index_byte "/" t0) as [[|n]|] eqn:E; auto. apply ok_upto. apply index_byte_lt in E. lia.
  - intros p _. destruct (parse_uint 16 p); [|auto]. apply ok_bind; [apply ok_at; lia|]. auto.
Qed.
Lemma ok_rtpmap pt s : ok (parseRtpmapInfo pt s).
Proof.
  unfold parseRtpmapInfo. destruct (Nat.leb_spec 2 (length (split_byte "/" s))); [|auto].
  do 2 (apply ok_bind; [apply ok_at; lia|intros ? _]). destruct (atoi _); [|auto].
  destruct (Nat.leb_spec 3 (length (split_byte "/" s))); [|auto]. apply ok_bind; [apply ok_at; lia|auto].
Qed.
Lemma ok_populate_one pt r f : ok (populate_one pt r f).
Proof.
  unfold populate_one. apply ok_bind.
  - destruct (find_prefix _ r); [apply ok_rtpmap|auto].
  - intros [c|e] _; [|auto]. destruct (match c_name c with [] => _ | _ => _ end); auto.
Qed.
Lemma ok_populate pts r f : ok (populateCodecs pts r f).
Proof.
  induction pts as [|pt pts IH]; cbn [populateCodecs]; [auto|].
  apply ok_bind; [apply ok_populate_one|]. intros [c|e] _; [|auto]. apply ok_bind; [exact IH|auto].
Qed.
Lemma ok_media i r f : ok (parse_media i r f).
Proof.
  unfold parse_media. destruct i as [|x i]; [auto|]. generalize (x :: i). intros s. apply ok_bind; [apply ok_mediainfo|].
  intros [[[port proto] pts]|e] _; [|auto]. apply ok_bind; [apply ok_populate|auto].
Qed.

(** Room left in the three slices *)
Definition room (n : nat) (st : pst) : Prop :=
  (length (p_rtpmaps st) + n <= p_room st)%nat /\ (length (p_fmtps st) + n <= p_room st)%nat /\
  (length (p_attrs st) + n <= p_room st)%nat.

Lemma ok_attr st line n : room (S n) st -> exists st', parse_attr st line = Ok st' /\ room n st'.
Proof.
  intros (R1 & R2 & R3). unfold parse_attr.
  assert (K : room n st) by (repeat split; lia).
  assert (T : forall l : list bytes, (length l + S n <= p_room st)%nat -> Nat.ltb (length l) (p_room st) = true) by (intros; apply Nat.ltb_lt; lia).
  assert (T' : forall l : list (bytes * bytes), (length l + S n <= p_room st)%nat -> Nat.ltb (length l) (p_room st) = true) by (intros; apply Nat.ltb_lt; lia).
  destruct (has_prefix line (B "rtpmap:")) eqn:P1.
  { apply has_prefix_len in P1. rewrite from_ok by exact P1. cbn [rbind]. rewrite T by lia.
    eexists; split; [reflexivity|]. unfold room. cbn. rewrite app_length. cbn. lia. }
  destruct (has_prefix line (B "fmtp:")) eqn:P2.
  { apply has_prefix_len in P2. rewrite from_ok by exact P2. cbn [rbind]. rewrite T by lia.
    eexists; split; [reflexivity|]. unfold room. cbn. rewrite app_length. cbn. lia. }
  destruct (has_prefix line (B "ptime:")) eqn:P3.
  { apply has_prefix_len in P3. rewrite from_ok by exact P3. cbn [rbind].
    destruct (atoi _) as [v|]; [|eauto]. destruct (0 <? v); [|eauto]. eexists; split; [reflexivity|exact K]. }
  destruct (bseq line (B "sendrecv")); [eauto|].
  destruct (bseq line (B "sendonly")); [eexists; split; [reflexivity|exact K]|].
  destruct (bseq line (B "recvonly")); [eexists; split; [reflexivity|exact K]|].
  destruct (index_byte ":" line) as [[|i]|] eqn:E; [eauto| |].
  - apply index_byte_lt in E. rewrite upto_ok, from_ok by lia. cbn [rbind]. rewrite T' by lia.
    eexists; split; [reflexivity|]. unfold room. cbn. rewrite app_length. cbn. lia.
  - rewrite T' by lia. eexists; split; [reflexivity|]. unfold room. cbn. rewrite app_length. cbn. lia.
Qed.

Lemma ok_line st line n : room (S n) st ->
  (exists e, parse_line st line = Ok (inr e)) \/ exists st', parse_line st line = Ok (inl st') /\ room n st'.
Proof.
  intros R. assert (K : room n st) by (destruct R as (? & ? & ?); repeat split; lia).
  unfold parse_line. destruct line as [|b0 t]; [eauto|]. set (line := b0 :: t).
  destruct (Nat.ltb_spec (length line) 3) as [|L]; [eauto|].
  destruct (at_ok line 1 ltac:(lia)) as (c1 & -> & _). cbn [rbind]. destruct (negb (beq c1 "=")); [eauto|].
  destruct (at_ok line 0 ltac:(lia)) as (c0 & -> & _). cbn [rbind].
  destruct (beq c0 "m").
  { rewrite from_ok by lia. cbn [rbind].
    destruct (has_prefix (skipn 2 line) (B "audio ")) eqn:P1; [apply has_prefix_len in P1; rewrite from_ok by exact P1; cbn [rbind]; right; eexists; split; [reflexivity|exact K]|].
    destruct (has_prefix (skipn 2 line) (B "video ")) eqn:P2; [apply has_prefix_len in P2; rewrite from_ok by exact P2; cbn [rbind]; right; eexists; split; [reflexivity|exact K]|].
    eauto. }
  destruct (beq c0 "s"); [rewrite from_ok by lia; cbn [rbind]; right; eexists; split; [reflexivity|exact K]|].
  destruct (beq c0 "t"); [rewrite from_ok by lia; cbn [rbind]; right; eexists; split; [reflexivity|exact K]|].
  destruct (beq c0 "c").
  { destruct (p_conn st); [eauto|]. destruct (ok_conn line ltac:(lia)) as [[a|e] ->]; cbn [rbind]; [right; eexists; split; [reflexivity|exact K]|eauto]. }
  destruct (beq c0 "o").
  { destruct (ok_origin line ltac:(lia)) as [[a|e] ->]; cbn [rbind]; [right; eexists; split; [reflexivity|exact K]|eauto]. }
  destruct (beq c0 "a").
  { rewrite from_ok by lia. cbn [rbind]. destruct (ok_attr st (skipn 2 line) n R) as (st' & -> & H). cbn [rbind]. eauto. }
  destruct (index_byte "=" line) as [[|i]|] eqn:E; [eauto| |].
  - apply index_byte_lt in E. rewrite upto_ok, from_ok by lia. cbn [rbind]. right; eexists; split; [reflexivity|exact K].
  - right; eexists; split; [reflexivity|exact K].
Qed.

Lemma ok_lines lines : forall st, room (length lines) st -> ok (parse_lines st lines).
Proof.
  induction lines as [|l ls IH]; intros st R; cbn [parse_lines]; [auto|].
  destruct (ok_line st l (length ls) R) as [[e ->]|(st' & -> & H)]; cbn [rbind]; [auto|apply IH, H].
Qed.

Lemma sdp_parse_ok s : ok (sdp_parse s).
Proof.
  unfold sdp_parse. destruct (has_prefix s (B "v=0" ++ CRLF)) eqn:P; cbn [negb]; [|auto].
  apply has_prefix_len in P. rewrite from_ok by exact P. cbn [rbind]. set (lines := split_crlf (skipn 5 s)).
  destruct (Nat.ltb (length lines) 2); [auto|].
  apply ok_bind; [apply ok_lines; repeat split; cbn; lia|]. intros [st|e] _; [|auto].
  destruct (p_conn st); [|auto]. destruct (p_origin st); [|auto].
  apply ok_bind; [apply ok_media|]. intros [a|e] _; [|auto].
  apply ok_bind; [apply ok_media|]. intros [v|e] _; [|auto]. destruct a, v; auto.
Qed.

(** ** Round trip *)
Definition text (s : bytes) : bool := negb (bseq s []) && free_of CR s.
(** a non-empty text without spaces *)
Definition word (s : bytes) : bool := negb (bseq s []) && free_of CR s && free_of " " s.
Definition host (s : bytes) : bool := word s && free_of "/" s.

Definition wf_codec (c : codec) : bool :=
  (0 <=? c_pt c) && (c_pt c <? 256) && text (c_name c) && free_of "/" (c_name c) &&
  (- 2 ^ 63 <=? c_rate c) && (c_rate c <? 2 ^ 63) &&
  free_of CR (c_param c) && free_of "/" (c_param c) && free_of CR (c_fmtp c).
Definition wf_media (m : media) : bool :=
  word (m_proto m) && (0 <=? m_port m) && (m_port m <? 65536) &&
  negb (Nat.eqb (length (m_codecs m)) 0) && forallb wf_codec (m_codecs m).
Definition media_codecs (m : option media) : list codec := match m with Some m => m_codecs m | None => [] end.
Definition wf_attr (a : bytes * bytes) : bool :=
  text (fst a) && free_of ":" (fst a) && free_of CR (snd a) &&
  (if bseq (snd a) [] then negb (bseq (fst a) (B "sendrecv")) && negb (bseq (fst a) (B "sendonly")) && negb (bseq (fst a) (B "recvonly"))
   else negb (bseq (fst a) (B "rtpmap")) && negb (bseq (fst a) (B "fmtp")) && negb (bseq (fst a) (B "ptime"))).
Definition wf_other (a : bytes * bytes) : bool :=
  match fst a with
  | [c] => negb (existsb (beq c) (B "mstcoa=" ++ [CR])) && text (snd a)
  | _ => false
  end.
Definition wf_origin (o : origin) : bool := word (o_user o) && word (o_id o) && word (o_version o) && host (o_addr o).
Definition wf_sdp (s : sdp) : Prop :=
  wf_origin (s_origin s) = true /\ host (s_addr s) = true /\ text (s_session s) = true /\ text (s_time s) = true /\
  (s_audio s <> None \/ s_video s <> None) /\
  (forall m, s_audio s = Some m \/ s_video s = Some m -> wf_media m = true) /\
  (forall c d, In c (media_codecs (s_audio s) ++ media_codecs (s_video s)) -> In d (media_codecs (s_audio s) ++ media_codecs (s_video s)) ->
     c_pt c = c_pt d -> c = d) /\
  0 <= s_ptime s < 2 ^ 63 /\ (s_sendonly s && s_recvonly s = false) /\
  forallb wf_attr (s_attrs s) = true /\ forallb wf_other (s_other s) = true.

(** The lines of the text, without the version line *)
Definition codec_lines (c : codec) : list bytes :=
  (B "a=rtpmap:" ++ itoa (c_pt c) ++ B " " ++ c_name c ++ B "/" ++ itoa (c_rate c) ++ (match c_param c with [] => [] | p => B "/" ++ p end))
  :: match c_fmtp c with [] => [] | f => [B "a=fmtp:" ++ itoa (c_pt c) ++ B " " ++ f] end.
Definition media_info (m : media) : bytes :=
  itoa (m_port m) ++ B " " ++ (match m_proto m with [] => B "RTP/AVP" | p => p end) ++ concat (map (fun c => B " " ++ itoa (c_pt c)) (m_codecs m)).
Definition media_lines (ty : bytes) (m : option media) : list bytes :=
  match m with
  | None => []
  | Some m => (B "m=" ++ ty ++ B " " ++ media_info m) :: flat_map codec_lines (m_codecs m)
  end.
Definition attr_line (a : bytes * bytes) : bytes := match snd a with [] => B "a=" ++ fst a | v => B "a=" ++ fst a ++ B ":" ++ v end.
Definition sdp_lines (s : sdp) : list bytes :=
  [B "o=" ++ o_user (s_origin s) ++ B " " ++ o_id (s_origin s) ++ B " " ++ o_version (s_origin s) ++
     (if IsIPv6 (o_addr (s_origin s)) then B " IN IP6 " else B " IN IP4 ") ++ o_addr (s_origin s);
   B "s=" ++ s_session s;
   (if IsIPv6 (s_addr s) then B "c=IN IP6 " else B "c=IN IP4 ") ++ s_addr s;
   B "t=" ++ s_time s] ++
  media_lines (B "audio") (s_audio s) ++ media_lines (B "video") (s_video s) ++
  map attr_line (s_attrs s) ++
  (if 0 <? s_ptime s then [B "a=ptime:" ++ itoa (s_ptime s)] else []) ++
  [if s_sendonly s then B "a=sendonly" else if s_recvonly s then B "a=recvonly" else B "a=sendrecv"] ++
  map (fun a => fst a ++ B "=" ++ snd a) (s_other s).
Definition unlines (l : list bytes) : bytes := concat (map (fun x => x ++ CRLF) l).

Lemma unlines_app a b : unlines (a ++ b) = unlines a ++ unlines b.
Proof. unfold unlines. rewrite map_app, concat_app. reflexivity. Qed.
Lemma unlines_cons x l : unlines (x :: l) = x ++ CRLF ++ unlines l.
Proof. unfold unlines. cbn [map concat]. rewrite <- app_assoc. reflexivity. Qed.

Lemma ne s : negb (bseq s []) = true -> s <> [].
Proof. intros H ->. discriminate. Qed.

Lemma codec_unlines c : codec_append c = unlines (codec_lines c).
Proof.
  unfold codec_append, codec_lines. destruct (c_param c), (c_fmtp c);
    rewrite ?unlines_cons; cbn [unlines map concat]; rewrite ?app_nil_r, <- ?app_assoc; reflexivity.
Qed.
Lemma media_unlines ty m : media_append ty m = unlines (media_lines ty (Some m)).
Proof.
  unfold media_append, media_lines, media_info. rewrite unlines_cons. rewrite <- !app_assoc. do 8 f_equal.
  induction (m_codecs m) as [|c l IH]; [reflexivity|]. cbn [map concat flat_map]. rewrite unlines_app, codec_unlines, IH. reflexivity.
Qed.
Lemma sdp_append_lines rid s : wf_sdp s -> sdp_append rid s = B "v=0" ++ CRLF ++ unlines (sdp_lines s).
Proof.
  intros (WO & WA & WS & WT & _). unfold wf_origin, host, word, text in *.
  rewrite !andb_true_iff in *. 
  assert (o_user (s_origin s) <> [] /\ o_id (s_origin s) <> [] /\ o_version (s_origin s) <> [] /\ o_addr (s_origin s) <> [] /\ s_addr s <> [] /\ s_session s <> [] /\ s_time s <> []) as (N1 & N2 & N3 & N4 & N5 & N6 & N7)
    by (repeat split; apply ne; tauto).
  unfold sdp_append, sdp_lines. f_equal. f_equal.
  rewrite !unlines_app, !unlines_cons. unfold origin_append.
  destruct (o_user (s_origin s)) eqn:?; [congruence|]. destruct (o_id (s_origin s)) eqn:?; [congruence|].
  destruct (o_version (s_origin s)) eqn:?; [congruence|]. destruct (o_addr (s_origin s)) eqn:?; [congruence|].
  destruct (s_addr s) eqn:?; [congruence|]. destruct (s_session s) eqn:?; [congruence|]. destruct (s_time s) eqn:?; [congruence|].
  rewrite <- !app_assoc.
  assert (EA : match s_audio s with Some m => media_append (B "audio") m | None => [] end = unlines (media_lines (B "audio") (s_audio s)))
    by (destruct (s_audio s); [apply media_unlines|reflexivity]).
  assert (EV : match s_video s with Some m => media_append (B "video") m | None => [] end = unlines (media_lines (B "video") (s_video s)))
    by (destruct (s_video s); [apply media_unlines|reflexivity]).
  assert (ET : concat (map attr_append (s_attrs s)) = unlines (map attr_line (s_attrs s))).
  { unfold unlines. rewrite map_map. f_equal. apply map_ext. intros [k v]. unfold attr_append, attr_line. cbn [fst snd].
    destruct v; rewrite <- ?app_assoc; reflexivity. }
  assert (EO : concat (map other_append (s_other s)) = unlines (map (fun a => fst a ++ B "=" ++ snd a) (s_other s))).
  { unfold unlines. rewrite map_map. f_equal. apply map_ext. intros [k v]. unfold other_append. cbn [fst snd]. rewrite <- !app_assoc. reflexivity. }
  rewrite EA, EV, ET, EO. cbn [unlines map concat app]. 
  destruct (0 <? s_ptime s), (s_sendonly s), (s_recvonly s); cbn [unlines map concat]; rewrite ?app_nil_r, <- ?app_assoc; reflexivity.
Qed.

Lemma split_unlines l : forallb (free_of CR) l = true -> split_crlf (unlines l) = l ++ [[]].
Proof.
  induction l as [|x l IH]; [reflexivity|]. cbn [forallb]. rewrite andb_true_iff. intros [H1 H2].
  rewrite unlines_cons, split_crlf_line by exact H1. rewrite IH by exact H2. reflexivity.
Qed.

Lemma itoa_free c n : (forall d, is_digit d = true -> beq d c = false) -> beq "-" c = false -> free_of c (itoa n) = true.
Proof.
  intros H1 H2. unfold itoa. assert (K : forall m, 0 <= m -> free_of c (utoa m) = true).
  { intros m Hm. unfold free_of. eapply forallb_impl; [|apply utoa_digits, Hm]. intros d Hd. cbv beta. rewrite H1 by exact Hd. reflexivity. }
  destruct (n <? 0) eqn:E; [|apply K; lia]. cbn [free_of forallb]. rewrite H2. apply K. lia.
Qed.
Lemma itoa_free_CR n : free_of CR (itoa n) = true.
Proof. apply itoa_free; [|reflexivity]. intros d H. assert (K : negb (is_digit d) || negb (beq d CR) = true) by (clear; revert d; by_bytes). rewrite H in K. apply negb_true_iff, K. Qed.
Lemma itoa_free_SP n : free_of " " (itoa n) = true.
Proof. apply itoa_free; [|reflexivity]. intros d H. assert (K : negb (is_digit d) || negb (beq d " ") = true) by (clear; revert d; by_bytes). rewrite H in K. apply negb_true_iff, K. Qed.
Lemma itoa_free_SL n : free_of "/" (itoa n) = true.
Proof. apply itoa_free; [|reflexivity]. intros d H. assert (K : negb (is_digit d) || negb (beq d "/") = true) by (clear; revert d; by_bytes). rewrite H in K. apply negb_true_iff, K. Qed.

Lemma sdp_lines_free s : wf_sdp s -> forallb (free_of CR) (sdp_lines s) = true.
Proof.
  intros (WO & WA & WS & WT & _ & WM & _ & _ & _ & WAt & WOt). unfold sdp_lines.
  assert (MF : forall ty m, free_of CR ty = true -> (forall x, m = Some x -> wf_media x = true) -> forallb (free_of CR) (media_lines ty m) = true).
  { intros ty [m|] Hty Hm; [|reflexivity]. specialize (Hm m eq_refl). unfold wf_media, word in Hm. rewrite !andb_true_iff in Hm.
    destruct Hm as [[[[[[Np Fp] _] _] _] _] FC]. apply ne in Np. cbn [media_lines forallb]. apply andb_true_iff. split.
    - unfold media_info. rewrite !free_of_app, Hty, itoa_free_CR. cbn [andb].
      replace (free_of CR match m_proto m with [] => B "RTP/AVP" | p => p end) with true by (destruct (m_proto m); [congruence|symmetry; exact Fp]).
      change (free_of CR (B "m=")) with true. change (free_of CR (B " ")) with true. cbn [andb].
      induction (m_codecs m) as [|c l IH]; [reflexivity|]. cbn [map concat]. rewrite !free_of_app, itoa_free_CR.
      change (free_of CR (B " ")) with true. cbn [andb]. apply IH. cbn [forallb] in FC. apply andb_true_iff in FC. tauto.
    - induction (m_codecs m) as [|c l IH]; [reflexivity|]. cbn [flat_map]. cbn [forallb] in FC. apply andb_true_iff in FC. destruct FC as [F1 F2].
      rewrite forallb_app', (IH F2), andb_true_r. unfold wf_codec, text in F1. rewrite !andb_true_iff in F1.
      unfold codec_lines. cbn [forallb]. rewrite !free_of_app, !itoa_free_CR.
      replace (free_of CR (c_name c)) with true by (symmetry; tauto).
      replace (free_of CR match c_param c with [] => [] | p => B "/" ++ p end) with true.
      2:{ destruct (c_param c); [reflexivity|]. rewrite free_of_app. symmetry. apply andb_true_iff. split; [reflexivity|tauto]. }
      cbn [andb]. destruct (c_fmtp c) as [|x f]; [reflexivity|]. cbn [forallb]. rewrite !free_of_app, itoa_free_CR.
      replace (free_of CR (x :: f)) with true by (symmetry; tauto). reflexivity. }
  unfold wf_origin, host, word, text in *. rewrite !andb_true_iff in *.
  cbn [app forallb]. rewrite !forallb_app', !free_of_app.
  rewrite (MF (B "audio") (s_audio s)) by (auto || (intros; apply WM; auto)).
  rewrite (MF (B "video") (s_video s)) by (auto || (intros; apply WM; auto)).
  replace (free_of CR (o_user (s_origin s))) with true by (symmetry; tauto).
  replace (free_of CR (o_id (s_origin s))) with true by (symmetry; tauto).
  replace (free_of CR (o_version (s_origin s))) with true by (symmetry; tauto).
  replace (free_of CR (o_addr (s_origin s))) with true by (symmetry; tauto).
  replace (free_of CR (s_addr s)) with true by (symmetry; tauto).
  replace (free_of CR (s_session s)) with true by (symmetry; tauto).
  replace (free_of CR (s_time s)) with true by (symmetry; tauto).
  replace (forallb (free_of CR) (map attr_line (s_attrs s))) with true.
  2:{ symmetry. rewrite forallb_forall in WAt |- *. intros x Hx. apply in_map_iff in Hx. destruct Hx as ([k v] & <- & Hin).
      specialize (WAt _ Hin). unfold wf_attr, text in WAt. cbn [fst snd] in WAt. rewrite !andb_true_iff in WAt.
      unfold attr_line. cbn [fst snd]. destruct v; rewrite !free_of_app; replace (free_of CR k) with true by (symmetry; tauto); [reflexivity|].
      replace (free_of CR (b :: v)) with true by (symmetry; tauto). reflexivity. }
  assert (HO : forallb (free_of CR) (map (fun a : bytes * bytes => fst a ++ B "=" ++ snd a) (s_other s)) = true).
  { rewrite forallb_forall in WOt |- *. intros x Hx. apply in_map_iff in Hx. destruct Hx as ([k v] & <- & Hin).
      specialize (WOt _ Hin). unfold wf_other, text in WOt. cbn [fst snd] in *. destruct k as [|c [|]]; try discriminate.
      rewrite !andb_true_iff in WOt. destruct WOt as [K1 [_ K2]]. rewrite !free_of_app, K2.
      apply negb_true_iff in K1. cbn in K1. cbn [free_of forallb]. rewrite !orb_false_iff in K1.
      destruct K1 as (_ & _ & _ & _ & _ & _ & _ & -> & _). reflexivity. }
  destruct (IsIPv6 (o_addr (s_origin s))), (IsIPv6 (s_addr s)), (s_sendonly s), (s_recvonly s); cbn [andb];
    (destruct (0 <? s_ptime s); cbn [forallb]; rewrite ?free_of_app, ?itoa_free_CR, HO; reflexivity).
Qed.

(** Effects of single lines *)
Lemma parse_lines_app st a b st' : parse_lines st a = Ok (inl st') -> parse_lines st (a ++ b) = parse_lines st' b.
Proof.
  revert st. induction a as [|x a IH]; intros st H; cbn [parse_lines app] in *; [congruence|].
  destruct (parse_line st x) as [[s1|e]|]; cbn [rbind] in *; try discriminate. apply IH, H.
Qed.

Definition with_rtp (st : pst) (r f : list bytes) : pst :=
  mkpst (p_room st) (p_audio st) (p_video st) (p_rtpmaps st ++ r) (p_fmtps st ++ f) (p_attrs st) (p_other st)
    (p_session st) (p_time st) (p_conn st) (p_origin st) (p_ptime st) (p_sendonly st) (p_recvonly st).

Definition rtpmap_info (c : codec) : bytes := c_name c ++ B "/" ++ itoa (c_rate c) ++ (match c_param c with [] => [] | p => B "/" ++ p end).
Definition rtpmap_val (c : codec) : bytes := itoa (c_pt c) ++ B " " ++ rtpmap_info c.
Definition fmtp_val (c : codec) : list bytes := match c_fmtp c with [] => [] | f => [itoa (c_pt c) ++ B " " ++ f] end.

Lemma pl_a st t : t <> [] -> parse_line st (B "a=" ++ t) = do st' <- parse_attr st t; Ok (inl st').
Proof. intros H. destruct t as [|x t]; [congruence|]. reflexivity. Qed.

Lemma pa_rtpmap st v : (length (p_rtpmaps st) < p_room st)%nat -> parse_attr st (B "rtpmap:" ++ v) = Ok (with_rtp st [v] []).
Proof.
  intros H. unfold parse_attr. rewrite has_prefix_app. rewrite from_ok by (rewrite app_length; cbn; lia).
  cbn [rbind]. apply Nat.ltb_lt in H. rewrite H. unfold with_rtp. rewrite app_nil_r. reflexivity.
Qed.
Lemma pa_fmtp st v : (length (p_fmtps st) < p_room st)%nat -> parse_attr st (B "fmtp:" ++ v) = Ok (with_rtp st [] [v]).
Proof.
  intros H. unfold parse_attr. change (has_prefix (B "fmtp:" ++ v) (B "rtpmap:")) with false. rewrite has_prefix_app.
  rewrite from_ok by (rewrite app_length; cbn; lia).
  cbn [rbind]. apply Nat.ltb_lt in H. rewrite H. unfold with_rtp. rewrite app_nil_r. reflexivity.
Qed.

Lemma with_rtp_app st a b c d : with_rtp (with_rtp st a b) c d = with_rtp st (a ++ c) (b ++ d).
Proof. unfold with_rtp. cbn. rewrite !app_assoc. reflexivity. Qed.

Lemma parse_codec_lines cs : forall st, 
  (length (p_rtpmaps st) + length cs <= p_room st)%nat -> (length (p_fmtps st) + length cs <= p_room st)%nat ->
  parse_lines st (flat_map codec_lines cs) = Ok (inl (with_rtp st (map rtpmap_val cs) (flat_map fmtp_val cs))).
Proof.
  induction cs as [|c cs IH]; intros st H1 H2.
  - cbn. unfold with_rtp. rewrite !app_nil_r. destruct st; reflexivity.
  - cbn [flat_map length] in *. unfold codec_lines. fold codec_lines.
    assert (E : B "a=rtpmap:" ++ itoa (c_pt c) ++ B " " ++ c_name c ++ B "/" ++ itoa (c_rate c) ++ match c_param c with [] => [] | p => B "/" ++ p end
       = B "a=" ++ (B "rtpmap:" ++ rtpmap_val c)) by (unfold rtpmap_val, rtpmap_info; reflexivity).
    rewrite E. clear E. cbn [app parse_lines].
    rewrite pl_a by discriminate. rewrite pa_rtpmap by lia. cbn [rbind].
    destruct (c_fmtp c) as [|x f] eqn:EF.
    + cbn [app]. rewrite IH by (cbn; rewrite ?app_length; cbn; lia). rewrite with_rtp_app.
      cbn [map]. unfold fmtp_val at 2. rewrite EF. reflexivity.
    + assert (E : B "a=fmtp:" ++ itoa (c_pt c) ++ B " " ++ x :: f = B "a=" ++ (B "fmtp:" ++ (itoa (c_pt c) ++ B " " ++ x :: f))) by reflexivity.
      rewrite E. clear E. cbn [app parse_lines]. rewrite pl_a by discriminate. rewrite pa_fmtp by (cbn; rewrite ?app_length; cbn; lia).
      cbn [rbind]. rewrite IH by (cbn; rewrite ?app_length; cbn; lia). rewrite !with_rtp_app.
      cbn [map]. unfold fmtp_val at 2. rewrite EF. reflexivity.
Qed.

(** Attribute lines *)
Lemma first_sep c (k p a b : bytes) : free_of c k = true -> free_of c p = true -> k ++ c :: a = p ++ c :: b -> k = p /\ a = b.
Proof.
  revert p. induction k as [|x k IH]; intros [|y p] Hk Hp H; cbn [app] in H.
  - injection H. auto.
  - injection H as -> H. cbn [free_of forallb] in Hp. rewrite beq_refl in Hp. discriminate.
  - injection H as -> H. cbn [free_of forallb] in Hk. rewrite beq_refl in Hk. discriminate.
  - injection H as -> H. cbn [free_of forallb] in *. apply andb_true_iff in Hk, Hp. destruct Hk, Hp.
    destruct (IH p) as [-> ->]; auto.
Qed.
Lemma has_prefix_sep c k v p : free_of c k = true -> free_of c p = true -> has_prefix (k ++ c :: v) (p ++ [c]) = bseq k p.
Proof.
  intros Hk Hp. destruct (bseq_reflect k p) as [->|N].
  - replace (p ++ c :: v) with ((p ++ [c]) ++ v) by (rewrite <- app_assoc; reflexivity). apply has_prefix_app.
  - destruct (has_prefix (k ++ c :: v) (p ++ [c])) eqn:E; [|reflexivity]. exfalso. apply N.
    apply has_prefix_split in E. rewrite <- app_assoc in E. cbn [app] in E.
    apply first_sep in E; tauto.
Qed.
Lemma has_prefix_no_sep c k p : free_of c k = true -> has_prefix k (p ++ [c]) = false.
Proof.
  intros Hk. destruct (has_prefix k (p ++ [c])) eqn:E; [|reflexivity]. apply has_prefix_split in E.
  rewrite E in Hk. rewrite !free_of_app in Hk. cbn [free_of forallb] in Hk. rewrite beq_refl in Hk. cbn [negb andb] in Hk.
  rewrite andb_false_r in Hk. discriminate.
Qed.

Definition with_attrs (st : pst) (l : list (bytes * bytes)) : pst :=
  mkpst (p_room st) (p_audio st) (p_video st) (p_rtpmaps st) (p_fmtps st) (p_attrs st ++ l) (p_other st)
    (p_session st) (p_time st) (p_conn st) (p_origin st) (p_ptime st) (p_sendonly st) (p_recvonly st).

Lemma pa_attr st a : wf_attr a = true -> (length (p_attrs st) < p_room st)%nat ->
  parse_line st (attr_line a) = Ok (inl (with_attrs st [a])).
Proof.
  intros W R. destruct a as [k v]. unfold wf_attr, text in W. cbn [fst snd] in W. rewrite !andb_true_iff in W.
  destruct W as [[[[N FK] CK] FV] W]. apply ne in N. apply Nat.ltb_lt in R. unfold attr_line. cbn [fst snd].
  destruct v as [|x v].
  - rewrite pl_a by exact N. cbn [bseq] in W. rewrite !andb_true_iff, !negb_true_iff in W. destruct W as [[W1 W2] W3].
    unfold parse_attr. change (B "rtpmap:") with (B "rtpmap" ++ [":"%byte]). change (B "fmtp:") with (B "fmtp" ++ [":"%byte]).
    change (B "ptime:") with (B "ptime" ++ [":"%byte]). rewrite !has_prefix_no_sep by exact CK.
    rewrite W1, W2, W3, (index_byte_free _ _ CK), R. reflexivity.
  - rewrite pl_a by (destruct k; [congruence|discriminate]).
    change (B ":" ++ x :: v) with (":"%byte :: (x :: v)). set (w := x :: v) in *.
    assert (W' : bseq k (B "rtpmap") = false /\ bseq k (B "fmtp") = false /\ bseq k (B "ptime") = false).
    { change (bseq w []) with false in W. rewrite !andb_true_iff, !negb_true_iff in W. tauto. }
    destruct W' as (W1 & W2 & W3). unfold parse_attr.
    change (B "rtpmap:") with (B "rtpmap" ++ [":"%byte]). change (B "fmtp:") with (B "fmtp" ++ [":"%byte]).
    change (B "ptime:") with (B "ptime" ++ [":"%byte]). rewrite !has_prefix_sep by (exact CK || reflexivity).
    rewrite W1, W2, W3.
    assert (NE : forall p, free_of ":" p = true -> bseq (k ++ ":"%byte :: w) p = false).
    { intros p Hp. apply bseq_neq. intros E. rewrite <- E in Hp. rewrite free_of_app in Hp. cbn [free_of forallb] in Hp.
      rewrite beq_refl in Hp. cbn [negb andb] in Hp. rewrite andb_false_r in Hp. discriminate. }
    rewrite !NE by reflexivity. rewrite index_byte_app by exact CK.
    destruct (length k) as [|n] eqn:EL; [destruct k; [congruence|discriminate]|].
    rewrite upto_ok, from_ok by (rewrite app_length, EL; cbn [length]; lia). cbn [rbind]. rewrite R. cbn [rbind].
    rewrite <- EL. replace (length k + 1)%nat with (length (k ++ [":"%byte])) by (rewrite app_length; reflexivity).
    rewrite firstn_app, Nat.sub_diag, firstn_all. cbn [firstn]. rewrite app_nil_r.
    replace (k ++ ":"%byte :: w) with ((k ++ [":"%byte]) ++ w) by (rewrite <- app_assoc; reflexivity).
    rewrite skipn_app, skipn_all, Nat.sub_diag. reflexivity.
Qed.

Lemma with_attrs_app st a b : with_attrs (with_attrs st a) b = with_attrs st (a ++ b).
Proof. unfold with_attrs. cbn. rewrite app_assoc. reflexivity. Qed.
Lemma parse_attr_lines l : forall st, forallb wf_attr l = true -> (length (p_attrs st) + length l <= p_room st)%nat ->
  parse_lines st (map attr_line l) = Ok (inl (with_attrs st l)).
Proof.
  induction l as [|a l IH]; intros st W R; cbn [map parse_lines].
  - unfold with_attrs. rewrite app_nil_r. destruct st; reflexivity.
  - cbn [forallb length] in *. apply andb_true_iff in W. destruct W as [W1 W2]. rewrite pa_attr by (exact W1 || lia). cbn [rbind].
    rewrite IH by (exact W2 || (cbn; rewrite app_length; cbn; lia)). rewrite with_attrs_app. reflexivity.
Qed.

(** Other lines *)
Definition with_other (st : pst) (l : list (bytes * bytes)) : pst :=
  mkpst (p_room st) (p_audio st) (p_video st) (p_rtpmaps st) (p_fmtps st) (p_attrs st) (p_other st ++ l)
    (p_session st) (p_time st) (p_conn st) (p_origin st) (p_ptime st) (p_sendonly st) (p_recvonly st).
Lemma pl_other st a : wf_other a = true -> parse_line st (fst a ++ B "=" ++ snd a) = Ok (inl (with_other st [a])).
Proof.
  intros W. destruct a as [k v]. unfold wf_other, text in W. cbn [fst snd] in *. destruct k as [|c [|]]; try discriminate.
  rewrite !andb_true_iff, negb_true_iff in W. destruct W as [W [N _]]. apply ne in N. destruct v as [|x v]; [congruence|].
  cbn in W. rewrite !orb_false_iff in W. destruct W as (W1 & W2 & W3 & W4 & W5 & W6 & W7 & _).
  unfold parse_line. cbn [app B length Nat.ltb Nat.leb at_ nth_error rbind].
  change (negb (beq "=" "=")) with false. cbv iota. rewrite W1, W2, W3, W4, W5, W6.
  cbn [index_byte]. rewrite W7. reflexivity.
Qed.
Lemma with_other_app st a b : with_other (with_other st a) b = with_other st (a ++ b).
Proof. unfold with_other. cbn. rewrite app_assoc. reflexivity. Qed.
Lemma parse_other_lines l : forall st, forallb wf_other l = true ->
  parse_lines st (map (fun a => fst a ++ B "=" ++ snd a) l) = Ok (inl (with_other st l)).
Proof.
  induction l as [|a l IH]; intros st W; cbn [map parse_lines].
  - unfold with_other. rewrite app_nil_r. destruct st; reflexivity.
  - cbn [forallb] in *. apply andb_true_iff in W. destruct W as [W1 W2]. rewrite pl_other by exact W1. cbn [rbind].
    rewrite IH by exact W2. rewrite with_other_app. reflexivity.
Qed.

(** Origin and connection lines *)
Lemma from_prefix (p s : bytes) : from (length p) (p ++ s) = Ok s.
Proof.
  unfold from. rewrite app_length. destruct (Nat.leb_spec (length p) (length p + length s)); [|lia].
  rewrite skipn_app, skipn_all, Nat.sub_diag. reflexivity.
Qed.
Lemma from_o x : from 2 (B "o=" ++ x) = Ok x. Proof. exact (from_prefix (B "o=") x). Qed.
Lemma from_c x : from 2 (B "c=" ++ x) = Ok x. Proof. exact (from_prefix (B "c=") x). Qed.
Lemma split_last sep a : free_of sep a = true -> split_byte sep a = [a].
Proof. apply split_byte_free. Qed.
Lemma pl_origin o ip6 : wf_origin o = true ->
  parseOriginLine (B "o=" ++ o_user o ++ B " " ++ o_id o ++ B " " ++ o_version o ++ (if ip6 : bool then B " IN IP6 " else B " IN IP4 ") ++ o_addr o) = Ok (inl o).
Proof.
  intros W. unfold wf_origin, host, word in W. rewrite !andb_true_iff in W.
  unfold parseOriginLine. rewrite from_o. cbn [rbind].
  assert (E : split_byte " " (o_user o ++ B " " ++ o_id o ++ B " " ++ o_version o ++ (if ip6 : bool then B " IN IP6 " else B " IN IP4 ") ++ o_addr o)
    = [o_user o; o_id o; o_version o; B "IN"; (if ip6 then B "IP6" else B "IP4"); o_addr o]).
  { change (B " ") with [" "%byte]. cbn [app]. rewrite split_byte_cons by tauto. rewrite split_byte_cons by tauto.
    destruct ip6.
    - change (B " IN IP6 " ++ o_addr o) with (" "%byte :: B "IN" ++ " "%byte :: B "IP6" ++ " "%byte :: o_addr o).
      rewrite split_byte_cons by tauto. rewrite split_byte_cons by reflexivity. rewrite split_byte_cons by reflexivity. rewrite split_byte_free by tauto. reflexivity.
    - change (B " IN IP4 " ++ o_addr o) with (" "%byte :: B "IN" ++ " "%byte :: B "IP4" ++ " "%byte :: o_addr o).
      rewrite split_byte_cons by tauto. rewrite split_byte_cons by reflexivity. rewrite split_byte_cons by reflexivity. rewrite split_byte_free by tauto. reflexivity. }
  rewrite E. clear E. cbn [length Nat.eqb negb at_ nth_error rbind].
  replace (negb (bseq (B "IN") (B "IN")) || negb (bseq (if ip6 then B "IP6" else B "IP4") (B "IP4")) && negb (bseq (if ip6 then B "IP6" else B "IP4") (B "IP6"))) with false by (destruct ip6; reflexivity).
  rewrite index_byte_free by tauto. destruct o; reflexivity.
Qed.
Lemma pl_conn a ip6 : host a = true ->
  parseConnLine ((if ip6 : bool then B "c=IN IP6 " else B "c=IN IP4 ") ++ a) = Ok (inl a).
Proof.
  intros W. unfold host, word in W. rewrite !andb_true_iff in W.
  unfold parseConnLine.
  replace ((if ip6 then B "c=IN IP6 " else B "c=IN IP4 ") ++ a) with (B "c=" ++ ((if ip6 then B "IN IP6 " else B "IN IP4 ") ++ a)) by (destruct ip6; reflexivity).
  rewrite from_c. cbn [rbind].
  assert (E : split_byte " " ((if ip6 : bool then B "IN IP6 " else B "IN IP4 ") ++ a) = [B "IN"; (if ip6 then B "IP6" else B "IP4"); a]).
  { destruct ip6.
    - change (B "IN IP6 " ++ a) with (B "IN" ++ " "%byte :: B "IP6" ++ " "%byte :: a).
      rewrite split_byte_cons by reflexivity. rewrite split_byte_cons by reflexivity. rewrite split_byte_free by tauto. reflexivity.
    - change (B "IN IP4 " ++ a) with (B "IN" ++ " "%byte :: B "IP4" ++ " "%byte :: a).
      rewrite split_byte_cons by reflexivity. rewrite split_byte_cons by reflexivity. rewrite split_byte_free by tauto. reflexivity. }
  rewrite E. cbn [length Nat.eqb negb at_ nth_error rbind].
  replace (negb (bseq (B "IN") (B "IN")) || negb (bseq (if ip6 then B "IP6" else B "IP4") (B "IP4")) && negb (bseq (if ip6 then B "IP6" else B "IP4") (B "IP6"))) with false by (destruct ip6; reflexivity).
  rewrite index_byte_free by tauto. reflexivity.
Qed.

(** Media *)
Lemma split_pts l : forall p, free_of " " p = true ->
  split_byte " " (p ++ concat (map (fun c => B " " ++ itoa (c_pt c)) l)) = p :: map (fun c => itoa (c_pt c)) l.
Proof.
  induction l as [|c l IH]; intros p Hp; cbn [map concat].
  - rewrite app_nil_r. apply split_byte_free, Hp.
  - change (B " ") with [" "%byte]. cbn [app]. rewrite split_byte_cons by exact Hp. f_equal. apply IH, itoa_free_SP.
Qed.
Lemma parse_pts_ok l : forallb wf_codec l = true -> parse_pts (map (fun c => itoa (c_pt c)) l) = inl (map c_pt l).
Proof.
  induction l as [|c l IH]; [reflexivity|]. cbn [forallb map parse_pts]. rewrite andb_true_iff. intros [W1 W2].
  unfold wf_codec in W1. rewrite !andb_true_iff in W1. destruct W1 as [[[[[[[[L1 L2] _] _] _] _] _] _] _].
  rewrite itoa_nonneg, parse_uint_utoa by (change (2 ^ 8) with 256; lia). rewrite (IH W2), u8_id by lia. reflexivity.
Qed.
Lemma parse_info_ok m : wf_media m = true -> parseMediaInfo (media_info m) = Ok (inl (m_port m, m_proto m, map c_pt (m_codecs m))).
Proof.
  intros W. unfold wf_media, word in W. rewrite !andb_true_iff in W. destruct W as [[[[[[N _] FS] L1] L2] NC] FC]. apply ne in N.
  unfold parseMediaInfo, media_info.
  replace (match m_proto m with [] => B "RTP/AVP" | p => p end) with (m_proto m) by (destruct (m_proto m); [congruence|reflexivity]).
  change (B " ") with [" "%byte]. cbn [app]. rewrite split_byte_cons by apply itoa_free_SP.
  change [" "%byte] with (B " "). rewrite split_pts by exact FS.
  destruct (m_codecs m) as [|c l] eqn:EC; [discriminate|]. 
  cbn [length map Nat.ltb Nat.leb at_ nth_error rbind]. rewrite index_byte_free by apply itoa_free_SL. cbn [rbind].
  rewrite itoa_nonneg, parse_uint_utoa by (change (2 ^ 16) with 65536; lia). cbn [skipn].
  change (itoa (c_pt c) :: map (fun c0 : codec => itoa (c_pt c0)) l) with (map (fun c0 : codec => itoa (c_pt c0)) (c :: l)).
  rewrite parse_pts_ok by exact FC. rewrite u16_id by lia. reflexivity.
Qed.
Lemma parse_rtpmap_ok c : wf_codec c = true -> parseRtpmapInfo (c_pt c) (rtpmap_info c) = Ok (inl (mkcodec (c_pt c) (c_name c) (c_rate c) (c_param c) [])).
Proof.
  intros W. unfold wf_codec, text in W. rewrite !andb_true_iff in W.
  unfold parseRtpmapInfo, rtpmap_info.
  change (B "/") with ["/"%byte]. cbn [app]. rewrite split_byte_cons by tauto.
  destruct (c_param c) as [|x p] eqn:EP.
  - rewrite app_nil_r, split_byte_free by apply itoa_free_SL. cbn [length Nat.leb at_ nth_error rbind].
    rewrite atoi_itoa by lia. reflexivity.
  - cbn [app]. rewrite split_byte_cons by apply itoa_free_SL. rewrite split_byte_free by tauto. cbn [length Nat.leb at_ nth_error rbind].
    rewrite atoi_itoa by lia. reflexivity.
Qed.

Definition consistent (cs : list codec) : Prop := forall c d, In c cs -> In d cs -> c_pt c = c_pt d -> c = d.

Lemma itoa_inj a b : 0 <= a -> 0 <= b -> itoa a = itoa b -> a = b.
Proof. intros. rewrite !itoa_nonneg in * by lia. eapply utoa_inj; eauto. Qed.

Lemma has_prefix_pt c d info : 0 <= c_pt c -> 0 <= c_pt d ->
  has_prefix (itoa (c_pt d) ++ B " " ++ info) (itoa (c_pt c) ++ B " ") = (c_pt d =? c_pt c).
Proof.
  intros H1 H2. change (B " ") with [" "%byte]. cbn [app]. rewrite has_prefix_sep by apply itoa_free_SP.
  destruct (Z.eqb_spec (c_pt d) (c_pt c)) as [->|N]; [apply bseq_refl|]. apply bseq_neq. intros E. apply N, itoa_inj; auto.
Qed.
Lemma skipn_prefix (p s : bytes) : skipn (length p) (p ++ s) = s.
Proof. rewrite skipn_app, skipn_all, Nat.sub_diag. reflexivity. Qed.

Lemma wf_pt c : wf_codec c = true -> 0 <= c_pt c < 256.
Proof. unfold wf_codec. rewrite !andb_true_iff. intros. lia. Qed.

Lemma find_rtpmap cs c : forallb wf_codec cs = true -> consistent cs -> In c cs ->
  find_prefix (itoa (c_pt c) ++ B " ") (map rtpmap_val cs) = Some (rtpmap_info c).
Proof.
  intros W C H. assert (WC : wf_codec c = true) by (rewrite forallb_forall in W; auto). apply wf_pt in WC.
  assert (G : forall l, incl l cs -> In c l -> find_prefix (itoa (c_pt c) ++ B " ") (map rtpmap_val l) = Some (rtpmap_info c)).
  { induction l as [|d l IH]; [intros _ []|]. intros I Hc. cbn [map find_prefix]. unfold rtpmap_val at 1.
    assert (Hd : In d cs) by (apply I; left; reflexivity).
    assert (WD : wf_codec d = true) by (rewrite forallb_forall in W; auto). apply wf_pt in WD.
    rewrite has_prefix_pt by lia. destruct (Z.eqb_spec (c_pt d) (c_pt c)) as [E|N].
    - assert (d = c) by (apply C; auto). subst d. unfold rtpmap_val. rewrite app_assoc, skipn_prefix. reflexivity.
    - destruct Hc as [->|Hc]; [congruence|]. apply IH; [intros x Hx; apply I; right; exact Hx|exact Hc]. }
  apply G; [apply incl_refl|exact H].
Qed.
Lemma codec_eq_dec (a b : codec) : {a = b} + {a <> b}.
Proof. destruct a as [a1 a2 a3 a4 a5], b as [b1 b2 b3 b4 b5].
  destruct (Z.eq_dec a1 b1), (bytes_eq_dec a2 b2), (Z.eq_dec a3 b3), (bytes_eq_dec a4 b4), (bytes_eq_dec a5 b5); (left; congruence) || (right; congruence).
Qed.
Lemma find_fmtp cs c : forallb wf_codec cs = true -> consistent cs -> In c cs ->
  find_prefix (itoa (c_pt c) ++ B " ") (flat_map fmtp_val cs) = match c_fmtp c with [] => None | f => Some f end.
Proof.
  intros W C H. assert (WC : wf_codec c = true) by (rewrite forallb_forall in W; auto). apply wf_pt in WC.
  assert (N : forall l, incl l cs -> ~ In c l -> find_prefix (itoa (c_pt c) ++ B " ") (flat_map fmtp_val l) = None).
  { induction l as [|d l IH]; [reflexivity|]. intros I Hc. cbn [flat_map]. unfold fmtp_val at 1.
    assert (Hd : In d cs) by (apply I; left; reflexivity).
    assert (WD : wf_codec d = true) by (rewrite forallb_forall in W; auto). apply wf_pt in WD.
    assert (IH' : find_prefix (itoa (c_pt c) ++ B " ") (flat_map fmtp_val l) = None) by (apply IH; [intros x Hx; apply I; right; exact Hx|intros K; apply Hc; right; exact K]).
    destruct (c_fmtp d) as [|x f]; [exact IH'|]. cbn [app find_prefix]. rewrite has_prefix_pt by lia.
    destruct (Z.eqb_spec (c_pt d) (c_pt c)) as [E|]; [|exact IH']. exfalso. apply Hc. left. apply C; auto. }
  assert (G : forall l, incl l cs -> In c l -> find_prefix (itoa (c_pt c) ++ B " ") (flat_map fmtp_val l) = match c_fmtp c with [] => None | f => Some f end).
  { induction l as [|d l IH]; [intros _ []|]. intros I Hc. cbn [flat_map]. unfold fmtp_val at 1.
    assert (Hd : In d cs) by (apply I; left; reflexivity).
    assert (WD : wf_codec d = true) by (rewrite forallb_forall in W; auto). apply wf_pt in WD.
    assert (I' : incl l cs) by (intros x Hx; apply I; right; exact Hx).
    destruct (Z.eq_dec (c_pt d) (c_pt c)) as [E|NE].
    - assert (d = c) by (apply C; auto). subst d. destruct (c_fmtp c) as [|x f] eqn:EF.
      + cbn [app]. destruct (in_dec codec_eq_dec c l) as [K|K]; [apply IH; auto|apply N; auto].
      + cbn [app find_prefix]. rewrite has_prefix_pt, Z.eqb_refl by lia. rewrite app_assoc, skipn_prefix. reflexivity.
    - assert (Hl : In c l) by (destruct Hc as [->|Hc]; [congruence|exact Hc]).
      destruct (c_fmtp d) as [|x f]; [cbn [app]; apply IH; auto|]. cbn [app find_prefix]. rewrite has_prefix_pt by lia.
      destruct (Z.eqb_spec (c_pt d) (c_pt c)); [congruence|]. apply IH; auto. }
  apply G; [apply incl_refl|exact H].
Qed.

Lemma populate_ok cs l : forallb wf_codec cs = true -> consistent cs -> incl l cs ->
  populateCodecs (map c_pt l) (map rtpmap_val cs) (flat_map fmtp_val cs) = Ok (inl l).
Proof.
  intros W C. induction l as [|c l IH]; [reflexivity|]. intros I. cbn [map populateCodecs].
  assert (Hc : In c cs) by (apply I; left; reflexivity).
  assert (WC : wf_codec c = true) by (rewrite forallb_forall in W; auto).
  unfold populate_one. rewrite find_rtpmap, find_fmtp by auto. rewrite parse_rtpmap_ok by exact WC. cbn [rbind c_name].
  assert (N : c_name c <> []). { unfold wf_codec, text in WC. rewrite !andb_true_iff in WC. apply ne. tauto. }
  destruct (c_name c) as [|x nm] eqn:EN; [congruence|]. cbn [rbind c_pt c_rate c_param].
  rewrite IH by (intros y Hy; apply I; right; exact Hy). cbn [rbind].
  destruct c as [pt nm' rt pr fm]. cbn in *. subst nm'. destruct fm; reflexivity.
Qed.

Lemma parse_media_ok m cs : wf_media m = true -> forallb wf_codec cs = true -> consistent cs -> incl (m_codecs m) cs ->
  parse_media (media_info m) (map rtpmap_val cs) (flat_map fmtp_val cs) = Ok (inl (Some m)).
Proof.
  intros WM W C I. unfold parse_media.
  assert (E : exists x t, media_info m = x :: t).
  { unfold media_info. unfold wf_media in WM. rewrite !andb_true_iff in WM.
    pose proof (utoa_nonempty (m_port m) ltac:(lia)) as N. rewrite itoa_nonneg by lia. destruct (utoa (m_port m)) as [|x t]; [congruence|]. cbn [app]. eauto. }
  destruct E as (x & t & E). pose proof (parse_info_ok m WM) as P. rewrite E in *. cbv iota. rewrite P. cbn [rbind].
  rewrite populate_ok by auto. cbn [rbind]. destruct m; reflexivity.
Qed.

Lemma pl_o st t o : t <> [] -> parseOriginLine (B "o=" ++ t) = Ok (inl o) ->
  parse_line st (B "o=" ++ t) = Ok (inl (mkpst (p_room st) (p_audio st) (p_video st) (p_rtpmaps st) (p_fmtps st) (p_attrs st) (p_other st)
                   (p_session st) (p_time st) (p_conn st) (Some o) (p_ptime st) (p_sendonly st) (p_recvonly st))).
Proof.
  intros N E. destruct t as [|x t]; [congruence|].
  change (parse_line st (B "o=" ++ x :: t)) with (do r <- parseOriginLine (B "o=" ++ x :: t);
          Ok (match r with
              | inr e => inr e
              | inl o => inl (mkpst (p_room st) (p_audio st) (p_video st) (p_rtpmaps st) (p_fmtps st) (p_attrs st) (p_other st)
                   (p_session st) (p_time st) (p_conn st) (Some o) (p_ptime st) (p_sendonly st) (p_recvonly st))
              end)).
  rewrite E. reflexivity.
Qed.
Lemma pl_c st t a : t <> [] -> p_conn st = None -> parseConnLine (B "c=" ++ t) = Ok (inl a) ->
  parse_line st (B "c=" ++ t) = Ok (inl (mkpst (p_room st) (p_audio st) (p_video st) (p_rtpmaps st) (p_fmtps st) (p_attrs st) (p_other st)
                   (p_session st) (p_time st) (Some a) (p_origin st) (p_ptime st) (p_sendonly st) (p_recvonly st))).
Proof.
  intros N C E. destruct t as [|x t]; [congruence|].
  change (parse_line st (B "c=" ++ x :: t)) with (match p_conn st with
          | Some _ => Ok (inl st)
          | None =>
            do r <- parseConnLine (B "c=" ++ x :: t);
            Ok (match r with
                | inr e => inr e
                | inl a => inl (mkpst (p_room st) (p_audio st) (p_video st) (p_rtpmaps st) (p_fmtps st) (p_attrs st) (p_other st)
                   (p_session st) (p_time st) (Some a) (p_origin st) (p_ptime st) (p_sendonly st) (p_recvonly st))
                end)
          end).
  rewrite C, E. reflexivity.
Qed.
Lemma pl_s st t : t <> [] -> parse_line st (B "s=" ++ t) = Ok (inl (mkpst (p_room st) (p_audio st) (p_video st) (p_rtpmaps st) (p_fmtps st) (p_attrs st) (p_other st)
   t (p_time st) (p_conn st) (p_origin st) (p_ptime st) (p_sendonly st) (p_recvonly st))).
Proof. intros N. destruct t as [|x t]; [congruence|]. reflexivity. Qed.
Lemma pl_t st t : t <> [] -> parse_line st (B "t=" ++ t) = Ok (inl (mkpst (p_room st) (p_audio st) (p_video st) (p_rtpmaps st) (p_fmtps st) (p_attrs st) (p_other st)
   (p_session st) t (p_conn st) (p_origin st) (p_ptime st) (p_sendonly st) (p_recvonly st))).
Proof. intros N. destruct t as [|x t]; [congruence|]. reflexivity. Qed.
Lemma pl_m st l : l <> [] -> parse_line st (B "m=" ++ l) =
  if has_prefix l (B "audio ") then
    do v <- from 6 l;
    Ok (inl (mkpst (p_room st) v (p_video st) (p_rtpmaps st) (p_fmtps st) (p_attrs st) (p_other st)
      (p_session st) (p_time st) (p_conn st) (p_origin st) (p_ptime st) (p_sendonly st) (p_recvonly st)))
  else if has_prefix l (B "video ") then
    do v <- from 6 l;
    Ok (inl (mkpst (p_room st) (p_audio st) v (p_rtpmaps st) (p_fmtps st) (p_attrs st) (p_other st)
      (p_session st) (p_time st) (p_conn st) (p_origin st) (p_ptime st) (p_sendonly st) (p_recvonly st)))
  else Ok (inl st).
Proof. intros N. destruct l as [|x t]; [congruence|]. reflexivity. Qed.
Lemma from_audio t : from 6 (B "audio " ++ t) = Ok t. Proof. exact (from_prefix (B "audio ") t). Qed.
Lemma from_video t : from 6 (B "video " ++ t) = Ok t. Proof. exact (from_prefix (B "video ") t). Qed.
Lemma from_ptime t : from 6 (B "ptime:" ++ t) = Ok t. Proof. exact (from_prefix (B "ptime:") t). Qed.
Lemma pl_audio st t : parse_line st (B "m=" ++ B "audio" ++ B " " ++ t) = Ok (inl (mkpst (p_room st) t (p_video st) (p_rtpmaps st) (p_fmtps st) (p_attrs st) (p_other st)
   (p_session st) (p_time st) (p_conn st) (p_origin st) (p_ptime st) (p_sendonly st) (p_recvonly st))).
Proof.
  change (B "audio" ++ B " " ++ t) with (B "audio " ++ t). rewrite pl_m by discriminate. rewrite has_prefix_app, from_audio. reflexivity.
Qed.
Lemma pl_video st t : parse_line st (B "m=" ++ B "video" ++ B " " ++ t) = Ok (inl (mkpst (p_room st) (p_audio st) t (p_rtpmaps st) (p_fmtps st) (p_attrs st) (p_other st)
   (p_session st) (p_time st) (p_conn st) (p_origin st) (p_ptime st) (p_sendonly st) (p_recvonly st))).
Proof.
  change (B "video" ++ B " " ++ t) with (B "video " ++ t). rewrite pl_m by discriminate.
  change (has_prefix (B "video " ++ t) (B "audio ")) with false. rewrite has_prefix_app, from_video. reflexivity.
Qed.
Lemma pl_ptime st n : 0 < n < 2 ^ 63 -> parse_line st (B "a=ptime:" ++ itoa n) = Ok (inl (mkpst (p_room st) (p_audio st) (p_video st) (p_rtpmaps st) (p_fmtps st) (p_attrs st) (p_other st)
   (p_session st) (p_time st) (p_conn st) (p_origin st) n (p_sendonly st) (p_recvonly st))).
Proof.
  intros H. change (B "a=ptime:" ++ itoa n) with (B "a=" ++ (B "ptime:" ++ itoa n)). rewrite pl_a by discriminate.
  unfold parse_attr. change (has_prefix (B "ptime:" ++ itoa n) (B "rtpmap:")) with false.
  change (has_prefix (B "ptime:" ++ itoa n) (B "fmtp:")) with false. rewrite has_prefix_app, from_ptime. cbn [rbind].
  rewrite atoi_itoa by lia. destruct (Z.ltb_spec 0 n); [reflexivity|lia].
Qed.
Lemma app_ne {A} (a b : list A) : a <> [] -> a ++ b <> [].
Proof. destruct a; [congruence|discriminate]. Qed.

Theorem sdp_roundtrip_lemma rid s : wf_sdp s -> sdp_parse (sdp_append rid s) = Ok (inl s).
Proof.
  intros W. pose proof (sdp_lines_free s W) as F. rewrite (sdp_append_lines rid s W).
  destruct W as (WO & WA & WS & WT & NM & WM & WC & WP & WD & WAt & WOt).
  unfold sdp_parse. rewrite app_assoc, has_prefix_app. cbn [negb].
  change 5%nat with (length (B "v=0" ++ CRLF)). rewrite from_prefix. cbn [rbind]. rewrite split_unlines by exact F.
  destruct (Nat.ltb_spec (length (sdp_lines s ++ [[]])) 2) as [L|_]; [exfalso; unfold sdp_lines in L; cbn [app length] in L; lia|].
  set (n := length (sdp_lines s ++ [[]])).
  set (cs := media_codecs (s_audio s) ++ media_codecs (s_video s)).
  assert (Lf : forall l : list codec, (length l <= length (flat_map codec_lines l))%nat).
  { induction l as [|c l IH]; [cbn; lia|]. cbn [flat_map length]. rewrite app_length. unfold codec_lines at 1. cbn [length]. lia. }
  assert (HN : (length (media_codecs (s_audio s)) + length (media_codecs (s_video s)) + length (s_attrs s) <= n)%nat).
  { unfold n, sdp_lines. rewrite !app_length, !map_length.
    assert (forall ty m, length (media_codecs m) <= length (media_lines ty m))%nat by (intros ty [m|]; cbn; [specialize (Lf (m_codecs m)); lia|lia]).
    pose proof (H (B "audio") (s_audio s)). pose proof (H (B "video") (s_video s)). cbn [length]. lia. }
  clearbody n.
  assert (PL : forall st0, st0 = mkpst n [] [] [] [] [] [] (B "pok" ++ [xc3; xa9] ++ B "mon") (B "0 0") None None 0 false false ->
    parse_lines st0 (sdp_lines s ++ [[]]) = Ok (inl (mkpst n
      (match s_audio s with Some m => media_info m | None => [] end) (match s_video s with Some m => media_info m | None => [] end)
      (map rtpmap_val cs) (flat_map fmtp_val cs) (s_attrs s) (s_other s) (s_session s) (s_time s) (Some (s_addr s)) (Some (s_origin s))
      (s_ptime s) (s_sendonly s) (s_recvonly s)))).
  2:{ rewrite (PL _ eq_refl). cbn [rbind p_conn p_origin p_audio p_video p_rtpmaps p_fmtps].
      assert (CC : consistent cs) by exact WC.
      assert (CW : forallb wf_codec cs = true).
      { unfold cs. rewrite forallb_app'. apply andb_true_iff. split.
        - destruct (s_audio s) as [m|]; [|reflexivity]. cbn. specialize (WM m (or_introl eq_refl)). unfold wf_media in WM. rewrite !andb_true_iff in WM. tauto.
        - destruct (s_video s) as [m|]; [|reflexivity]. cbn. specialize (WM m (or_intror eq_refl)). unfold wf_media in WM. rewrite !andb_true_iff in WM. tauto. }
      assert (EA : parse_media match s_audio s with Some m => media_info m | None => [] end (map rtpmap_val cs) (flat_map fmtp_val cs) = Ok (inl (s_audio s))).
      { destruct (s_audio s) as [m|] eqn:E; [|reflexivity]. apply parse_media_ok; auto. unfold cs. cbn [media_codecs]. apply incl_appl, incl_refl. }
      assert (EV : parse_media match s_video s with Some m => media_info m | None => [] end (map rtpmap_val cs) (flat_map fmtp_val cs) = Ok (inl (s_video s))).
      { destruct (s_video s) as [m|] eqn:E; [|reflexivity]. apply parse_media_ok; auto. unfold cs. cbn [media_codecs]. apply incl_appr, incl_refl. }
      rewrite EA, EV. cbn [rbind]. cbn. destruct s as [so sa [ma|] [mv|] ss st sp s1 s2 sat sot]; cbn in *; try reflexivity. destruct NM; congruence. }
  clear Lf F. intros st0 E0. unfold sdp_lines. rewrite <- !app_assoc.
  assert (NO : o_user (s_origin s) <> [] /\ s_addr s <> [] /\ s_session s <> [] /\ s_time s <> []).
  { unfold wf_origin, host, word, text in *. rewrite !andb_true_iff in *. repeat split; apply ne; tauto. }
  destruct NO as (N1 & N2 & N3 & N4).
  cbn [app parse_lines].
  rewrite (pl_o _ _ (s_origin s)); [|apply app_ne, N1|apply pl_origin, WO]. cbn [rbind].
  rewrite pl_s by exact N3. cbn [rbind].
  pose proof (pl_conn (s_addr s) (IsIPv6 (s_addr s)) WA) as PC.
  replace ((if IsIPv6 (s_addr s) then B "c=IN IP6 " else B "c=IN IP4 ") ++ s_addr s) with (B "c=" ++ ((if IsIPv6 (s_addr s) then B "IN IP6 " else B "IN IP4 ") ++ s_addr s)) in * by (destruct (IsIPv6 (s_addr s)); reflexivity).
  rewrite (pl_c _ _ (s_addr s)); [|destruct (IsIPv6 (s_addr s)); discriminate|subst st0; reflexivity|exact PC]. cbn [rbind].
  rewrite pl_t by exact N4. cbn [rbind].
  subst st0. cbn [p_room p_audio p_video p_rtpmaps p_fmtps p_attrs p_other p_session p_time p_conn p_origin p_ptime p_sendonly p_recvonly].
  assert (PA : forall st, p_room st = n -> (length (p_rtpmaps st) = 0)%nat -> (length (p_fmtps st) = 0)%nat -> p_audio st = [] ->
     parse_lines st (media_lines (B "audio") (s_audio s)) = Ok (inl (mkpst n (match s_audio s with Some m => media_info m | None => [] end) (p_video st)
        (map rtpmap_val (media_codecs (s_audio s))) (flat_map fmtp_val (media_codecs (s_audio s))) (p_attrs st) (p_other st)
        (p_session st) (p_time st) (p_conn st) (p_origin st) (p_ptime st) (p_sendonly st) (p_recvonly st)))).
  { intros st R Z1 Z2 Z3. apply length_zero_iff_nil in Z1, Z2. destruct (s_audio s) as [m|]; cbn [media_lines media_codecs map flat_map parse_lines] in *.
    - rewrite pl_audio. cbn [rbind]. 
      rewrite parse_codec_lines; [|cbn [p_rtpmaps p_fmtps p_room]; rewrite ?Z1, ?Z2, R; cbn [length]; clear -HN; lia..].
      unfold with_rtp. cbn. rewrite Z1, Z2, R. reflexivity.
    - destruct st; cbn in *; subst; reflexivity. }
  erewrite parse_lines_app; [|apply PA; reflexivity].
  cbn [p_room p_audio p_video p_rtpmaps p_fmtps p_attrs p_other p_session p_time p_conn p_origin p_ptime p_sendonly p_recvonly].
  assert (FL : forall l : list codec, (length (flat_map fmtp_val l) <= length l)%nat).
  { clear. induction l as [|c l IH]; [cbn; lia|]. cbn [flat_map length]. rewrite app_length. unfold fmtp_val at 1. destruct (c_fmtp c); cbn [length]; lia. }
  assert (PV : forall st, p_room st = n -> p_rtpmaps st = map rtpmap_val (media_codecs (s_audio s)) -> p_fmtps st = flat_map fmtp_val (media_codecs (s_audio s)) -> p_video st = [] ->
     parse_lines st (media_lines (B "video") (s_video s)) = Ok (inl (mkpst n (p_audio st) (match s_video s with Some m => media_info m | None => [] end)
        (map rtpmap_val cs) (flat_map fmtp_val cs) (p_attrs st) (p_other st)
        (p_session st) (p_time st) (p_conn st) (p_origin st) (p_ptime st) (p_sendonly st) (p_recvonly st)))).
  { intros st R Z1 Z2 Z3. unfold cs. rewrite map_app, flat_map_app. specialize (FL (media_codecs (s_audio s))).
    destruct (s_video s) as [m|]; cbn [media_lines media_codecs map flat_map parse_lines] in *.
    - rewrite pl_video. cbn [rbind]. 
      rewrite parse_codec_lines; [|cbn [p_rtpmaps p_fmtps p_room]; rewrite ?Z1, ?Z2, ?map_length, R; cbn [length]; clear -HN FL; lia..].
      unfold with_rtp. cbn. rewrite Z1, Z2, R. reflexivity.
    - rewrite !app_nil_r. destruct st; cbn in *; subst; reflexivity. }
  erewrite parse_lines_app; [|apply PV; reflexivity].
  erewrite parse_lines_app; [|apply parse_attr_lines; [exact WAt|cbn; lia]].
  unfold with_attrs. cbn [p_room p_audio p_video p_rtpmaps p_fmtps p_attrs p_other p_session p_time p_conn p_origin p_ptime p_sendonly p_recvonly app].
  assert (PT : forall st, p_ptime st = 0 -> parse_lines st (if 0 <? s_ptime s then [B "a=ptime:" ++ itoa (s_ptime s)] else []) =
    Ok (inl (mkpst (p_room st) (p_audio st) (p_video st) (p_rtpmaps st) (p_fmtps st) (p_attrs st) (p_other st)
        (p_session st) (p_time st) (p_conn st) (p_origin st) (s_ptime s) (p_sendonly st) (p_recvonly st)))).
  { intros st Z. destruct (Z.ltb_spec 0 (s_ptime s)).
    - cbn [parse_lines]. rewrite pl_ptime by lia. reflexivity.
    - cbn [parse_lines]. replace (s_ptime s) with (p_ptime st) by lia. destruct st; reflexivity. }
  erewrite parse_lines_app; [|apply PT; reflexivity]. clear PT PA PV.
  cbn [p_room p_audio p_video p_rtpmaps p_fmtps p_attrs p_other p_session p_time p_conn p_origin p_ptime p_sendonly p_recvonly].
  assert (PD : forall st, p_sendonly st = false -> p_recvonly st = false ->
    parse_line st (if s_sendonly s then B "a=sendonly" else if s_recvonly s then B "a=recvonly" else B "a=sendrecv") =
    Ok (inl (mkpst (p_room st) (p_audio st) (p_video st) (p_rtpmaps st) (p_fmtps st) (p_attrs st) (p_other st)
        (p_session st) (p_time st) (p_conn st) (p_origin st) (p_ptime st) (s_sendonly s) (s_recvonly s)))).
  { intros st Z1 Z2. destruct st. cbn in Z1, Z2. subst. destruct (s_sendonly s), (s_recvonly s); try discriminate; reflexivity. }
  cbn [parse_lines]. rewrite PD by reflexivity. cbn [rbind].
  erewrite parse_lines_app; [|apply parse_other_lines, WOt].
  reflexivity.
Qed.
