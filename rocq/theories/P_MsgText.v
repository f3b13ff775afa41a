(** What ParseMsg accepts and what it gives: C09 (Via), C17, C19, C20, C21. The specification of message texts is MsgSpec.v; that ParseMsg
    agrees with it is [msg_parse_exact]. Packets are written as lines ([packet], MsgLines.v): every accepted packet can be written so, and
    in one way only. *)
From Verif Require Import Bytes BytesLemmas GoLib GoLibLemmas SdpModel SipText SipTypes SipAppend P_Text UriSpec UriModel P_Uri MsgModel MsgSafe MsgSpec MsgNames MsgMeaning MsgLines P_Msg.
Local Open Scope Z_scope.

(** * ParseMsg accepts exactly the message texts and gives the message they denote *)
Theorem msg_parse_exact : forall data m, parse_msg data = MOk m <-> msg_text data m.
Proof. exact parse_exact. Qed.
Theorem msg_parse_rejects : forall data, (forall m, ~ msg_text data m) -> exists e, parse_msg data = MErr e.
Proof. intros data H. destruct (msg_parse_total data) as [(m & E)|E]; [|exact E]. destruct (H m). apply parse_exact. exact E. Qed.
Theorem msg_text_unambiguous : forall data m m', msg_text data m -> msg_text data m' -> m = m'.
Proof. intros data m m' H K. apply parse_exact in H, K. congruence. Qed.
Theorem msg_accepted_lines : forall data m, parse_msg data = MOk m ->
  exists st ts body, data = packet st ts body /\ folded st = true /\ Forall line ts.
Proof. intros data m H. destruct (packet_lines data m H) as (st & ts & body & A & B & C & _). eauto 6. Qed.
Theorem msg_lines_unique : forall st ts body st' ts' body', folded st = true -> folded st' = true -> Forall line ts -> Forall line ts' ->
  packet st ts body = packet st' ts' body' -> st = st' /\ ts = ts' /\ body = body'.
Proof. exact packet_unique. Qed.

(** ** Where the name of a header ends *)
Definition stops (cls : byte -> bool) (x : bytes) : Prop := forall c r, x = c :: r -> cls c = false.
Lemma span_eq cls a : forall a' x y, forallb cls a = true -> forallb cls a' = true -> stops cls x -> stops cls y -> a ++ x = a' ++ y -> a = a' /\ x = y.
Proof.
  induction a as [|c a IH]; intros [|c' a'] x y F F' S S' E; cbn [app forallb] in *; [auto| | |].
  - apply andb_prop in F'. destruct F' as [F' _]. rewrite (S _ _ E) in F'. discriminate.
  - apply andb_prop in F. destruct F as [F _]. rewrite (S' _ _ (eq_sym E)) in F. discriminate.
  - injection E as <- E. apply andb_prop in F, F'. destruct F as [_ F], F' as [_ F']. destruct (IH a' x y F F' S S' E) as [-> ->]. auto.
Qed.
Lemma stops_name b x : blanks b -> stops token_class (b ++ B ":" ++ x).
Proof.
  intros H c r E. destruct b as [|d b]; cbn in E; injection E as <- _; [reflexivity|]. unfold blanks in H. cbn [forallb] in H. apply andb_prop in H. destruct H as [H _].
  assert (K : implb (blank d) (negb (token_class d)) = true) by (clear; revert d; by_bytes). rewrite H in K. apply negb_true_iff. exact K.
Qed.
Lemma stops_colon x : stops blank (B ":" ++ x).
Proof. intros c r E. cbn in E. injection E as <- _. reflexivity. Qed.
Lemma name_unique n n' b b' x x' : token n -> token n' -> blanks b -> blanks b' -> n ++ b ++ B ":" ++ x = n' ++ b' ++ B ":" ++ x' -> n = n' /\ b = b' /\ x = x'.
Proof.
  intros [_ T] [_ T'] Hb Hb' E. destruct (span_eq token_class n n' _ _ T T' (stops_name b x Hb) (stops_name b' x' Hb') E) as [-> E2].
  destruct (span_eq blank b b' _ _ Hb Hb' (stops_colon x) (stops_colon x') E2) as [-> E3]. cbn in E3. injection E3 as ->. auto.
Qed.
(** white space, then a text that does not start with white space *)
Lemma ws_unique w w' v v' : sws w -> sws w' -> stops whitespacec v -> stops whitespacec v' -> w ++ v = w' ++ v' -> w = w' /\ v = v'.
Proof.
  assert (K : forall w, sws w -> forallb whitespacec w = true).
  { assert (KB : forall w, blanks w -> forallb whitespacec w = true).
    { intros w0. apply forallb_impl. intros c H. assert (K : implb (blank c) (whitespacec c) = true) by (clear; revert c; by_bytes). rewrite H in K. exact K. }
    intros w0 [H|(a & b & -> & A & C & _)]; [auto|]. rewrite !forallb_app', (KB a A), (KB b C). reflexivity. }
  intros A A' S S' E. exact (span_eq whitespacec w w' v v' (K w A) (K w' A') S S' E).
Qed.
Lemma digits_stop d n : number d n -> stops whitespacec d.
Proof.
  intros N c r ->. apply digits_value_digits in N. cbn [forallb] in N. apply andb_prop in N. destruct N as [N _].
  assert (K : implb (is_digit c) (negb (whitespacec c)) = true) by (clear; revert c; by_bytes). rewrite N in K. apply negb_true_iff. exact K.
Qed.
Lemma known_or_not n : token n \/ ~ token n.
Proof.
  unfold token. destruct n as [|c n]; [right; intros [H _]; congruence|]. destruct (forallb token_class (c :: n)); [left; split; [discriminate|reflexivity]|right; intros [_ H]; discriminate].
Qed.
Lemma find_in_table n l k : find_header n l = Some k -> In (n, k) l.
Proof.
  induction l as [|[x j] l IH]; [discriminate|]. cbn [find_header]. destruct (bseq_reflect x n) as [->|N]; [intros [= <-]; left; reflexivity|]. intros H. right. auto.
Qed.
Lemma kind_names (P : bytes -> hkind -> bool) n k : forallb (fun x => P (fst x) (snd x)) known_headers = true -> find_header n known_headers = Some k -> P n k = true.
Proof. intros F H. apply find_in_table in H. rewrite forallb_forall in F. exact (F _ H). Qed.
Lemma known_lower_token n k : find_header (map lower n) known_headers = Some k -> token n.
Proof.
  intros H. split; [intros ->; discriminate|].
  assert (K : forallb token_class (map lower n) = true).
  { pose proof (kind_names (fun n _ => forallb token_class n) _ _ eq_refl H) as E. exact E. }
  clear H. induction n as [|c n IH]; [reflexivity|]. cbn [map forallb] in *. apply andb_prop in K. destruct K as [K1 K2]. rewrite (IH K2), andb_true_r.
  assert (J : implb (token_class (lower c)) (token_class c) = true) by (clear; revert c; by_bytes). rewrite K1 in J. exact J.
Qed.

(** ** Replacing a header name by one with the same meaning *)
Definition same_meaning (k k' : hkind) : Prop := forall w v d d', header_value k w v d d' -> header_value k' w v d d'.
Lemma rename_text n n' k k' b x d d' : find_header (map lower n) known_headers = Some k -> find_header (map lower n') known_headers = Some k' -> same_meaning k k' -> blanks b ->
  header_text (n ++ b ++ B ":" ++ x) d d' -> header_text (n' ++ b ++ B ":" ++ x) d d'.
Proof.
  intros K K' M Hb (n1 & b1 & w & v & E & T & B1 & H). destruct (name_unique n n1 b b1 x (w ++ v) (known_lower_token _ _ K) T Hb B1 E) as (<- & <- & ->).
  exists n', b, w, v. split; [reflexivity|]. split; [exact (known_lower_token _ _ K')|]. split; [exact Hb|]. rewrite K'. rewrite K in H. apply M. exact H.
Qed.
Lemma rename_lines n n' ts1 b x ts2 : token n -> token n' -> Forall line (ts1 ++ (n ++ b ++ B ":" ++ x) :: ts2) -> Forall line (ts1 ++ (n' ++ b ++ B ":" ++ x) :: ts2).
Proof.
  intros T T' FL. apply Forall_app in FL. destruct FL as [F1 F2]. apply Forall_cons_iff in F2. destruct F2 as [[_ F] F3]. apply Forall_app. split; [exact F1|]. constructor; [|exact F3].
  apply token_line; [exact T'|]. apply folded_app; [apply f_token; exact T'|]. clear -T F. destruct T as [_ T]. induction n as [|c n IH]; [exact F|].
  cbn [app forallb folded] in *. apply andb_prop in T, F. destruct T as [_ T], F as [_ F]. auto.
Qed.
Lemma rename_packet n n' k k' st ts1 b x ts2 body m : find_header (map lower n) known_headers = Some k -> find_header (map lower n') known_headers = Some k' -> same_meaning k k' ->
  blanks b -> folded st = true -> Forall line (ts1 ++ (n ++ b ++ B ":" ++ x) :: ts2) ->
  parse_msg (packet st (ts1 ++ (n ++ b ++ B ":" ++ x) :: ts2) body) = MOk m -> parse_msg (packet st (ts1 ++ (n' ++ b ++ B ":" ++ x) :: ts2) body) = MOk m.
Proof.
  intros K K' M Hb FS FL H. apply packet_exact in H; [|exact FS|exact FL]. apply packet_exact; [exact FS| |].
  - exact (rename_lines _ _ _ _ _ _ (known_lower_token _ _ K) (known_lower_token _ _ K') FL).
  - destruct H as (m0 & d & S & H & SB & P). exists m0, d. split; [exact S|]. split; [|auto]. apply steps_app in H. destruct H as (d1 & H1 & H2). inversion H2 as [|? ? ? d2 ? H3 H4]; subst.
    apply steps_app. exists d1. split; [exact H1|]. econstructor; [|exact H4]. exact (rename_text _ _ _ _ _ _ _ _ K K' M Hb H3).
Qed.

(** * C21: the letter case of a known header name does not matter *)
Definition known_name (n : bytes) : Prop := exists k, In (map lower n, k) known_headers.
Lemma known_find n : known_name n -> exists k, find_header (map lower n) known_headers = Some k.
Proof. intros (k & I). exists k. apply in_find. exact I. Qed.
Theorem header_case_insensitive : forall st ts1 n n' b x ts2 body m,
  known_name n -> map lower n' = map lower n -> blanks b -> folded st = true -> Forall line (ts1 ++ (n ++ b ++ B ":" ++ x) :: ts2) ->
  parse_msg (packet st (ts1 ++ (n ++ b ++ B ":" ++ x) :: ts2) body) = MOk m <->
  parse_msg (packet st (ts1 ++ (n' ++ b ++ B ":" ++ x) :: ts2) body) = MOk m.
Proof.
  intros st ts1 n n' b x ts2 body m (k & I) E Hb FS FL. apply in_find in I. assert (I' : find_header (map lower n') known_headers = Some k) by (rewrite E; exact I).
  split; [exact (rename_packet n n' k k st ts1 b x ts2 body m I I' (fun _ _ _ _ H => H) Hb FS FL)|].
  apply (rename_packet n' n k k st ts1 b x ts2 body m I' I (fun _ _ _ _ H => H) Hb FS). exact (rename_lines _ _ _ _ _ _ (known_lower_token _ _ I) (known_lower_token _ _ I') FL).
Qed.
Definition ex_start : bytes := B "OPTIONS sip:h SIP/2.0".
Example header_case_example : known_name (B "sUbJeCt") /\ Forall line [B "sUbJeCt : hi"] /\
  (exists m, parse_msg (packet ex_start [B "sUbJeCt : hi"] []) = MOk m /\ strs m Subject = B "hi") /\
  (exists m, parse_msg (packet ex_start [B "SUBJECT : hi"] []) = MOk m /\ strs m Subject = B "hi").
Proof.
  split; [exists (HStr Subject); apply find_in_table; reflexivity|]. split; [constructor; [|constructor]; split; [exists "s"%byte, (B "UbJeCt : hi"); split; [reflexivity|]; split; [reflexivity|discriminate]|reflexivity]|].
  split; eexists; (split; [vm_compute; reflexivity|reflexivity]).
Qed.

(** * C19: compact forms *)
(** the compact forms of RFC 3261 and its extensions which the parser knows, and the header each stands for *)
Definition compact_forms : list (bytes * bytes) := [
  (B "a", B "accept-contact"); (B "b", B "referred-by"); (B "c", B "content-type"); (B "e", B "content-encoding"); (B "f", B "from"); (B "i", B "call-id");
  (B "k", B "supported"); (B "l", B "content-length"); (B "m", B "contact"); (B "o", B "event"); (B "r", B "refer-to"); (B "s", B "subject"); (B "t", B "to");
  (B "u", B "allow-events"); (B "v", B "via")].
(** The kinds of a compact form and of its long form agree, except for l *)
Definition alike (k k' : hkind) : bool :=
  match k, k' with
  | HStr f, HStr g => sfield_eqb f g | HAddr f, HAddr g => afield_eqb f g | HAllow_u, HStr AllowEvents => true
  | HVia, HVia | HCtype, HCtype | HCallID, HCallID => true | _, _ => false
  end.
Lemma alike_same k k' : alike k k' = true -> same_meaning k k' /\ same_meaning k' k.
Proof.
  destruct k as [f|f| | | | | | | | | |], k' as [g|g| | | | | | | | | |]; cbn [alike]; try discriminate; intros H; try (split; intros w v d d' X; exact X).
  - assert (f = g) by (destruct f, g; try discriminate; reflexivity). subst. split; intros w v d d' X; exact X.
  - assert (f = g) by (destruct f, g; try discriminate; reflexivity). subst. split; intros w v d d' X; exact X.
  - destruct g; try discriminate. split; intros w v d d' X; exact X.
Qed.
Lemma compact_alike : forallb (fun x => bseq (fst x) (B "l") || match find_header (fst x) known_headers, find_header (snd x) known_headers with Some k, Some k' => alike k k' | _, _ => false end) compact_forms = true.
Proof. reflexivity. Qed.
(** The full property is for all compact forms; it fails for l, see [compact_length_refuted]. *)
Theorem compact_form_same_partial : forall short long st ts1 b x ts2 body m,
  In (map lower short, map lower long) compact_forms -> map lower short <> B "l" ->
  blanks b -> folded st = true -> Forall line (ts1 ++ (long ++ b ++ B ":" ++ x) :: ts2) ->
  parse_msg (packet st (ts1 ++ (long ++ b ++ B ":" ++ x) :: ts2) body) = MOk m <->
  parse_msg (packet st (ts1 ++ (short ++ b ++ B ":" ++ x) :: ts2) body) = MOk m.
Proof.
  intros short long st ts1 b x ts2 body m I N Hb FS FL. pose proof compact_alike as C. rewrite forallb_forall in C. specialize (C _ I). cbn [fst snd] in C.
  destruct (bseq_reflect (map lower short) (B "l")) as [E|_]; [congruence|]. cbn [orb] in C.
  destruct (find_header (map lower short) known_headers) as [k|] eqn:K; [|discriminate]. destruct (find_header (map lower long) known_headers) as [k'|] eqn:K'; [|discriminate].
  destruct (alike_same _ _ C) as [M1 M2]. split.
  - exact (rename_packet long short k' k st ts1 b x ts2 body m K' K M2 Hb FS FL).
  - apply (rename_packet short long k k' st ts1 b x ts2 body m K K' M1 Hb FS). exact (rename_lines _ _ _ _ _ _ (known_lower_token _ _ K') (known_lower_token _ _ K) FL).
Qed.
Example compact_example : In (map lower (B "F"), map lower (B "From")) compact_forms /\
  exists m, parse_msg (packet ex_start [B "F: <sip:a@b>;tag=1"; B "t: sip:c"] []) = MOk m /\ length (addrs m From) = 1%nat /\
  parse_msg (packet ex_start [B "From: <sip:a@b>;tag=1"; B "To: sip:c"] []) = MOk m.
Proof. split; [cbn; auto 20|]. eexists. split; [vm_compute; reflexivity|]. split; reflexivity. Qed.
(** l: sets Expires, Max-Forwards and Min-Expires as well *)
Theorem compact_length_refuted : exists m m',
  parse_msg (packet ex_start [B "Max-Forwards: 70"; B "Content-Length: 2"] (B "hi")) = MOk m /\
  parse_msg (packet ex_start [B "Max-Forwards: 70"; B "l: 2"] (B "hi")) = MOk m' /\
  maxforwards m = 70 /\ maxforwards m' = 2 /\ expires m = 0 /\ expires m' = 2 /\ minexpires m' = 2.
Proof. eexists _, _. split; [vm_compute; reflexivity|]. split; [vm_compute; reflexivity|]. repeat split; reflexivity. Qed.

(** ** Frames: header lines treat two drafts alike *)
Definition frame (R : draft -> draft -> Prop) : Prop :=
  forall k w v d d' e, R d e -> header_value k w v d d' -> exists e', header_value k w v e e' /\ R d' e'.
Definition xframe (R : draft -> draft -> Prop) : Prop :=
  forall p d e, R d e -> R (with_msg (fun m => set_xheader (p :: xheader m) m) d) (with_msg (fun m => set_xheader (p :: xheader m) m) e).
Lemma frame_steps R ts : frame R -> xframe R -> forall d d' e, R d e -> steps ts d d' -> exists e', steps ts e e' /\ R d' e'.
Proof.
  intros F X. induction ts as [|t ts IH]; intros d d' e Hr H; inversion H as [|? ? ? d1 ? H1 H2]; subst; [exists e; split; [constructor|exact Hr]|].
  destruct H1 as (n & b & w & v & -> & T & Hb & H1).
  assert (K : exists e1, header_text (n ++ b ++ B ":" ++ w ++ v) e e1 /\ R d1 e1).
  { destruct (find_header (map lower n) known_headers) as [k|] eqn:Ek.
    - destruct (F k w v d d1 e Hr H1) as (e1 & H3 & H4). exists e1. split; [|exact H4]. exists n, b, w, v. rewrite Ek. auto.
    - destruct H1 as (U & L & V & ->). eexists. split; [|apply X; exact Hr]. exists n, b, w, v. rewrite Ek. auto 8. }
  destruct K as (e1 & H3 & H4). destruct (IH d1 d' e1 H4 H2) as (e' & H5 & H6). exists e'. split; [econstructor; eassumption|exact H6].
Qed.
Lemma fold_addr_vias f l x : forall m, fold_left (add_addr f) l (set_vias x m) = set_vias x (fold_left (add_addr f) l m).
Proof. induction l as [|a l IH]; intros m; [reflexivity|]. cbn [fold_left]. rewrite <- IH. reflexivity. Qed.
Lemma fold_addr_xheader f l x : forall m, fold_left (add_addr f) l (set_xheader x m) = set_xheader x (fold_left (add_addr f) l m).
Proof. induction l as [|a l IH]; intros m; [reflexivity|]. cbn [fold_left]. rewrite <- IH. reflexivity. Qed.
Definition nums (a b c : Z) (m : msg) : msg := set_minexpires a (set_maxforwards b (set_expires c m)).
Lemma fold_addr_nums f l a b c : forall m, fold_left (add_addr f) l (nums a b c m) = nums a b c (fold_left (add_addr f) l m).
Proof. induction l as [|x l IH]; intros m; [reflexivity|]. cbn [fold_left]. rewrite <- IH. reflexivity. Qed.
Lemma fold_addr_keeps f l : forall m, vias (fold_left (add_addr f) l m) = vias m /\ xheader (fold_left (add_addr f) l m) = xheader m.
Proof. induction l as [|a l IH]; intros m; [auto|]. cbn [fold_left]. destruct (IH (add_addr f m a)) as [-> ->]. auto. Qed.

Definition more_via (v : via) (d e : draft) : Prop :=
  exists older newer, vias (d_msg d) = older ++ newer /\ e = with_msg (set_vias (older ++ v :: newer)) d.
Lemma more_via_frame v : frame (more_via v) /\ xframe (more_via v).
Proof.
  split.
  - intros k w t d d' e (o & nw & EV & ->) H. destruct k; cbn [header_value] in H.
    + destruct H as (A & C & ->). eexists. split; [split; [exact A|split; [exact C|reflexivity]]|]. exists o, nw. auto.
    + destruct H as (A & l & C & ->). eexists. split; [split; [exact A|exists l; split; [exact C|reflexivity]]|]. exists o, nw. cbn. rewrite (proj1 (fold_addr_keeps f l _)). split; [exact EV|].
      unfold with_msg. cbn. rewrite fold_addr_vias. reflexivity.
    + destruct H as (A & l & C & ->). eexists. split; [split; [exact A|exists l; split; [exact C|reflexivity]]|]. exists o, (nw ++ l). cbn. rewrite EV, <- app_assoc. split; [reflexivity|].
      unfold with_msg. cbn. rewrite <- app_assoc. reflexivity.
    + destruct H as (A & l & C & ->). eexists. split; [split; [exact A|exists l; split; [exact C|reflexivity]]|]. exists o, nw. auto.
    + destruct H as (A & C & ->). eexists. split; [split; [exact A|split; [exact C|reflexivity]]|]. exists o, nw. auto.
    + destruct H as (A & l & C & ->). eexists. split; [split; [exact A|exists l; split; [exact C|reflexivity]]|]. exists o, nw. auto.
    + destruct H as (A & x & l & n & mth & E & N & L & T & ->). eexists. split; [split; [exact A|exists x, l, n, mth; repeat (split; [eassumption|]); reflexivity]|]. exists o, nw. auto.
    + destruct H as (A & l & C & ->). eexists. split; [split; [exact A|exists l; split; [exact C|reflexivity]]|]. exists o, nw. auto.
    + destruct H as (A & l & C & ->). eexists. split; [split; [exact A|exists l; split; [exact C|reflexivity]]|]. exists o, nw. auto.
    + destruct H as (A & l & C & ->). eexists. split; [split; [exact A|exists l; split; [exact C|reflexivity]]|]. exists o, nw. auto.
    + destruct H as (A & C & ->). eexists. split; [split; [exact A|split; [exact C|reflexivity]]|]. exists o, nw. auto.
    + destruct H as (A & l & C & ->). eexists. split; [split; [exact A|exists l; split; [exact C|reflexivity]]|]. exists o, nw. auto.
  - intros p d e (o & nw & EV & ->). exists o, nw. auto.
Qed.
Definition more_x (p : param) (d e : draft) : Prop :=
  exists newer older, xheader (d_msg d) = newer ++ older /\ e = with_msg (set_xheader (newer ++ p :: older)) d.
Lemma more_x_frame p : frame (more_x p) /\ xframe (more_x p).
Proof.
  split.
  - intros k w t d d' e (nw & o & EV & ->) H. destruct k; cbn [header_value] in H.
    + destruct H as (A & C & ->). eexists. split; [split; [exact A|split; [exact C|reflexivity]]|]. exists nw, o. auto.
    + destruct H as (A & l & C & ->). eexists. split; [split; [exact A|exists l; split; [exact C|reflexivity]]|]. exists nw, o. cbn. rewrite (proj2 (fold_addr_keeps f l _)). split; [exact EV|].
      unfold with_msg. cbn. rewrite fold_addr_xheader. reflexivity.
    + destruct H as (A & l & C & ->). eexists. split; [split; [exact A|exists l; split; [exact C|reflexivity]]|]. exists nw, o. auto.
    + destruct H as (A & l & C & ->). eexists. split; [split; [exact A|exists l; split; [exact C|reflexivity]]|]. exists nw, o. auto.
    + destruct H as (A & C & ->). eexists. split; [split; [exact A|split; [exact C|reflexivity]]|]. exists nw, o. auto.
    + destruct H as (A & l & C & ->). eexists. split; [split; [exact A|exists l; split; [exact C|reflexivity]]|]. exists nw, o. auto.
    + destruct H as (A & x & l & n & mth & E & N & L & T & ->). eexists. split; [split; [exact A|exists x, l, n, mth; repeat (split; [eassumption|]); reflexivity]|]. exists nw, o. auto.
    + destruct H as (A & l & C & ->). eexists. split; [split; [exact A|exists l; split; [exact C|reflexivity]]|]. exists nw, o. auto.
    + destruct H as (A & l & C & ->). eexists. split; [split; [exact A|exists l; split; [exact C|reflexivity]]|]. exists nw, o. auto.
    + destruct H as (A & l & C & ->). eexists. split; [split; [exact A|exists l; split; [exact C|reflexivity]]|]. exists nw, o. auto.
    + destruct H as (A & C & ->). eexists. split; [split; [exact A|split; [exact C|reflexivity]]|]. exists nw, o. auto.
    + destruct H as (A & l & C & ->). eexists. split; [split; [exact A|exists l; split; [exact C|reflexivity]]|]. exists nw, o. auto.
  - intros q d e (nw & o & EV & ->). exists (q :: nw), o. cbn. rewrite EV. split; reflexivity.
Qed.
Definition other_nums (d e : draft) : Prop := exists a b c, e = with_msg (nums a b c) d.
Lemma other_nums_frame : frame other_nums /\ xframe other_nums.
Proof.
  split.
  - intros k w t d d' e (x & y & z & ->) H. destruct k; cbn [header_value] in H.
    + destruct H as (A & C & ->). eexists. split; [split; [exact A|split; [exact C|reflexivity]]|]. exists x, y, z. reflexivity.
    + destruct H as (A & l & C & ->). eexists. split; [split; [exact A|exists l; split; [exact C|reflexivity]]|]. exists x, y, z. unfold with_msg. cbn [d_msg d_len d_type]. rewrite fold_addr_nums. reflexivity.
    + destruct H as (A & l & C & ->). eexists. split; [split; [exact A|exists l; split; [exact C|reflexivity]]|]. exists x, y, z. reflexivity.
    + destruct H as (A & l & C & ->). eexists. split; [split; [exact A|exists l; split; [exact C|reflexivity]]|]. exists x, y, z. reflexivity.
    + destruct H as (A & C & ->). eexists. split; [split; [exact A|split; [exact C|reflexivity]]|]. exists x, y, z. reflexivity.
    + destruct H as (A & l & C & ->). eexists. split; [split; [exact A|exists l; split; [exact C|reflexivity]]|]. exists x, y, z. reflexivity.
    + destruct H as (A & q & l & n & mth & E & N & L & T & ->). eexists. split; [split; [exact A|exists q, l, n, mth; repeat (split; [eassumption|]); reflexivity]|]. exists x, y, z. reflexivity.
    + destruct H as (A & l & C & ->). eexists. split; [split; [exact A|exists l; split; [exact C|reflexivity]]|]. exists x, y, (i64 l). reflexivity.
    + destruct H as (A & l & C & ->). eexists. split; [split; [exact A|exists l; split; [exact C|reflexivity]]|]. exists x, (i64 l), z. reflexivity.
    + destruct H as (A & l & C & ->). eexists. split; [split; [exact A|exists l; split; [exact C|reflexivity]]|]. exists (i64 l), y, z. reflexivity.
    + destruct H as (A & C & ->). eexists. split; [split; [exact A|split; [exact C|reflexivity]]|]. exists x, y, z. reflexivity.
    + destruct H as (A & l & C & ->). eexists. split; [split; [exact A|exists l; split; [exact C|reflexivity]]|]. exists (i64 l), (i64 l), (i64 l). reflexivity.
  - intros p d e (x & y & z & ->). exists x, y, z. reflexivity.
Qed.
(** l: everything but those three numbers is as with Content-Length *)
Theorem compact_length_rest : forall short long st ts1 b x ts2 body m,
  map lower short = B "l" -> map lower long = B "content-length" -> blanks b -> folded st = true -> Forall line (ts1 ++ (long ++ b ++ B ":" ++ x) :: ts2) ->
  parse_msg (packet st (ts1 ++ (long ++ b ++ B ":" ++ x) :: ts2) body) = MOk m ->
  exists a b' c, parse_msg (packet st (ts1 ++ (short ++ b ++ B ":" ++ x) :: ts2) body) = MOk (set_minexpires a (set_maxforwards b' (set_expires c m))).
Proof.
  intros short long st ts1 b x ts2 body m ES EL Hb FS FL H. apply packet_exact in H; [|exact FS|exact FL].
  assert (KL : find_header (map lower long) known_headers = Some HClen) by (rewrite EL; reflexivity). assert (KS : find_header (map lower short) known_headers = Some HLength_l) by (rewrite ES; reflexivity).
  destruct H as (m0 & d & S & H & SB & P). apply steps_app in H. destruct H as (d1 & H1 & H2). inversion H2 as [|? ? ? d2 ? H3 H4]; subst.
  destruct H3 as (n1 & b1 & w & v & E & T & B1 & H3). destruct (name_unique long n1 b b1 x (w ++ v) (known_lower_token _ _ KL) T Hb B1 E) as (<- & <- & ->).
  rewrite KL in H3. destruct H3 as (SW & n & N & ->).
  pose (e2 := with_msg (nums (i64 n) (i64 n) (i64 n)) (mkdraft (d_msg d1) (i64 n) (d_type d1))).
  destruct (frame_steps other_nums ts2 (proj1 other_nums_frame) (proj2 other_nums_frame) _ d e2 (ex_intro _ _ (ex_intro _ _ (ex_intro _ _ eq_refl))) H4) as (e & H5 & (a & b' & c & ->)).
  exists a, b', c. apply packet_exact; [exact FS|exact (rename_lines _ _ _ _ _ _ (known_lower_token _ _ KL) (known_lower_token _ _ KS) FL)|].
  exists m0, (with_msg (nums a b' c) d). split; [exact S|]. split; [|split; [exact SB|]].
  - apply steps_app. exists d1. split; [exact H1|]. econstructor; [|exact H5]. exists short, b, w, v. split; [reflexivity|]. split; [exact (known_lower_token _ _ KS)|]. split; [exact Hb|].
    rewrite KS. split; [exact SW|]. exists n. split; [exact N|reflexivity].
  - destruct P as [[L ->]|(L1 & L2 & [(T1 & p & P & ->)|(T1 & ->)])]; [left; auto|right|right]; (split; [exact L1|]); (split; [exact L2|]); [left|right]; (split; [exact T1|]); [exists p; split; [exact P|]|]; reflexivity.
Qed.

(** * C20: unknown headers *)
(** a name which is not known, nor the beginning of a known name *)
Definition unknown_name (n : bytes) : Prop := token n /\ forall x k, In (x, k) known_headers -> forall s, x <> map lower n ++ s.
Lemma prefix_iff a : forall b, is_prefix a b = true <-> exists s, b = a ++ s.
Proof.
  induction a as [|x a IH]; intros b; cbn [is_prefix app]; [split; eauto|]. destruct b as [|y b]; [split; [discriminate|intros (s & E); discriminate]|].
  rewrite andb_true_iff, IH, beq_spec. split; [intros (-> & s & ->); eauto|]. intros (s & [= -> ->]). eauto.
Qed.
Lemma unknown_find n : unknown_name n -> find_header (map lower n) known_headers = None /\ forallb (fun x => negb (is_prefix (map lower n) (fst x))) known_headers = true.
Proof.
  intros [_ U]. split.
  - destruct (find_header (map lower n) known_headers) as [k|] eqn:E; [|reflexivity]. apply find_in_table in E. destruct (U _ _ E []). symmetry. apply app_nil_r.
  - apply forallb_forall. intros [x k] I. apply negb_true_iff. destruct (is_prefix (map lower n) (fst (x, k))) eqn:E; [|reflexivity]. apply prefix_iff in E. destruct E as (s & E). destruct (U _ _ I s E).
Qed.
(** a value which does not start with white space *)
Definition header_val (v : bytes) : Prop := value_text v /\ stops whitespacec v.
Lemma val_lead w v : sws w -> stops whitespacec v -> lead_ws w v.
Proof.
  intros S H. split; [exact S|]. split; [destruct v as [|c v]; [reflexivity|]; specialize (H c v eq_refl)|intros r ->; discriminate (H CR r eq_refl)].
  cbn. assert (K : implb (blank c) (whitespacec c) = true) by (clear; revert c; by_bytes). destruct (blank c); [|reflexivity]. cbn in K. congruence.
Qed.
Lemma insert_lines ts1 t ts2 : Forall line (ts1 ++ ts2) -> line t -> Forall line (ts1 ++ t :: ts2).
Proof. intros F L. apply Forall_app in F. destruct F. apply Forall_app. split; [assumption|]. constructor; assumption. Qed.
(** Putting a line with an unknown name into an accepted packet adds the name and the value, unchanged, to the extension headers and
    changes nothing else. The full property is for all names which are not known; see [unknown_prefix_refuted]. *)
Theorem unknown_header_kept_partial : forall st ts1 ts2 body m n b w v,
  folded st = true -> Forall line (ts1 ++ ts2) -> unknown_name n -> blanks b -> sws w -> header_val v ->
  parse_msg (packet st (ts1 ++ ts2) body) = MOk m ->
  exists newer older, xheader m = newer ++ older /\
    parse_msg (packet st (ts1 ++ (n ++ b ++ B ":" ++ w ++ v) :: ts2) body) = MOk (set_xheader (newer ++ (n, v) :: older) m).
Proof.
  intros st ts1 ts2 body m n b w v FS FL U Hb SW [V SV] H. apply packet_exact in H; [|exact FS|exact FL]. destruct H as (m0 & d & S & H & SB & P).
  apply steps_app in H. destruct H as (d1 & H1 & H2). destruct (unknown_find n U) as [U1 U2].
  assert (HT : header_text (n ++ b ++ B ":" ++ w ++ v) d1 (with_msg (fun m => set_xheader ((n, v) :: xheader m) m) d1)).
  { exists n, b, w, v. split; [reflexivity|]. split; [apply U|]. split; [exact Hb|]. rewrite U1. split; [exact U2|]. split; [exact (val_lead w v SW SV)|]. auto. }
  assert (R1 : more_x (n, v) d1 (with_msg (fun m => set_xheader ((n, v) :: xheader m) m) d1)) by (exists [], (xheader (d_msg d1)); auto).
  destruct (frame_steps (more_x (n, v)) ts2 (proj1 (more_x_frame _)) (proj2 (more_x_frame _)) d1 d _ R1 H2) as (e & H5 & (newer & older & EX & ->)).
  exists newer, older. assert (XM : xheader m = xheader (d_msg d)) by (destruct P as [[_ ->]|(_ & _ & [(_ & p & _ & ->)|(_ & ->)])]; reflexivity).
  split; [congruence|]. apply packet_exact; [exact FS|apply insert_lines; [exact FL|exact (header_line _ _ _ HT)]|].
  eexists m0, _. split; [exact S|]. split; [apply steps_app; exists d1; split; [exact H1|econstructor; [exact HT|exact H5]]|]. split; [exact SB|].
  destruct P as [[L ->]|(L1 & L2 & [(T1 & p & P & ->)|(T1 & ->)])]; [left; auto|right|right]; (split; [exact L1|]); (split; [exact L2|]); [left|right]; (split; [exact T1|]); [exists p; split; [exact P|]|]; reflexivity.
Qed.
Lemma steps_xheader ts : forall d d', steps ts d d' -> forall p, In p (xheader (d_msg d)) -> In p (xheader (d_msg d')).
Proof.
  induction 1 as [d|t ts d d1 d2 H1 _ IH]; intros p I; [exact I|]. apply IH. clear IH. destruct H1 as (n & b & w & v & _ & _ & _ & H1).
  destruct (find_header _ _) as [k|]; [|destruct H1 as (_ & _ & _ & ->); right; exact I].
  destruct k; cbn [header_value] in H1; decompose [and ex] H1; subst d1; cbn; try exact I. rewrite (proj2 (fold_addr_keeps _ _ _)). exact I.
Qed.
Lemma value_first c t : value_text (c :: t) -> c <> LF.
Proof.
  intros H ->. remember (LF :: t) as x eqn:E. destruct H as [|c0 t0 X _|c0 t0 X _|w0 t0 (c0 & cs & -> & NC & L & _) _]; [discriminate|injection E as -> _; discriminate X|discriminate|].
  cbn in E. injection E as -> _. cbn in L. destruct cs; [congruence|discriminate].
Qed.
Lemma lead_unique w v w1 v1 : sws w -> stops whitespacec v -> lead_ws w1 v1 -> value_text v1 -> w ++ v = w1 ++ v1 -> v = v1.
Proof.
  intros SW SV (SW1 & SB1 & FW) V1 E. destruct v1 as [|c v1].
  - destruct (ws_unique w w1 v [] SW SW1 SV ltac:(intros ? ? ?; discriminate) E) as [_ ->]. reflexivity.
  - destruct (beq_reflect c CR) as [->|N1].
    + exfalso. specialize (FW _ eq_refl). destruct FW as (a & b & -> & A & C & _).
      pose (ncr := fun l : bytes => length (filter (beq CR) l)). assert (NA : forall x y, ncr (x ++ y) = (ncr x + ncr y)%nat) by (intros x y; unfold ncr; rewrite filter_app, app_length; reflexivity).
      assert (NB : forall x, blanks x -> ncr x = 0%nat).
      { clear. unfold blanks, ncr. induction x as [|c x IH]; [reflexivity|]. cbn [forallb filter]. intros H. apply andb_prop in H. destruct H as [H1 H2].
        assert (K : implb (blank c) (negb (beq CR c)) = true) by (clear; revert c; by_bytes). rewrite H1 in K. apply negb_true_iff in K. rewrite K. auto. }
      assert (NW : (ncr w <= 1)%nat).
      { destruct SW as [H|(x & y & -> & X & Y & _)]; [rewrite (NB w H); lia|]. rewrite !NA, (NB x X), (NB y Y). cbn. lia. }
      assert (W1 : forallb whitespacec (a ++ CRLF ++ b) = true).
      { assert (KB : forall w, blanks w -> forallb whitespacec w = true).
        { intros w0. apply forallb_impl. intros c H. assert (K : implb (blank c) (whitespacec c) = true) by (clear; revert c; by_bytes). rewrite H in K. exact K. }
        rewrite !forallb_app', (KB a A), (KB b C). reflexivity. }
      apply app_eq_app in E. destruct E as (l & [[E1 E2]|[E1 E2]]).
      * destruct l as [|d l]; [cbn in E2; subst v; discriminate (SV _ _ eq_refl)|].
        cbn in E2. injection E2 as <- ->.
        rewrite E1, !NA in NW. cbn in NW. rewrite (NB a A), (NB b C) in NW. lia.
      * destruct l as [|d l]; [cbn in E2; subst v; discriminate (SV _ _ eq_refl)|]. rewrite E1, forallb_app' in W1. apply andb_prop in W1. destruct W1 as [_ W1]. cbn [forallb] in W1.
        apply andb_prop in W1. destruct W1 as [W1 _]. rewrite E2 in SV. rewrite (SV d _ eq_refl) in W1. discriminate.
    + destruct (ws_unique w w1 v (c :: v1) SW SW1 SV) as [_ ->]; [|exact E|reflexivity]. intros c' r [= <- <-]. unfold whitespacec. cbn [starts_blank] in SB1. unfold blank in SB1.
      change SP with " "%byte in SB1. change HT with x09 in SB1. rewrite SB1. cbn [orb]. apply beq_neq in N1. unfold CR in N1. rewrite N1. cbn [orb].
      destruct (beq_reflect c x0a) as [->|]; [|reflexivity]. destruct (value_first _ _ V1 eq_refl).
Qed.
(** ... and whatever else the packet contains, an unknown header in it is in the list *)
Theorem unknown_header_listed : forall st ts1 ts2 body m n b w v,
  folded st = true -> Forall line (ts1 ++ (n ++ b ++ B ":" ++ w ++ v) :: ts2) -> token n -> ~ known_name n -> blanks b -> sws w -> stops whitespacec v ->
  parse_msg (packet st (ts1 ++ (n ++ b ++ B ":" ++ w ++ v) :: ts2) body) = MOk m -> In (n, v) (xheader m).
Proof.
  intros st ts1 ts2 body m n b w v FS FL T U Hb SW SV H. apply packet_exact in H; [|exact FS|exact FL]. destruct H as (m0 & d & S & H & SB & P).
  apply steps_app in H. destruct H as (d1 & H1 & H2). inversion H2 as [|? ? ? d2 ? H3 H4]; subst.
  destruct H3 as (n1 & b1 & w1 & v1 & E & T1 & B1 & H3). destruct (name_unique n n1 b b1 (w ++ v) (w1 ++ v1) T T1 Hb B1 E) as (<- & <- & E2).
  destruct (find_header (map lower n) known_headers) as [k|] eqn:K; [destruct U; exists k; apply find_in_table; exact K|]. destruct H3 as (_ & L1 & V1 & ->).
  assert (XM : xheader m = xheader (d_msg d)) by (destruct P as [[_ ->]|(_ & _ & [(_ & p & _ & ->)|(_ & ->)])]; reflexivity). rewrite XM.
  apply (steps_xheader _ _ _ H4). left. cbn. f_equal. symmetry. exact (lead_unique w v w1 v1 SW SV L1 V1 E2).
Qed.
Example unknown_header_example : unknown_name (B "X-Foo") /\ header_val (B "a: b") /\
  exists m, parse_msg (packet ex_start [B "X-Foo: a: b"; B "Zed:"] []) = MOk m /\ xheader m = [(B "Zed", []); (B "X-Foo", B "a: b")].
Proof.
  split; [|split].
  - split; [split; [discriminate|reflexivity]|]. intros x k I s E. assert (K : forallb (fun p => negb (is_prefix (map lower (B "X-Foo")) (fst p))) known_headers = true) by reflexivity.
    rewrite forallb_forall in K. specialize (K _ I). apply negb_true_iff in K. assert (is_prefix (map lower (B "X-Foo")) x = true) by (apply prefix_iff; eauto). cbn [fst] in K. congruence.
  - split; [|intros c r [= <- _]; reflexivity]. cbn. repeat (apply vt_char; [reflexivity|]). constructor.
  - eexists. split; vm_compute; reflexivity.
Qed.
(** A name which begins a known name, but is not itself known, is never accepted, whatever the packet is: Sub, X... *)
Theorem unknown_prefix_refuted : forall n b x st ts1 ts2 body m, token n -> ~ known_name n -> (exists y k s, In (y, k) known_headers /\ y = map lower n ++ s) ->
  blanks b -> folded st = true -> Forall line (ts1 ++ (n ++ b ++ B ":" ++ x) :: ts2) -> parse_msg (packet st (ts1 ++ (n ++ b ++ B ":" ++ x) :: ts2) body) <> MOk m.
Proof.
  intros n b x st ts1 ts2 body m T U (y & k & s & I & E) Hb FS FL H. apply packet_exact in H; [|exact FS|exact FL]. destruct H as (m0 & d & S & H & SB & P).
  apply steps_app in H. destruct H as (d1 & H1 & H2). inversion H2 as [|? ? ? d2 ? H3 H4]; subst.
  destruct H3 as (n1 & b1 & w1 & v1 & E & T1 & B1 & H3). destruct (name_unique n n1 b b1 x (w1 ++ v1) T T1 Hb B1 E) as (<- & <- & E2).
  destruct (find_header (map lower n) known_headers) as [k'|] eqn:K; [destruct U; exists k'; apply find_in_table; exact K|]. destruct H3 as (F & _).
  rewrite forallb_forall in F. specialize (F _ I). apply negb_true_iff in F. cbn [fst] in F. assert (is_prefix (map lower n) (map lower n ++ s) = true) by (apply prefix_iff; eauto). congruence.
Qed.
Example unknown_prefix_example : token (B "Sub") /\ ~ known_name (B "Sub") /\ (exists y k s, In (y, k) known_headers /\ y = map lower (B "Sub") ++ s) /\
  exists e, parse_msg (packet ex_start [B "Sub: x"] []) = MErr e.
Proof.
  split; [split; [discriminate|reflexivity]|]. split; [intros (k & I); apply in_find in I; discriminate|]. split; [exists (B "subject"), (HStr Subject), (B "ject"); split; [apply find_in_table|]; reflexivity|].
  eexists. vm_compute. reflexivity.
Qed.

(** * C17: the payload is what Content-Length says *)
Definition length_line (t : bytes) (n : Z) : Prop :=
  exists name b w d, t = name ++ b ++ B ":" ++ w ++ d /\ (map lower name = B "content-length" \/ map lower name = B "l") /\ blanks b /\ sws w /\ number d n.
Lemma length_find name : map lower name = B "content-length" \/ map lower name = B "l" -> exists k, find_header (map lower name) known_headers = Some k /\ (k = HClen \/ k = HLength_l).
Proof. intros [->| ->]; eexists; (split; [reflexivity|auto]). Qed.
Lemma length_step t d d' n : length_line t n -> header_text t d d' -> d_len d' = i64 n.
Proof.
  intros (name & b & w & x & -> & L & Hb & SW & N) (n1 & b1 & w1 & v1 & E & T1 & B1 & H). destruct (length_find name L) as (k & K & KK).
  destruct (name_unique name n1 b b1 _ _ (known_lower_token _ _ K) T1 Hb B1 E) as (<- & <- & E2). rewrite K in H.
  destruct KK as [->| ->]; destruct H as (SW1 & n' & N' & ->); destruct (ws_unique w w1 x v1 SW SW1 (digits_stop _ _ N) (digits_stop _ _ N') E2) as [_ ->]; unfold number in *; cbn; congruence.
Qed.
Lemma no_length_step t d d' : (forall n, ~ length_line t n) -> header_text t d d' -> d_len d' = d_len d.
Proof.
  intros L (n & b & w & v & -> & T & Hb & H). destruct (find_header (map lower n) known_headers) as [k|] eqn:K; [|destruct H as (_ & _ & _ & ->); reflexivity].
  pose proof (kind_names (fun n k => match k with HClen => bseq n (B "content-length") | HLength_l => bseq n (B "l") | _ => true end) _ _ eq_refl K) as KN.
  destruct k; cbn [header_value] in H; decompose [and ex] H; subst d'; try reflexivity; exfalso; eapply L; exists n, b, w, v; (split; [reflexivity|]); (split; [|eauto]).
  - left. destruct (bseq_reflect (map lower n) (B "content-length")); [assumption|discriminate].
  - right. destruct (bseq_reflect (map lower n) (B "l")); [assumption|discriminate].
Qed.
Lemma no_length_steps ts d d' : steps ts d d' -> (forall t n, In t ts -> ~ length_line t n) -> d_len d' = d_len d.
Proof.
  induction 1 as [d|t ts d d1 d2 H1 _ IH]; intros L; [reflexivity|]. rewrite IH; [|intros t' n I; apply L; right; exact I]. apply (no_length_step t); [|exact H1]. intros n. apply L. left. reflexivity.
Qed.
Definition payload_is (body : bytes) (m : msg) : Prop :=
  (exists t, pay m = Some (Misc t body)) \/ (exists p, sdp_parse body = Ok (inl p) /\ pay m = Some (PSdp p)).
(** The last Content-Length line counts. The full property has no upper bound on n; see [content_length_wraps_refuted]. *)
Theorem content_length_exact_partial : forall st ts1 t n ts2 body m, folded st = true -> Forall line (ts1 ++ t :: ts2) ->
  length_line t n -> (forall t' n', In t' ts2 -> ~ length_line t' n') -> 0 < n < 2 ^ 63 ->
  parse_msg (packet st (ts1 ++ t :: ts2) body) = MOk m -> Z.of_nat (length body) = n /\ payload_is body m.
Proof.
  intros st ts1 t n ts2 body m FS FL L NL B H. apply packet_exact in H; [|exact FS|exact FL]. destruct H as (m0 & d & S & H & SB & P).
  apply steps_app in H. destruct H as (d1 & H1 & H2). inversion H2 as [|? ? ? d2 ? H3 H4]; subst.
  assert (D : d_len d = n) by (rewrite (no_length_steps _ _ _ H4 NL), (length_step _ _ _ _ L H3); apply i64_id; lia).
  destruct P as [[P _]|(_ & P & [(_ & p & Q & ->)|(_ & ->)])]; [lia|split; [lia|right; eauto]|split; [lia|left; eexists; reflexivity]].
Qed.
Lemma steps_pay ts d d' : steps ts d d' -> pay (d_msg d') = pay (d_msg d).
Proof.
  induction 1 as [d|t ts d d1 d2 H1 _ IH]; [reflexivity|]. rewrite IH. clear IH. destruct H1 as (n & b & w & v & _ & _ & _ & H1).
  destruct (find_header _ _) as [k|]; [|destruct H1 as (_ & _ & _ & ->); reflexivity]. destruct k; cbn [header_value] in H1; decompose [and ex] H1; subst d1; try reflexivity.
  cbn. clear. generalize (d_msg d). induction x as [|a l IH]; intros m; [reflexivity|]. cbn [fold_left]. rewrite IH. reflexivity.
Qed.
(** without a Content-Length line, or with length 0, there is no payload and what follows the header block is ignored *)
Theorem content_length_absent : forall st ts body m, folded st = true -> Forall line ts -> (forall t n, In t ts -> ~ length_line t n) ->
  parse_msg (packet st ts body) = MOk m -> pay m = None.
Proof.
  intros st ts body m FS FL NL H. apply packet_exact in H; [|exact FS|exact FL]. destruct H as (m0 & d & S & H & SB & P).
  assert (D : d_len d = 0) by exact (no_length_steps _ _ _ H NL). destruct P as [[_ ->]|(P & _)]; [|lia]. rewrite (steps_pay _ _ _ H). cbn.
  destruct S as [(u & x & v & maj & min & _ & _ & _ & _ & ->)|(v & maj & min & y & n & x & _ & _ & _ & _ & _ & _ & ->)]; reflexivity.
Qed.
(** Lengths are taken modulo 2^64: a packet which declares 2^64 + 2 bytes is accepted with 2. *)
Theorem content_length_wraps_refuted : exists m, parse_msg (packet ex_start [B "Content-Length: 18446744073709551618"] (B "hi")) = MOk m /\
  length_line (B "Content-Length: 18446744073709551618") (2 ^ 64 + 2) /\ pay m = Some (Misc [] (B "hi")).
Proof.
  eexists. split; [vm_compute; reflexivity|]. split; [|reflexivity]. exists (B "Content-Length"), [], (B " "), (B "18446744073709551618").
  split; [reflexivity|]. split; [left; reflexivity|]. split; [reflexivity|]. split; [left; reflexivity|]. vm_compute. reflexivity.
Qed.
(** A body whose first byte is a space or a tab is never accepted, whatever its declared length. *)
Theorem blank_body_rejected : forall st ts c body m, folded st = true -> Forall line ts -> blank c = true -> parse_msg (packet st ts (c :: body)) <> MOk m.
Proof.
  intros st ts c body m FS FL Bc H. apply packet_exact in H; [|exact FS|exact FL]. destruct H as (m0 & d & _ & _ & SB & _). cbn in SB. congruence.
Qed.
Example content_length_example : exists m, Forall line [B "Content-Length: 9"; B "l : 2"] /\ length_line (B "l : 2") 2 /\
  parse_msg (packet ex_start ([B "Content-Length: 9"] ++ B "l : 2" :: []) (B "hi")) = MOk m /\ payload_is (B "hi") m /\
  (exists e, parse_msg (packet ex_start [B "l : 2"] (B "hi!")) = MErr e) /\ (exists e, parse_msg (packet ex_start [B "l : 2"] (B "h")) = MErr e).
Proof.
  eexists. split; [repeat constructor; [eexists _, _; split; [reflexivity|split; [reflexivity|discriminate]]|eexists _, _; split; [reflexivity|split; [reflexivity|discriminate]]]|].
  split; [exists (B "l"), (B " "), (B " "), (B "2"); repeat split; [right; reflexivity|left; reflexivity]|]. split; [vm_compute; reflexivity|]. split; [left; eexists; reflexivity|]. split; eexists; vm_compute; reflexivity.
Qed.

(** * C09, Via: the port is taken modulo 2^16 *)
Lemma via_line_text h p n : h <> [] -> forallb viahost_class h = true -> number p n ->
  forall d, header_text (B "Via" ++ [] ++ B ":" ++ B " " ++ B "SIP/2.0/UDP " ++ h ++ B ":" ++ p) d
    (with_msg (fun m => set_vias (vias m ++ [mkvia (B "SIP") (B "2.0") (B "UDP") h (n mod 65536) []]) m) d).
Proof.
  intros NE F N d. exists (B "Via"), [], (B " "), (B "SIP/2.0/UDP " ++ h ++ B ":" ++ p). split; [reflexivity|]. split; [split; [discriminate|reflexivity]|]. split; [reflexivity|]. cbn -[header_value B].
  split; [left; reflexivity|]. eexists. split; [|reflexivity]. exists (B "SIP/2.0/UDP " ++ h ++ B ":" ++ p). eexists _, [], []. split; [rewrite app_nil_r; reflexivity|]. split; [reflexivity|]. split; [|constructor].
  exists (B "/"), (B "/"), (B " "), h, (B ":" ++ p), []. cbn [v_protocol v_version v_transport v_host v_port v_param]. split; [rewrite app_nil_r; reflexivity|].
  assert (SE : forall c, sep c [c]) by (intros c; exists [], []; repeat split; left; reflexivity).
  split; [split; [discriminate|reflexivity]|]. split; [apply SE|]. split; [split; [discriminate|reflexivity]|]. split; [apply SE|]. split; [split; [discriminate|reflexivity]|].
  split; [split; [left; reflexivity|discriminate]|]. split; [split; [exact NE|left; auto]|]. split; [|constructor]. right. exists (B ":"), p, n. split; [reflexivity|]. split; [apply SE|]. auto.
Qed.
Theorem via_port_read : forall st ts1 ts2 body m h p n,
  folded st = true -> Forall line (ts1 ++ ts2) -> h <> [] -> forallb viahost_class h = true -> number p n ->
  parse_msg (packet st (ts1 ++ ts2) body) = MOk m ->
  exists older newer, vias m = older ++ newer /\
    parse_msg (packet st (ts1 ++ (B "Via: SIP/2.0/UDP " ++ h ++ B ":" ++ p) :: ts2) body) =
      MOk (set_vias (older ++ mkvia (B "SIP") (B "2.0") (B "UDP") h (n mod 65536) [] :: newer) m).
Proof.
  intros st ts1 ts2 body m h p n FS FL NE F N H. apply packet_exact in H; [|exact FS|exact FL]. destruct H as (m0 & d & S & H & SB & P).
  apply steps_app in H. destruct H as (d1 & H1 & H2). pose proof (via_line_text h p n NE F N d1) as HT. set (v := mkvia (B "SIP") (B "2.0") (B "UDP") h (n mod 65536) []) in *.
  assert (R1 : more_via v d1 (with_msg (fun m => set_vias (vias m ++ [v]) m) d1)) by (exists (vias (d_msg d1)), []; split; [symmetry; apply app_nil_r|reflexivity]).
  destruct (frame_steps (more_via v) ts2 (proj1 (more_via_frame _)) (proj2 (more_via_frame _)) d1 d _ R1 H2) as (e & H5 & (older & newer & EX & ->)).
  exists older, newer. assert (XM : vias m = vias (d_msg d)) by (destruct P as [[_ ->]|(_ & _ & [(_ & q & _ & ->)|(_ & ->)])]; reflexivity).
  split; [congruence|]. apply packet_exact; [exact FS|apply insert_lines; [exact FL|exact (header_line _ _ _ HT)]|].
  eexists m0, _. split; [exact S|]. split; [apply steps_app; exists d1; split; [exact H1|econstructor; [exact HT|exact H5]]|]. split; [exact SB|].
  destruct P as [[L ->]|(L1 & L2 & [(T1 & q & P & ->)|(T1 & ->)])]; [left; auto|right|right]; (split; [exact L1|]); (split; [exact L2|]); [left|right]; (split; [exact T1|]); [exists q; split; [exact P|]|]; reflexivity.
Qed.
(** a port that fits is kept *)
Corollary via_port_kept_partial : forall st ts1 ts2 body m h p n,
  folded st = true -> Forall line (ts1 ++ ts2) -> h <> [] -> forallb viahost_class h = true -> number p n -> n < 65536 ->
  parse_msg (packet st (ts1 ++ ts2) body) = MOk m ->
  exists m', parse_msg (packet st (ts1 ++ (B "Via: SIP/2.0/UDP " ++ h ++ B ":" ++ p) :: ts2) body) = MOk m' /\
    In (mkvia (B "SIP") (B "2.0") (B "UDP") h n []) (vias m').
Proof.
  intros st ts1 ts2 body m h p n FS FL NE F N L H. destruct (via_port_read st ts1 ts2 body m h p n FS FL NE F N H) as (o & w & _ & E). eexists. split; [exact E|].
  cbn [vias set_vias]. rewrite Z.mod_small; [apply in_elt|]. split; [|exact L]. unfold number, digits_value in N. destruct p; [discriminate|]. exact (dec_value_nonneg _ 0 n ltac:(lia) N).
Qed.
(** a port that does not fit is never a reason to reject the packet: another port is stored instead *)
Corollary via_port_wraps_refuted : forall st ts1 ts2 body m h p n,
  folded st = true -> Forall line (ts1 ++ ts2) -> h <> [] -> forallb viahost_class h = true -> number p n -> 65536 <= n ->
  parse_msg (packet st (ts1 ++ ts2) body) = MOk m ->
  exists m' q, parse_msg (packet st (ts1 ++ (B "Via: SIP/2.0/UDP " ++ h ++ B ":" ++ p) :: ts2) body) = MOk m' /\
    In (mkvia (B "SIP") (B "2.0") (B "UDP") h q []) (vias m') /\ q <> n.
Proof.
  intros st ts1 ts2 body m h p n FS FL NE F N L H. destruct (via_port_read st ts1 ts2 body m h p n FS FL NE F N H) as (o & w & _ & E). eexists _, _. split; [exact E|].
  cbn [vias set_vias]. split; [apply in_elt|]. pose proof (Z.mod_pos_bound n 65536). lia.
Qed.
Example via_port_example : exists m, parse_msg (packet ex_start [B "Via: SIP/2.0/UDP " ++ B "h" ++ B ":" ++ B "70597"] []) = MOk m /\ number (B "70597") 70597 /\
  vias m = [mkvia (B "SIP") (B "2.0") (B "UDP") (B "h") 5061 []].
Proof. eexists. split; [vm_compute; reflexivity|]. split; reflexivity. Qed.
