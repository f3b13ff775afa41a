(** C72: where a rejected packet is wrong, and how the error says so. *)
From Verif Require Import Bytes BytesLemmas GoLib GoLibLemmas Auto AutoRe SdpModel SipText SipTypes UriTable UriModel UriProofs MsgTable MsgModel MsgSafe MsgErrorAt MsgErrorModel.
Local Open Scope nat_scope.

(** * The offset *)
(** The offset of a MsgParseError is a position in the packet. *)
Theorem error_inside : forall data off, parse_msg data = MErr (EParse off) -> off < length data.
Proof.
  intros data off E. unfold parse_msg, msg_fuel in E. replace (4 * length data + 4) with (S (4 * length data + 3)) in E by lia. rewrite drive_after in E.
  pose proof (run_sound (length data) (length data) data (mst0 data) msg_en_main msg_en_main (le_n _) eq_refl (start_at _ _ (le_n _))) as R.
  assert (FR : far (length data) (run (msg_act (length data)) msg_look msg_row data (mst0 data) msg_en_main)).
  { apply (run_far (length data) (length data) data _ _ msg_en_main); auto; [apply start_at; auto|discriminate]. }
  destruct (after_far _ _ _ _ _ _ R FR E) as (r & -> & N & H & _). destruct r; [congruence|]. cbn [length] in *. lia.
Qed.
(** Nothing after it, except for two bytes of look-ahead, has to do with the error: every packet with the same beginning is
    rejected at the same place. *)
Theorem error_by_prefix : forall p x x' off, parse_msg (p ++ x) = MErr (EParse off) -> off + 3 <= length p -> parse_msg (p ++ x') = MErr (EParse off).
Proof. exact parse_like. Qed.
(** So a position is never blamed in a text with which an acceptable packet begins. *)
Corollary error_not_in_good_prefix : forall p x x' m off, parse_msg (p ++ x) = MOk m -> parse_msg (p ++ x') = MErr (EParse off) -> length p < off + 3.
Proof.
  intros p x x' m off E E'. destruct (Nat.le_gt_cases (off + 3) (length p)) as [H|H]; [|exact H].
  rewrite (error_by_prefix p x' x off E' H) in E. discriminate.
Qed.

(** * The text *)
(** A text with its line ends written in the Unix way, and the number of its line ends *)
Fixpoint unix (s : bytes) : bytes :=
  match s with
  | [] => []
  | c :: s' => match s' with d :: s'' => if beq c CR && beq d LF then LF :: unix s'' else c :: unix s' | [] => [c] end
  end.
Fixpoint line_ends (s : bytes) : nat :=
  match s with
  | [] => 0
  | c :: s' => match s' with d :: s'' => if beq c CR && beq d LF then S (line_ends s'') else line_ends s' | [] => 0 end
  end.
(** [data] is [pre ++ line ++ post] where [line] is one line, and position [off] is in it *)
Record in_line (data : bytes) (off : nat) (pre line post : bytes) : Prop := mkin {
  il_data : data = pre ++ line ++ post;
  il_pre : pre = [] \/ exists p, pre = p ++ CRLF;
  il_line : forall a b, line <> a ++ CRLF ++ b;
  il_post : post = [] \/ exists p, post = CRLF ++ p;
  il_off : length pre <= off < length pre + length line }.
(** position [off] is one of the two bytes of a line end *)
Definition in_line_end (data : bytes) (off : nat) : Prop := exists a b, data = a ++ CRLF ++ b /\ (off = length a \/ off = length a + 1).

(** bytes.Split and putting the lines together *)
Fixpoint join (l : list bytes) : bytes := match l with [] => [] | [x] => x | x :: l' => x ++ [LF] ++ join l' end.
Lemma join_cons_hd c l : l <> [] -> join (cons_hd c l) = c :: join l.
Proof. destruct l as [|x [|y l]]; [congruence| |]; reflexivity. Qed.
Lemma crlf_case c d (s : bytes) : {beq c CR && beq d LF = true /\ c = CR /\ d = LF} + {beq c CR && beq d LF = false}.
Proof. destruct (beq_reflect c CR) as [->|]; [|right; reflexivity]. destruct (beq_reflect d LF) as [->|]; [left; auto|right; reflexivity]. Qed.
Lemma length_ind (P : bytes -> Prop) : (forall s, (forall t, length t < length s -> P t) -> P s) -> forall s, P s.
Proof. intros H s. remember (length s) as n eqn:E. revert s E. induction n as [n IH] using lt_wf_ind. intros s ->. apply H. intros t L. exact (IH _ L t eq_refl). Qed.
Lemma unix_join s : unix s = join (split_crlf s).
Proof.
  induction s as [s IH] using length_ind. destruct s as [|c [|d s]]; [reflexivity|reflexivity|]. cbn [unix split_crlf].
  destruct (crlf_case c d s) as [(-> & -> & ->)|E].
  - rewrite (IH s) by (cbn; lia). pose proof (split_crlf_nonempty s). destruct (split_crlf s); [congruence|reflexivity].
  - rewrite E. rewrite join_cons_hd; [|exact (split_crlf_nonempty (d :: s))]. f_equal. exact (IH (d :: s) (le_n _)).
Qed.
Lemma ends_split s : S (line_ends s) = length (split_crlf s).
Proof.
  assert (HD : forall c l, l <> [] -> length (cons_hd c l) = length l) by (intros c [|x l]; [congruence|reflexivity]).
  induction s as [s IH] using length_ind. destruct s as [|c [|d s]]; [reflexivity|reflexivity|]. cbn [line_ends split_crlf].
  destruct (crlf_case c d s) as [(-> & -> & ->)|E].
  - cbn [length]. f_equal. apply IH. cbn. lia.
  - rewrite E. rewrite HD; [|exact (split_crlf_nonempty (d :: s))]. exact (IH (d :: s) (le_n _)).
Qed.
Lemma split_end a : forall b, split_crlf (a ++ CRLF ++ b) = split_crlf a ++ split_crlf b.
Proof.
  induction a as [a IH] using length_ind. intros b. destruct a as [|c [|d a]]; [reflexivity| |].
  - cbn [app CRLF split_crlf]. destruct (crlf_case c CR []) as [(_ & _ & E)|E]; [discriminate E|]. rewrite E. reflexivity.
  - rewrite <- !app_comm_cons. cbn [split_crlf]. destruct (crlf_case c d a) as [(-> & -> & ->)|E].
    + rewrite IH by (cbn; lia). reflexivity.
    + rewrite E. change (match a ++ CRLF ++ b with [] => cons_hd d (split_crlf (a ++ CRLF ++ b)) | d0 :: s'' => _ end) with (split_crlf ((d :: a) ++ CRLF ++ b)).
      rewrite IH by (cbn; lia). change (match a with [] => cons_hd d (split_crlf a) | d0 :: s'' => _ end) with (split_crlf (d :: a)).
      pose proof (split_crlf_nonempty (d :: a)). destruct (split_crlf (d :: a)); [congruence|reflexivity].
Qed.
Lemma split_one l : (forall a b, l <> a ++ CRLF ++ b) -> split_crlf l = [l].
Proof.
  induction l as [l IH] using length_ind. intros N. destruct l as [|c [|d l]]; [reflexivity|reflexivity|]. cbn [split_crlf].
  destruct (crlf_case c d l) as [(-> & -> & ->)|E]; [destruct (N [] l); reflexivity|]. rewrite E.
  change (match l with [] => cons_hd d (split_crlf l) | d0 :: s'' => _ end) with (split_crlf (d :: l)).
  rewrite (IH (d :: l) (le_n _)); [reflexivity|]. intros a b Q. apply (N (c :: a) b). rewrite <- app_comm_cons, <- Q. reflexivity.
Qed.
Lemma first_line s : exists l, (forall a b, l <> a ++ CRLF ++ b) /\ (s = l \/ exists r, s = l ++ CRLF ++ r).
Proof.
  induction s as [s IH] using length_ind. destruct s as [|c [|d s]].
  - exists []. split; [intros [|? ?] ?; discriminate|left; reflexivity].
  - exists [c]. split; [intros [|? [|? ?]] ?; discriminate|left; reflexivity].
  - destruct (crlf_case c d s) as [(_ & -> & ->)|E].
    + exists []. split; [intros [|? ?] ?; discriminate|right; exists s; reflexivity].
    + destruct (IH (d :: s) (le_n _)) as (l & N & H). exists (c :: l). split.
      * intros [|x a] b Q; [|injection Q as _ Q; exact (N a b Q)]. cbn [app CRLF] in Q. injection Q as -> ->.
        destruct H as [H|(r & H)]; cbn [app] in H; injection H as -> ->; discriminate E.
      * destruct H as [H|(r & H)]; [left|right; exists r]; rewrite H; reflexivity.
Qed.

Definition span (lines : list bytes) : Z := fold_right (fun l z => Z.of_nat (length l) + 2 + z)%Z 0%Z lines.
Lemma span_app a b : span (a ++ b) = (span a + span b)%Z.
Proof. induction a as [|x a IH]; cbn [app span fold_right] in *; [reflexivity|]. fold (span (a ++ b)). fold (span a). rewrite IH. lia. Qed.
Lemma span_pos a : (0 <= span a)%Z.
Proof. induction a as [|x a IH]; cbn [span fold_right]; [lia|]. fold (span a). lia. Qed.
Lemma join_app a b : a <> [] -> b <> [] -> join (a ++ b) = join a ++ [LF] ++ join b.
Proof.
  intros A N. induction a as [|x a IH]; [congruence|]. destruct a as [|y a].
  - destruct b; [congruence|reflexivity].
  - change (join ((x :: y :: a) ++ b)) with (x ++ [LF] ++ join ((y :: a) ++ b)). rewrite IH by discriminate.
    change (join (x :: y :: a)) with (x ++ [LF] ++ join (y :: a)). rewrite <- !app_assoc. reflexivity.
Qed.
Lemma join_cons x l : join (x :: l) = x ++ match l with [] => [] | _ => [LF] end ++ join l.
Proof. destruct l; [cbn; rewrite app_nil_r; reflexivity|reflexivity]. Qed.
Lemma lines_away off lines : forall i o ln lo, (o + span lines <= off + 2 \/ off < o)%Z -> error_lines off lines i o ln lo = (ln, lo, join lines).
Proof.
  induction lines as [|l lines IH]; intros i o ln lo H; [reflexivity|]. cbn [error_lines]. cbn [span fold_right] in H. fold (span lines) in H. pose proof (span_pos lines).
  assert (E : ((o <=? off) && (off <? o + Z.of_nat (length l)))%Z = false).
  { destruct H; [rewrite (proj2 (Z.ltb_ge off _)) by lia; apply andb_false_r|rewrite (proj2 (Z.leb_gt o off)) by lia; reflexivity]. }
  rewrite E, IH by lia. cbn [app]. rewrite <- join_cons. reflexivity.
Qed.
Definition marked (l : bytes) (n : nat) : bytes := l ++ [LF] ++ repeat SP n ++ B "^".
Lemma lines_hit off l c : forall a i o ln lo, (o + span a <= off < o + span a + Z.of_nat (length l))%Z ->
  error_lines off (a ++ l :: c) i o ln lo = (i + Z.of_nat (length a) + 1, off - (o + span a), join (a ++ marked l (Z.to_nat (off - (o + span a))) :: c))%Z.
Proof.
  induction a as [|x a IH]; intros i o ln lo H.
  - cbn [app span fold_right length] in *. cbn [error_lines].
    rewrite (proj2 (Z.leb_le _ _)) by lia. rewrite (proj2 (Z.ltb_lt _ _)) by lia. cbn [andb]. rewrite lines_away by lia.
    replace (o + 0)%Z with o by lia. replace (i + Z.of_nat 0 + 1)%Z with (i + 1)%Z by lia. rewrite join_cons. unfold marked. rewrite <- !app_assoc. reflexivity.
  - cbn [app error_lines]. cbn [span fold_right] in *. fold (span a) in *. pose proof (span_pos a).
    rewrite (proj2 (Z.ltb_ge off _)) by lia. rewrite andb_false_r. rewrite IH by lia.
    replace (i + 1 + Z.of_nat (length a) + 1)%Z with (i + Z.of_nat (length (x :: a)) + 1)%Z by (cbn [length]; lia).
    replace (o + Z.of_nat (length x) + 2 + span a)%Z with (o + (Z.of_nat (length x) + 2 + span a))%Z by lia.
    cbn [app]. rewrite join_cons. destruct a; reflexivity.
Qed.
Lemma span_split s : span (split_crlf s) = (Z.of_nat (length s) + 2)%Z.
Proof.
  induction s as [s IH] using length_ind. destruct (first_line s) as (l & N & [->|(r & ->)]).
  - rewrite split_one by exact N. cbn. lia.
  - rewrite split_end, split_one by exact N. cbn [app span fold_right]. fold (span (split_crlf r)). rewrite IH by (rewrite !app_length; cbn; lia). rewrite !app_length. cbn [length CRLF]. lia.
Qed.
Definition error_head (line offset : nat) : bytes :=
  B "Error in SIP message at line " ++ itoa (Z.of_nat line) ++ B " offset " ++ itoa (Z.of_nat offset) ++ B ":" ++ [LF].

(** If the error is inside a line, the text names the line and the place in it (lines count from 1, places from 0), and shows
    the whole packet with a mark under the offending byte. *)
Theorem error_text_marks : forall data off pre line post, in_line data off pre line post ->
  parse_error_text data (Z.of_nat off) =
  error_head (S (line_ends pre)) (off - length pre) ++
  unix pre ++ line ++ [LF] ++ repeat SP (off - length pre) ++ B "^" ++ unix post.
Proof.
  intros data off pre line post [-> PR N PO OF].
  assert (A : exists a, split_crlf (pre ++ line ++ post) = a ++ split_crlf (line ++ post) /\ span a = Z.of_nat (length pre) /\ length a = line_ends pre /\
    forall c, c <> [] -> join (a ++ c) = unix pre ++ join c).
  { destruct PR as [->|(p & ->)]; [exists []; auto|]. exists (split_crlf p). rewrite <- app_assoc, split_end. split; [reflexivity|].
    rewrite span_split, app_length. cbn [length CRLF]. split; [lia|]. pose proof (ends_split (p ++ CRLF)) as E. pose proof (split_end p []) as SE. rewrite app_nil_r in SE.
    rewrite SE, app_length in E. cbn [split_crlf length] in E. split; [lia|]. intros c C. rewrite unix_join, SE. cbn [split_crlf].
    rewrite !join_app by (try apply split_crlf_nonempty; auto; discriminate). cbn [join]. rewrite app_nil_r, <- !app_assoc. reflexivity. }
  destruct A as (a & E1 & E2 & E3 & E4).
  assert (C : exists c, split_crlf (line ++ post) = line :: c /\ forall x, join (x :: c) = x ++ unix post).
  { destruct PO as [->|(p & ->)].
    - exists []. rewrite app_nil_r, split_one by exact N. split; [reflexivity|]. intros x. cbn. rewrite app_nil_r. reflexivity.
    - exists (split_crlf p). rewrite split_end, split_one by exact N. split; [reflexivity|]. intros x. rewrite join_cons, unix_join. change (CRLF ++ p) with ([] ++ CRLF ++ p).
      rewrite split_end. cbn [split_crlf app]. rewrite (join_cons []). reflexivity. }
  destruct C as (c & E5 & E6). unfold parse_error_text. rewrite E1, E5, lines_hit by lia. rewrite E2, E3, E4 by discriminate. rewrite E6.
  unfold error_head, marked. rewrite <- !app_assoc. replace (Z.to_nat (Z.of_nat off - (0 + Z.of_nat (length pre)))) with (off - length pre) by lia.
  replace (0 + Z.of_nat (line_ends pre) + 1)%Z with (Z.of_nat (S (line_ends pre))) by lia. replace (Z.of_nat off - (0 + Z.of_nat (length pre)))%Z with (Z.of_nat (off - length pre)) by lia.
  reflexivity.
Qed.

(** At a line end the text names line 0, place 0, and there is no mark. *)
Theorem error_text_at_line_end : forall data off, in_line_end data off ->
  parse_error_text data (Z.of_nat off) = error_head 0 0 ++ unix data.
Proof.
  intros data off (a & b & -> & OF). unfold parse_error_text. rewrite unix_join, split_end.
  assert (H : error_lines (Z.of_nat off) (split_crlf a ++ split_crlf b) 0 0 0 0 = (0, 0, join (split_crlf a ++ split_crlf b))%Z).
  { assert (G : forall c i o ln lo, (o + span (split_crlf a) <= Z.of_nat off + 2 < o + span (split_crlf a) + 2)%Z ->
      error_lines (Z.of_nat off) (split_crlf a ++ c) i o ln lo = (ln, lo, join (split_crlf a ++ c))).
    { intros c. generalize (split_crlf a) as l. induction l as [|x l IH]; intros i o ln lo H; cbn [app span fold_right] in H.
      - cbn [app]. apply lines_away. right. lia.
      - fold (span l) in H. pose proof (span_pos l). cbn [app error_lines].
        rewrite (proj2 (Z.ltb_ge _ _)) by lia. rewrite andb_false_r, IH by lia. cbn [app]. rewrite <- join_cons. reflexivity. }
    apply G. rewrite span_split. lia. }
  rewrite H. unfold error_head. rewrite <- !app_assoc. reflexivity.
Qed.
(** There is no third possibility. *)
Lemma position_cases data : forall off, off < length data -> (exists pre line post, in_line data off pre line post) \/ in_line_end data off.
Proof.
  induction data as [data IH] using length_ind. intros off OF. destruct (first_line data) as (l & N & [->|(r & ->)]).
  - left. exists [], l, []. constructor; auto; [rewrite app_nil_r; reflexivity|cbn; lia].
  - rewrite !app_length in OF. cbn [length CRLF] in OF. destruct (Nat.lt_ge_cases off (length l)) as [H|H].
    { left. exists [], l, (CRLF ++ r). constructor; eauto. cbn; lia. }
    destruct (Nat.lt_ge_cases off (length l + 2)) as [H2|H2]; [right; exists l, r; split; [reflexivity|lia]|].
    destruct (IH r ltac:(rewrite !app_length; cbn; lia) (off - (length l + 2)) ltac:(lia)) as [(pre & line & post & [E PR NL PO O2])|(a & b & E & O2)].
    + left. exists (l ++ CRLF ++ pre), line, post. constructor; auto; [rewrite E, <- !app_assoc; reflexivity| |rewrite !app_length; cbn [length CRLF]; lia].
      right. destruct PR as [->|(p & ->)]; [exists l; rewrite app_nil_r; reflexivity|exists (l ++ CRLF ++ p); rewrite <- !app_assoc; reflexivity].
    + right. exists (l ++ CRLF ++ a), b. split; [rewrite E, <- !app_assoc; reflexivity|]. rewrite !app_length. cbn [length CRLF]. lia.
Qed.
Theorem error_text_partial : forall data off, parse_msg data = MErr (EParse off) ->
  (exists pre line post, in_line data off pre line post /\
    parse_error_text data (Z.of_nat off) =
      error_head (S (line_ends pre)) (off - length pre) ++ unix pre ++ line ++ [LF] ++ repeat SP (off - length pre) ++ B "^" ++ unix post) \/
  (in_line_end data off /\ parse_error_text data (Z.of_nat off) = error_head 0 0 ++ unix data).
Proof.
  intros data off E. destruct (position_cases data off (error_inside _ _ E)) as [(pre & line & post & H)|H].
  - left. exists pre, line, post. split; [exact H|]. apply error_text_marks, H.
  - right. split; [exact H|]. apply error_text_at_line_end, H.
Qed.

(** * The errors of ParseURI *)
(** the error which names position [off] *)
Definition uri_error (data : bytes) (off : nat) : Prop := parse_uri data = PErr (B "Error in URI at pos " ++ itoa (Z.of_nat off) ++ B ": " ++ data).
Lemma uri_run_like x x' q : forall s n m r s1, run uri_act_free byte_look uri_row (q ++ x) s n = OBad m r s1 -> length x < length r ->
  exists q2 s', r = q2 ++ x /\ run uri_act_free byte_look uri_row (q ++ x') s n = OBad m (q2 ++ x') s'.
Proof.
  assert (A : forall a c y y' s, uri_act_free a (c :: y) s = uri_act_free a (c :: y') s) by (intros []; reflexivity).
  assert (AS : forall o c y y' s, acts uri_act_free o (c :: y) s = acts uri_act_free o (c :: y') s).
  { induction o as [|a o IH]; intros c y y' s; cbn [acts]; [reflexivity|]. rewrite (A a c y y'). destruct (uri_act_free a (c :: y') s); [apply IH|reflexivity]. }
  induction q as [|c q IH]; intros s n m r s1 E L.
  - cbn [app] in E. destruct (run_total x s n) as [(? & ? & H)|(? & ? & ? & H1 & _ & H2)]; rewrite E in *; [discriminate|]. injection H1 as <- <- <-. lia.
  - cbn [app run byte_look] in *. destruct (find_row (uri_row n) (to_N c)) as [[o [t|[]]]|].
    + rewrite (AS o c (q ++ x') (q ++ x)). destruct (acts uri_act_free o (c :: q ++ x) s) as [s2|]; [|discriminate]. apply (IH _ _ _ _ _ E L).
    + injection E as <- <- <-. exists (c :: q), s. auto.
Qed.
Lemma uri_error_run data off : off < length data -> (uri_error data off <-> exists m r s, run uri_act_free byte_look uri_row data ust0 (entry data) = OBad m r s /\ off = length data - length r /\ r <> [] /\ length r <= length data).
Proof.
  intros L. unfold uri_error, parse_uri. fold (entry data). rewrite run_free by (cbn; lia). split.
  - destruct (run_total data ust0 (entry data)) as [(m & s & ->)|(m & r & s & -> & R & RL)].
    + intros E. destruct (acts _ _ _ _); [|discriminate]. destruct (_ <? _)%positive; [|discriminate]. apply (f_equal (fun x => match x with PErr (c :: _) => c | _ => x00 end)) in E. discriminate E.
    + intros E. exists m, r, s. split; [reflexivity|]. split; [|auto]. injection E as E. apply app_inv_tail in E. 
      assert (N : forall a b : nat, itoa (Z.of_nat a) = itoa (Z.of_nat b) -> a = b).
      { intros a b H. rewrite !itoa_nonneg in H by lia. apply utoa_inj in H; lia. }
      apply N in E. lia.
  - intros (m & r & s & -> & -> & _). reflexivity.
Qed.
(** The position is in the URI, and every URI with the same beginning, with or without a user part as well, is rejected there. *)
Theorem uri_error_inside : forall data e, parse_uri data = PErr e ->
  e = B "Incomplete URI: " ++ data \/ exists off, off < length data /\ uri_error data off.
Proof.
  intros data e E. unfold uri_error. unfold parse_uri in *. fold (entry data) in *. rewrite run_free in * by (cbn; lia).
  destruct (run_total data ust0 (entry data)) as [(m & s & H)|(m & r & s & H & R & RL)]; rewrite H in *.
  - destruct (acts _ _ _ _); [|discriminate]. destruct (_ <? _)%positive; [|discriminate]. left. congruence.
  - right. exists (length data - length r). split; [destruct r; [congruence|cbn [length] in *; lia]|reflexivity].
Qed.
Theorem uri_error_by_prefix : forall p x x' off, uri_error (p ++ x) off -> off < length p ->
  contains_byte "@" (p ++ x) = contains_byte "@" (p ++ x') -> uri_error (p ++ x') off.
Proof.
  intros p x x' off E L C. apply uri_error_run in E; [|rewrite app_length; lia]. apply uri_error_run; [rewrite app_length; lia|].
  destruct E as (m & r & s & E & O & N & RL). unfold entry in *. rewrite <- C.
  destruct (uri_run_like x x' p _ _ _ _ _ E) as (q2 & s' & -> & E'); [rewrite app_length in O; lia|].
  exists m, (q2 ++ x'), s'. split; [exact E'|]. rewrite !app_length in *. split; [lia|]. split; [destruct q2; [cbn in *; lia|discriminate]|lia].
Qed.

(** * Cases *)
(** a header name with a space in it *)
Definition ex_bad : bytes := B "OPTIONS sip:a SIP/2.0" ++ CRLF ++ B "Sub ject: x" ++ CRLF ++ CRLF.
Example bad_rejected : parse_msg ex_bad = MErr (EParse 26).
Proof. vm_compute. reflexivity. Qed.
Example bad_in_line : in_line ex_bad 26 (B "OPTIONS sip:a SIP/2.0" ++ CRLF) (B "Sub ject: x") (CRLF ++ CRLF).
Proof.
  constructor; [reflexivity|right; eexists; reflexivity| |right; eexists; reflexivity|cbn; lia].
  intros a b E. assert (F : free_of CR (a ++ CRLF ++ b) = true) by (rewrite <- E; reflexivity).
  unfold free_of in F. rewrite forallb_app in F. apply andb_prop in F. destruct F as [_ F]. discriminate F.
Qed.
Example bad_text : parse_error_text ex_bad 26 =
  B "Error in SIP message at line 2 offset 3:" ++ [LF] ++ B "OPTIONS sip:a SIP/2.0" ++ [LF] ++ B "Sub ject: x" ++ [LF] ++ B "   ^" ++ [LF] ++ [LF].
Proof. vm_compute. reflexivity. Qed.
(** whatever follows, a packet which begins like this is rejected there *)
Example bad_prefix : forall x, parse_msg (B "OPTIONS sip:a SIP/2.0" ++ CRLF ++ B "Sub ject" ++ x) = MErr (EParse 26).
Proof.
  intros x. rewrite !app_assoc. apply (error_by_prefix _ (B ": x" ++ CRLF ++ CRLF)); [exact bad_rejected|cbn; lia].
Qed.
(** Refuted: a line that ends too early is an error at the line end, and its text does not say where. *)
Definition ex_short : bytes := B "OPTIONS sip:a SIP/2" ++ CRLF ++ B "Subject: x" ++ CRLF ++ CRLF.
Theorem error_text_refuted : parse_msg ex_short = MErr (EParse 19) /\
  parse_error_text ex_short 19 = B "Error in SIP message at line 0 offset 0:" ++ [LF] ++ unix ex_short.
Proof. split; vm_compute; reflexivity. Qed.
(** The look-ahead is real: two packets with the same first off + 2 bytes, one of which is accepted. *)
Definition ex_fold (c : byte) : bytes := B "OPTIONS sip:a SIP/2.0" ++ CRLF ++ B "From: Al" ++ CRLF ++ [c] ++ B "<sip:b>" ++ CRLF ++ CRLF.
Example look_ahead : parse_msg (ex_fold "x") = MErr (EParse 31) /\ firstn 33 (ex_fold "x") = firstn 33 (ex_fold " ") /\ exists m, parse_msg (ex_fold " ") = MOk m.
Proof. split; [vm_compute; reflexivity|]. split; [reflexivity|]. eexists. vm_compute. reflexivity. Qed.

Example uri_bad : forall x, contains_byte "@" x = false -> uri_error (B "sip:a b" ++ x) 5.
Proof. intros x H. apply (uri_error_by_prefix (B "sip:a b") []); [vm_compute; reflexivity|cbn; lia|]. cbn. symmetry. exact H. Qed.
(** The look at the whole text for a @ is real: it decides whether a is a host or a user. *)
Example uri_at : uri_error (B "sip:a%41") 5 /\ exists u, parse_uri (B "sip:a%41@b") = POk u.
Proof. split; [vm_compute; reflexivity|]. eexists. vm_compute. reflexivity. Qed.

(** ** The error of a message that is not finished *)
(** Its text says so and shows the whole message; no parse error has such a text. *)
Theorem incomplete_text : forall data, parse_msg data = MErr EIncomplete -> incomplete_error_text data = B "Incomplete SIP message:" ++ [LF] ++ data /\ forall data' off, parse_error_text data' off <> incomplete_error_text data.
Proof. intros data _. split; [reflexivity|]. intros data' off. unfold parse_error_text. destruct (error_lines _ _ _ _ _ _) as [[x y] z]. discriminate. Qed.
Example incomplete_text_case : parse_msg (B "OPTIONS sip:a SIP/2.0" ++ CRLF) = MErr EIncomplete.
Proof. vm_compute. reflexivity. Qed.

(** ** The error a refused request gives *)
(** Its text is the status of the response as a decimal number, a colon, a space and the phrase of the response. *)
Theorem refusal_text : forall m, (0 <= status m < 2 ^ 63)%Z ->
  exists n, response_error_text m = n ++ B ": " ++ phrase m /\ atoi n = Some (status m) /\ forallb is_digit n = true.
Proof.
  intros m H. exists (itoa (status m)). split; [reflexivity|]. split; [apply atoi_itoa; lia|]. unfold itoa. destruct (Z.ltb_spec (status m) 0); [lia|]. apply utoa_digits. lia.
Qed.
Example refusal_text_486 : response_error_text (set_phrase (B "Busy Here") (set_status 486 msg0)) = B "486: Busy Here".
Proof. reflexivity. Qed.

Print Assumptions error_inside.
Print Assumptions uri_error_inside.
Print Assumptions uri_error_by_prefix.
Print Assumptions error_by_prefix.
Print Assumptions error_text_partial.
Print Assumptions refusal_text.
