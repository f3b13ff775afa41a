(** C112: several goroutines that send through one RTP session. *)
From Coq Require Import List ZArith Lia.
From Verif Require Import Bytes BytesLemmas RtpModel RtpSpec RtpProofs P_Rtp RtpSendersModel.
Import ListNotations.
Local Open Scope Z_scope.

(** ** Specification *)
(** a datagram of the session with header h: its type, source and marker, and 160 samples, each of which is the one a frame has at that place *)
Definition of_frames (h : header) (frames : list (list Z)) (p : bytes) : Prop :=
  length p = 172%nat /\ f_version p = 2 /\ f_padding p = h_pad h /\ f_marker p = h_mark h /\ f_pt p = 0 /\ f_ssrc p = h_ssrc h /\
  forall k, (k < 160)%nat -> exists f, In f frames /\ nth_error p (12 + k) = Some (encode_sample (nth k f 0)).
Definition is_sent (g : spot) : bool := match g with Sent => true | _ => false end.

(** ** Overwriting *)
Lemma over_length {A} i (x : A) l : (i < length l)%nat -> length (overwrite i x l) = length l.
Proof. intros H. unfold overwrite. rewrite app_length, firstn_length_le by lia. cbn [length]. rewrite skipn_length. lia. Qed.
Lemma over_same {A} i (x : A) l : (i < length l)%nat -> nth_error (overwrite i x l) i = Some x.
Proof. intros H. unfold overwrite. rewrite nth_error_app2; rewrite firstn_length_le by lia; [|lia]. rewrite Nat.sub_diag. reflexivity. Qed.
Lemma over_other {A} i j (x : A) l : (i < length l)%nat -> j <> i -> nth_error (overwrite i x l) j = nth_error l j.
Proof. revert i j. induction l as [|a l IH]; intros [|i] [|j] H N; cbn [length] in H; try lia; try congruence; try reflexivity. unfold overwrite in *. cbn [firstn skipn app nth_error]. apply (IH i j); lia. Qed.
Lemma over_twice {A} i (x y : A) l : (i < length l)%nat -> overwrite i x (overwrite i y l) = overwrite i x l.
Proof.
  intros H. unfold overwrite. rewrite firstn_app, firstn_firstn, firstn_length_le, Nat.min_id, Nat.sub_diag by lia. cbn [firstn]. rewrite app_nil_r. f_equal. f_equal.
  rewrite skipn_app, firstn_length_le by lia. rewrite (skipn_all2 (firstn i l)) by (rewrite firstn_length; lia). replace (S i - i)%nat with 1%nat by lia. reflexivity.
Qed.
Lemma some_lt {A} (l : list A) i x : nth_error l i = Some x -> (i < length l)%nat.
Proof. intros H. apply nth_error_Some. congruence. Qed.
Lemma skip_skip {A} (l : list A) : forall m n, skipn m (skipn n l) = skipn (n + m) l.
Proof. induction l as [|a l IH]; intros m [|n]; cbn [skipn Nat.add]; try reflexivity; [apply skipn_nil|apply IH]. Qed.
Lemma schedule_app fs l : forall c l', schedule fs c (l ++ l') = match schedule fs c l with Some c' => schedule fs c' l' | None => None end.
Proof. induction l as [|i l IH]; intros c l'; [reflexivity|]. cbn [app schedule]. destruct (give_turn fs c i); [apply IH|reflexivity]. Qed.

Lemma schedule_then fs c l c' l' r : schedule fs c l = Some c' -> schedule fs c' l' = r -> schedule fs c (l ++ l') = r.
Proof. intros H R. rewrite schedule_app, H. exact R. Qed.

(** ** Every schedule *)
Definition kept_header (h0 h : header) : Prop :=
  h_pad h = h_pad h0 /\ h_mark h = h_mark h0 /\ h_ssrc h = h_ssrc h0 /\ 0 <= h_seq h < 65536 /\ 0 <= h_ts h < 2 ^ 32.
Definition headed (h0 : header) (b : bytes) : Prop := exists h, kept_header h0 h /\ h_pt h = 0 /\ firstn 12 b = header_write h [].
Definition sampled (frames : list (list Z)) (b : bytes) (k : nat) : Prop := exists f, In f frames /\ nth_error b (12 + k) = Some (encode_sample (nth k f 0)).
Definition knows (h0 : header) (frames : list (list Z)) (c : shared) (g : spot) : Prop :=
  match g with
  | Called | Sent => True
  | Typed => h_pt (sh_hdr c) = 0
  | Headed | ReadTS _ | AddedTS | ReadSeq _ => headed h0 (sh_buf c)
  | Filling n => headed h0 (sh_buf c) /\ (n <= 160)%nat /\ forall k, (k < n)%nat -> sampled frames (sh_buf c) k
  end.
Definition sound (h0 : header) (frames : list (list Z)) (c : shared) : Prop :=
  kept_header h0 (sh_hdr c) /\ length (sh_buf c) = 172%nat /\ Forall (of_frames h0 frames) (sh_wire c).

Lemma of_parts h0 frames b : 0 <= h_ssrc h0 < 2 ^ 32 -> length b = 172%nat -> headed h0 b -> (forall k, (k < 160)%nat -> sampled frames b k) -> of_frames h0 frames b.
Proof.
  intros RS L (h & (K1 & K2 & K3 & K4 & K5) & PT & E) S. unfold of_frames. split; [exact L|].
  assert (X : b = header_write h [] ++ skipn 12 b) by (rewrite <- E; symmetry; apply firstn_skipn).
  assert (R : in_range h) by (unfold in_range; rewrite PT, K3; lia). pose proof (write_layout h (skipn 12 b) R) as W. cbv zeta in W. rewrite <- X in W.
  destruct W as (_ & W1 & _ & _ & W2 & W3 & W4 & _ & _ & W5 & _). split; [exact W1|]. split; [congruence|]. split; [congruence|]. split; [congruence|]. split; [congruence|]. exact S.
Qed.
Lemma head_length h : length (header_write h []) = 12%nat. Proof. reflexivity. Qed.
Lemma step_sound h0 frames f c g c' g' : 0 <= h_ssrc h0 < 2 ^ 32 -> In f frames -> sound h0 frames c -> knows h0 frames c g -> next_access f c g = Some (c', g') ->
  sound h0 frames c' /\ knows h0 frames c' g' /\ (h_pt (sh_hdr c) = 0 -> h_pt (sh_hdr c') = 0) /\ (headed h0 (sh_buf c) -> headed h0 (sh_buf c')) /\ (forall k, sampled frames (sh_buf c) k -> sampled frames (sh_buf c') k).
Proof.
  intros RS IN (K & L & F) W A. destruct c as [h b w]. cbn [sh_hdr sh_buf sh_wire] in *.
  assert (KT : forall t, kept_header h0 (set_ts h (u32 t))) by (intros t; destruct K as (? & ? & ? & ? & ?); unfold kept_header; cbn; repeat split; try tauto; try lia; unfold u32; apply Z.mod_pos_bound; lia).
  assert (KS : forall t, kept_header h0 (set_seq h (u16 t))) by (intros t; destruct K as (? & ? & ? & ? & ?); unfold kept_header; cbn; repeat split; try tauto; try lia; unfold u16; apply Z.mod_pos_bound; lia).
  unfold sound. destruct g as [| | |t| |s|n|]; cbn [next_access knows] in *.
  - injection A as <- <-. cbn [sh_hdr sh_buf sh_wire knows]. repeat split; auto; apply K.
  - assert (HW : exists hw, hw = header_write h [] /\ length hw = 12%nat) by (eexists; split; reflexivity). destruct HW as (hw & HW & LW). rewrite <- HW in A. injection A as <- <-. cbn [sh_hdr sh_buf sh_wire knows].
    assert (E : firstn 12 (hw ++ skipn 12 b) = hw) by (rewrite firstn_app, LW, Nat.sub_diag, firstn_all2 by lia; cbn [firstn]; apply app_nil_r). assert (HD : headed h0 (hw ++ skipn 12 b)) by (exists h; rewrite E; auto).
    assert (L2 : length (hw ++ skipn 12 b) = 172%nat) by (rewrite app_length, LW, skipn_length; lia).
    split; [auto|]. split; [exact HD|]. split; [auto|]. split; [auto|]. intros k (f' & I & N). exists f'. split; [exact I|]. rewrite <- N. rewrite nth_error_app2 by lia. rewrite LW. replace (12 + k - 12)%nat with k by lia.
    assert (SK : forall (l : bytes) n, (n <= length l)%nat -> nth_error (skipn n l) k = nth_error l (n + k)) by (clear; induction l as [|a l IH]; intros [|n] H; cbn [length] in H; try lia; try reflexivity; cbn [skipn Nat.add nth_error]; apply IH; lia). refine (SK b 12%nat _). lia.
  - injection A as <- <-. cbn [sh_hdr sh_buf sh_wire knows]. repeat split; auto; apply K.
  - injection A as <- <-. cbn [sh_hdr sh_buf sh_wire knows]. repeat split; auto; apply KT.
  - injection A as <- <-. cbn [sh_hdr sh_buf sh_wire knows]. repeat split; auto; apply K.
  - injection A as <- <-. cbn [sh_hdr sh_buf sh_wire knows]. repeat split; auto; try apply KS; lia.
  - destruct W as (HD & NL & S). destruct (Nat.ltb_spec n 160) as [LT|GE]; injection A as <- <-; cbn [sh_hdr sh_buf sh_wire knows].
    + assert (LB : (12 + n < length b)%nat) by lia. rewrite over_length by exact LB.
      assert (HD' : forall b1, b1 = overwrite (12 + n) (encode_sample (nth n f 0)) b -> headed h0 b -> headed h0 b1).
      { intros b1 -> (h1 & Q1 & Q2 & Q3). exists h1. split; [exact Q1|]. split; [exact Q2|]. unfold overwrite. rewrite firstn_app, firstn_firstn, firstn_length_le by lia. replace (12 - (12 + n))%nat with 0%nat by lia. cbn [firstn]. rewrite app_nil_r. replace (Nat.min 12 (12 + n)) with 12%nat by lia. exact Q3. }
      assert (SM : forall k, (k = n \/ sampled frames b k) -> sampled frames (overwrite (12 + n) (encode_sample (nth n f 0)) b) k).
      { intros k O. destruct (Nat.eq_dec k n) as [-> | N]; [exists f; split; [exact IN|apply over_same; exact LB]|]. destruct O as [E|(f' & I & E)]; [congruence|]. exists f'. split; [exact I|]. rewrite <- E. apply over_other; [exact LB|lia]. }
      repeat split; auto; try apply K; try lia; try (apply (HD' _ eq_refl); assumption). intros k KL. apply SM. destruct (Nat.eq_dec k n); [auto|right; apply S; lia].
    + repeat split; auto; try apply K. apply Forall_app. split; [exact F|]. constructor; [|constructor]. apply of_parts; auto. intros k KL. apply S. lia.
  - discriminate.
Qed.
Lemma count_over gs : forall i g g', nth_error gs i = Some g ->
  (length (filter is_sent (overwrite i g' gs)) + (if is_sent g then 1 else 0) = length (filter is_sent gs) + (if is_sent g' then 1 else 0))%nat.
Proof.
  induction gs as [|a gs IH]; intros [|i] g g' H; cbn [nth_error] in H; try discriminate.
  - injection H as ->. unfold overwrite. cbn [firstn skipn app filter]. destruct (is_sent g), (is_sent g'); cbn [length]; lia.
  - specialize (IH i g g' H). unfold overwrite in *. cbn [firstn skipn app filter] in *. destruct (is_sent a); cbn [length]; lia.
Qed.
Lemma step_wire f c g c' g' : next_access f c g = Some (c', g') -> length (sh_wire c') = (length (sh_wire c) + (if is_sent g' then 1 else 0))%nat /\ is_sent g = false.
Proof.
  destruct c as [h b w]. destruct g as [| | |t| |s|n|]; cbn [next_access]; intros A; try (injection A as <- <-; cbn; split; [lia|reflexivity]); [|discriminate].
  destruct (Nat.ltb n 160); injection A as <- <-; cbn [sh_wire is_sent]; [|rewrite app_length; cbn]; split; try lia; reflexivity.
Qed.
Lemma along h0 frames l : 0 <= h_ssrc h0 < 2 ^ 32 -> forall c c', schedule frames c l = Some c' ->
  sound h0 frames (fst c) /\ (forall i g, nth_error (snd c) i = Some g -> knows h0 frames (fst c) g) /\ length (sh_wire (fst c)) = length (filter is_sent (snd c)) ->
  sound h0 frames (fst c') /\ (forall i g, nth_error (snd c') i = Some g -> knows h0 frames (fst c') g) /\ length (sh_wire (fst c')) = length (filter is_sent (snd c')).
Proof.
  intros RS. induction l as [|i l IH]; intros c c' H I; cbn [schedule] in H; [injection H as <-; exact I|]. destruct (give_turn frames c i) as [c1|] eqn:T; [|discriminate]. apply (IH _ _ H). clear IH H.
  unfold give_turn in T. destruct (nth_error frames i) as [f|] eqn:FE; [|discriminate]. destruct (nth_error (snd c) i) as [g|] eqn:GE; [|discriminate]. destruct (next_access f (fst c) g) as [[s g']|] eqn:A; [|discriminate]. injection T as <-. cbn [fst snd].
  destruct I as (SO & KN & CO). destruct (step_sound _ _ _ _ _ _ _ RS (nth_error_In _ _ FE) SO (KN _ _ GE) A) as (SO' & KN' & M1 & M2 & M3). split; [exact SO'|]. split.
  - intros j g2 E. destruct (Nat.eq_dec j i) as [-> | N]; [rewrite (over_same _ _ _ (some_lt _ _ _ GE)) in E; injection E as <-; exact KN'|]. rewrite (over_other _ _ _ _ (some_lt _ _ _ GE) N) in E. specialize (KN _ _ E). destruct g2; cbn [knows] in *; auto. destruct KN as (Q1 & Q2 & Q3). auto.
  - destruct (step_wire _ _ _ _ _ A) as (W1 & W2). pose proof (count_over _ _ _ g' GE) as C. rewrite W2 in C. lia.
Qed.

(** ** One after the other *)
Lemma fill frames i f : nth_error frames i = Some f -> length f = 160%nat -> forall k n h b w gs, nth_error gs i = Some (Filling n) -> length b = 172%nat -> (n + k <= 160)%nat ->
  schedule frames (mkshared h b w, gs) (repeat i k) = Some (mkshared h (firstn (12 + n) b ++ firstn k (skipn n (map encode_sample f)) ++ skipn (12 + n + k) b) w, overwrite i (Filling (n + k)) gs).
Proof.
  intros FE LF. induction k as [|k IH]; intros n h b w gs GE LB LE.
  - cbn [repeat schedule firstn app]. rewrite !Nat.add_0_r, firstn_skipn. f_equal. f_equal. unfold overwrite. clear -GE. revert i GE. induction gs as [|a gs IH]; intros [|i] GE; try discriminate; cbn in *; [congruence|]. rewrite <- IH by exact GE. reflexivity.
  - cbn [repeat schedule]. unfold give_turn. cbn [fst snd]. rewrite FE, GE. cbn [next_access]. rewrite (proj2 (Nat.ltb_lt n 160)) by lia.
    assert (LG : (i < length gs)%nat) by (eapply some_lt; exact GE). assert (LB2 : (12 + n < length b)%nat) by lia.
    rewrite (IH (S n)); [|apply over_same; exact LG|rewrite over_length by exact LB2; exact LB|lia]. rewrite over_twice by exact LG. replace (S n + k)%nat with (n + S k)%nat by lia. do 3 f_equal.
    assert (NX : skipn n (map encode_sample f) = encode_sample (nth n f 0) :: skipn (S n) (map encode_sample f)).
    { clear -LF LE. assert (H : (n < length f)%nat) by lia. clear LE LF. revert n H. induction f as [|a f IH]; intros [|n] H; cbn [length] in H; try lia; [reflexivity|]. cbn [map skipn nth]. apply IH. lia. }
    rewrite NX. cbn [firstn]. unfold overwrite. set (x := encode_sample _). set (q := firstn k _).
    replace (12 + S n)%nat with (length (firstn (12 + n) b) + 1)%nat at 1 by (rewrite firstn_length_le by lia; lia). rewrite firstn_app_2. cbn [firstn]. rewrite <- app_assoc. cbn [app]. do 3 f_equal.
    rewrite skipn_app. rewrite (firstn_length_le b) by lia. rewrite (skipn_all2 (firstn (12 + n) b)) by (rewrite firstn_length; lia). replace (12 + S n + k - (12 + n))%nat with (S k) by lia. change (skipn k (skipn (S (12 + n)) b) = skipn (12 + n + S k) b). rewrite skip_skip. f_equal. lia.
Qed.
Lemma first_turn frames i f c g c' g' gs rest : nth_error frames i = Some f -> nth_error gs i = Some g -> next_access f c g = Some (c', g') -> schedule frames (c, gs) (i :: rest) = schedule frames (c', overwrite i g' gs) rest.
Proof. intros FE GE A. cbn [schedule]. unfold give_turn. cbn [fst snd]. rewrite FE, GE, A. reflexivity. Qed.
Lemma later_turn frames i f c g c' g' gs rest : nth_error frames i = Some f -> (i < length gs)%nat -> next_access f c g = Some (c', g') -> schedule frames (c, overwrite i g gs) (i :: rest) = schedule frames (c', overwrite i g' gs) rest.
Proof. intros FE LG A. rewrite (first_turn _ _ _ _ _ _ _ _ _ FE (over_same i g gs LG) A). rewrite over_twice by exact LG. reflexivity. Qed.
Definition packet (h : header) (f : list Z) : bytes := header_write (set_pt h ulaw_PT) [] ++ map encode_sample f.
Definition header_after (h : header) : header := set_seq (set_ts (set_pt h ulaw_PT) (u32 (h_ts h + 160))) (u16 (h_seq h + 1)).
Lemma filled (hw rest e : bytes) : length hw = 12%nat -> length rest = 160%nat -> length e = 160%nat ->
  firstn (12 + 0) (hw ++ rest) ++ firstn 160 (skipn 0 e) ++ skipn (12 + 0 + 160) (hw ++ rest) = hw ++ e.
Proof.
  intros LW LR LE. change (12 + 0)%nat with 12%nat. rewrite firstn_app, LW, Nat.sub_diag. rewrite (firstn_all2 hw) by lia. change (firstn 0 rest) with (@nil byte). rewrite app_nil_r. change (skipn 0 e) with e. rewrite (firstn_all2 e) by lia.
  rewrite (skipn_all2 (hw ++ rest)) by (rewrite app_length; lia). rewrite app_nil_r. reflexivity.
Qed.
Lemma one_send frames i f h b w gs : nth_error frames i = Some f -> length f = 160%nat -> nth_error gs i = Some Called -> length b = 172%nat ->
  schedule frames (mkshared h b w, gs) (repeat i 167) = Some (mkshared (header_after h) (packet h f) (w ++ [packet h f]), overwrite i Sent gs).
Proof.
  intros FE LF GE LB. assert (LG : (i < length gs)%nat) by (eapply some_lt; exact GE).
  replace (repeat i 167) with (repeat i 6 ++ repeat i 160 ++ repeat i 1) by (rewrite <- !repeat_app; reflexivity).
  set (b1 := header_write (set_pt h ulaw_PT) [] ++ skipn 12 b). assert (L1 : length b1 = 172%nat) by (unfold b1; rewrite app_length, head_length, skipn_length; lia).
  assert (S6 : schedule frames (mkshared h b w, gs) (repeat i 6) = Some (mkshared (header_after h) b1 w, overwrite i (Filling 0) gs)).
  { cbn [repeat]. erewrite (first_turn _ _ _ _ _ _ _ _ _ FE GE) by reflexivity. do 5 (erewrite (later_turn _ _ _ _ _ _ _ _ _ FE LG) by reflexivity). reflexivity. }
  assert (P : firstn (12 + 0) b1 ++ firstn 160 (skipn 0 (map encode_sample f)) ++ skipn (12 + 0 + 160) b1 = packet h f).
  { unfold packet, b1. apply filled; [reflexivity|rewrite skipn_length; lia|rewrite map_length; exact LF]. }
  eapply schedule_then; [exact S6|]. eapply schedule_then; [exact (fill _ _ _ FE LF 160 0 _ b1 w _ (over_same _ _ _ LG) L1 (le_n _))|]. rewrite P, over_twice by exact LG. cbn [repeat]. erewrite (later_turn _ _ _ _ _ _ _ _ _ FE LG) by reflexivity. reflexivity.
Qed.

(** ** Two at once *)
Definition heads : list nat := [0; 0; 1; 1; 0; 1; 0; 1; 0; 1; 0; 1]%nat.
Definition mixed (h : header) (f1 f2 : list Z) (k : nat) : bytes := header_write (set_pt h ulaw_PT) [] ++ firstn k (map encode_sample f2) ++ skipn k (map encode_sample f1).
Lemma both_headed h f1 f2 b w : schedule [f1; f2] (mkshared h b w, [Called; Called]) heads = Some (mkshared (header_after h) (header_write (set_pt h ulaw_PT) [] ++ skipn 12 b) w, [Filling 0; Filling 0]).
Proof. reflexivity. Qed.
Lemma both_filled h f1 f2 b w k : length f1 = 160%nat -> length f2 = 160%nat -> length b = 172%nat -> (k <= 160)%nat ->
  schedule [f1; f2] (mkshared h b w, [Called; Called]) (heads ++ repeat 0%nat 160 ++ repeat 1%nat k) = Some (mkshared (header_after h) (mixed h f1 f2 k) w, [Filling 160; Filling k]).
Proof.
  intros L1 L2 LB LE. set (b1 := header_write (set_pt h ulaw_PT) [] ++ skipn 12 b). assert (LB1 : length b1 = 172%nat) by (unfold b1; rewrite app_length, head_length, skipn_length; lia).
  assert (P : firstn (12 + 0) b1 ++ firstn 160 (skipn 0 (map encode_sample f1)) ++ skipn (12 + 0 + 160) b1 = packet h f1).
  { unfold packet, b1. apply filled; [reflexivity|rewrite skipn_length; lia|rewrite map_length; exact L1]. }
  assert (LP : length (packet h f1) = 172%nat) by (unfold packet; rewrite app_length, head_length, map_length; lia).
  eapply schedule_then; [exact (both_headed h f1 f2 b w)|]. fold b1.
  eapply schedule_then; [exact (fill [f1; f2] 0 f1 eq_refl L1 160 0 (header_after h) b1 w [Filling 0; Filling 0] eq_refl LB1 (le_n _))|]. rewrite P. change (overwrite 0 (Filling (0 + 160)) [Filling 0; Filling 0]) with [Filling 160; Filling 0].
  rewrite (fill [f1; f2] 1 f2 eq_refl L2 k 0 (header_after h) (packet h f1) w [Filling 160; Filling 0] eq_refl LP LE). change (overwrite 1 (Filling (0 + k)) [Filling 160; Filling 0]) with [Filling 160; Filling k]. do 3 f_equal.
Qed.

(** * C112 *)
(** Whatever the schedule: as many datagrams have left as Sends have returned, each with the type and source of the session, and each of its samples is one that a goroutine gave for that place. *)
Theorem rtp_senders_whole : forall h frames l c gs, in_range h -> schedule frames (all_called h frames) l = Some (c, gs) ->
  length (sh_wire c) = length (filter is_sent gs) /\ Forall (of_frames h frames) (sh_wire c).
Proof.
  intros h frames l c gs (R1 & R2 & R3 & R4) H. destruct (along h frames l R4 _ _ H) as ((_ & _ & W) & _ & C); [|auto]. cbn [fst snd all_called]. split; [|split].
  - unfold sound, kept_header. cbn [sh_hdr sh_buf sh_wire]. repeat split; try lia; constructor.
  - intros i g E. apply nth_error_In in E. rewrite (repeat_spec _ _ _ E). exact I.
  - cbn [sh_wire length]. induction (length frames) as [|n IH]; [reflexivity|exact IH].
Qed.
(** No Send waits for another: one which has not returned can go on, whatever the others do. *)
Theorem rtp_senders_never_wait : forall h frames l c gs i f, schedule frames (all_called h frames) l = Some (c, gs) -> nth_error frames i = Some f ->
  exists g, nth_error gs i = Some g /\ (g <> Sent -> exists c', give_turn frames (c, gs) i = Some c').
Proof.
  intros h frames l c gs i f H FE. assert (L : forall c0 c1, schedule frames c0 l = Some c1 -> length (snd c1) = length (snd c0)).
  { clear. induction l as [|i l IH]; intros c0 c1 H; cbn [schedule] in H; [injection H as <-; reflexivity|]. destruct (give_turn frames c0 i) as [c2|] eqn:T; [|discriminate]. rewrite (IH _ _ H). unfold give_turn in T.
    destruct (nth_error frames i); [|discriminate]. destruct (nth_error (snd c0) i) eqn:E; [|discriminate]. destruct (next_access _ _ _) as [[s0 g']|]; [|discriminate]. injection T as <-. cbn [snd]. apply over_length. eapply some_lt. exact E. }
  specialize (L _ _ H). cbn [snd all_called] in L. rewrite repeat_length in L. destruct (nth_error gs i) as [g|] eqn:GE; [|apply nth_error_None in GE; apply some_lt in FE; lia]. exists g. split; [reflexivity|]. intros N.
  unfold give_turn. cbn [fst snd]. rewrite FE, GE. destruct c as [h' b w]. destruct g; cbn [next_access]; eauto; [|congruence]. destruct (Nat.ltb n 160); eauto.
Qed.
(** Calls that do not overlap, in whatever order they come, send what one goroutine sends that makes them in that order. *)
Theorem rtp_senders_in_turn : forall h frames order, Forall (fun f => length f = 160%nat) frames -> NoDup order -> (forall i, In i order -> (i < length frames)%nat) ->
  exists c, schedule frames (all_called h frames) (concat (map (fun i => repeat i 167) order)) = Some c /\
  map (fun p => (true, p)) (sh_wire (fst c)) = snd (fst (run_ops (mksess true h) (map (fun i => OpSend (nth i frames [])) order) [])) /\
  sh_hdr (fst c) = hdr (fst (fst (run_ops (mksess true h) (map (fun i => OpSend (nth i frames [])) order) []))).
Proof.
  intros h frames order LF ND IN.
  assert (G : forall order h b w gs, NoDup order -> (forall i, In i order -> (i < length frames)%nat /\ nth_error gs i = Some Called) -> length b = 172%nat ->
    exists c, schedule frames (mkshared h b w, gs) (concat (map (fun i => repeat i 167) order)) = Some c /\
    map (fun p => (true, p)) (sh_wire (fst c)) = map (fun p => (true, p)) w ++ snd (fst (run_ops (mksess true h) (map (fun i => OpSend (nth i frames [])) order) [])) /\
    sh_hdr (fst c) = hdr (fst (fst (run_ops (mksess true h) (map (fun i => OpSend (nth i frames [])) order) [])))).
  { clear order ND IN h. induction order as [|i order IH]; intros h b w gs ND IN LB.
    - cbn [map concat schedule run_ops fst snd]. eexists. split; [reflexivity|]. cbn [fst sh_wire sh_hdr hdr]. rewrite app_nil_r. auto.
    - inversion ND as [|? ? NI ND']; subst. destruct (IN i (or_introl eq_refl)) as (LI & GE). destruct (nth_error frames i) as [f|] eqn:FE; [|apply nth_error_None in FE; lia].
      assert (L160 : length f = 160%nat) by (rewrite Forall_forall in LF; apply LF; eapply nth_error_In; exact FE).
      cbn [map concat]. rewrite schedule_app, (one_send _ _ _ _ _ _ _ FE L160 GE LB).
      destruct (IH (header_after h) (packet h f) (w ++ [packet h f]) (overwrite i Sent gs) ND') as (c & S & W & H).
      + intros j J. destruct (IN j (or_intror J)) as (LJ & GJ). split; [exact LJ|]. rewrite over_other; [exact GJ|eapply some_lt; exact GE|intros ->; exact (NI J)].
      + unfold packet. rewrite app_length, head_length, map_length. lia.
      + exists c. split; [exact S|]. rewrite (nth_error_nth _ _ [] FE). cbn [run_ops do_op]. unfold RtpModel.Send. cbn [live negb hdr next_ok tl]. fold (packet h f). change (set_seq _ _) with (header_after h). cbv zeta.
        destruct (run_ops (mksess true (header_after h)) (map (fun i => OpSend (nth i frames [])) order) []) as [[s2 ps2] o2]. cbn [fst snd] in *. split; [|exact H]. rewrite W, map_app, <- app_assoc. reflexivity. }
  unfold all_called. destruct (G order h (repeat x00 172) [] (repeat Called (length frames)) ND) as (c & S & W & H).
  - intros i I. split; [exact (IN i I)|]. specialize (IN i I). clear -IN. revert i IN. induction (length frames) as [|n IH]; intros [|i] IN; try lia; [reflexivity|]. cbn [repeat nth_error]. apply IH. lia.
  - reflexivity.
  - exists c. auto.
Qed.
(** But two at once may send a datagram of which the first k samples are the one's and the others the other's, for any k... *)
Theorem rtp_senders_mixed_refuted : forall h f1 f2 k, length f1 = 160%nat -> length f2 = 160%nat -> (k <= 160)%nat -> exists l c gs,
  schedule [f1; f2] (all_called h [f1; f2]) l = Some (c, gs) /\ sh_wire c = [header_write (set_pt h 0) [] ++ firstn k (map encode_sample f2) ++ skipn k (map encode_sample f1)].
Proof.
  intros h f1 f2 k L1 L2 LE. exists ((heads ++ repeat 0%nat 160 ++ repeat 1%nat k) ++ [0%nat]). do 2 eexists. split.
  - eapply schedule_then; [exact (both_filled h f1 f2 (repeat x00 172) [] k L1 L2 eq_refl LE)|]. erewrite (first_turn _ 0%nat f1 _ (Filling 160)) by reflexivity. reflexivity.
  - reflexivity.
Qed.
(** ... or send one of the frames twice and the other never, both under the same sequence number and time. *)
Theorem rtp_senders_lost_refuted : forall h f1 f2, length f1 = 160%nat -> length f2 = 160%nat -> exists l c p, let alone := RtpModel.Send (mksess true h) f2 [] in
  schedule [f1; f2] (all_called h [f1; f2]) l = Some (c, [Sent; Sent]) /\ sh_wire c = [p; p] /\ snd (fst (fst alone)) = [(true, p)] /\ sh_hdr c = hdr (fst (fst (fst alone))).
Proof.
  intros h f1 f2 L1 L2. exists ((heads ++ repeat 0%nat 160 ++ repeat 1%nat 160) ++ [0%nat; 1%nat]). eexists. exists (mixed h f1 f2 160). cbv zeta. split; [|split; [|split]].
  - eapply schedule_then; [exact (both_filled h f1 f2 (repeat x00 172) [] 160 L1 L2 eq_refl (le_n _))|]. erewrite (first_turn _ 0%nat f1 _ (Filling 160)) by reflexivity. erewrite (first_turn _ 1%nat f2 _ (Filling 160)) by reflexivity. reflexivity.
  - reflexivity.
  - unfold mixed. rewrite firstn_all2, skipn_all2 by (rewrite map_length; lia). rewrite app_nil_r. reflexivity.
  - reflexivity.
Qed.
(** Silence and a loud tone through a new session: in one schedule the listener gets half of each, in another the tone twice. *)
Theorem rtp_senders_example : let quiet := repeat 0 160 in let loud := repeat 8000 160 in
  in_range (hdr (new_session 7)) /\ encode_sample 0 <> encode_sample 8000 /\
  (exists l c gs, schedule [quiet; loud] (all_called (hdr (new_session 7)) [quiet; loud]) l = Some (c, gs) /\ map f_payload (sh_wire c) = [repeat (encode_sample 8000) 80 ++ repeat (encode_sample 0) 80]) /\
  (exists l c, schedule [quiet; loud] (all_called (hdr (new_session 7)) [quiet; loud]) l = Some (c, [Sent; Sent]) /\ map f_payload (sh_wire c) = [repeat (encode_sample 8000) 160; repeat (encode_sample 8000) 160] /\ map f_seq (sh_wire c) = [666; 666]).
Proof.
  intros quiet loud. split; [unfold in_range; cbn; lia|]. split; [vm_compute; discriminate|]. split.
  - destruct (rtp_senders_mixed_refuted (hdr (new_session 7)) quiet loud 80 eq_refl eq_refl) as (l & c & gs & S & W); [lia|]. exists l, c, gs. split; [exact S|]. rewrite W. vm_compute. reflexivity.
  - destruct (rtp_senders_lost_refuted (hdr (new_session 7)) quiet loud eq_refl eq_refl) as (l & c & p & S & W & A & _). exists l, c. split; [exact S|]. rewrite W. injection A as <-. vm_compute. split; reflexivity.
Qed.

(** A digit on its own is what the model of SendDTMF sends. *)
Theorem digit_alone : forall h digit code, in_range h -> CharToDtmf digit = Some code ->
  SendDTMF (mksess true h) digit [] = (mksess true (snd (dtmf_from (dtmf_begun h) (dtmf_payloads code))), map (fun p => (true, p)) (fst (dtmf_from (dtmf_begun h) (dtmf_payloads code))), [], None).
Proof.
  intros h digit code _ C. destruct ((dtmfCodes digit =? 0) && negb (beq digit "0")) eqn:V; [rewrite (invalid_digit_code digit V) in C; discriminate|].
  destruct (valid_digit_code digit V) as [C' _]. rewrite C in C'. injection C' as ->. unfold SendDTMF. cbv zeta. rewrite V. cbn [live negb hdr]. reflexivity.
Qed.
Lemma pt_written h rest : in_range h -> f_pt (header_write h [] ++ rest) = h_pt h.
Proof. intros R. pose proof (write_layout h rest R) as W. cbv zeta in W. destruct W as (_ & _ & _ & _ & _ & _ & W & _). exact W. Qed.
Lemma digit_types pls : forall h, in_range h -> map f_pt (fst (dtmf_from h pls)) = repeat (h_pt h) (length pls) /\ in_range (snd (dtmf_from h pls)).
Proof.
  induction pls as [|pl pls IH]; intros h R; [split; [reflexivity|exact R]|]. cbn [dtmf_from]. set (h1 := set_mark _ _).
  assert (R1 : in_range h1) by (destruct R as (R1 & R2 & R3 & R4); unfold h1, in_range; cbn; repeat split; try lia; unfold u16; apply Z.mod_pos_bound; lia).
  destruct (IH h1 R1) as (E & R2). destruct (dtmf_from h1 pls) as [ps h2] eqn:D. cbn [fst snd map length repeat] in *. split; [|exact R2]. rewrite (pt_written h pl R). f_equal. exact E.
Qed.
(** When a frame is sent in the meantime, what is left of the digit is not sent as an event but as sound: the listener never hears its end. *)
Theorem digit_interrupted_refuted : forall h code frame k, in_range h -> (1 <= k <= 6)%nat ->
  map f_pt (digit_and_frame h code frame k) = repeat 101 k ++ [0] ++ repeat 0 (7 - k).
Proof.
  intros h code frame k R K. unfold digit_and_frame. assert (RB : in_range (dtmf_begun h)) by (destruct R as (R1 & R2 & R3 & R4); unfold in_range, dtmf_begun; cbn [set_mark set_pt h_pt h_seq h_ts h_ssrc]; unfold dtmf_PT; repeat split; lia).
  assert (LP : length (dtmf_payloads code) = 7%nat) by reflexivity. destruct (digit_types (firstn k (dtmf_payloads code)) _ RB) as (E & R1). rewrite firstn_length_le in E by lia.
  destruct (dtmf_from (dtmf_begun h) (firstn k (dtmf_payloads code))) as [ps h1]. cbn [fst snd] in *. unfold RtpModel.Send. cbn [live negb hdr next_ok tl]. cbv zeta. set (h2 := set_seq _ _).
  assert (RT : in_range (set_pt h1 ulaw_PT)) by (destruct R1 as (Q1 & Q2 & Q3 & Q4); unfold in_range; cbn [set_mark set_pt h_pt h_seq h_ts h_ssrc]; unfold ulaw_PT; repeat split; lia).
  assert (R2 : in_range h2) by (destruct R1 as (Q1 & Q2 & Q3 & Q4); unfold h2, in_range; cbn [set_mark set_pt set_seq set_ts h_pt h_seq h_ts h_ssrc]; unfold ulaw_PT; repeat split; try lia; unfold u16, u32; apply Z.mod_pos_bound; lia).
  destruct (digit_types (skipn k (dtmf_payloads code)) h2 R2) as (E2 & _). rewrite skipn_length, LP in E2. rewrite !map_app, E, E2. cbn [map snd]. rewrite pt_written by exact RT. reflexivity.
Qed.
Example digit_interrupted_example : map f_pt (digit_and_frame (hdr (new_session 7)) 5 (repeat 0 160) 3) = [101; 101; 101; 0; 0; 0; 0; 0].
Proof. apply (digit_interrupted_refuted (hdr (new_session 7)) 5 (repeat 0 160) 3); [vm_compute; intuition congruence|lia]. Qed.

Print Assumptions digit_alone.
Print Assumptions digit_interrupted_refuted.
Print Assumptions rtp_senders_whole.
Print Assumptions rtp_senders_never_wait.
Print Assumptions rtp_senders_in_turn.
Print Assumptions rtp_senders_mixed_refuted.
Print Assumptions rtp_senders_lost_refuted.
Print Assumptions rtp_senders_example.
