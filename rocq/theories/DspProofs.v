(** Proofs about the assembly routines of dsp/dsp_amd64.s. *)
From Verif Require Import Bytes BytesLemmas Asm DspModel.
Local Open Scope Z_scope.

(** ** Bounded enumeration of integers *)
Fixpoint forall_from (n : nat) (lo : Z) (f : Z -> bool) : bool :=
  match n with O => true | S n' => f lo && forall_from n' (lo + 1) f end.

Lemma forall_from_spec n : forall lo f, forall_from n lo f = true ->
  forall x, lo <= x < lo + Z.of_nat n -> f x = true.
Proof.
  induction n as [|n IH]; intros lo f H x Hx; [lia|].
  cbn [forall_from] in H. apply andb_true_iff in H. destruct H as [H1 H2].
  destruct (Z.eq_dec x lo) as [->|]; [exact H1|].
  apply (IH (lo + 1) f H2). lia.
Qed.

(** ** The result does not depend on the registers at entry *)
Definition eqs (s t : cpu) : Prop := s = t.

Lemma run_step fuel prog args s pc i s' pc' :
  nth_error prog pc = Some i -> exec args i s pc = Some (s', Some pc') ->
  run (S fuel) prog args s pc = run fuel prog args s' pc'.
Proof. intros H1 H2. cbn [run]. rewrite H1, H2. reflexivity. Qed.

Lemma run_halt fuel prog args s pc i s' :
  nth_error prog pc = Some i -> exec args i s pc = Some (s', None) ->
  run (S fuel) prog args s pc = Halt s'.
Proof. intros H1 H2. cbn [run]. rewrite H1, H2. reflexivity. Qed.

Ltac norm := cbn [getr setr opv setflags setret setx0 setmem
                   rax rbx rcx rdx r13 x0 sf zf ovf mem ret entry].
Ltac step1 := erewrite run_step; [|reflexivity|cbn [exec]; norm; reflexivity].
Ltac halt1 := erewrite run_halt; [|reflexivity|reflexivity].

Ltac stepz := cbn [run nth_error exec getr setr opv setflags setret setx0 setmem
                   rax rbx rcx rdx r13 x0 sf zf ovf mem ret entry].

(** Symbolic execution: closed forms of the two codec routines. *)
Definition enc_formula (x : Z) : Z :=
  let a0 := u64 x in
  let neg := s64 (s64 a0 - s64 (u64 0)) <? 0 in
  let ax := if neg then u64 (u64 ULAW_BIAS - a0) else u64 (a0 + u64 ULAW_BIAS) in
  let m := if neg then u64 0x7F else u64 0xFF in
  let bx := u64 (Z.log2 (Z.lor ax (u64 0xFF)) - u64 7) in
  let d := s64 bx - s64 (u64 8) in
  if Bool.eqb (s64 d <? 0) (negb (s64 d =? d)) then s64 (Z.lxor m (u64 0x7F))
  else s64 (Z.lxor (Z.lor (Z.land (u64 (Z.shiftr (s64 ax) (u64 (bx + u64 3) mod 64))) (u64 0xF))
                          (u64 (Z.shiftl bx (u64 4 mod 64)))) m).

Lemma lor_255_nonzero a : 0 <= a -> (Z.lor a (u64 0xFF) =? 0) = false.
Proof.
  intros Ha. apply Z.eqb_neq. intros H.
  apply (f_equal (fun z => Z.testbit z 0)) in H.
  rewrite Z.lor_spec in H. cbn in H. rewrite orb_true_r in H. discriminate.
Qed.

Lemma u64_nonneg z : 0 <= u64 z.
Proof. unfold u64. apply Z.mod_pos_bound. lia. Qed.

Opaque u64 s64 Z.log2 Z.lor Z.land Z.lxor Z.shiftl Z.shiftr.

Lemma enc_run : forall x a b c d e m,
  retval (run 64 enc_prog (fun _ => x) (entry a b c d e m) 0) = Some (enc_formula x).
Proof.
  intros. unfold enc_formula. cbv zeta. unfold entry.
  do 3 step1.
  destruct (s64 (s64 (u64 x) - s64 (u64 0)) <? 0) eqn:Hn.
  - do 6 step1.
    erewrite run_step; [|reflexivity|cbn [exec]; norm; rewrite lor_255_nonzero by apply u64_nonneg; norm; reflexivity].
    do 3 step1.
    match goal with |- context [if Bool.eqb ?p ?q then 25%nat else _] =>
      destruct (Bool.eqb p q) eqn:Hl end.
    + do 2 step1. halt1. reflexivity.
    + do 8 step1. halt1. reflexivity.
  - do 5 step1.
    erewrite run_step; [|reflexivity|cbn [exec]; norm; rewrite lor_255_nonzero by apply u64_nonneg; norm; reflexivity].
    do 3 step1.
    match goal with |- context [if Bool.eqb ?p ?q then 25%nat else _] =>
      destruct (Bool.eqb p q) eqn:Hl end.
    + do 2 step1. halt1. reflexivity.
    + do 8 step1. halt1. reflexivity.
Qed.

Definition dec_formula (u : Z) : Z :=
  let n := u64 (Z.lnot (u64 u)) in
  let ax := u64 (Z.shiftl (u64 (u64 (Z.shiftl (Z.land n (u64 0x0F)) (u64 3 mod 64)) + u64 0x84))
                 (u64 (Z.shiftr (s64 (Z.land n (u64 0x70))) (u64 4 mod 64)) mod 64)) in
  if u64 (s64 (Z.land n (u64 0x80)) - s64 (u64 0)) =? 0
  then s64 (u64 (ax - u64 0x84)) else s64 (u64 (u64 0x84 - ax)).

Lemma dec_run : forall x a b c d e m,
  retval (run 64 dec_prog (fun _ => x) (entry a b c d e m) 0) = Some (dec_formula x).
Proof.
  intros. unfold dec_formula. cbv zeta. unfold entry.
  do 13 step1.
  match goal with |- context [if ?p then 17%nat else _] => destruct p eqn:Hn end.
  - do 2 step1. halt1. reflexivity.
  - do 3 step1. halt1. reflexivity.
Qed.
Transparent u64 s64 Z.log2 Z.lor Z.land Z.lxor Z.shiftl Z.shiftr.

Lemma enc_val x : LinearToUlaw x = Some (enc_formula x).
Proof. apply enc_run. Qed.
Lemma dec_val x : UlawToLinear x = Some (dec_formula x).
Proof. apply dec_run. Qed.

(** ** Closed form of the encoder on the int16 range *)
(** Magnitude with bias, segment and quantisation cell of a sample. *)
Definition mag (x : Z) : Z := Z.abs x + 132.

Lemma u64_id z : 0 <= z < 18446744073709551616 -> u64 z = z.
Proof. intros. unfold u64. apply Z.mod_small. lia. Qed.

Lemma s64_id z : -9223372036854775808 <= z < 9223372036854775808 -> s64 z = z.
Proof. apply i64_id. Qed.

Lemma s64_u64 z : s64 (u64 z) = s64 z.
Proof. unfold s64, i64, u64. rewrite Z.mod_mod by lia. reflexivity. Qed.

Definition code_of (neg : bool) (e q : Z) : Z :=
  s64 (Z.lxor (Z.lor (Z.land (u64 q) (u64 0xF)) (u64 (Z.shiftl e (u64 4 mod 64))))
              (if neg then u64 0x7F else u64 0xFF)).

Lemma enc_segment x e q : -32768 <= x <= 32767 -> 0 <= e < 8 -> 16 <= q < 32 ->
  q * 2 ^ (e + 3) <= mag x < (q + 1) * 2 ^ (e + 3) ->
  enc_formula x = code_of (x <? 0) e q.
Proof.
  intros Hx He Hq Hm. unfold enc_formula, code_of. cbv zeta.
  change (s64 (u64 0)) with 0. change (u64 ULAW_BIAS) with 132. change (u64 7) with 7.
  change (s64 (u64 8)) with 8. change (u64 3) with 3.
  assert (Hsx : s64 (s64 (u64 x) - 0) = x) by (rewrite s64_u64, Z.sub_0_r; rewrite !(s64_id x) by (rewrite ?s64_id; lia); reflexivity).
  rewrite Hsx. clear Hsx.
  assert (Hax : (if x <? 0 then u64 (132 - u64 x) else u64 (u64 x + 132)) = mag x).
  { unfold mag, u64. destruct (Z.ltb_spec x 0).
    - rewrite Zminus_mod_idemp_r. rewrite Z.mod_small by lia. lia.
    - rewrite Zplus_mod_idemp_l. rewrite Z.mod_small by lia. lia. }
  rewrite Hax. clear Hax.
  assert (Hp : 2 ^ (e + 7) = 16 * 2 ^ (e + 3)) by
    (replace (e + 7) with (4 + (e + 3)) by lia; rewrite Z.pow_add_r by lia; reflexivity).
  assert (Hp8 : 2 ^ (e + 8) = 32 * 2 ^ (e + 3)) by
    (replace (e + 8) with (5 + (e + 3)) by lia; rewrite Z.pow_add_r by lia; reflexivity).
  assert (Hpos : 0 < 2 ^ (e + 3)) by (apply Z.pow_pos_nonneg; lia).
  assert (Hlog : Z.log2 (mag x) = e + 7).
  { apply Z.log2_unique; [lia|]. replace (Z.succ (e + 7)) with (e + 8) by lia. nia. }
  rewrite Z.log2_lor by (first [unfold mag; lia | vm_compute; discriminate]).
  change (Z.log2 (u64 255)) with 7. rewrite Hlog.
  rewrite Z.max_l by lia. replace (e + 7 - 7) with e by lia.
  rewrite (u64_id e) by lia. rewrite (s64_id e) by lia.
  rewrite (s64_id (e - 8)) by lia.
  replace (e - 8 <? 0) with true by lia. rewrite Z.eqb_refl. cbn [negb Bool.eqb].
  rewrite (u64_id (e + 3)) by lia. rewrite (Z.mod_small (e + 3)) by lia.
  rewrite (s64_id (mag x)) by (unfold mag; lia).
  rewrite Z.shiftr_div_pow2 by lia.
  replace (mag x / 2 ^ (e + 3)) with q; [reflexivity|].
  apply (Z.div_unique_pos _ _ _ (mag x - q * 2 ^ (e + 3))); nia.
Qed.

Lemma enc_loud x : -32768 <= x <= 32767 -> 32768 <= mag x ->
  enc_formula x = (if x <? 0 then 0 else 128).
Proof.
  intros Hx Hm. unfold enc_formula. cbv zeta.
  change (s64 (u64 0)) with 0. change (u64 ULAW_BIAS) with 132. change (u64 7) with 7.
  change (s64 (u64 8)) with 8. change (u64 3) with 3.
  assert (Hsx : s64 (s64 (u64 x) - 0) = x) by (rewrite s64_u64, Z.sub_0_r; rewrite !(s64_id x) by (rewrite ?s64_id; lia); reflexivity).
  rewrite Hsx. clear Hsx.
  assert (Hax : (if x <? 0 then u64 (132 - u64 x) else u64 (u64 x + 132)) = mag x).
  { unfold mag, u64. destruct (Z.ltb_spec x 0).
    - rewrite Zminus_mod_idemp_r. rewrite Z.mod_small by lia. lia.
    - rewrite Zplus_mod_idemp_l. rewrite Z.mod_small by lia. lia. }
  rewrite Hax. clear Hax.
  assert (Hlog : Z.log2 (mag x) = 15).
  { apply Z.log2_unique; [lia|]. unfold mag in *. lia. }
  rewrite Z.log2_lor by (first [unfold mag; lia | vm_compute; discriminate]).
  change (Z.log2 (u64 255)) with 7. rewrite Hlog.
  change (u64 (Z.max 15 7 - 7)) with 8. change (s64 8 - 8) with 0.
  destruct (x <? 0); reflexivity.
Qed.

(** Every sample lies in exactly one of the 128 cells, or is clipped. *)
Lemma cell_exists x : -32768 <= x <= 32767 ->
  32768 <= mag x \/
  exists e q, 0 <= e < 8 /\ 16 <= q < 32 /\ q * 2 ^ (e + 3) <= mag x < (q + 1) * 2 ^ (e + 3).
Proof.
  intros Hx. destruct (Z_lt_le_dec (mag x) 32768) as [Hm|Hm]; [right|left; exact Hm].
  assert (Hlo : 132 <= mag x) by (unfold mag; lia).
  pose proof (Z.log2_spec (mag x) ltac:(lia)) as [H1 H2].
  assert (7 <= Z.log2 (mag x)) by (change 7 with (Z.log2 132); apply Z.log2_le_mono; lia).
  assert (Z.log2 (mag x) <= 14) by (change 14 with (Z.log2 32767); apply Z.log2_le_mono; lia).
  set (e := Z.log2 (mag x) - 7) in *.
  assert (Hp : 2 ^ (e + 7) = 16 * 2 ^ (e + 3)) by
    (replace (e + 7) with (4 + (e + 3)) by lia; rewrite Z.pow_add_r by lia; reflexivity).
  assert (Hp8 : 2 ^ (e + 8) = 32 * 2 ^ (e + 3)) by
    (replace (e + 8) with (5 + (e + 3)) by lia; rewrite Z.pow_add_r by lia; reflexivity).
  assert (Hpos : 0 < 2 ^ (e + 3)) by (apply Z.pow_pos_nonneg; lia).
  replace (Z.log2 (mag x)) with (e + 7) in H1, H2 by lia.
  replace (Z.succ (e + 7)) with (e + 8) in H2 by lia.
  exists e, (mag x / 2 ^ (e + 3)).
  pose proof (Z.mul_div_le (mag x) (2 ^ (e + 3)) Hpos).
  pose proof (Z.mul_succ_div_gt (mag x) (2 ^ (e + 3)) Hpos).
  assert (16 <= mag x / 2 ^ (e + 3)) by (apply Z.div_le_lower_bound; lia).
  assert (mag x / 2 ^ (e + 3) < 32) by (apply Z.div_lt_upper_bound; lia).
  nia.
Qed.

(** Decoding a cell gives its midpoint (checked for each of the 256 cells). *)
Definition cell_ok (neg : bool) (e q : Z) : bool :=
  let u := code_of neg e q in
  let y := dec_formula u in
  (0 <=? u) && (u <? 256) &&
  (y =? (if neg then -1 else 1) * ((2 * q + 1) * 2 ^ (e + 2) - 132)).

Lemma cells_ok : forall_from 8 0 (fun e => forall_from 16 16 (fun q => cell_ok true e q && cell_ok false e q)) = true.
Proof. vm_compute. reflexivity. Qed.

Lemma cell neg e q : 0 <= e < 8 -> 16 <= q < 32 -> cell_ok neg e q = true.
Proof.
  intros He Hq.
  pose proof (forall_from_spec _ _ _ cells_ok e ltac:(lia)) as H. cbv beta in H.
  pose proof (forall_from_spec _ _ _ H q ltac:(lia)) as H'. cbv beta in H'.
  apply andb_true_iff in H'. destruct neg; tauto.
Qed.

Definition codec (x : Z) : Z := dec_formula (enc_formula x).
Lemma dec_enc x : UlawToLinear (enc_formula x) = Some (codec x).
Proof. unfold codec. generalize (enc_formula x). exact dec_val. Qed.

Definition sgn (x : Z) : Z := if x <? 0 then -1 else 1.

Lemma codec_cell x e q : -32768 <= x <= 32767 -> 0 <= e < 8 -> 16 <= q < 32 ->
  q * 2 ^ (e + 3) <= mag x < (q + 1) * 2 ^ (e + 3) ->
  0 <= enc_formula x < 256 /\
  codec x = sgn x * ((2 * q + 1) * 2 ^ (e + 2) - 132).
Proof.
  intros Hx He Hq Hm. unfold codec. rewrite (enc_segment x e q Hx He Hq Hm).
  pose proof (cell (x <? 0) e q He Hq) as Hc. unfold cell_ok in Hc. cbv zeta in Hc.
  rewrite !andb_true_iff in Hc. destruct Hc as [[H1 H2] H3].
  apply Z.eqb_eq in H3. rewrite H3. unfold sgn. split; [lia|reflexivity].
Qed.

Lemma codec_loud x : -32768 <= x <= 32767 -> 32768 <= mag x ->
  0 <= enc_formula x < 256 /\ codec x = sgn x * 32124.
Proof.
  intros Hx Hm. unfold codec, sgn. rewrite (enc_loud x Hx Hm).
  destruct (x <? 0); vm_compute; intuition discriminate.
Qed.

Lemma pow_step e : 0 <= e -> 2 ^ (e + 3) = 2 * 2 ^ (e + 2).
Proof. intros. replace (e + 3) with (1 + (e + 2)) by lia. rewrite Z.pow_add_r by lia. reflexivity. Qed.

Lemma enc_byte x : -32768 <= x <= 32767 -> 0 <= enc_formula x < 256.
Proof.
  intros Hx. destruct (cell_exists x Hx) as [H|(e & q & He & Hq & Hm)].
  - apply (codec_loud x Hx H).
  - apply (codec_cell x e q Hx He Hq Hm).
Qed.

(** The magnitude of the decoded value is the midpoint of the sample's cell. *)
Lemma codec_error x : -32768 <= x <= 32767 ->
  Z.abs x <= 32635 ->
  Z.abs (codec x - x) <= 4 * 2 ^ (Z.log2 (Z.abs x + 132) - 7) /\ 0 <= sgn x * codec x.
Proof.
  intros Hx Hc. destruct (cell_exists x Hx) as [H|(e & q & He & Hq & Hm)].
  - unfold mag in H. lia.
  - destruct (codec_cell x e q Hx He Hq Hm) as [_ ->].
    assert (Hpos : 0 < 2 ^ (e + 2)) by (apply Z.pow_pos_nonneg; lia).
    pose proof (pow_step e ltac:(lia)) as Hs.
    assert (Hlog : Z.log2 (Z.abs x + 132) = e + 7).
    { apply Z.log2_unique; [lia|].
      replace (Z.succ (e + 7)) with (5 + (e + 3)) by lia.
      replace (e + 7) with (4 + (e + 3)) by lia.
      rewrite (Z.pow_add_r 2 4 (e + 3)), (Z.pow_add_r 2 5 (e + 3)) by lia. unfold mag in Hm.
      change (2 ^ 4) with 16. change (2 ^ 5) with 32. nia. }
    rewrite Hlog. replace (e + 7 - 7) with e by lia.
    assert (H2 : 2 ^ (e + 2) = 4 * 2 ^ e) by (rewrite Z.pow_add_r by lia; lia).
    assert (He1 : 1 <= 2 ^ e) by (pose proof (Z.pow_pos_nonneg 2 e); lia).
    unfold mag, sgn in *. split.
    + destruct (Z.ltb_spec x 0); nia.
    + destruct (Z.ltb_spec x 0); nia.
Qed.

Lemma codec_clip x : -32768 <= x <= 32767 -> 32635 < Z.abs x -> codec x = sgn x * 32124.
Proof. intros Hx H. apply codec_loud; [exact Hx|unfold mag; lia]. Qed.

Lemma codec_nonneg_mono x y : 0 <= x -> x <= y -> y <= 32767 -> codec x <= codec y.
Proof.
  intros Hx Hxy Hy.
  destruct (cell_exists x ltac:(lia)) as [Lx|(e & q & He & Hq & Hm)].
  - assert (Ly : 32768 <= mag y) by (unfold mag in *; lia).
    destruct (codec_loud x ltac:(lia) Lx) as [_ ->]. destruct (codec_loud y ltac:(lia) Ly) as [_ ->].
    unfold sgn. replace (x <? 0) with false by lia. replace (y <? 0) with false by lia. lia.
  - destruct (codec_cell x e q ltac:(lia) He Hq Hm) as [_ ->].
    assert (Hp : 0 < 2 ^ (e + 2)) by (apply Z.pow_pos_nonneg; lia).
    pose proof (pow_step e ltac:(lia)) as Hs.
    assert (Hsx : sgn x = 1) by (unfold sgn; replace (x <? 0) with false by lia; reflexivity).
    assert (Hsy : sgn y = 1) by (unfold sgn; replace (y <? 0) with false by lia; reflexivity).
    assert (Hmag : mag x <= mag y) by (unfold mag; lia).
    destruct (cell_exists y ltac:(lia)) as [Ly|(e' & q' & He' & Hq' & Hm')].
    + destruct (codec_loud y ltac:(lia) Ly) as [_ ->]. rewrite Hsx, Hsy.
      assert (2 ^ (e + 2) <= 2 ^ 9) by (apply Z.pow_le_mono_r; lia).
      change (2 ^ 9) with 512 in *. nia.
    + destruct (codec_cell y e' q' ltac:(lia) He' Hq' Hm') as [_ ->]. rewrite Hsx, Hsy.
      assert (Hp' : 0 < 2 ^ (e' + 2)) by (apply Z.pow_pos_nonneg; lia).
      pose proof (pow_step e' ltac:(lia)) as Hs'.
      destruct (Z.lt_trichotomy e e') as [Hlt|[Heq|Hgt]].
      * assert (2 ^ (e' + 2) >= 2 * 2 ^ (e + 2)).
        { replace (2 * 2 ^ (e + 2)) with (2 ^ (1 + (e + 2))) by (rewrite Z.pow_add_r by lia; reflexivity).
          apply Z.le_ge, Z.pow_le_mono_r; lia. }
        nia.
      * subst e'. assert (q <= q') by nia. nia.
      * assert (2 ^ (e + 2) >= 2 * 2 ^ (e' + 2)).
        { replace (2 * 2 ^ (e' + 2)) with (2 ^ (1 + (e' + 2))) by (rewrite Z.pow_add_r by lia; reflexivity).
          apply Z.le_ge, Z.pow_le_mono_r; lia. }
        exfalso. nia.
Qed.

Lemma codec_odd x : 0 < x <= 32767 -> codec (- x) = - codec x.
Proof.
  intros Hx.
  assert (Hmag : mag (- x) = mag x) by (unfold mag; lia).
  assert (Hs1 : sgn x = 1) by (unfold sgn; replace (x <? 0) with false by lia; reflexivity).
  assert (Hs2 : sgn (- x) = -1) by (unfold sgn; replace (- x <? 0) with true by lia; reflexivity).
  destruct (cell_exists x ltac:(lia)) as [Lx|(e & q & He & Hq & Hm)].
  - destruct (codec_loud x ltac:(lia) Lx) as [_ ->].
    destruct (codec_loud (- x) ltac:(lia)) as [_ ->]; [lia|]. rewrite Hs1, Hs2. lia.
  - destruct (codec_cell x e q ltac:(lia) He Hq Hm) as [_ ->].
    destruct (codec_cell (- x) e q ltac:(lia) He Hq) as [_ ->]; [lia|]. rewrite Hs1, Hs2. lia.
Qed.

Lemma codec_min : codec (-32768) = -32124.
Proof. vm_compute. reflexivity. Qed.
Lemma codec_max : codec 32767 = 32124.
Proof. vm_compute. reflexivity. Qed.
Lemma codec_0 : codec 0 = 0.
Proof. vm_compute. reflexivity. Qed.

Lemma codec_neg_bounds x : -32768 <= x < 0 -> codec x <= 0 /\ (x = -32768 \/ codec x = - codec (- x)).
Proof.
  intros Hx. split.
  - destruct (Z.eq_dec x (-32768)) as [->|]; [rewrite codec_min; lia|].
    replace x with (- (- x)) by lia. rewrite codec_odd by lia.
    pose proof (codec_nonneg_mono 0 (- x) ltac:(lia) ltac:(lia) ltac:(lia)) as H. rewrite codec_0 in H. lia.
  - destruct (Z.eq_dec x (-32768)) as [->|]; [left; reflexivity|right].
    replace x with (- (- x)) at 1 by lia. apply codec_odd. lia.
Qed.

Lemma codec_monotone x y : -32768 <= x -> x <= y -> y <= 32767 -> codec x <= codec y.
Proof.
  intros H1 H2 H3.
  destruct (Z_lt_le_dec y 0) as [Hy|Hy].
  - destruct (Z.eq_dec x (-32768)) as [->|Hn].
    + rewrite codec_min. destruct (Z.eq_dec y (-32768)) as [->|Hny]; [rewrite codec_min; lia|].
      destruct (codec_neg_bounds y ltac:(lia)) as [_ [Hy'|Hy']]; [lia|]. rewrite Hy'.
      pose proof (codec_nonneg_mono (- y) 32767 ltac:(lia) ltac:(lia) ltac:(lia)) as H.
      rewrite codec_max in H. lia.
    + replace x with (- (- x)) by lia. replace y with (- (- y)) by lia.
      rewrite (codec_odd (- x)), (codec_odd (- y)) by lia.
      pose proof (codec_nonneg_mono (- y) (- x) ltac:(lia) ltac:(lia) ltac:(lia)). lia.
  - destruct (Z_lt_le_dec x 0) as [Hx|Hx].
    + destruct (codec_neg_bounds x ltac:(lia)) as [Hn _].
      pose proof (codec_nonneg_mono 0 y ltac:(lia) ltac:(lia) ltac:(lia)) as H. rewrite codec_0 in H. lia.
    + apply codec_nonneg_mono; lia.
Qed.

Definition codec_byte_ok (u : Z) : bool :=
  let x := dec_formula u in
  (-32768 <=? x) && (x <=? 32767) && (enc_formula x =? (if u =? 127 then 255 else u)).

Lemma codec_bytes_ok : forall_from 256 0 codec_byte_ok = true.
Proof. vm_compute. reflexivity. Qed.

Lemma codec_byte u : 0 <= u < 256 -> codec_byte_ok u = true.
Proof. intros H. apply (forall_from_spec _ _ _ codec_bytes_ok). lia. Qed.

(** ** The mixer *)
(** [mixed m dst src k p]: memory word at p after the first k blocks of 8 samples were mixed. *)
Definition mixed (m : Z -> Z) (dst src : Z) (k : nat) : Z -> Z :=
  fun p => if (dst <=? p) && (p <? dst + 16 * Z.of_nat k) && Z.even p
           then sat16 (m (p - dst + src) + m p) else m p.

Definition disjoint_or_same (dst src : Z) : Prop :=
  dst = src \/ dst + 320 <= src \/ src + 320 <= dst.


Lemma ld8_ext m m' a : (forall i, 0 <= i < 8 -> m (a + 2 * i) = m' (a + 2 * i)) -> ld8 m a = ld8 m' a.
Proof.
  intros H. unfold ld8.
  pose proof (H 0 ltac:(lia)) as H0. pose proof (H 1 ltac:(lia)) as H1.
  pose proof (H 2 ltac:(lia)) as H2. pose proof (H 3 ltac:(lia)) as H3.
  pose proof (H 4 ltac:(lia)) as H4. pose proof (H 5 ltac:(lia)) as H5.
  pose proof (H 6 ltac:(lia)) as H6. pose proof (H 7 ltac:(lia)) as H7.
  replace (a + 2 * 0) with a in H0 by lia. cbn [Z.mul Pos.mul] in *.
  rewrite H0, H1, H2, H3, H4, H5, H6, H7. reflexivity.
Qed.

Lemma nth_padd_ld8 m1 m2 a b i : 0 <= i < 8 ->
  nth (Z.to_nat i) (padd (ld8 m1 a) (ld8 m2 b)) 0 = sat16 (m1 (a + 2 * i) + m2 (b + 2 * i)).
Proof.
  intros H.
  assert (i = 0 \/ i = 1 \/ i = 2 \/ i = 3 \/ i = 4 \/ i = 5 \/ i = 6 \/ i = 7) as Hi by lia.
  destruct Hi as [->|[->|[->|[->|[->|[->|[->| ->]]]]]]]; cbn [Z.to_nat Pos.to_nat Pos.iter_op nth padd ld8 Nat.add Z.mul Pos.mul];
  rewrite ?Z.add_0_r; reflexivity.
Qed.

Lemma even_div2 p a : Z.even p = true -> a mod 16 = 0 -> p - a = 2 * ((p - a) / 2).
Proof.
  intros Hp Ha. apply Zeven_bool_iff in Hp. apply Zeven_ex in Hp. destruct Hp as [q ->].
  apply Z.mod_divide in Ha; [|lia]. destruct Ha as [r ->].
  replace (2 * q - r * 16) with ((q - r * 8) * 2) by lia. rewrite Z.div_mul by lia. lia.
Qed.

Lemma even_aligned a i : a mod 16 = 0 -> Z.even (a + 2 * i) = true.
Proof.
  intros Ha. apply Z.mod_divide in Ha; [|lia]. destruct Ha as [r ->].
  replace (r * 16 + 2 * i) with (2 * (8 * r + i)) by lia. rewrite Z.even_mul. reflexivity.
Qed.

(** One loop iteration extends the mixed prefix by one block. *)
Lemma mixed_step m dst src k :
  disjoint_or_same dst src -> dst mod 16 = 0 -> src mod 16 = 0 -> (k < 20)%nat ->
  forall p, st8 (mixed m dst src k) (dst + 16 * Z.of_nat k)
      (padd (ld8 (mixed m dst src k) (src + 16 * Z.of_nat k))
            (ld8 (mixed m dst src k) (dst + 16 * Z.of_nat k))) p
  = mixed m dst src (S k) p.
Proof.
  intros Hd Hda Hsa Hk p.
  set (ks := src + 16 * Z.of_nat k). set (kd := dst + 16 * Z.of_nat k).
  assert (Hkd : kd mod 16 = 0) by (unfold kd; rewrite (Z.mul_comm 16), Z.mod_add by lia; exact Hda).
  rewrite (ld8_ext (mixed m dst src k) m ks).
  2:{ intros i Hi. unfold mixed, ks.
      destruct ((dst <=? src + 16 * Z.of_nat k + 2 * i) && (src + 16 * Z.of_nat k + 2 * i <? dst + 16 * Z.of_nat k)) eqn:E;
        [|reflexivity].
      apply andb_true_iff in E. destruct E as [E1 E2].
      apply Z.leb_le in E1. apply Z.ltb_lt in E2.
      unfold disjoint_or_same in Hd. lia. }
  rewrite (ld8_ext (mixed m dst src k) m kd).
  2:{ intros i Hi. unfold mixed, kd.
      destruct ((dst <=? dst + 16 * Z.of_nat k + 2 * i) && (dst + 16 * Z.of_nat k + 2 * i <? dst + 16 * Z.of_nat k)) eqn:E;
        [|reflexivity].
      apply andb_true_iff in E. destruct E as [E1 E2].
      apply Z.leb_le in E1. apply Z.ltb_lt in E2. lia. }
  unfold st8. unfold mixed at 2.
  destruct (Z.even p) eqn:Hp; rewrite ?andb_true_r, ?andb_false_r.
  2:{ unfold mixed. rewrite Hp, andb_false_r. reflexivity. }
  destruct ((kd <=? p) && (p <? kd + 16)) eqn:E.
  - apply andb_true_iff in E. destruct E as [E1 E2]. apply Z.leb_le in E1. apply Z.ltb_lt in E2.
    pose proof (even_div2 p kd Hp Hkd) as He.
    rewrite nth_padd_ld8 by lia.
    replace ((dst <=? p) && (p <? dst + 16 * Z.of_nat (S k))) with true.
    2:{ symmetry. apply andb_true_iff. split; [apply Z.leb_le|apply Z.ltb_lt]; unfold kd in *; lia. }
    f_equal. f_equal; f_equal; unfold ks, kd in *; lia.
  - unfold mixed. rewrite Hp, andb_true_r.
    replace ((dst <=? p) && (p <? dst + 16 * Z.of_nat (S k)))
      with ((dst <=? p) && (p <? dst + 16 * Z.of_nat k)); [reflexivity|].
    unfold kd in E. lia.
Qed.

(** Memory is a function; the loop produces pointwise equal memories, so the
    statements are pointwise (no functional extensionality). *)
Lemma run_mem_ext fuel args : forall a b c d e x f g o m m' t pc,
  (forall p, m p = m' p) ->
  match run fuel mix_prog args (mkcpu a b c d e x f g o m t) pc,
        run fuel mix_prog args (mkcpu a b c d e x f g o m' t) pc with
  | Halt s, Halt s' => forall p, mem s p = mem s' p
  | Fault, Fault => True
  | OutOfFuel, OutOfFuel => True
  | _, _ => False
  end.
Proof.
  induction fuel as [|fuel IH]; intros a b c d e x f g o m m' t pc H; [exact Logic.I|].
  cbn [run]. destruct (nth_error mix_prog pc) as [i|] eqn:Hi; [|exact Logic.I].
  assert (Hl : forall q, ld8 m q = ld8 m' q) by (intros q; apply ld8_ext; auto).
  destruct i as [s0 r|n r|r|s0 r|s0 r|s0 r|s0 r|s0 r|r|s0 r|s0 r|s0 r|r|r s0|n|n|n|n|r|r|r|];
    cbn [exec]; try (destruct r);
    cbn [getr setr opv setflags setret setx0 setmem rax rbx rcx rdx r13 x0 sf zf ovf mem ret];
    try (destruct s0 as [q|q]; try destruct q);
    cbn [getr setr opv setflags setret setx0 setmem rax rbx rcx rdx r13 x0 sf zf ovf mem ret];
    rewrite ?Hl;
    try match goal with |- context [if ?p then _ else None] => destruct p; [|exact Logic.I] end;
    try (apply IH; first [exact H | intros p; unfold st8; rewrite H; reflexivity]);
    try exact H.
  all: destruct s0; cbn [getr rax rbx rcx rdx r13].
  all: try match goal with |- context [if ?p then None else _] => destruct p; [exact Logic.I|apply IH; exact H] end.
Qed.

Definition cx_at (k : nat) : Z := 19 - Z.of_nat k.

Lemma mix_iter : forall dst src m k fuel args d e x f g o t,
  disjoint_or_same dst src -> dst mod 16 = 0 -> src mod 16 = 0 ->
  0 <= dst -> dst + 320 <= 18446744073709551616 - 1 ->
  0 <= src -> src + 320 <= 18446744073709551616 - 1 ->
  (k < 19)%nat ->
  exists x' f' g' o',
  run (8 + fuel) mix_prog args
    (mkcpu (dst + 16 * Z.of_nat k) (src + 16 * Z.of_nat k) (cx_at k) d e x f g o (mixed m dst src k) t) 3
  = run fuel mix_prog args
    (mkcpu (dst + 16 * Z.of_nat (S k)) (src + 16 * Z.of_nat (S k)) (cx_at (S k)) d e x' f' g' o'
       (st8 (mixed m dst src k) (dst + 16 * Z.of_nat k)
      (padd (ld8 (mixed m dst src k) (src + 16 * Z.of_nat k))
            (ld8 (mixed m dst src k) (dst + 16 * Z.of_nat k)))) t) 3.
Proof.
  intros dst src m k fuel args d e x f g o t Hdj Hd Hs Hd0 Hd1 Hs0 Hs1 Hk.
  assert (Ha : ((src + 16 * Z.of_nat k) mod 16 =? 0) = true)
    by (rewrite (Z.mul_comm 16), Z.mod_add by lia; rewrite Hs; reflexivity).
  assert (Hb : ((dst + 16 * Z.of_nat k) mod 16 =? 0) = true)
    by (rewrite (Z.mul_comm 16), Z.mod_add by lia; rewrite Hd; reflexivity).
  change (8 + fuel)%nat with (S (S (S (S (S (S (S (S fuel)))))))).
  erewrite run_step; [|reflexivity|cbn [exec]; norm; rewrite Ha; reflexivity].
  erewrite run_step; [|reflexivity|cbn [exec]; norm; rewrite Hb; reflexivity].
  erewrite run_step; [|reflexivity|cbn [exec]; norm; rewrite Hb; reflexivity].
  do 5 step1.
  change (u64 16) with 16.
  rewrite (u64_id (dst + 16 * Z.of_nat k + 16)) by lia.
  rewrite (u64_id (src + 16 * Z.of_nat k + 16)) by lia.
  rewrite (u64_id (cx_at k - 1)) by (unfold cx_at; lia).
  replace (cx_at k - 1) with (cx_at (S k)) by (unfold cx_at; lia).
  change (s64 (u64 0)) with 0.
  rewrite !Z.sub_0_r.
  assert (Hc : s64 (cx_at (S k)) = cx_at (S k)) by (apply i64_id; unfold cx_at; lia).
  rewrite !Hc.
  replace (cx_at (S k) <? 0) with false by (unfold cx_at; lia).
  rewrite Z.eqb_refl. cbn [negb Bool.eqb].
  replace (dst + 16 * Z.of_nat k + 16) with (dst + 16 * Z.of_nat (S k)) by lia.
  replace (src + 16 * Z.of_nat k + 16) with (src + 16 * Z.of_nat (S k)) by lia.
  do 4 eexists. reflexivity.
Qed.

Lemma mix_last : forall dst src m fuel args d e x f g o t,
  dst mod 16 = 0 -> src mod 16 = 0 ->
  0 <= dst -> dst + 320 <= 18446744073709551616 - 1 ->
  0 <= src -> src + 320 <= 18446744073709551616 - 1 ->
  exists s, run (9 + fuel) mix_prog args
    (mkcpu (dst + 16 * Z.of_nat 19) (src + 16 * Z.of_nat 19) (cx_at 19) d e x f g o (mixed m dst src 19) t) 3
  = Halt s /\ mem s = st8 (mixed m dst src 19) (dst + 16 * Z.of_nat 19)
      (padd (ld8 (mixed m dst src 19) (src + 16 * Z.of_nat 19))
            (ld8 (mixed m dst src 19) (dst + 16 * Z.of_nat 19))).
Proof.
  intros dst src m fuel args d e x f g o t Hd Hs Hd0 Hd1 Hs0 Hs1.
  assert (Ha : ((src + 16 * Z.of_nat 19) mod 16 =? 0) = true)
    by (rewrite (Z.mul_comm 16), Z.mod_add by lia; rewrite Hs; reflexivity).
  assert (Hb : ((dst + 16 * Z.of_nat 19) mod 16 =? 0) = true)
    by (rewrite (Z.mul_comm 16), Z.mod_add by lia; rewrite Hd; reflexivity).
  change (9 + fuel)%nat with (S (S (S (S (S (S (S (S (S fuel))))))))).
  erewrite run_step; [|reflexivity|cbn [exec]; norm; rewrite Ha; reflexivity].
  erewrite run_step; [|reflexivity|cbn [exec]; norm; rewrite Hb; reflexivity].
  erewrite run_step; [|reflexivity|cbn [exec]; norm; rewrite Hb; reflexivity].
  do 4 step1.
  erewrite run_step; [|reflexivity|reflexivity].
  eexists. split; [reflexivity|]. reflexivity.
Qed.

Lemma mix_loop dst src m args :
  disjoint_or_same dst src -> dst mod 16 = 0 -> src mod 16 = 0 ->
  0 <= dst -> dst + 320 <= 18446744073709551616 - 1 ->
  0 <= src -> src + 320 <= 18446744073709551616 - 1 ->
  forall j k fuel d e x f g o t m', (k + j = 19)%nat -> (forall p, m' p = mixed m dst src k p) ->
  exists s, run (8 * j + (9 + fuel)) mix_prog args
    (mkcpu (dst + 16 * Z.of_nat k) (src + 16 * Z.of_nat k) (cx_at k) d e x f g o m' t) 3
  = Halt s /\ forall p, mem s p = mixed m dst src 20 p.
Proof.
  intros Hdj Hd Hs Hd0 Hd1 Hs0 Hs1.
  induction j as [|j IH]; intros k fuel d e x f g o t m' Hkj Hm.
  - assert (k = 19%nat) by lia. subst k.
    destruct (mix_last dst src m fuel args d e x f g o t Hd Hs Hd0 Hd1 Hs0 Hs1) as [s [Hr Hmem]].
    pose proof (run_mem_ext (8 * 0 + (9 + fuel)) args (dst + 16 * Z.of_nat 19) (src + 16 * Z.of_nat 19)
      (cx_at 19) d e x f g o m' (mixed m dst src 19) t 3 Hm) as Hext.
    change (8 * 0 + (9 + fuel))%nat with (9 + fuel)%nat in *. rewrite Hr in Hext. clear Hr.
    destruct (run (9 + fuel) mix_prog args _ 3) as [s'| |]; try contradiction.
    exists s'. split; [reflexivity|]. intros p. rewrite Hext, Hmem.
    apply mixed_step; auto; lia.
  - destruct (mix_iter dst src m k (8 * j + (9 + fuel)) args d e x f g o t Hdj Hd Hs Hd0 Hd1 Hs0 Hs1 ltac:(lia))
      as (x' & f' & g' & o' & Hr).
    pose proof (run_mem_ext (8 + (8 * j + (9 + fuel))) args (dst + 16 * Z.of_nat k) (src + 16 * Z.of_nat k)
      (cx_at k) d e x f g o m' (mixed m dst src k) t 3 Hm) as Hext.
    destruct (IH (S k) fuel d e x' f' g' o' t
       (st8 (mixed m dst src k) (dst + 16 * Z.of_nat k)
      (padd (ld8 (mixed m dst src k) (src + 16 * Z.of_nat k))
            (ld8 (mixed m dst src k) (dst + 16 * Z.of_nat k)))) ltac:(lia)) as [s [Hs1' Hs2']].
    { intros p. apply mixed_step; auto; lia. }
    rewrite Hr, Hs1' in Hext. clear Hr Hs1'.
    replace (8 * S j + (9 + fuel))%nat with (8 + (8 * j + (9 + fuel)))%nat by lia.
    destruct (run (8 + (8 * j + (9 + fuel))) mix_prog args _ 3) as [s'| |]; try contradiction.
    exists s'. split; [reflexivity|]. intros p. rewrite Hext. apply Hs2'.
Qed.

Lemma mix_correct m dst src :
  disjoint_or_same dst src -> dst mod 16 = 0 -> src mod 16 = 0 ->
  0 <= dst -> dst + 320 < 18446744073709551616 ->
  0 <= src -> src + 320 < 18446744073709551616 ->
  exists m', L16MixSat160 m dst src = Some m' /\ forall p, m' p = mixed m dst src 20 p.
Proof.
  intros Hdj Hd Hs Hd0 Hd1 Hs0 Hs1. unfold L16MixSat160.
  change 400%nat with (3 + (8 * 19 + (9 + 236)))%nat.
  destruct (mix_loop dst src m (fun n => if n =? 0 then dst else src) Hdj Hd Hs Hd0 ltac:(lia) Hs0 ltac:(lia)
     19 0 236 0 0 [0;0;0;0;0;0;0;0] false false false None m eq_refl) as [s [Hr Hm]].
  { intros p. unfold mixed. change (16 * Z.of_nat 0) with 0. rewrite Z.add_0_r.
    destruct ((dst <=? p) && (p <? dst)) eqn:E; [lia|reflexivity]. }
  assert (run (3 + (8 * 19 + (9 + 236))) mix_prog (fun n => if n =? 0 then dst else src) (entry 0 0 0 0 0 m) 0 = Halt s) as ->.
  { rewrite <- Hr. change (16 * Z.of_nat 0) with 0. rewrite !Z.add_0_r.
    change (3 + (8 * 19 + (9 + 236)))%nat with (S (S (S (8 * 19 + (9 + 236))))).
    remember (8 * 19 + (9 + 236))%nat as fu.
    unfold entry. cbn [run nth_error mix_prog exec opv setr].
    change (u64 19) with (cx_at 0). cbn [Z.eqb].
    rewrite !u64_id by lia. reflexivity. }
  exists (mem s). split; [reflexivity|exact Hm].
Qed.
