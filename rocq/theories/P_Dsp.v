(** Properties C35, C36, C37: the assembly routines of package dsp. *)
From Verif Require Import Bytes BytesLemmas Asm DspModel DspProofs.
Local Open Scope Z_scope.

(** ** Specification, independent of the assembly *)

(** A 16 bit sample. *)
Definition is_sample (x : Z) : Prop := -32768 <= x <= 32767.

(** G.711 mu-law decoding table as arithmetic (ITU-T G.711 table 2a/2b, scaled to 16 bit):
    the complemented byte is sign (bit 7), segment (bits 6-4) and step (bits 3-0). *)
Definition g711_decode (u : Z) : Z :=
  let n := 255 - u in
  let sign := n / 128 in
  let seg := (n / 16) mod 8 in
  let step := n mod 16 in
  let magnitude := (2 * step + 33) * 2 ^ (seg + 2) - 132 in
  if sign =? 1 then - magnitude else magnitude.

(** Quantisation step of the segment a sample belongs to: 8 in the lowest
    segment, doubling in each of the seven segments above; clipping starts above 32635. *)
Definition g711_segment (x : Z) : Z := Z.log2 (Z.abs x + 132) - 7.
Definition g711_step (x : Z) : Z := 8 * 2 ^ g711_segment x.
Definition g711_clip : Z := 32635.

(** Saturating sum of two samples. *)
Definition sat_add (a b : Z) : Z := Z.max (-32768) (Z.min 32767 (a + b)).

(** ** Both routines always return, whatever the registers hold on entry *)
Theorem ulaw_encode_returns : forall x a b c d e m,
  exists u, retval (run 64 enc_prog (fun _ => x) (entry a b c d e m) 0) = Some u
            /\ LinearToUlaw x = Some u.
Proof. intros. exists (enc_formula x). split; [apply enc_run|apply enc_val]. Qed.

Theorem ulaw_decode_returns : forall u a b c d e m,
  exists x, retval (run 64 dec_prog (fun _ => u) (entry a b c d e m) 0) = Some x
            /\ UlawToLinear u = Some x.
Proof. intros. exists (dec_formula u). split; [apply dec_run|apply dec_val]. Qed.

(** The decoder is the G.711 table on every byte. *)
Theorem ulaw_decode_is_g711 : forall u, 0 <= u < 256 -> UlawToLinear u = Some (g711_decode u).
Proof.
  intros u Hu. rewrite dec_val. f_equal. apply Z.eqb_eq.
  refine (forall_from_spec 256 0 (fun u => dec_formula u =? g711_decode u) _ u _); [|lia].
  vm_compute. reflexivity.
Qed.

(** C35: encode after decode is the identity on codes, except that the two codes of zero merge. *)
Theorem ulaw_encode_decode : forall u, 0 <= u < 256 ->
  exists x, UlawToLinear u = Some x /\ is_sample x /\
            LinearToUlaw x = Some (if u =? 0x7F then 0xFF else u).
Proof.
  intros u Hu. exists (dec_formula u). rewrite dec_val, enc_val.
  pose proof (codec_byte u Hu) as H. unfold codec_byte_ok in H. cbv zeta in H.
  rewrite !andb_true_iff in H. destruct H as [[H1 H2] H3]. apply Z.eqb_eq in H3.
  unfold is_sample. repeat split; [lia|lia|]. rewrite H3. reflexivity.
Qed.

(** C36a: every sample encodes to a byte, and within the clipping range the decoded value
    is at most half a quantisation step away and never on the other side of zero. *)
Theorem ulaw_error_bound : forall x, is_sample x -> Z.abs x <= g711_clip ->
  exists u y, LinearToUlaw x = Some u /\ 0 <= u < 256 /\ UlawToLinear u = Some y /\
    2 * Z.abs (y - x) <= g711_step x /\ (0 < x -> 0 <= y) /\ (x < 0 -> y <= 0).
Proof.
  intros x Hx Hc. exists (enc_formula x), (codec x). rewrite enc_val, dec_enc.
  destruct (codec_error x Hx Hc) as [H1 H2].
  split; [reflexivity|]. split; [apply enc_byte; exact Hx|]. split; [reflexivity|].
  unfold g711_step, g711_segment. split; [lia|].
  unfold sgn in H2. split; intros Hs.
  - replace (x <? 0) with false in H2 by lia. lia.
  - replace (x <? 0) with true in H2 by lia. lia.
Qed.

(** C36b: louder samples are clipped to the largest code of their sign. *)
Theorem ulaw_clipping : forall x, is_sample x -> g711_clip < Z.abs x ->
  exists u, LinearToUlaw x = Some u /\ 0 <= u < 256 /\
            UlawToLinear u = Some (if x <? 0 then -32124 else 32124).
Proof.
  intros x Hx Hc. exists (enc_formula x). rewrite enc_val, dec_enc.
  split; [reflexivity|]. split; [apply enc_byte; exact Hx|].
  rewrite (codec_clip x Hx Hc). unfold sgn.
  destruct (x <? 0); reflexivity.
Qed.

(** C36c: monotone. *)
Theorem ulaw_monotone : forall x y, is_sample x -> is_sample y -> x <= y ->
  exists u v x' y', LinearToUlaw x = Some u /\ UlawToLinear u = Some x' /\
                    LinearToUlaw y = Some v /\ UlawToLinear v = Some y' /\ x' <= y'.
Proof.
  intros x y Hx Hy Hxy. exists (enc_formula x), (enc_formula y), (codec x), (codec y).
  rewrite !enc_val, !dec_enc. unfold is_sample in *.
  repeat split; try reflexivity. apply codec_monotone; lia.
Qed.

(** C37: for 16 byte aligned, non-overlapping (or identical) frames the destination holds the
    saturated sums, and every other memory word, including the source frame, is unchanged. *)
Theorem mix_saturated_sum : forall m dst src,
  dst mod 16 = 0 -> src mod 16 = 0 ->
  0 <= dst -> dst + 320 < 2 ^ 64 -> 0 <= src -> src + 320 < 2 ^ 64 ->
  (dst = src \/ dst + 320 <= src \/ src + 320 <= dst) ->
  exists m', L16MixSat160 m dst src = Some m' /\
    (forall i, 0 <= i < 160 -> m' (dst + 2 * i) = sat_add (m (src + 2 * i)) (m (dst + 2 * i))) /\
    (forall p, Z.even p = true -> p < dst \/ dst + 320 <= p -> m' p = m p).
Proof.
  intros m dst src Hd Hs Hd0 Hd1 Hs0 Hs1 Hdj.
  destruct (mix_correct m dst src Hdj Hd Hs Hd0 Hd1 Hs0 Hs1) as [m' [Hr Hm]].
  exists m'. split; [exact Hr|]. split.
  - intros i Hi. rewrite Hm. unfold mixed.
    rewrite even_aligned by exact Hd.
    replace (dst <=? dst + 2 * i) with true by lia.
    replace (dst + 2 * i <? dst + 16 * Z.of_nat 20) with true by lia.
    cbn [andb]. replace (dst + 2 * i - dst + src) with (src + 2 * i) by lia.
    unfold sat16, sat_add.
    destruct (Z.ltb_spec 32767 (m (src + 2 * i) + m (dst + 2 * i)));
    [|destruct (Z.ltb_spec (m (src + 2 * i) + m (dst + 2 * i)) (-32768))]; lia.
  - intros p Hp Hout. rewrite Hm. unfold mixed. rewrite Hp, andb_true_r.
    destruct ((dst <=? p) && (p <? dst + 16 * Z.of_nat 20)) eqn:E; [lia|reflexivity].
Qed.

(** The alignment requirement is real: Go aligns an [160]int16 to 2 bytes only, and the routine
    faults on a source that is not 16 byte aligned, whatever the frames contain. *)
Theorem mix_misaligned_refuted : forall m dst src,
  0 <= src < 2 ^ 64 -> src mod 16 <> 0 -> L16MixSat160 m dst src = None.
Proof.
  intros m dst src Hs Ha. unfold L16MixSat160, entry.
  change 400%nat with (S (S (S (S 396)))).
  do 3 step1.
  match goal with |- context [run (S ?f) _ _ _ _] => generalize f; intros fu end.
  cbn [run nth_error mix_prog exec getr rbx Z.eqb].
  rewrite u64_id by lia.
  destruct (Z.eqb_spec (src mod 16) 0); [contradiction|reflexivity].
Qed.

(** Non-vacuity: concrete cases. *)
Example ulaw_bound_case : is_sample (-1000) /\ Z.abs (-1000) <= g711_clip /\ LinearToUlaw (-1000) = Some 78
   /\ UlawToLinear 78 = Some (-988) /\ g711_step (-1000) = 64.
Proof. unfold is_sample, g711_clip. vm_compute. intuition discriminate. Qed.
Example ulaw_clip_case : is_sample 32700 /\ g711_clip < Z.abs 32700.
Proof. unfold is_sample, g711_clip. lia. Qed.
Example mix_case :
  match L16MixSat160 (fun p => if p <? 4096 then 30000 else p) 1024 4096 with
  | Some m' => (m' 1024, m' 1026, m' 4096) = (32767, 32767, 4096)
  | None => False
  end.
Proof. vm_compute. reflexivity. Qed.
Example mix_hyps : 1024 mod 16 = 0 /\ 4096 mod 16 = 0 /\ 1024 + 320 <= 4096.
Proof. vm_compute. intuition discriminate. Qed.

Print Assumptions ulaw_encode_decode.
Print Assumptions ulaw_error_bound.
Print Assumptions ulaw_clipping.
Print Assumptions ulaw_monotone.
Print Assumptions mix_saturated_sum.
Print Assumptions mix_misaligned_refuted.
