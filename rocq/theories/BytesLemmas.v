(** Facts about bytes and byte strings. *)
From Verif Require Import Bytes.
From Coq Require Import Strings.String.

Lemma all_bytes_existsb : forall b, existsb (Byte.eqb b) all_bytes = true.
Proof. intros b; destruct b; vm_compute; reflexivity. Qed.

Lemma all_bytes_complete : forall b, In b all_bytes.
Proof.
  intros b. pose proof (all_bytes_existsb b) as H.
  apply existsb_exists in H. destruct H as [x [Hx E]].
  apply Byte.byte_dec_bl in E. subst; exact Hx.
Qed.

Lemma forall_bytes (f : byte -> bool) :
  forallb f all_bytes = true -> forall b, f b = true.
Proof. intros H b. rewrite forallb_forall in H. apply H, all_bytes_complete. Qed.

(** Use: [by_bytes f] proves [forall b, f b = true] by computation over all 256 bytes. *)
Ltac by_bytes := apply forall_bytes; vm_compute; reflexivity.

Lemma bz_range b : (0 <= bz b < 256)%Z.
Proof. unfold bz. pose proof (Byte.to_N_bounded b). lia. Qed.

Lemma zb_bz b : zb (bz b) = b.
Proof. destruct b; reflexivity. Qed.

Lemma bz_zb z : bz (zb z) = Z.modulo z 256.
Proof.
  unfold zb, bz.
  destruct (Byte.of_N (Z.to_N (z mod 256))) eqn:E.
  - apply Byte.to_of_N in E. rewrite E. rewrite Z2N.id; [reflexivity|].
    apply Z.mod_pos_bound; lia.
  - apply Byte.of_N_None_iff in E. exfalso.
    pose proof (Z.mod_pos_bound z 256 ltac:(lia)). lia.
Qed.

Lemma bz_inj a b : bz a = bz b -> a = b.
Proof. intros H. rewrite <- (zb_bz a), <- (zb_bz b), H. reflexivity. Qed.

Lemma beq_spec a b : beq a b = true <-> a = b.
Proof. unfold beq. split; [apply Byte.byte_dec_bl | apply Byte.byte_dec_lb]. Qed.

Lemma beq_refl a : beq a a = true.
Proof. apply beq_spec; reflexivity. Qed.

Lemma beq_neq a b : beq a b = false <-> a <> b.
Proof.
  split; intros H.
  - intros E. apply beq_spec in E. congruence.
  - destruct (beq a b) eqn:E; [|reflexivity]. apply beq_spec in E. contradiction.
Qed.

Lemma beq_reflect a b : Bool.reflect (a = b) (beq a b).
Proof. destruct (beq a b) eqn:E; constructor; [apply beq_spec|apply beq_neq]; exact E. Qed.

Lemma byte_eq_dec (a b : byte) : {a = b} + {a <> b}.
Proof. destruct (beq_reflect a b); [left|right]; assumption. Defined.

Lemma bseq_spec a : forall b, bseq a b = true <-> a = b.
Proof.
  induction a as [|x a IH]; intros [|y b]; simpl; try (split; [discriminate|discriminate]).
  - split; reflexivity.
  - rewrite andb_true_iff, beq_spec, IH. split.
    + intros [-> ->]; reflexivity.
    + intros H; inversion H; auto.
Qed.

Lemma bseq_refl a : bseq a a = true.
Proof. apply bseq_spec; reflexivity. Qed.

Lemma bseq_neq a b : bseq a b = false <-> a <> b.
Proof.
  split; intros H.
  - intros E. apply bseq_spec in E. congruence.
  - destruct (bseq a b) eqn:E; [|reflexivity]. apply bseq_spec in E. contradiction.
Qed.

Lemma bseq_reflect a b : Bool.reflect (a = b) (bseq a b).
Proof. destruct (bseq a b) eqn:E; constructor; [apply bseq_spec|apply bseq_neq]; exact E. Qed.

Lemma bytes_eq_dec (a b : bytes) : {a = b} + {a <> b}.
Proof. destruct (bseq_reflect a b); [left|right]; assumption. Defined.

Lemma bseq_sym a b : bseq a b = bseq b a.
Proof.
  destruct (bseq_reflect a b) as [->|H]; [symmetry; apply bseq_refl|].
  symmetry. apply bseq_neq. congruence.
Qed.

Lemma u16_range z : (0 <= u16 z < 65536)%Z.
Proof. unfold u16. apply Z.mod_pos_bound. lia. Qed.
Lemma u32_range z : (0 <= u32 z < 4294967296)%Z.
Proof. unfold u32. apply Z.mod_pos_bound. lia. Qed.
Lemma u8_range z : (0 <= u8 z < 256)%Z.
Proof. unfold u8. apply Z.mod_pos_bound. lia. Qed.
Lemma u16_id z : (0 <= z < 65536)%Z -> u16 z = z.
Proof. intros. unfold u16. apply Z.mod_small. lia. Qed.
Lemma u32_id z : (0 <= z < 4294967296)%Z -> u32 z = z.
Proof. intros. unfold u32. apply Z.mod_small. lia. Qed.
Lemma u8_id z : (0 <= z < 256)%Z -> u8 z = z.
Proof. intros. unfold u8. apply Z.mod_small. lia. Qed.
Lemma i64_id z : (-9223372036854775808 <= z < 9223372036854775808)%Z -> i64 z = z.
Proof.
  intros H. unfold i64, u64.
  destruct (Z_lt_le_dec z 0).
  - replace (z mod 18446744073709551616)%Z with (z + 18446744073709551616)%Z
      by (apply (Z.mod_unique_pos _ _ (-1)); lia).
    destruct (Z.ltb_spec (z + 18446744073709551616) 9223372036854775808); lia.
  - rewrite Z.mod_small by lia.
    destruct (Z.ltb_spec z 9223372036854775808); lia.
Qed.

Lemma forallb_app' {A} (f : A -> bool) a b :
  forallb f (a ++ b) = forallb f a && forallb f b.
Proof. apply forallb_app. Qed.
