From Verif Require Import Bytes BytesLemmas Asm DspModel DspProofs P_Dsp RtpModel RtpSpec.
Local Open Scope Z_scope.

Definition wf_header (h : header) : Prop :=
  0 <= h_pt h < 128 /\ 0 <= h_seq h < 65536 /\ 0 <= h_ts h < 4294967296 /\ 0 <= h_ssrc h < 4294967296.

Lemma land_shiftl_low a b n : 0 <= n -> 0 <= b < 2 ^ n -> Z.land (Z.shiftl a n) b = 0.
Proof.
  intros Hn Hb. apply Z.bits_inj'. intros k Hk. rewrite Z.land_spec, Z.bits_0.
  destruct (Z_lt_le_dec k n).
  - rewrite Z.shiftl_spec_low by lia. reflexivity.
  - destruct (Z.eq_dec b 0) as [->|]; [rewrite Z.bits_0; apply andb_false_r|].
    rewrite (Z.bits_above_log2 b k); [apply andb_false_r|lia|].
    apply Z.log2_lt_pow2; [lia|]. assert (2 ^ n <= 2 ^ k) by (apply Z.pow_le_mono_r; lia). lia.
Qed.

Lemma lor_shiftl_add a b n : 0 <= n -> 0 <= b < 2 ^ n -> Z.lor (Z.shiftl a n) b = a * 2 ^ n + b.
Proof.
  intros Hn Hb. pose proof (land_shiftl_low a b n Hn Hb) as H.
  rewrite <- Z.lxor_lor by exact H. rewrite <- Z.add_nocarry_lxor by exact H.
  rewrite Z.shiftl_mul_pow2 by lia. reflexivity.
Qed.

Lemma be2 a b : be [a; b] = bz a * 256 + bz b.
Proof. unfold be. cbn [fold_left]. lia. Qed.
Lemma be4 a b c d : be [a; b; c; d] = ((bz a * 256 + bz b) * 256 + bz c) * 256 + bz d.
Proof. unfold be. cbn [fold_left]. lia. Qed.

Lemma lor16 a b : Z.lor (u16 (Z.shiftl (bz a) 8)) (bz b) = be [a; b].
Proof.
  pose proof (bz_range a). pose proof (bz_range b). rewrite be2.
  rewrite u16_id by (rewrite Z.shiftl_mul_pow2 by lia; change (2^8) with 256; lia).
  rewrite lor_shiftl_add by (try change (2^8) with 256; lia). reflexivity.
Qed.

Lemma lor32 a b c d :
  Z.lor (Z.lor (Z.lor (u32 (Z.shiftl (bz a) 24)) (u32 (Z.shiftl (bz b) 16))) (u32 (Z.shiftl (bz c) 8))) (bz d)
  = be [a; b; c; d].
Proof.
  pose proof (bz_range a). pose proof (bz_range b). pose proof (bz_range c). pose proof (bz_range d).
  rewrite be4.
  assert (P : forall x n, 0 <= n -> Z.shiftl x n = x * 2 ^ n) by (intros; apply Z.shiftl_mul_pow2; lia).
  rewrite !u32_id by (rewrite P by lia; try change (2^24) with 16777216; try change (2^16) with 65536; try change (2^8) with 256; lia).
  rewrite (lor_shiftl_add (bz a) (Z.shiftl (bz b) 16) 24) by (rewrite ?P by lia; try change (2^24) with 16777216; try change (2^16) with 65536; lia).
  rewrite (P (bz b) 16) by lia.
  replace (bz a * 2 ^ 24 + bz b * 2 ^ 16) with (Z.shiftl (bz a * 256 + bz b) 16)
    by (rewrite P by lia; change (2^24) with (256 * 2^16); lia).
  rewrite (lor_shiftl_add _ (Z.shiftl (bz c) 8) 16) by (rewrite ?P by lia; try change (2^16) with 65536; try change (2^8) with 256; lia).
  rewrite (P (bz c) 8) by lia.
  replace ((bz a * 256 + bz b) * 2 ^ 16 + bz c * 2 ^ 8) with (Z.shiftl ((bz a * 256 + bz b) * 256 + bz c) 8)
    by (rewrite P by lia; change (2^16) with (256 * 2^8); lia).
  rewrite lor_shiftl_add by (try change (2^8) with 256; lia). reflexivity.
Qed.

(** Byte-level facts by enumeration. *)
Lemma b0_facts b : ((Z.shiftr (bz b) 6 =? bz b / 64) && Bool.eqb (Z.land (Z.shiftr (bz b) 4) 1 =? 0) (negb ((bz b / 16) mod 2 =? 1))
   && Bool.eqb (Z.land (Z.shiftr (bz b) 5) 1 =? 1) ((bz b / 32) mod 2 =? 1)
   && Bool.eqb (Z.land (Z.shiftr (bz b) 7) 1 =? 1) (bz b / 128 =? 1)
   && (Z.land (bz b) 127 =? bz b mod 128)
   && Bool.eqb (Z.shiftr (bz b) 7 =? 1) (bz b / 128 =? 1)
   && Bool.eqb (Z.land (Z.shiftr (bz b) 6) 1 =? 1) ((bz b / 64) mod 2 =? 1)
   && (Z.land (bz b) 63 =? bz b mod 64)) = true.
Proof. revert b. by_bytes. Qed.

Ltac b0f b := let H := fresh "Hb0" in pose proof (b0_facts b) as H; rewrite !andb_true_iff in H;
  destruct H as [[[[[[[?Hv ?He] ?Hp] ?Hm] ?Ht] ?Hee] ?Hr] ?Hvol];
  apply Z.eqb_eq in Hv; apply eqb_prop in He; apply eqb_prop in Hp; apply eqb_prop in Hm;
  apply Z.eqb_eq in Ht; apply eqb_prop in Hee; apply eqb_prop in Hr; apply Z.eqb_eq in Hvol.

(** Header.Read on a packet with at least 12 bytes, in terms of the field specification. *)
Definition read_spec (p : bytes) : header + rtp_err :=
  if Nat.ltb (length p) 12 then inr ErrTruncatedPacket
  else if negb (f_version p =? 2) then inr ErrBadVersion
  else if f_extension p then inr ErrExtendedHeadersNotSupported
  else inl (mkheader (f_padding p) (f_marker p) (f_pt p) (f_seq p) (f_ts p) (f_ssrc p)).

Lemma byte_at_0 b l : byte_at (b :: l) 0 = bz b.
Proof. unfold byte_at, slice, be. reflexivity. Qed.
Lemma byte_at_1 a b l : byte_at (a :: b :: l) 1 = bz b.
Proof. unfold byte_at, slice, be. reflexivity. Qed.

Lemma header_read_spec p : header_read p = Ok (read_spec p).
Proof.
  unfold header_read, read_spec.
  destruct (Nat.ltb_spec (length p) 12) as [Hl|Hl].
  { replace (Z.of_nat (length p) <? 12) with true by lia. reflexivity. }
  replace (Z.of_nat (length p) <? 12) with false by lia.
  do 12 (destruct p as [|? p]; [cbn [length] in Hl; lia|]).
  rename b into c0. 
  unfold f_version, f_extension, f_padding, f_marker, f_pt, f_seq, f_ts, f_ssrc.
  rewrite byte_at_0, byte_at_1.
  unfold idx. cbn [nth_error rbind slice skipn firstn].
  unfold Version, mask1, mask7.
  b0f c0. rewrite Hv, He, Hp.
  destruct (negb (bz c0 / 64 =? 2)); [reflexivity|].
  rewrite negb_involutive.
  destruct (bz c0 / 16 mod 2 =? 1); [reflexivity|].
  rewrite !lor16, !lor32.
  clear Hv He Hp Hm Ht Hee Hr Hvol. b0f b0. rewrite Hm, Ht. reflexivity.
Qed.

Lemma zb_shift8 z : 0 <= z < 65536 -> be [zb (Z.shiftr z 8); zb z] = z.
Proof.
  intros H. rewrite be2, !bz_zb. rewrite Z.shiftr_div_pow2 by lia. change (2^8) with 256.
  rewrite (Z.mod_small (z / 256)). { pose proof (Z.div_mod z 256). lia. }
  split; [apply Z.div_pos; lia|apply Z.div_lt_upper_bound; lia].
Qed.

Lemma zb_shift32 z : 0 <= z < 4294967296 ->
  be [zb (Z.shiftr z 24); zb (Z.shiftr z 16); zb (Z.shiftr z 8); zb z] = z.
Proof.
  intros H. rewrite be4, !bz_zb. rewrite !Z.shiftr_div_pow2 by lia.
  change (2^8) with 256. change (2^16) with 65536. change (2^24) with 16777216.
  rewrite (Z.mod_small (z / 16777216)).
  2:{ split; [apply Z.div_pos; lia|apply Z.div_lt_upper_bound; lia]. }
  replace (z / 16777216) with (z / 65536 / 256) by (rewrite Z.div_div by lia; reflexivity).
  replace (z / 65536) with (z / 256 / 256) by (rewrite Z.div_div by lia; reflexivity).
  pose proof (Z.div_mod z 256). pose proof (Z.div_mod (z / 256) 256). pose proof (Z.div_mod (z / 256 / 256) 256). lia.
Qed.

(** First two bytes written. *)
Lemma write_b1 pt m : 0 <= pt < 128 ->
  bz (zb (if m : bool then Z.lor (Z.land pt mask7) (u8 (Z.shiftl (Z.land 1 mask1) 7)) else Z.land pt mask7))
  = (if m then 128 else 0) + pt.
Proof.
  intros H. apply Z.eqb_eq.
  refine (forall_from_spec 128 0 (fun pt => bz (zb (if m : bool then Z.lor (Z.land pt mask7) (u8 (Z.shiftl (Z.land 1 mask1) 7)) else Z.land pt mask7))
  =? (if m then 128 else 0) + pt) _ pt _); [|lia].
  destruct m; vm_compute; reflexivity.
Qed.

(** The layout of a written header followed by any payload. *)
Lemma write_layout h rest : wf_header h ->
  let p := header_write h [] ++ rest in
  (12 <= length p)%nat /\ f_version p = 2 /\ f_extension p = false /\ f_csrc_count p = 0 /\
  f_padding p = h_pad h /\ f_marker p = h_mark h /\ f_pt p = h_pt h /\
  f_seq p = h_seq h /\ f_ts p = h_ts h /\ f_ssrc p = h_ssrc h /\ f_payload p = rest /\
  length p = (12 + length rest)%nat.
Proof.
  intros (Hpt & Hs & Ht & Hss). cbv zeta. unfold header_write. cbn [app].
  unfold f_version, f_extension, f_csrc_count, f_padding, f_marker, f_pt, f_seq, f_ts, f_ssrc, f_payload.
  rewrite byte_at_0, byte_at_1, write_b1 by exact Hpt.
  unfold slice. cbn [skipn firstn length].
  rewrite zb_shift8, !zb_shift32 by assumption.
  split; [lia|].
  assert (Hm : (((if h_mark h then 128 else 0) + h_pt h) / 128 =? 1) = h_mark h).
  { destruct (h_mark h).
    - rewrite (Z.add_comm 128). replace (h_pt h + 128) with (h_pt h + 1 * 128) by lia.
      rewrite Z.div_add by lia. rewrite Z.div_small by lia. reflexivity.
    - rewrite Z.div_small by lia. reflexivity. }
  assert (Hp : ((if h_mark h then 128 else 0) + h_pt h) mod 128 = h_pt h).
  { destruct (h_mark h).
    - replace (128 + h_pt h) with (h_pt h + 1 * 128) by lia. rewrite Z.mod_add by lia. apply Z.mod_small; lia.
    - apply Z.mod_small; lia. }
  rewrite Hm, Hp.
  destruct (h_pad h); vm_compute (bz (zb _)); repeat split; reflexivity.
Qed.

Lemma header_roundtrip h rest : wf_header h -> header_read (header_write h [] ++ rest) = Ok (inl h).
Proof.
  intros Hwf. rewrite header_read_spec. unfold read_spec.
  destruct (write_layout h rest Hwf) as (Hl & Hv & He & _ & Hp & Hm & Hpt & Hs & Ht & Hss & _).
  destruct (Nat.ltb_spec (length (header_write h [] ++ rest)) 12); [lia|].
  rewrite Hv, He, Hp, Hm, Hpt, Hs, Ht, Hss. destruct h; reflexivity.
Qed.

Lemma header_write_app h b : header_write h b = b ++ header_write h [].
Proof. reflexivity. Qed.

(** ** Event payloads *)
Lemma event_payload_fields code vol dur : 0 <= code < 256 -> 0 <= vol < 256 -> 0 <= dur < 65536 ->
  let pl := event_bytes code vol dur in
  length pl = 4%nat /\ ev_code pl = code /\ byte_at pl 1 = vol /\ ev_duration pl = dur.
Proof.
  intros Hc Hv Hd. cbv zeta. unfold event_bytes, ev_code, ev_duration.
  rewrite byte_at_0, byte_at_1. unfold slice. cbn [skipn firstn length].
  rewrite !bz_zb, !Z.mod_small by lia.
  repeat split.
  replace (zb (Z.land dur 255)) with (zb dur); [apply zb_shift8; exact Hd|].
  unfold zb. change 255 with (Z.ones 8). rewrite Z.land_ones by lia.
  change (2 ^ 8) with 256. rewrite Z.mod_mod by lia. reflexivity.
Qed.

(** ** Sessions: an invariant of the sending half *)
Definition wf_sess (s : sess) : Prop := wf_header (hdr s) /\ h_pad (hdr s) = false.

(** Payload types passed to SendRaw are 7 bit, as the application gets them from SDP;
    the sample count is a uint32. *)
Definition wf_op (x : op) : Prop :=
  match x with
  | OpSend f => length f = 160%nat
  | OpRaw pt _ n => 0 <= pt < 128 /\ 0 <= n < 4294967296
  | OpDTMF _ => True
  end.

Lemma wf_set_pt h v : wf_header h -> 0 <= v < 128 -> wf_header (set_pt h v).
Proof. unfold wf_header, set_pt. cbn. tauto. Qed.
Lemma wf_set_mark h v : wf_header h -> wf_header (set_mark h v).
Proof. unfold wf_header, set_mark. cbn. tauto. Qed.
Lemma wf_set_seq h v : wf_header h -> wf_header (set_seq h (u16 v)).
Proof. unfold wf_header, set_seq. cbn. pose proof (u16_range v). tauto. Qed.
Lemma wf_set_ts h v : wf_header h -> wf_header (set_ts h (u32 v)).
Proof. unfold wf_header, set_ts. cbn. pose proof (u32_range v). tauto. Qed.
Global Hint Resolve wf_set_pt wf_set_mark wf_set_seq wf_set_ts : rtp.

(** What one WriteTo call carries: header fields and payload. *)
Definition carries (p : bytes) (h : header) (pl : bytes) : Prop :=
  f_version p = 2 /\ f_extension p = false /\ f_csrc_count p = 0 /\
  f_padding p = h_pad h /\ f_marker p = h_mark h /\ f_pt p = h_pt h /\
  f_seq p = h_seq h /\ f_ts p = h_ts h /\ f_ssrc p = h_ssrc h /\ f_payload p = pl.

Lemma write_carries h pl : wf_header h -> carries (header_write h [] ++ pl) h pl.
Proof. intros H. pose proof (write_layout h pl H) as L. cbv zeta in L. unfold carries. tauto. Qed.

(** DTMF: closed form of the packets. *)
Definition dtmf_hdr (h : header) (i : nat) : header :=
  mkheader (h_pad h) (Nat.eqb i 0) dtmf_PT (u16 (h_seq h + Z.of_nat i)) (h_ts h) (h_ssrc h).
Definition dtmf_dur (i : nat) : Z := nth i [1; 101; 201; 301; 400; 400; 400] 0.
Definition dtmf_vol (i : nat) : Z := if Nat.ltb i 4 then 6 else 134.
Definition dtmf_pkt (h : header) (code : Z) (i : nat) : bytes :=
  header_write (dtmf_hdr h i) [] ++ event_bytes code (dtmf_vol i) (dtmf_dur i).

(** number of packets attempted: up to and including the first failure, at most 7 *)
Fixpoint attempts_of (n : nat) (o : list bool) : nat :=
  match n with O => O | S n' => if next_ok o then S (attempts_of n' (tl o)) else 1%nat end.
Fixpoint all_ok (n : nat) (o : list bool) : bool :=
  match n with O => true | S n' => next_ok o && all_ok n' (tl o) end.
Fixpoint drop_ok (n : nat) (o : list bool) : list bool :=
  match n with O => o | S n' => if next_ok o then drop_ok n' (tl o) else tl o end.

Definition dtmf_calls (h : header) (code : Z) (o : list bool) : list attempt :=
  map (fun i => (Nat.ltb (S i) (attempts_of 7 o) || all_ok 7 o, dtmf_pkt h code i)) (seq 0 (attempts_of 7 o)).

Lemma u16_u16_add a b : u16 (u16 a + b) = u16 (a + b).
Proof. unfold u16. rewrite Zplus_mod_idemp_l. reflexivity. Qed.

Lemma valid_digit_code digit : (dtmfCodes digit =? 0) && negb (beq digit "0") = false ->
  CharToDtmf digit = Some (dtmfCodes digit) /\ 0 <= dtmfCodes digit <= 16.
Proof.
  intros H.
  assert (K : ((dtmfCodes digit =? 0) && negb (beq digit "0")) ||
     (match CharToDtmf digit with Some c => c =? dtmfCodes digit | None => false end && (0 <=? dtmfCodes digit) && (dtmfCodes digit <=? 16)) = true).
  { clear H. revert digit. by_bytes. }
  rewrite H in K. cbn [orb] in K. rewrite !andb_true_iff in K. destruct K as [[K1 K2] K3].
  destruct (CharToDtmf digit); [|discriminate]. apply Z.eqb_eq in K1. subst. split; [reflexivity|lia].
Qed.

Lemma invalid_digit_code digit : (dtmfCodes digit =? 0) && negb (beq digit "0") = true ->
  CharToDtmf digit = None.
Proof.
  intros H.
  assert (K : negb ((dtmfCodes digit =? 0) && negb (beq digit "0")) ||
     (match CharToDtmf digit with Some _ => false | None => true end) = true).
  { clear H. revert digit. by_bytes. }
  rewrite H in K. cbn [negb orb] in K. destruct (CharToDtmf digit); [discriminate|reflexivity].
Qed.

(** Canonical form of the header after k successful DTMF packets. *)
Definition dtmf_after (h : header) (k : nat) : header :=
  mkheader (h_pad h) (Nat.eqb k 0) dtmf_PT (u16 (h_seq h + Z.of_nat k)) (h_ts h) (h_ssrc h).

Lemma after_adv h k : set_mark (set_seq (dtmf_after h k) (u16 (h_seq (dtmf_after h k) + 1))) false = dtmf_after h (S k).
Proof.
  unfold dtmf_after, set_mark, set_seq. cbn [h_pad h_mark h_pt h_seq h_ts h_ssrc Nat.eqb].
  rewrite u16_u16_add. do 2 f_equal. lia.
Qed.

Lemma after_adv' h k : set_seq (dtmf_after h (S k)) (u16 (h_seq (dtmf_after h (S k)) + 1)) = dtmf_after h (S (S k)).
Proof.
  unfold dtmf_after, set_seq. cbn [h_pad h_mark h_pt h_seq h_ts h_ssrc Nat.eqb].
  rewrite u16_u16_add. do 2 f_equal. lia.
Qed.

Lemma progress_step f h k code dur o :
  dtmf_progress (S f) (dtmf_after h k) code dur o =
    let pkt := header_write (dtmf_after h k) [] ++ event_bytes code 6 dur in
    if next_ok o then
      let dur := u16 (dur + dtmfInterval) in
      if dtmfDuration <=? dur then (dtmf_after h (S k), [(true, pkt)], tl o, true)
      else let '(h', ps, o', ok) := dtmf_progress f (dtmf_after h (S k)) code dur (tl o) in (h', (true, pkt) :: ps, o', ok)
    else (dtmf_after h k, [(false, pkt)], tl o, false).
Proof. cbn [dtmf_progress]. rewrite after_adv. reflexivity. Qed.

Lemma end_step n h k code o :
  dtmf_end (S n) (dtmf_after h (S k)) code o =
    let pkt := header_write (dtmf_after h (S k)) [] ++ event_bytes code 134 400 in
    if next_ok o then
      let '(h', ps, o', ok) := dtmf_end n (dtmf_after h (S (S k))) code (tl o) in (h', (true, pkt) :: ps, o', ok)
    else (dtmf_after h (S k), [(false, pkt)], tl o, false).
Proof. cbn [dtmf_end]. rewrite after_adv'. reflexivity. Qed.

Lemma dtmf_send_calls s digit o : live s = true -> 0 <= h_seq (hdr s) < 65536 ->
  (dtmfCodes digit =? 0) && negb (beq digit "0") = false ->
  let k := attempts_of 7 o in
  SendDTMF s digit o =
    (mksess true (dtmf_after (hdr s) (if all_ok 7 o then 7 else k - 1)),
     dtmf_calls (hdr s) (dtmfCodes digit) o, drop_ok 7 o,
     if all_ok 7 o then None else Some WriteFailed).
Proof.
  intros Hl Hseq Hv. cbv zeta. unfold SendDTMF. rewrite Hv, Hl. cbn [negb].
  generalize (dtmfCodes digit). intros code.
  destruct s as [lv h]. cbn [hdr live] in *.
  assert (Hh0 : set_mark (set_pt h dtmf_PT) true = dtmf_after h 0).
  { unfold dtmf_after, set_mark, set_pt. cbn [Nat.eqb Z.of_nat h_pad h_mark h_pt h_seq h_ts h_ssrc].
    rewrite Z.add_0_r, u16_id by exact Hseq. reflexivity. }
  rewrite Hh0. unfold dtmf_calls.
  assert (Hp : forall i, dtmf_pkt h code i = header_write (dtmf_after h i) [] ++ event_bytes code (dtmf_vol i) (dtmf_dur i)) by reflexivity.
  cbn [attempts_of all_ok drop_ok].
  rewrite progress_step. cbv zeta.
  change (u16 (1 + dtmfInterval)) with 101. change (dtmfDuration <=? 101) with false. cbv iota.
  destruct (next_ok o); [|reflexivity]. cbn [andb].
  rewrite progress_step. cbv zeta.
  change (u16 (101 + dtmfInterval)) with 201. change (dtmfDuration <=? 201) with false. cbv iota.
  destruct (next_ok (tl o)); [|reflexivity]. cbn [andb].
  rewrite progress_step. cbv zeta.
  change (u16 (201 + dtmfInterval)) with 301. change (dtmfDuration <=? 301) with false. cbv iota.
  destruct (next_ok (tl (tl o))); [|reflexivity]. cbn [andb].
  rewrite progress_step. cbv zeta.
  change (u16 (301 + dtmfInterval)) with 401. change (dtmfDuration <=? 401) with true. cbv iota.
  destruct (next_ok (tl (tl (tl o)))); [|reflexivity]. cbn [andb negb].
  rewrite end_step. cbv zeta.
  destruct (next_ok (tl (tl (tl (tl o))))); [|reflexivity]. cbn [andb negb].
  rewrite end_step. cbv zeta.
  destruct (next_ok (tl (tl (tl (tl (tl o)))))); [|reflexivity]. cbn [andb negb].
  rewrite end_step. cbv zeta.
  destruct (next_ok (tl (tl (tl (tl (tl (tl o))))))); reflexivity.
Qed.

Lemma wf_dtmf_hdr h i : wf_header h -> wf_header (dtmf_hdr h i).
Proof.
  unfold wf_header, dtmf_hdr. cbn [h_pt h_seq h_ts h_ssrc].
  pose proof (u16_range (h_seq h + Z.of_nat i)). unfold dtmf_PT. intuition lia.
Qed.

Lemma dtmf_pkt_carries h code i : wf_header h ->
  carries (dtmf_pkt h code i) (dtmf_hdr h i) (event_bytes code (dtmf_vol i) (dtmf_dur i)).
Proof. intros H. apply write_carries, wf_dtmf_hdr, H. Qed.

(** The eight possible outcomes of a DTMF transmission. *)
Lemma attempts_cases o :
  (all_ok 7 o = true /\ attempts_of 7 o = 7%nat) \/
  (all_ok 7 o = false /\ exists k, (k < 7)%nat /\ attempts_of 7 o = S k).
Proof.
  assert (G : forall n o, (all_ok n o = true /\ attempts_of n o = n) \/
     (all_ok n o = false /\ exists k, (k < n)%nat /\ attempts_of n o = S k)).
  { clear o. induction n as [|n IH]; intros o; cbn [all_ok attempts_of]; [left; auto|].
    destruct (next_ok o); cbn [andb].
    - destruct (IH (tl o)) as [[H1 H2]|[H1 (k & Hk & H2)]].
      + left. rewrite H2. auto.
      + right. split; [exact H1|]. exists (S k). rewrite H2. split; [lia|reflexivity].
    - right. split; [reflexivity|]. exists O. split; [lia|reflexivity]. }
  apply G.
Qed.

(** ** Sequence numbering over WriteTo calls *)
Inductive numbered : Z -> list attempt -> Z -> Prop :=
| Num0 s : numbered s [] s
| NumS s ok p l s' : f_seq p = s ->
    numbered (if ok || negb (f_pt p =? 101) then (s + 1) mod 65536 else s) l s' ->
    numbered s ((ok, p) :: l) s'.

Lemma numbered_app a l1 b l2 c : numbered a l1 b -> numbered b l2 c -> numbered a (l1 ++ l2) c.
Proof. induction 1; intros; cbn [app]; [assumption|constructor; auto]. Qed.

Lemma numbered_one s ok p : f_seq p = s -> f_pt p <> 101 -> numbered s [(ok, p)] (u16 (s + 1)).
Proof.
  intros H1 H2. constructor; [exact H1|]. replace (f_pt p =? 101) with false by lia.
  cbn [negb]. rewrite orb_true_r. constructor.
Qed.

Lemma numbered_dtmf_ok h code : wf_header h -> forall n i,
  numbered (u16 (h_seq h + Z.of_nat i)) (map (fun j => (true, dtmf_pkt h code j)) (seq i n)) (u16 (h_seq h + Z.of_nat (i + n))).
Proof.
  intros Hwf. induction n as [|n IH]; intros i; cbn [seq map].
  - rewrite Nat.add_0_r. constructor.
  - destruct (dtmf_pkt_carries h code i Hwf) as (_ & _ & _ & _ & _ & Hpt & Hs & _).
    constructor; [rewrite Hs; reflexivity|]. cbn [orb].
    specialize (IH (S i)). fold (u16 (u16 (h_seq h + Z.of_nat i) + 1)).
    rewrite u16_u16_add. replace (h_seq h + Z.of_nat i + 1) with (h_seq h + Z.of_nat (S i)) by lia.
    replace (i + S n)%nat with (S i + n)%nat by lia. exact IH.
Qed.

Lemma numbered_dtmf h code o : wf_header h ->
  numbered (h_seq h) (dtmf_calls h code o) (u16 (h_seq h + Z.of_nat (if all_ok 7 o then 7 else attempts_of 7 o - 1))).
Proof.
  intros Hwf. unfold dtmf_calls.
  assert (H0 : u16 (h_seq h + Z.of_nat 0) = h_seq h).
  { cbn [Z.of_nat]. rewrite Z.add_0_r. apply u16_id. apply Hwf. }
  destruct (attempts_cases o) as [[H1 H2]|[H1 (k & Hk & H2)]]; rewrite H1, H2.
  - pose proof (numbered_dtmf_ok h code Hwf 7 0) as H. rewrite H0 in H.
    erewrite map_ext; [exact H|]. intros j. rewrite orb_true_r. reflexivity.
  - replace (S k - 1)%nat with k by lia. rewrite seq_S, map_app. cbn [Nat.add map].
    apply (numbered_app _ _ (u16 (h_seq h + Z.of_nat k))).
    + pose proof (numbered_dtmf_ok h code Hwf k 0) as H. rewrite H0 in H.
      erewrite map_ext_in; [exact H|]. intros j Hj. apply in_seq in Hj. cbv beta.
      replace (Nat.ltb (S j) (S k)) with true; [reflexivity|]. symmetry. apply Nat.ltb_lt. lia.
    + rewrite Nat.ltb_irrefl. cbn [orb].
      destruct (dtmf_pkt_carries h code k Hwf) as (_ & _ & _ & _ & _ & Hpt & Hs & _).
      constructor; [rewrite Hs; reflexivity|].
      rewrite Hpt. cbn [dtmf_hdr h_pt]. unfold dtmf_PT. cbn [Z.eqb Pos.eqb negb orb]. constructor.
Qed.

Definition not_raw_event (x : op) : Prop := match x with OpRaw pt _ _ => pt <> 101 | _ => True end.

Lemma wf_after h k : wf_header h -> wf_header (dtmf_after h k).
Proof. apply (wf_dtmf_hdr h k). Qed.

(** One application call: invariant, numbering, and constant fields. *)
Definition op_samples (x : op) : Z :=
  match x with OpSend _ => 160 | OpRaw _ _ n => n | OpDTMF _ => 0 end.

Lemma do_op_facts s x o s1 ps o1 e : live s = true -> wf_sess s -> wf_op x ->
  do_op s x o = (s1, ps, o1, e) ->
  live s1 = true /\ wf_sess s1 /\ h_ssrc (hdr s1) = h_ssrc (hdr s) /\
  h_ts (hdr s1) = (h_ts (hdr s) + op_samples x) mod 4294967296 /\
  Forall (fun a : attempt => f_version (snd a) = 2 /\ f_padding (snd a) = false /\ f_extension (snd a) = false
                  /\ f_csrc_count (snd a) = 0 /\ f_ssrc (snd a) = h_ssrc (hdr s) /\ f_ts (snd a) = h_ts (hdr s)) ps /\
  (not_raw_event x -> numbered (h_seq (hdr s)) ps (h_seq (hdr s1))).
Proof.
  intros Hl [Hwf Hpad] Hx E.
  assert (Hts : (h_ts (hdr s) + 0) mod 4294967296 = h_ts (hdr s)).
  { rewrite Z.add_0_r. apply Z.mod_small. apply Hwf. }
  destruct x as [f|pt d n|digit]; cbn [do_op op_samples] in *.
  - unfold Send in E. rewrite Hl in E. cbn [negb] in E. injection E as <- <- <- <-.
    cbn [live hdr h_ssrc h_ts h_seq set_seq set_ts set_pt h_pt].
    assert (W : wf_header (set_pt (hdr s) ulaw_PT)) by (apply wf_set_pt; [exact Hwf|unfold ulaw_PT; lia]).
    split; [reflexivity|]. split; [split; [apply wf_set_seq, wf_set_ts, W|exact Hpad]|].
    split; [reflexivity|]. split; [reflexivity|].
    destruct (write_carries _ (map encode_sample f) W) as (Hv & He & Hc & Hp & _ & Hpt & Hsq & Hts' & Hss & _).
    split.
    + constructor; [|constructor]. exact (conj Hv (conj (eq_trans Hp Hpad) (conj He (conj Hc (conj Hss Hts'))))).
    + intros _. apply (numbered_one _ _ _ Hsq). rewrite Hpt. discriminate.
  - destruct Hx as [Hx1 Hx2].
    unfold SendRaw in E. rewrite Hl in E. cbn [negb] in E. injection E as <- <- <- <-.
    cbn [live hdr h_ssrc h_ts h_seq set_seq set_ts set_pt h_pt].
    assert (W : wf_header (set_pt (hdr s) pt)) by (apply wf_set_pt; [exact Hwf|lia]).
    split; [reflexivity|]. split; [split; [apply wf_set_seq, wf_set_ts, W|exact Hpad]|].
    split; [reflexivity|]. split; [reflexivity|].
    destruct (write_carries _ d W) as (Hv & He & Hc & Hp & _ & Hpt & Hsq & Hts' & Hss & _).
    split.
    + constructor; [|constructor]. exact (conj Hv (conj (eq_trans Hp Hpad) (conj He (conj Hc (conj Hss Hts'))))).
    + intros Hne. cbn [not_raw_event] in Hne. apply (numbered_one _ _ _ Hsq). rewrite Hpt. exact Hne.
  - destruct ((dtmfCodes digit =? 0) && negb (beq digit "0")) eqn:Hv.
    { unfold SendDTMF in E. rewrite Hv in E. injection E as <- <- <- <-.
      repeat split; auto; try apply Hwf; try (symmetry; exact Hts). intros _. constructor. }
    rewrite (dtmf_send_calls s digit o Hl) in E by (try exact Hv; apply Hwf).
    injection E as <- <- <- <-. cbn [live hdr].
    split; [reflexivity|]. split; [split; [apply wf_after, Hwf|exact Hpad]|].
    split; [reflexivity|]. split; [cbn [h_ts dtmf_after]; symmetry; exact Hts|].
    split.
    + unfold dtmf_calls. rewrite Forall_forall. intros a Ha. apply in_map_iff in Ha.
      destruct Ha as (j & <- & _). 
      destruct (dtmf_pkt_carries (hdr s) (dtmfCodes digit) j Hwf) as (Hv' & He & Hc & Hp & _ & Hpt & Hsq & Hts' & Hss & _).
      exact (conj Hv' (conj (eq_trans Hp Hpad) (conj He (conj Hc (conj Hss Hts'))))).
    + intros _. apply numbered_dtmf. exact Hwf.
Qed.

Definition total_samples (xs : list op) : Z := fold_right (fun x a => op_samples x + a) 0 xs.

Lemma run_ops_facts xs : forall s o s1 ps o1, live s = true -> wf_sess s -> Forall wf_op xs ->
  run_ops s xs o = (s1, ps, o1) ->
  live s1 = true /\ wf_sess s1 /\ h_ssrc (hdr s1) = h_ssrc (hdr s) /\
  h_ts (hdr s1) = (h_ts (hdr s) + total_samples xs) mod 4294967296 /\
  Forall (fun a : attempt => f_version (snd a) = 2 /\ f_padding (snd a) = false /\ f_extension (snd a) = false
                  /\ f_csrc_count (snd a) = 0 /\ f_ssrc (snd a) = h_ssrc (hdr s)) ps /\
  (Forall not_raw_event xs -> numbered (h_seq (hdr s)) ps (h_seq (hdr s1))).
Proof.
  induction xs as [|x xs IH]; intros s o s1 ps o1 Hl Hwf Hx E; cbn [run_ops] in E.
  - injection E as <- <- <-. cbn [total_samples fold_right]. rewrite Z.add_0_r.
    rewrite Z.mod_small by apply Hwf. repeat split; auto; try apply Hwf. intros _. constructor.
  - destruct (do_op s x o) as [[[s2 ps1] o2] e] eqn:E1.
    destruct (run_ops s2 xs o2) as [[s3 ps2] o3] eqn:E2. injection E as <- <- <-.
    inversion Hx as [|? ? Hx1 Hx2]; subst.
    destruct (do_op_facts _ _ _ _ _ _ _ Hl Hwf Hx1 E1) as (L1 & W1 & S1 & T1 & F1 & N1).
    destruct (IH _ _ _ _ _ L1 W1 Hx2 E2) as (L2 & W2 & S2 & T2 & F2 & N2).
    split; [exact L2|]. split; [exact W2|]. split; [congruence|].
    split.
    { rewrite T2, T1. cbn [total_samples fold_right]. rewrite Zplus_mod_idemp_l. f_equal.
      fold (total_samples xs). lia. }
    split.
    { apply Forall_app. split.
      - eapply Forall_impl; [|exact F1]. cbv beta. tauto.
      - eapply Forall_impl; [|exact F2]. cbv beta. rewrite S1. tauto. }
    intros Hr. inversion Hr as [|? ? Hr1 Hr2]; subst.
    eapply numbered_app; eauto.
Qed.

Lemma run_ops_app xs ys s o :
  run_ops s (xs ++ ys) o =
  let '(s1, ps1, o1) := run_ops s xs o in
  let '(s2, ps2, o2) := run_ops s1 ys o1 in (s2, ps1 ++ ps2, o2).
Proof.
  revert s o. induction xs as [|x xs IH]; intros s o; cbn [app run_ops].
  - destruct (run_ops s ys o) as [[s2 ps2] o2]. reflexivity.
  - destruct (do_op s x o) as [[[s1 ps1] o1] e]. rewrite IH.
    destruct (run_ops s1 xs o1) as [[s2 ps2] o2].
    destruct (run_ops s2 ys o2) as [[s3 ps3] o3]. rewrite app_assoc. reflexivity.
Qed.

(** Without write failures, packets are consecutive. *)
Lemma numbered_all_ok s l s' : numbered s l s' -> 0 <= s < 65536 -> Forall (fun a : attempt => fst a = true) l ->
  forall k a, nth_error l k = Some a -> f_seq (snd a) = (s + Z.of_nat k) mod 65536.
Proof.
  induction 1 as [s|s ok p l s' Hp Hn IH]; intros Hs Hok k a Hk; [destruct k; discriminate|].
  inversion Hok as [|? ? Ho1 Ho2]; subst. cbn [fst] in Ho1. subst ok. cbn [orb] in *.
  destruct k as [|k]; cbn [nth_error] in Hk.
  - injection Hk as <-. cbn [snd]. rewrite Z.add_0_r. symmetry. apply Z.mod_small. exact Hs.
  - rewrite (IH ltac:(apply Z.mod_pos_bound; lia) Ho2 k a Hk).
    rewrite Zplus_mod_idemp_l. f_equal. lia.
Qed.

(** Marker bit: without write failures it is never left set between calls. *)
Lemma do_op_mark s x o s1 ps o1 e : live s = true -> wf_sess s -> wf_op x -> h_mark (hdr s) = false ->
  do_op s x o = (s1, ps, o1, e) -> Forall (fun a : attempt => fst a = true) ps ->
  h_mark (hdr s1) = false /\ (forall a, In a ps -> f_pt (snd a) <> 101 -> f_marker (snd a) = false).
Proof.
  intros Hl [Hwf Hpad] Hx Hm E Hok.
  destruct x as [f|pt d n|digit]; cbn [do_op] in *.
  - unfold Send in E. rewrite Hl in E. cbn [negb] in E. injection E as <- <- <- <-.
    split; [exact Hm|]. intros a [<-|[]] _. cbn [snd].
    assert (W : wf_header (set_pt (hdr s) ulaw_PT)) by (apply wf_set_pt; [exact Hwf|unfold ulaw_PT; lia]).
    destruct (write_carries _ (map encode_sample f) W) as (_ & _ & _ & _ & Hmk & _). exact (eq_trans Hmk Hm).
  - unfold SendRaw in E. rewrite Hl in E. cbn [negb] in E. injection E as <- <- <- <-.
    split; [exact Hm|]. intros a [<-|[]] _. cbn [snd]. destruct Hx as [Hx1 Hx2].
    assert (W : wf_header (set_pt (hdr s) pt)) by (apply wf_set_pt; [exact Hwf|lia]).
    destruct (write_carries _ d W) as (_ & _ & _ & _ & Hmk & _). exact (eq_trans Hmk Hm).
  - destruct ((dtmfCodes digit =? 0) && negb (beq digit "0")) eqn:Hv.
    { unfold SendDTMF in E. rewrite Hv in E. injection E as <- <- <- <-. split; [exact Hm|]. intros a []. }
    rewrite (dtmf_send_calls s digit o Hl) in E by (try exact Hv; apply Hwf).
    assert (Es : hdr s1 = dtmf_after (hdr s) (if all_ok 7 o then 7 else attempts_of 7 o - 1)) by (symmetry; inversion E; reflexivity).
    assert (Eps : ps = dtmf_calls (hdr s) (dtmfCodes digit) o) by (inversion E; reflexivity).
    clear E. subst ps. rewrite Es.
    split.
    + destruct (attempts_cases o) as [[H1 H2]|[H1 (k & Hk & H2)]]; rewrite H1, ?H2; [reflexivity|].
      exfalso. rewrite Forall_forall in Hok. unfold dtmf_calls in Hok. rewrite H1, H2 in Hok.
      specialize (Hok (Nat.ltb (S k) (S k) || false, dtmf_pkt (hdr s) (dtmfCodes digit) k)).
      cbn [fst] in Hok. rewrite Nat.ltb_irrefl in Hok. cbn [orb] in Hok.
      assert (false = true); [apply Hok|discriminate]. apply in_map_iff. exists k.
      rewrite Nat.ltb_irrefl. split; [reflexivity|]. apply in_seq. lia.
    + intros a Ha Hne. unfold dtmf_calls in Ha. apply in_map_iff in Ha. destruct Ha as (j & <- & _). cbn [snd] in *.
      destruct (dtmf_pkt_carries (hdr s) (dtmfCodes digit) j Hwf) as (_ & _ & _ & _ & _ & Hpt & _).
      exfalso. apply Hne. rewrite Hpt. reflexivity.
Qed.

Lemma run_ops_mark xs : forall s o s1 ps o1, live s = true -> wf_sess s -> Forall wf_op xs -> h_mark (hdr s) = false ->
  run_ops s xs o = (s1, ps, o1) -> Forall (fun a : attempt => fst a = true) ps ->
  forall a, In a ps -> f_pt (snd a) <> 101 -> f_marker (snd a) = false.
Proof.
  induction xs as [|x xs IH]; intros s o s1 ps o1 Hl Hwf Hx Hm E Hok a Ha Hne; cbn [run_ops] in E.
  - injection E as <- <- <-. destruct Ha.
  - destruct (do_op s x o) as [[[s2 ps1] o2] e] eqn:E1.
    destruct (run_ops s2 xs o2) as [[s3 ps2] o3] eqn:E2. injection E as <- <- <-.
    inversion Hx as [|? ? Hx1 Hx2]; subst. apply Forall_app in Hok. destruct Hok as [Ho1 Ho2].
    destruct (do_op_facts _ _ _ _ _ _ _ Hl Hwf Hx1 E1) as (L1 & W1 & _).
    destruct (do_op_mark _ _ _ _ _ _ _ Hl Hwf Hx1 Hm E1 Ho1) as [Hm1 Hp1].
    apply in_app_or in Ha. destruct Ha as [Ha|Ha]; [apply Hp1; assumption|].
    eapply (IH s2 o2); eauto.
Qed.

(** ** Receive path *)
Lemma decode_sample_g711 b : decode_sample b = g711_decode (bz b).
Proof.
  unfold decode_sample. pose proof (bz_range b) as Hb.
  rewrite (ulaw_decode_is_g711 (bz b) Hb).
  destruct (ulaw_encode_decode (bz b) Hb) as (x & Hx & Hs & _).
  rewrite (ulaw_decode_is_g711 (bz b) Hb) in Hx. injection Hx as Hx. rewrite Hx.
  unfold is_sample in Hs. unfold i16, u16.
  destruct (Z_lt_le_dec x 0).
  - replace (x mod 65536) with (x + 65536) by (apply (Z.mod_unique_pos _ _ (-1)); lia).
    destruct (Z.ltb_spec (x + 65536) 32768); lia.
  - rewrite Z.mod_small by lia. destruct (Z.ltb_spec x 32768); lia.
Qed.

(** Independent description of the packets that are accepted. *)
Definition acceptable (p : bytes) : bool :=
  Nat.eqb (length p) 172 && (f_version p =? 2) && negb (f_extension p) && (f_pt p =? 0).

Lemma slice_app p rest i n : (i + n <= length p)%nat -> slice (p ++ rest) i n = slice p i n.
Proof.
  intros H. unfold slice. rewrite skipn_app. rewrite firstn_app.
  replace (n - length (skipn i p))%nat with 0%nat by (rewrite skipn_length; lia).
  cbn [firstn]. apply app_nil_r.
Qed.

Lemma recv_into_length buf p : length buf = 2048%nat -> length (fst (recv_into buf p)) = 2048%nat.
Proof.
  intros H. unfold recv_into. cbn [fst].
  rewrite app_length, skipn_length, firstn_length, H. lia.
Qed.

Lemma recv_one buf p : length buf = 2048%nat ->
  let '(buf', amt) := recv_into buf p in
  recv_packet buf' amt = Ok (if acceptable p then Some (map (fun b => g711_decode (bz b)) (f_payload p)) else None).
Proof.
  intros Hb. unfold recv_into.
  set (q := firstn 2048 p). unfold recv_packet. rewrite header_read_spec. cbn [rbind].
  set (buf' := q ++ skipn (length q) buf).
  assert (Hlen : length buf' = 2048%nat) by (apply (recv_into_length buf p Hb)).
  unfold HeaderSize. change (12 + 160) with 172.
  destruct (Nat.eqb_spec (length p) 172) as [Hp|Hp].
  - assert (q = p) as Hq by (unfold q; apply firstn_all2; lia).
    unfold acceptable. rewrite Hp. rewrite Nat.eqb_refl. cbn [andb].
    unfold read_spec.
    destruct (Nat.ltb_spec (length buf') 12); [lia|].
    assert (E : forall i n, (i + n <= 172)%nat -> slice buf' i n = slice p i n).
    { intros i n Hin. unfold buf'. rewrite Hq. apply slice_app. lia. }
    assert (EB : forall i, (i < 172)%nat -> byte_at buf' i = byte_at p i).
    { intros i Hi. unfold byte_at. rewrite E by lia. reflexivity. }
    unfold f_version, f_extension, f_padding, f_marker, f_pt, f_seq, f_ts, f_ssrc.
    rewrite !EB, !E by lia. fold (f_version p) (f_extension p) (f_pt p).
    destruct (f_version p =? 2); cbn [negb andb]; [|reflexivity].
    destruct (f_extension p); cbn [negb andb]; [reflexivity|].
    cbn [h_pt]. unfold ulaw_PT. destruct (f_pt p =? 0); cbn [negb]; [|reflexivity].
    rewrite Hq, Hp. change (Z.of_nat 172 =? 172) with true. cbn [negb].
    assert (F : firstn 160 (skipn 12 buf') = f_payload p).
    { change (firstn 160 (skipn 12 buf')) with (slice buf' 12 160). rewrite E by lia.
      unfold slice, f_payload. apply firstn_all2. rewrite skipn_length. lia. }
    rewrite F. unfold f_payload at 1. rewrite skipn_length, Hp. cbn [Nat.sub Nat.eqb].
    do 2 f_equal. apply map_ext. apply decode_sample_g711.
  - assert (Hne : (Z.of_nat (length q) =? 172) = false).
    { apply Z.eqb_neq. unfold q. rewrite firstn_length. lia. }
    unfold acceptable. replace (Nat.eqb (length p) 172) with false by (symmetry; apply Nat.eqb_neq; exact Hp).
    cbn [andb]. rewrite Hne. cbn [negb].
    destruct (read_spec buf') as [h|]; [|reflexivity].
    destruct (negb (h_pt h =? ulaw_PT)); reflexivity.
Qed.

Lemma recv_stream_spec pkts : forall buf, length buf = 2048%nat ->
  recv_stream buf pkts = Ok (map (fun p => map (fun b => g711_decode (bz b)) (f_payload p)) (filter acceptable pkts)).
Proof.
  induction pkts as [|p pkts IH]; intros buf Hb; cbn [recv_stream filter map]; [reflexivity|].
  pose proof (recv_one buf p Hb) as H1. pose proof (recv_into_length buf p Hb) as H2.
  destruct (recv_into buf p) as [buf' amt]. cbn [fst] in H2.
  rewrite H1. cbn [rbind]. rewrite (IH buf' H2). cbn [rbind].
  destruct (acceptable p); reflexivity.
Qed.
