(** Properties C27-C33: package rtp, data path. The vocabulary (f_seq, f_ts, ...) is
    RtpSpec.v: RFC 3550 / RFC 4733 field positions as arithmetic on bytes. *)
From Verif Require Import Bytes BytesLemmas Asm DspModel DspProofs P_Dsp RtpModel RtpSpec RtpProofs.
Local Open Scope Z_scope.

(** A header whose fields fit their wire width (uint8 PT below 128, uint16, uint32, uint32). *)
Definition in_range (h : header) : Prop :=
  0 <= h_pt h < 128 /\ 0 <= h_seq h < 65536 /\ 0 <= h_ts h < 2 ^ 32 /\ 0 <= h_ssrc h < 2 ^ 32.

(** C27: Write appends twelve bytes with the RFC 3550 layout ... *)
Theorem rtp_header_layout : forall h b, in_range h ->
  exists w, header_write h b = b ++ w /\ length w = 12%nat /\
    f_version w = 2 /\ f_padding w = h_pad h /\ f_extension w = false /\ f_csrc_count w = 0 /\
    f_marker w = h_mark h /\ f_pt w = h_pt h /\ f_seq w = h_seq h /\ f_ts w = h_ts h /\ f_ssrc w = h_ssrc h.
Proof.
  intros h b H. exists (header_write h []). split; [apply header_write_app|]. split; [reflexivity|].
  pose proof (write_layout h [] H) as L. cbv zeta in L. rewrite app_nil_r in L. tauto.
Qed.

(** ... and Read gives the header back, whatever follows it in the packet. *)
Theorem rtp_header_roundtrip : forall h payload, in_range h ->
  header_read (header_write h [] ++ payload) = Ok (inl h).
Proof. intros h pl H. apply header_roundtrip. exact H. Qed.

(** C28: Read never panics; complete characterisation of its result on every packet. *)
Theorem rtp_header_read_total : forall p, header_read p = Ok (
  if Nat.ltb (length p) 12 then inr ErrTruncatedPacket
  else if negb (f_version p =? 2) then inr ErrBadVersion
  else if f_extension p then inr ErrExtendedHeadersNotSupported
  else inl (mkheader (f_padding p) (f_marker p) (f_pt p) (f_seq p) (f_ts p) (f_ssrc p))).
Proof. exact header_read_spec. Qed.

(** Telephone event payload round trip (EventHeader.Write / Read). *)
Theorem rtp_event_roundtrip : forall e b0 b1 b2 b3 rest,
  0 <= e_event e < 256 -> 0 <= e_volume e < 64 -> 0 <= e_duration e < 65536 ->
  exists w, event_write e (b0 :: b1 :: b2 :: b3 :: rest) = Ok w /\ event_read w = Ok e /\
            skipn 4 w = rest /\ ev_code w = e_event e /\ ev_end w = e_E e /\ ev_reserved w = e_R e /\
            ev_volume w = e_volume e /\ ev_duration w = e_duration e.
Proof.
  intros e b0 b1 b2 b3 rest Hev Hvo Hdu. unfold event_write. eexists. split; [reflexivity|].
  assert (Hvx : exists c, zb (if e_E e then Z.lor (if e_R e then Z.lor (Z.land (e_volume e) 63) (Z.shiftl 1 6) else Z.land (e_volume e) 63) (Z.shiftl 1 7)
       else (if e_R e then Z.lor (Z.land (e_volume e) 63) (Z.shiftl 1 6) else Z.land (e_volume e) 63)) = c /\
      bz c = e_volume e + (if e_R e then 64 else 0) + (if e_E e then 128 else 0)).
  { eexists. split; [reflexivity|]. apply Z.eqb_eq.
    refine (forall_from_spec 64 0 (fun v => bz (zb (if e_E e then Z.lor (if e_R e then Z.lor (Z.land v 63) (Z.shiftl 1 6) else Z.land v 63) (Z.shiftl 1 7)
       else (if e_R e then Z.lor (Z.land v 63) (Z.shiftl 1 6) else Z.land v 63))) =? v + (if e_R e then 64 else 0) + (if e_E e then 128 else 0)) _ _ _); [|lia].
    destruct (e_E e), (e_R e); vm_compute; reflexivity. }
  destruct Hvx as (c & -> & Hc).
  assert (Hce : bz (zb (e_event e)) = e_event e) by (rewrite bz_zb; apply Z.mod_small; lia).
  assert (K : (bz c / 128 =? 1) = e_E e /\ ((bz c / 64) mod 2 =? 1) = e_R e /\ bz c mod 64 = e_volume e).
  { rewrite Hc.
    assert (K : forall r ee : bool, ((e_volume e + (if r then 64 else 0) + (if ee then 128 else 0)) / 128 =? 1) = ee /\
      (((e_volume e + (if r then 64 else 0) + (if ee then 128 else 0)) / 64) mod 2 =? 1) = r /\
      (e_volume e + (if r then 64 else 0) + (if ee then 128 else 0)) mod 64 = e_volume e).
    { intros r ee.
      pose proof (forall_from_spec 64 0 (fun v => Bool.eqb ((v + (if r then 64 else 0) + (if ee then 128 else 0)) / 128 =? 1) ee &&
        Bool.eqb (((v + (if r then 64 else 0) + (if ee then 128 else 0)) / 64) mod 2 =? 1) r &&
        ((v + (if r then 64 else 0) + (if ee then 128 else 0)) mod 64 =? v))
        ltac:(destruct r, ee; vm_compute; reflexivity) (e_volume e) ltac:(lia)) as F.
      cbv beta in F. rewrite !andb_true_iff in F. destruct F as [[F1 F2] F3].
      apply eqb_prop in F1, F2. apply Z.eqb_eq in F3. auto. }
    apply K. }
  destruct K as (K1 & K2 & K3).
  unfold event_read, idx. cbn [nth_error rbind skipn].
  unfold ev_code, ev_end, ev_reserved, ev_volume, ev_duration, slice. rewrite byte_at_0, byte_at_1.
  cbn [skipn firstn]. rewrite lor16, zb_shift8 by exact Hdu.
  b0f c. rewrite Hee, Hr, Hvol, Hce, K1, K2, K3.
  destruct e; repeat split; reflexivity.
Qed.

(** ** Histories of the sending half *)
(** Applications pass 160 sample frames, 7 bit payload types, uint32 sample counts. *)
Definition legal (x : op) : Prop :=
  match x with
  | OpSend f => length f = 160%nat
  | OpRaw pt _ n => 0 <= pt < 128 /\ 0 <= n < 2 ^ 32
  | OpDTMF _ => True
  end.

Definition sent_ok (a : bool * bytes) : Prop := fst a = true.

(** A session after an arbitrary history of calls with arbitrary socket outcomes. *)
Definition reached (ssrc : Z) (xs : list op) (o : list bool) : sess :=
  let '(s, _, _) := run_ops (new_session ssrc) xs o in s.
Definition datagrams (ssrc : Z) (xs : list op) (o : list bool) : list (bool * bytes) :=
  let '(_, ps, _) := run_ops (new_session ssrc) xs o in ps.

Lemma new_session_wf ssrc : 0 <= ssrc < 2 ^ 32 -> wf_sess (new_session ssrc).
Proof. intros H. unfold wf_sess, wf_header. cbn. repeat split; lia. Qed.

(** C29a: with working sockets the k-th datagram has sequence number 666+k modulo 2^16. *)
Theorem rtp_sequence_consecutive : forall ssrc xs o,
  0 <= ssrc < 2 ^ 32 -> Forall legal xs -> (forall pt d n, In (OpRaw pt d n) xs -> pt <> 101) ->
  Forall sent_ok (datagrams ssrc xs o) ->
  forall k a, nth_error (datagrams ssrc xs o) k = Some a ->
  f_seq (snd a) = (666 + Z.of_nat k) mod 65536.
Proof.
  intros ssrc xs o Hs Hx Hr. unfold datagrams.
  destruct (run_ops (new_session ssrc) xs o) as [[s ps] o'] eqn:E. intros Hok k a Hk.
  destruct (run_ops_facts xs (new_session ssrc) _ _ _ _ eq_refl (new_session_wf ssrc Hs) Hx E) as (_ & _ & _ & _ & _ & N).
  eapply numbered_all_ok; [apply N| |exact Hok|exact Hk].
  - apply Forall_forall. intros x Hin. destruct x; try exact Logic.I. cbn. eapply Hr; eauto.
  - cbn. lia.
Qed.

(** C29b: with failing sockets a number is consumed by every audio packet, sent or lost, and by
    every telephone event packet that was sent; so gaps on the wire are exactly lost audio packets. *)
Fixpoint numbering (next : Z) (l : list (bool * bytes)) : Prop :=
  match l with
  | [] => True
  | (sent, p) :: l' =>
      f_seq p = next /\
      numbering (if sent || negb (f_pt p =? 101) then (next + 1) mod 65536 else next) l'
  end.

Theorem rtp_sequence_with_losses : forall ssrc xs o,
  0 <= ssrc < 2 ^ 32 -> Forall legal xs -> (forall pt d n, In (OpRaw pt d n) xs -> pt <> 101) ->
  numbering 666 (datagrams ssrc xs o).
Proof.
  intros ssrc xs o Hs Hx Hr. unfold datagrams.
  destruct (run_ops (new_session ssrc) xs o) as [[s ps] o'] eqn:E.
  destruct (run_ops_facts xs (new_session ssrc) _ _ _ _ eq_refl (new_session_wf ssrc Hs) Hx E) as (_ & _ & _ & _ & _ & N).
  assert (N' : numbered 666 ps (h_seq (hdr s))).
  { apply N. apply Forall_forall. intros x Hin. destruct x; try exact Logic.I. cbn. eapply Hr; eauto. }
  clear -N'. induction N'; cbn [numbering]; auto.
Qed.

(** C29c: every datagram of the call made after history [xs] is stamped with the number of
    samples sent so far, and all of them carry the same version, flags and SSRC. *)
Definition samples (x : op) : Z :=
  match x with OpSend _ => 160 | OpRaw _ _ n => n | OpDTMF _ => 0 end.

Theorem rtp_timestamps : forall ssrc xs o x o' s' ps o'' err,
  0 <= ssrc < 2 ^ 32 -> Forall legal xs -> legal x ->
  do_op (reached ssrc xs o) x o' = (s', ps, o'', err) ->
  Forall (fun a => f_ts (snd a) = fold_right Z.add 0 (map samples xs) mod 2 ^ 32 /\
                   f_ssrc (snd a) = ssrc /\ f_version (snd a) = 2 /\
                   f_padding (snd a) = false /\ f_extension (snd a) = false /\ f_csrc_count (snd a) = 0) ps.
Proof.
  intros ssrc xs o x o' s' ps o'' err Hs Hxs Hx E. unfold reached in E.
  destruct (run_ops (new_session ssrc) xs o) as [[s ps0] o0] eqn:E0.
  destruct (run_ops_facts xs (new_session ssrc) _ _ _ _ eq_refl (new_session_wf ssrc Hs) Hxs E0) as (L & W & S & T & _).
  destruct (do_op_facts _ _ _ _ _ _ _ L W Hx E) as (_ & _ & _ & _ & F & _).
  eapply Forall_impl; [|exact F]. cbv beta. intros a (H1 & H2 & H3 & H4 & H5 & H6).
  rewrite H1, H2, H3, H4, H5, H6, S, T. cbn [new_session hdr h_ts h_ssrc]. rewrite Z.add_0_l.
  repeat split. f_equal. clear. induction xs as [|y xs IH]; [reflexivity|].
  cbn [total_samples fold_right map]. rewrite <- IH. destruct y; reflexivity.
Qed.

(** C30: SendDTMF. The packets a digit is turned into, as observable fields. *)
Record event_view := mkview {
  v_marker : bool; v_pt : Z; v_seq : Z; v_ts : Z; v_ssrc : Z;
  v_code : Z; v_end : bool; v_res : bool; v_vol : Z; v_dur : Z
}.
Definition view (p : bytes) : event_view :=
  mkview (f_marker p) (f_pt p) (f_seq p) (f_ts p) (f_ssrc p)
    (ev_code (f_payload p)) (ev_end (f_payload p)) (ev_reserved (f_payload p))
    (ev_volume (f_payload p)) (ev_duration (f_payload p)).

(** RFC 4733 transmission of one event: four updates, then the end packet three times. *)
Definition expected_views (h : header) (code : Z) : list event_view :=
  map (fun '(i, last, dur) =>
         mkview (i =? 0) 101 ((h_seq h + i) mod 65536) (h_ts h) (h_ssrc h) code last false 6 dur)
      [(0, false, 1); (1, false, 101); (2, false, 201); (3, false, 301);
       (4, true, 400); (5, true, 400); (6, true, 400)].

Lemma dtmf_pkt_view h code i : wf_header h -> 0 <= code <= 16 -> (i < 7)%nat ->
  nth_error (expected_views h code) i = Some (view (dtmf_pkt h code i)).
Proof.
  intros Hwf Hc Hi.
  destruct (dtmf_pkt_carries h code i Hwf) as (_ & _ & _ & _ & Hm & Hpt & Hsq & Hts & Hss & Hpl).
  assert (Hv : 0 <= dtmf_vol i < 256) by (unfold dtmf_vol; destruct (Nat.ltb i 4); lia).
  assert (Hd : 0 <= dtmf_dur i < 65536).
  { unfold dtmf_dur. do 7 (destruct i as [|i]; [cbn; lia|]). lia. }
  destruct (event_payload_fields code (dtmf_vol i) (dtmf_dur i) ltac:(lia) Hv Hd) as (_ & Hec & Hb1 & Hed).
  unfold view. rewrite Hpl, Hm, Hpt, Hsq, Hts, Hss, Hec, Hed. unfold ev_end, ev_reserved, ev_volume. rewrite Hb1.
  unfold dtmf_hdr. cbn [h_mark h_pt h_seq h_ts h_ssrc].
  do 7 (destruct i as [|i]; [reflexivity|]). lia.
Qed.

(** With a working socket: exactly the seven packets. *)
Theorem rtp_dtmf_event : forall s digit code,
  live s = true -> in_range (hdr s) -> CharToDtmf digit = Some code ->
  exists s' ps, SendDTMF s digit [] = (s', map (fun p => (true, p)) ps, [], None) /\
    map view ps = expected_views (hdr s) code /\
    h_mark (hdr s') = false /\ h_seq (hdr s') = (h_seq (hdr s) + 7) mod 65536 /\ h_ts (hdr s') = h_ts (hdr s).
Proof.
  intros s digit code Hl Hr Hd.
  destruct ((dtmfCodes digit =? 0) && negb (beq digit "0")) eqn:Hv.
  { rewrite (invalid_digit_code digit Hv) in Hd. discriminate. }
  destruct (valid_digit_code digit Hv) as [Hd' Hcode]. rewrite Hd in Hd'. injection Hd' as ->.
  pose proof (dtmf_send_calls s digit [] Hl ltac:(apply Hr) Hv) as E. cbv zeta in E.
  eexists. exists (map (dtmf_pkt (hdr s) (dtmfCodes digit)) (seq 0 7)).
  split. { rewrite E. reflexivity. }
  split.
  { change (expected_views (hdr s) (dtmfCodes digit)) with (map (fun i => nth i (expected_views (hdr s) (dtmfCodes digit)) (mkview false 0 0 0 0 0 false false 0 0)) (seq 0 7)).
    rewrite map_map. apply map_ext_in. intros i Hi. apply in_seq in Hi.
    symmetry. apply nth_error_nth. apply dtmf_pkt_view; [exact Hr|exact Hcode|lia]. }
  repeat split.
Qed.

(** With any socket outcomes: a prefix of them, of which only the last can have failed. *)
Theorem rtp_dtmf_event_losses : forall s digit code o,
  live s = true -> in_range (hdr s) -> CharToDtmf digit = Some code ->
  exists s' ps o' err, SendDTMF s digit o = (s', ps, o', err) /\
    map (fun a => view (snd a)) ps = firstn (length ps) (expected_views (hdr s) code) /\
    (err = None -> length ps = 7%nat /\ Forall sent_ok ps) /\
    (err <> None -> exists front p, ps = front ++ [(false, p)] /\ Forall sent_ok front).
Proof.
  intros s digit code o Hl Hr Hd.
  destruct ((dtmfCodes digit =? 0) && negb (beq digit "0")) eqn:Hv.
  { rewrite (invalid_digit_code digit Hv) in Hd. discriminate. }
  destruct (valid_digit_code digit Hv) as [Hd' Hcode]. rewrite Hd in Hd'. injection Hd' as ->.
  pose proof (dtmf_send_calls s digit o Hl ltac:(apply Hr) Hv) as E. cbv zeta in E.
  do 4 eexists. split; [exact E|].
  assert (V : forall n, (n <= 7)%nat -> map (fun i => view (dtmf_pkt (hdr s) (dtmfCodes digit) i)) (seq 0 n) = firstn n (expected_views (hdr s) (dtmfCodes digit))).
  { intros n Hn. transitivity (map (fun i => nth i (expected_views (hdr s) (dtmfCodes digit)) (mkview false 0 0 0 0 0 false false 0 0)) (seq 0 n)).
    - apply map_ext_in. intros i Hi. apply in_seq in Hi. symmetry. apply nth_error_nth.
      apply dtmf_pkt_view; [exact Hr|exact Hcode|lia].
    - do 8 (destruct n as [|n]; [reflexivity|]). lia. }
  unfold dtmf_calls. rewrite map_map, map_length, seq_length. cbn [snd].
  destruct (attempts_cases o) as [[H1 H2]|[H1 (k & Hk & H2)]]; rewrite H1, H2.
  - split; [apply V; lia|]. split; [|congruence].
    intros _. split; [reflexivity|]. apply Forall_forall. intros a Ha. apply in_map_iff in Ha.
    destruct Ha as (j & <- & _). unfold sent_ok. cbn [fst]. apply orb_true_r.
  - split; [apply V; lia|]. split; [discriminate|].
    intros _. rewrite seq_S, map_app. cbn [Nat.add map]. rewrite Nat.ltb_irrefl. cbn [orb].
    eexists. eexists. split; [reflexivity|].
    apply Forall_forall. intros a Ha. apply in_map_iff in Ha. destruct Ha as (j & <- & Hj). apply in_seq in Hj.
    unfold sent_ok. cbn [fst]. replace (Nat.ltb (S j) (S k)) with true by (symmetry; apply Nat.ltb_lt; lia). reflexivity.
Qed.

(** An invalid digit is reported, writes nothing and leaves the session alone. *)
Theorem rtp_dtmf_invalid : forall s digit o, CharToDtmf digit = None ->
  SendDTMF s digit o = (s, [], o, Some InvalidDigit).
Proof.
  intros s digit o H. unfold SendDTMF.
  destruct ((dtmfCodes digit =? 0) && negb (beq digit "0")) eqn:Hv; [reflexivity|].
  destruct (valid_digit_code digit Hv) as [Hd _]. congruence.
Qed.

Lemma dtmf_session s digit code : live s = true -> in_range (hdr s) -> CharToDtmf digit = Some code ->
  forall s1 ps, SendDTMF s digit [] = (s1, ps, [], None) -> live s1 = true /\ in_range (hdr s1).
Proof.
  intros Hl Hr Hd s1 ps E.
  destruct ((dtmfCodes digit =? 0) && negb (beq digit "0")) eqn:Hv.
  { rewrite (invalid_digit_code digit Hv) in Hd. discriminate. }
  pose proof (dtmf_send_calls s digit [] Hl ltac:(apply Hr) Hv) as E'. cbv zeta in E'. rewrite E in E'.
  inversion E' as [[H1 H2]]. split; [reflexivity|]. apply wf_after. exact Hr.
Qed.

Lemma views_ts h c q : map view q = expected_views h c -> forall p, In p q -> f_ts p = h_ts h.
Proof.
  intros V p Hp. apply (in_map view) in Hp. rewrite V in Hp. unfold expected_views in Hp.
  apply in_map_iff in Hp. destruct Hp as ([[i l] d] & Hi & _). apply (f_equal v_ts) in Hi. symmetry. exact Hi.
Qed.

(** C31 is violated: whatever two digits are pressed one after the other, and whatever was sent
    before, all fourteen packets carry one and the same timestamp, which is what identifies an
    RFC 4733 event. *)
Theorem rtp_dtmf_digits_distinct_refuted : forall s d1 d2 c1 c2 s1 ps1 s2 ps2,
  live s = true -> in_range (hdr s) -> CharToDtmf d1 = Some c1 -> CharToDtmf d2 = Some c2 ->
  SendDTMF s d1 [] = (s1, ps1, [], None) -> SendDTMF s1 d2 [] = (s2, ps2, [], None) ->
  length ps1 = 7%nat /\ length ps2 = 7%nat /\
  forall a b, In a ps1 -> In b ps2 -> f_ts (snd a) = f_ts (snd b).
Proof.
  intros s d1 d2 c1 c2 s1 ps1 s2 ps2 Hl Hr H1 H2 E1 E2.
  destruct (rtp_dtmf_event s d1 c1 Hl Hr H1) as (s1' & q1 & E1' & V1 & _ & _ & T1).
  rewrite E1 in E1'. injection E1' as <- ->.
  destruct (dtmf_session s d1 c1 Hl Hr H1 s1 _ E1) as (L1 & W1).
  destruct (rtp_dtmf_event s1 d2 c2 L1 W1 H2) as (s2' & q2 & E2' & V2 & _ & _ & T2).
  rewrite E2 in E2'. injection E2' as <- ->.
  assert (N1 : length q1 = 7%nat) by (rewrite <- (map_length view), V1; reflexivity).
  assert (N2 : length q2 = 7%nat) by (rewrite <- (map_length view), V2; reflexivity).
  rewrite !map_length. split; [exact N1|]. split; [exact N2|].
  assert (X1 : forall p, In p q1 -> f_ts p = h_ts (hdr s)) by (eapply views_ts; exact V1).
  assert (X2 : forall p, In p q2 -> f_ts p = h_ts (hdr s1)) by (eapply views_ts; exact V2).
  intros a b Ha Hb. apply in_map_iff in Ha, Hb. destruct Ha as (p & <- & Hp), Hb as (q & <- & Hq).
  cbn [snd]. rewrite (X1 p Hp), (X2 q Hq). congruence.
Qed.

(** C29d: the marker bit. When no write fails, only telephone event packets carry it ... *)
Theorem rtp_marker_only_on_events : forall ssrc xs o,
  0 <= ssrc < 2 ^ 32 -> Forall legal xs -> Forall sent_ok (datagrams ssrc xs o) ->
  forall a, In a (datagrams ssrc xs o) -> f_pt (snd a) <> 101 -> f_marker (snd a) = false.
Proof.
  intros ssrc xs o Hs Hx. unfold datagrams.
  destruct (run_ops (new_session ssrc) xs o) as [[s ps] o'] eqn:E. intros Hok.
  eapply (run_ops_mark xs (new_session ssrc)); [reflexivity|apply new_session_wf, Hs|exact Hx|reflexivity|exact E|exact Hok].
Qed.

(** ... but after a digit whose first packet is lost, the next audio packet is marked. *)
Definition silence : list Z := repeat 0 160.
Theorem rtp_marker_leaks_refuted :
  exists xs o, Forall legal xs /\ exists a, In a (datagrams 7 xs o) /\ f_pt (snd a) = 0 /\ f_marker (snd a) = true.
Proof.
  exists [OpDTMF "1"; OpSend silence], [false]. split.
  - repeat constructor.
  - destruct (nth_error (datagrams 7 [OpDTMF "1"; OpSend silence] [false]) 1) as [a|] eqn:E; [|vm_compute in E; discriminate].
    exists a. split; [eapply nth_error_In; exact E|]. vm_compute in E. injection E as <-. split; vm_compute; reflexivity.
Qed.

(** ** C32: the DTMF tables are mutually inverse *)
(** The characters of the telephone keypad, upper case, in event code order. *)
Definition keypad : bytes := B "0123456789*#ABCD!".

Theorem dtmf_code_char_inverse : forall code ch,
  DtmfToChar code = Some ch <-> (0 <= code /\ nth_error keypad (Z.to_nat code) = Some ch).
Proof.
  intros code ch. split.
  - intros H. destruct code as [|p|p]; [split; [lia|exact H]| |discriminate].
    do 5 (try (destruct p as [p|p|]; try discriminate)); split; try lia; exact H.
  - intros [H0 H].
    assert (Hlt : (Z.to_nat code < 17)%nat) by (apply (proj1 (nth_error_Some keypad _)); rewrite H; discriminate).
    rewrite <- (Z2Nat.id code H0). revert H. generalize dependent (Z.to_nat code). intros n Hn.
    do 17 (destruct n as [|n]; [intros H; exact H|]). lia.
Qed.

(** Upper casing of the letters a-d. *)
Definition key_up (c : byte) : byte :=
  if (97 <=? bz c) && (bz c <=? 100) then zb (bz c - 32) else c.

Theorem dtmf_char_code : forall ch code,
  CharToDtmf ch = Some code <-> DtmfToChar code = Some (key_up ch).
Proof.
  intros ch code. rewrite dtmf_code_char_inverse. split.
  - intros H.
    assert (K : match CharToDtmf ch with None => true | Some c => (0 <=? c) && match nth_error keypad (Z.to_nat c) with Some x => beq x (key_up ch) | None => false end end = true)
      by (clear H; revert ch; by_bytes).
    rewrite H in K. apply andb_true_iff in K. destruct K as [K1 K2]. split; [lia|].
    destruct (nth_error keypad (Z.to_nat code)); [|discriminate]. apply beq_spec in K2. congruence.
  - intros [H0 H].
    assert (Hlt : (Z.to_nat code < 17)%nat) by (apply (proj1 (nth_error_Some keypad _)); rewrite H; discriminate).
    assert (K : forallb (fun n => match nth_error keypad n with Some x => negb (beq x (key_up ch)) || match CharToDtmf ch with Some c => c =? Z.of_nat n | None => false end | None => true end) (seq 0 17) = true)
      by (clear; revert ch; by_bytes).
    rewrite forallb_forall in K. specialize (K (Z.to_nat code) ltac:(apply in_seq; lia)). rewrite H in K.
    rewrite beq_refl in K. cbn [negb orb] in K. destruct (CharToDtmf ch) as [c|]; [|discriminate].
    apply Z.eqb_eq in K. f_equal. lia.
Qed.

(** The table SendDTMF uses agrees with CharToDtmf. *)
Theorem dtmf_send_table : forall ch,
  CharToDtmf ch = (if (dtmfCodes ch =? 0) && negb (beq ch "0") then None else Some (dtmfCodes ch)).
Proof.
  intros ch. destruct ((dtmfCodes ch =? 0) && negb (beq ch "0")) eqn:H.
  - apply invalid_digit_code, H.
  - apply valid_digit_code, H.
Qed.

(** ** C33: what is delivered to the application *)
(** A G.711 packet gosip accepts: 172 bytes, version 2, no extension, payload type 0. *)
Definition wanted (p : bytes) : Prop :=
  length p = 172%nat /\ f_version p = 2 /\ f_extension p = false /\ f_pt p = 0.

Definition wantedb (p : bytes) : bool :=
  Nat.eqb (length p) 172 && (f_version p =? 2) && negb (f_extension p) && (f_pt p =? 0).
Lemma wantedb_spec p : wantedb p = true <-> wanted p.
Proof.
  unfold wantedb, wanted. rewrite !andb_true_iff, Nat.eqb_eq, !Z.eqb_eq, negb_true_iff. tauto.
Qed.

(** For every sequence of datagrams of any length and content the receive loop does not panic and
    delivers, in order, exactly the G.711 decoding of the wanted ones. *)
Theorem rtp_receive_exact : forall buf pkts, length buf = 2048%nat ->
  recv_stream buf pkts =
  Ok (map (fun p => map (fun b => g711_decode (bz b)) (f_payload p)) (filter wantedb pkts)).
Proof. intros buf pkts H. exact (recv_stream_spec pkts buf H). Qed.

(** In particular every delivered frame has 160 samples in int16 range. *)
Theorem rtp_receive_frames : forall buf pkts frames, length buf = 2048%nat ->
  recv_stream buf pkts = Ok frames ->
  (length frames <= length pkts)%nat /\
  Forall (fun f => length f = 160%nat /\ Forall (fun x => - 32768 <= x <= 32767) f) frames.
Proof.
  intros buf pkts frames Hb E. rewrite (rtp_receive_exact buf pkts Hb) in E. injection E as <-. split.
  - rewrite map_length. clear. induction pkts as [|p pkts IH]; cbn [filter length]; [lia|]. destruct (wantedb p); cbn [length]; lia.
  - apply Forall_forall. intros f Hf. apply in_map_iff in Hf. destruct Hf as (p & <- & Hp).
    apply filter_In in Hp. destruct Hp as [_ Hp]. apply wantedb_spec in Hp. destruct Hp as (Hl & _).
    split.
    + rewrite map_length. unfold f_payload. rewrite skipn_length, Hl. reflexivity.
    + apply Forall_forall. intros x Hx. apply in_map_iff in Hx. destruct Hx as (b & <- & _).
      pose proof (bz_range b) as Hr. destruct (ulaw_encode_decode (bz b) Hr) as (x & Hx & Hs & _).
      rewrite (ulaw_decode_is_g711 _ Hr) in Hx. injection Hx as ->. exact Hs.
Qed.

(** C33 refuted for contributing sources: the CSRC count is ignored, so a packet that lists
    one is delivered with the list decoded as audio, and a packet of 160 samples that lists one is lost. *)
Definition csrc_packet (n : nat) : bytes :=
  x81 :: repeat x00 11 ++ [xde; xad; xbe; xef] ++ repeat xff n.
Theorem rtp_csrc_misread_refuted :
  f_csrc_count (csrc_packet 156) = 1 /\
  (exists frame, recv_stream (repeat x00 2048) [csrc_packet 156] = Ok [frame] /\ nth 0 frame 0 = g711_decode 222) /\
  recv_stream (repeat x00 2048) [csrc_packet 160] = Ok [].
Proof.
  split; [vm_compute; reflexivity|]. split.
  - rewrite rtp_receive_exact by (rewrite repeat_length; reflexivity). eexists. split; [vm_compute; reflexivity|].
    vm_compute. reflexivity.
  - rewrite rtp_receive_exact by (rewrite repeat_length; reflexivity). vm_compute. reflexivity.
Qed.

(** ** End to end: what one session sends another receives *)
Theorem rtp_end_to_end : forall s frame buf s' ps o,
  live s = true -> in_range (hdr s) -> length frame = 160%nat -> length buf = 2048%nat ->
  Send s frame [] = (s', ps, o, None) ->
  recv_stream buf (map snd ps) = Ok [map (fun x => g711_decode (bz (encode_sample x))) frame].
Proof.
  intros s frame buf s' ps o Hl Hr Hf Hb E. unfold Send in E. rewrite Hl in E. cbn [negb next_ok tl] in E.
  set (h := set_pt (hdr s) ulaw_PT) in E.
  assert (Hps : map snd ps = [header_write h [] ++ map encode_sample frame]) by (inversion E; reflexivity).
  rewrite Hps, rtp_receive_exact by exact Hb. clear E Hps.
  assert (W : wf_header h) by (apply wf_set_pt; [exact Hr|unfold ulaw_PT; lia]).
  pose proof (write_layout h (map encode_sample frame) W) as L. cbv zeta in L.
  destruct L as (_ & Hv & He & _ & _ & _ & Hpt & _ & _ & _ & Hp & Hlen).
  cbn [filter]. unfold wantedb. revert Hp.
  generalize dependent (header_write h [] ++ map encode_sample frame). intros q Hv He Hpt Hlen Hp. rewrite Hv, He, Hpt, Hlen, map_length, Hf.
  cbn [Nat.eqb Nat.add Z.eqb h set_pt h_pt ulaw_PT negb andb Pos.eqb map].
  rewrite Hp, map_map. reflexivity.
Qed.

(** ** Non-vacuity *)
Example header_in_range : in_range (mkheader true true 101 65535 4294967295 3735928559).
Proof. vm_compute. intuition discriminate. Qed.
Example header_bytes : header_write (mkheader false true 101 258 16909060 84281096) [] =
  [x80; xe5; x01; x02; x01; x02; x03; x04; x05; x06; x07; x08].
Proof. reflexivity. Qed.
Example legal_history : Forall legal [OpSend silence; OpDTMF "#"; OpRaw 8 [x00; x01] 2; OpSend silence] /\
  map (fun a => (f_pt (snd a), f_seq (snd a), f_ts (snd a)))
      (datagrams 7 [OpSend silence; OpDTMF "#"; OpRaw 8 [x00; x01] 2; OpSend silence] []) =
  [(0, 666, 0); (101, 667, 160); (101, 668, 160); (101, 669, 160); (101, 670, 160); (101, 671, 160); (101, 672, 160);
   (101, 673, 160); (8, 674, 160); (0, 675, 162)].
Proof. split; [repeat constructor; cbn; lia|vm_compute; reflexivity]. Qed.
Example lossy_history :
  map (fun a => (fst a, f_pt (snd a), f_seq (snd a)))
      (datagrams 7 [OpSend silence; OpDTMF "#"; OpSend silence] [false; true; false; true]) =
  [(false, 0, 666); (true, 101, 667); (false, 101, 668); (true, 0, 668)].
Proof. vm_compute. reflexivity. Qed.
Example wanted_one : wanted (header_write (mkheader false false 0 1 2 3) [] ++ repeat x7f 160).
Proof. vm_compute. auto. Qed.
Example dtmf_digit : CharToDtmf "d" = Some 15 /\ DtmfToChar 15 = Some "D"%byte.
Proof. split; reflexivity. Qed.

Print Assumptions rtp_header_layout.
Print Assumptions rtp_header_roundtrip.
Print Assumptions rtp_header_read_total.
Print Assumptions rtp_event_roundtrip.
Print Assumptions rtp_sequence_consecutive.
Print Assumptions rtp_sequence_with_losses.
Print Assumptions rtp_timestamps.
Print Assumptions rtp_dtmf_event.
Print Assumptions rtp_dtmf_event_losses.
Print Assumptions rtp_dtmf_invalid.
Print Assumptions rtp_dtmf_digits_distinct_refuted.
Print Assumptions rtp_marker_only_on_events.
Print Assumptions rtp_marker_leaks_refuted.
Print Assumptions dtmf_code_char_inverse.
Print Assumptions dtmf_char_code.
Print Assumptions dtmf_send_table.
Print Assumptions rtp_receive_exact.
Print Assumptions rtp_receive_frames.
Print Assumptions rtp_csrc_misread_refuted.
Print Assumptions rtp_end_to_end.
