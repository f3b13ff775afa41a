(** ParseMsg accepts exactly the message texts of MsgSpec, and gives the message they denote. *)
From Verif Require Import Bytes BytesLemmas GoLib GoLibLemmas Auto AutoRe SdpModel SipText SipTypes UriTable UriModel MsgTable MsgModel MsgSafe P_Text UriSpec UriMeaning P_Uri MsgSpec MsgGrammar MsgReach MsgBlocks MsgVia MsgAddr MsgNames.
Local Open Scope Z_scope.
Local Notation "a ;; b" := (Seq a b) (at level 61, right associativity).

Section Cap.
Variable cap : nat.
Notation ms := (@sem mact mjump _ _ (msg_act cap) msg_look).
Notation run_acts := (acts (msg_act cap)).
Notation reach := (reach cap).
Notation after := (after cap).
Notation line_end := (line_end cap).
Notation leads_to := (leads_to cap).

(** ** Values *)
Definition store (f : option sfield) (n v : bytes) (m : msg) : msg := match f with Some f => set_str f v m | None => set_xheader ((n, v) :: xheader m) m end.
Lemma mvalue_act v r1 s : m_mark s = v ++ CRLF ++ r1 -> run_acts [MValue] (LF :: r1) s = inl (put_msg (store (m_val s) (m_name s) v (m_msg s)) s).
Proof. intros M. cbn [acts msg_act]. rewrite (slice_at1 (LF :: r1) s v CR) by assumption. destruct (m_val s); reflexivity. Qed.
Lemma value_fwd r s m : reach 263 r s m -> line_end (fun t d => value_text t /\ d = with_msg (store (m_val s) (m_name s) t) (core s)) r m.
Proof.
  intros H. apply (reach_at cap 263 r_value) in H; [|exact in_value]. destruct H as (j & r1 & s1 & H & K). unfold r_value in H. apply b_do in H. destruct H as (s0 & A & H). cbn [msg_act] in A. injection A as <-.
  apply (reads_x cap _ _ _ _ _ _ _ _ (reads_value cap)) in H; [|reflexivity]. destruct H as (v & r2 & -> & V & H). apply b_eol in H. destruct H as ([= ->] & r3 & -> & SB & -> & A).
  rewrite (mvalue_act v r3) in A by reflexivity. injection A as <-. exists v, r3. eexists. split; [reflexivity|]. split; [|split; [assumption|exact K]]. split; [assumption|reflexivity].
Qed.
Lemma value_bwd v r2 s : value_text v -> starts_blank r2 = false -> leads_to (with_msg (store (m_val s) (m_name s) v) (core s)) r2 (reach 263 (v ++ CRLF ++ r2) s).
Proof.
  intros V SB. eexists. split; [|intros m R; apply (reach_at cap 263 r_value); [exact in_value|]; exists (Go 280), (LF :: r2); eexists; split; [|exact R]].
  2:{ unfold r_value. apply b_do. eexists. split; [reflexivity|]. apply (reads_x cap _ _ _ _ _ _ _ _ (reads_value cap)); [reflexivity|]. exists v, (CRLF ++ r2). split; [reflexivity|]. split; [assumption|].
      apply b_eol. split; [reflexivity|]. exists r2. split; [reflexivity|]. split; [assumption|]. split; [reflexivity|]. apply (mvalue_act v r2). reflexivity. }
  reflexivity.
Qed.
Lemma value_cr v x : value_text v -> v = CR :: x -> exists c t, x = LF :: c :: t /\ blank c = true.
Proof.
  intros H E. destruct H as [|c t C _|c t C _|w t (c & cs & -> & N & L & F) _]; try discriminate.
  - injection E as -> ->. discriminate.
  - injection E as <-. eauto.
  - injection E as -> _. cbn in L. destruct cs; [congruence|discriminate].
Qed.
Lemma stops_lead w v r2 : value_text v -> starts_blank r2 = false -> (stops w (v ++ CRLF ++ r2) <-> lead_ws w v).
Proof.
  intros V SB. split.
  - intros (W & _ & S & F). split; [assumption|]. split; [destruct v; [reflexivity|exact S]|]. intros x E. destruct (value_cr v x V E) as (c & t & -> & C). rewrite E in F. cbn [app] in F. exact (F _ _ _ eq_refl C).
  - intros (W & S & F). split; [assumption|]. split; [destruct v; discriminate|]. split; [destruct v; [reflexivity|exact S]|]. intros c b t E C. destruct v as [|d v].
    + cbn in E. injection E as <- ->. cbn in SB. congruence.
    + cbn [app] in E. injection E as -> E. apply (F v). reflexivity.
Qed.

(** ** Numbers *)
Definition step (l : list mact) (s : mst) (c : byte) : mst := match run_acts l [c] s with inl s1 => s1 | inr _ => s end.
Lemma b_number first more x r s r' s' y upd :
  (forall c t s, run_acts first (c :: t) s = inl (upd (acc_int 0 c) s)) -> (forall c t s, run_acts more (c :: t) s = inl (step more s c)) ->
  (forall n s c, step more (upd n s) c = upd (acc_int n c) s) ->
  (ms (m_hcolon (m_sws (m_acts first (Cls k_dig) ;; Star (m_acts more (Cls k_dig)) ;; x))) r s r' s' y <->
   exists b w v r1 n, r = b ++ B ":" ++ w ++ v ++ r1 /\ blanks b /\ sws w /\ number v n /\ ms x r1 (upd (i64 n) s) r' s' y).
Proof.
  intros HF HM HU. assert (FL : forall w n s, fold_left (step more) w (upd n s) = upd (fold_left acc_int w n) s) by (induction w as [|c w IH]; intros n s0; [reflexivity|]; cbn [fold_left]; rewrite HU; apply IH).
  split.
  - intros H. apply b_hcolon in H. destruct H as (b & r1 & -> & Bb & H). apply b_sws in H. destruct H as (w & r2 & -> & W & H).
    apply (b_ons1 cap first k_dig is_digit (fun s c => upd (acc_int 0 c) s)) in H; [|reflexivity|exact kc_dig|exact HF]. destruct H as (c & r3 & -> & C & H).
    apply (b_ons cap more k_dig is_digit (step more)) in H; [|reflexivity|exact kc_dig|exact HM]. destruct H as (v & r4 & -> & V & H). rewrite FL in H.
    destruct (digits_number (c :: v)) as (n & Nn & _); [discriminate|cbn [forallb]; rewrite C, V; reflexivity|]. exists b, w, (c :: v), r4, n. split; [reflexivity|]. split; [assumption|]. split; [assumption|]. split; [assumption|].
    rewrite <- (acc_number _ _ Nn). exact H.
  - intros (b & w & v & r1 & n & -> & Bb & W & V & H). destruct (number_digits _ _ V) as [Nv D]. destruct v as [|c v]; [congruence|]. cbn [forallb] in D. apply andb_prop in D. destruct D as [C D].
    apply b_hcolon. eexists _, _. split; [reflexivity|]. split; [assumption|]. apply b_sws. eexists _, _. split; [reflexivity|]. split; [assumption|].
    apply (b_ons1 cap first k_dig is_digit (fun s c => upd (acc_int 0 c) s)); [reflexivity|exact kc_dig|exact HF|]. exists c, (v ++ r1). split; [reflexivity|]. split; [assumption|].
    apply (b_ons cap more k_dig is_digit (step more)); [reflexivity|exact kc_dig|exact HM|]. exists v, r1. split; [reflexivity|]. split; [assumption|]. rewrite FL. rewrite <- (acc_number _ _ V) in H. exact H.
Qed.

(** ** Known headers: what follows the name *)
Definition hv_text (k : hkind) (d0 : draft) (t : bytes) (d : draft) : Prop := exists b w v, t = b ++ B ":" ++ w ++ v /\ blanks b /\ header_value k w v d0 d.
Definition h_fwd (k : hkind) : Prop := forall r s j r1 s1 m, ms (m_header k) r s r1 s1 (Some j) -> after j r1 s1 m -> line_end (hv_text k (core s)) r m.
Definition h_bwd (k : hkind) : Prop := forall t s d r2, hv_text k (core s) t d -> starts_blank r2 = false -> (length (t ++ CRLF ++ r2) <= cap)%nat ->
  leads_to d r2 (fun m => exists j r1 s1, ms (m_header k) (t ++ CRLF ++ r2) s r1 s1 (Some j) /\ after j r1 s1 m).

Lemma number_fwd k first more upd F : m_header k = m_number first more ->
  (forall c t s, run_acts first (c :: t) s = inl (upd (acc_int 0 c) s)) -> (forall c t s, run_acts more (c :: t) s = inl (step more s c)) ->
  (forall n s c, step more (upd n s) c = upd (acc_int n c) s) -> (forall n s, core (upd n s) = F n (core s)) ->
  (forall w v d d', header_value k w v d d' <-> sws w /\ exists n, number v n /\ d' = F (i64 n) d) -> h_fwd k /\ h_bwd k.
Proof.
  intros HK HF HM HU HC HV. split.
  - intros r s j r1 s1 m H K. rewrite HK in H. unfold m_number in H. apply (b_number first more (eol []) _ _ _ _ _ upd HF HM HU) in H. destruct H as (b & w & v & r2 & n & -> & Bb & W & V & H).
    apply b_eol in H. destruct H as ([= ->] & r3 & -> & SB & -> & [= <-]). exists (b ++ B ":" ++ w ++ v), r3. eexists. rewrite <- !app_assoc. split; [reflexivity|]. split; [|split; [assumption|exact K]].
    exists b, w, v. split; [reflexivity|]. split; [assumption|]. apply HV. split; [assumption|]. exists n. split; [assumption|]. apply HC.
  - intros t s d r2 (b & w & v & -> & Bb & V) SB L. apply HV in V. destruct V as (W & n & V & ->). exists (upd (i64 n) s). split; [apply HC|]. intros m R. exists (Go 280), (LF :: r2). eexists. split; [|exact R]. rewrite HK. unfold m_number.
    apply (b_number first more (eol []) _ _ _ _ _ upd HF HM HU). exists b, w, v, (CRLF ++ r2), n. rewrite <- !app_assoc. split; [reflexivity|]. split; [assumption|]. split; [assumption|]. split; [assumption|].
    apply b_eol. split; [reflexivity|]. exists r2. auto.
Qed.
Lemma h_clen : h_fwd HClen /\ h_bwd HClen.
Proof. apply (number_fwd HClen [MClen0; MClen] [MClen] put_clen (fun n d => mkdraft (d_msg d) n (d_type d))); reflexivity. Qed.
Lemma h_expires : h_fwd HExpires /\ h_bwd HExpires.
Proof. apply (number_fwd HExpires [MExpires0; MExpires] [MExpires] (fun n s => put_msg (set_expires n (m_msg s)) s) (fun n d => with_msg (set_expires n) d)); reflexivity. Qed.
Lemma h_maxforwards : h_fwd HMaxForwards /\ h_bwd HMaxForwards.
Proof. apply (number_fwd HMaxForwards [MMaxForwards0; MMaxForwards] [MMaxForwards] (fun n s => put_msg (set_maxforwards n (m_msg s)) s) (fun n d => with_msg (set_maxforwards n) d)); reflexivity. Qed.
Lemma h_minexpires : h_fwd HMinExpires /\ h_bwd HMinExpires.
Proof. apply (number_fwd HMinExpires [MMinExpires0; MMinExpires] [MMinExpires] (fun n s => put_msg (set_minexpires n (m_msg s)) s) (fun n d => with_msg (set_minexpires n) d)); reflexivity. Qed.
Lemma h_length : h_fwd HLength_l /\ h_bwd HLength_l.
Proof.
  apply (number_fwd HLength_l [MClen0; MClen; MExpires0; MExpires; MMaxForwards0; MMaxForwards; MMinExpires0; MMinExpires] [MClen; MExpires; MMaxForwards; MMinExpires]
    (fun n s => put_msg (set_minexpires n (set_maxforwards n (set_expires n (m_msg s)))) (put_clen n s))
    (fun n d => mkdraft (set_minexpires n (set_maxforwards n (set_expires n (d_msg d)))) n (d_type d))); reflexivity.
Qed.
(** headers whose value is read by another machine *)
Lemma goto_fwd a l n r s r' s' y (A : forall r s, exists s1, run_acts a r s = inl s1) : ms (m_acts a (m_hcolon (m_goto l n))) r s r' s' y ->
  exists b w s1, y = Some (Hold n) /\ r = b ++ B ":" ++ w ++ r' /\ blanks b /\ stops w r' /\ run_acts a r s = inl s1 /\ run_acts l r' s1 = inl s'.
Proof.
  intros H. apply b_acts in H. destruct H as (s1 & A1 & H). apply b_hcolon in H. destruct H as (b & r1 & -> & Bb & H). apply b_goto in H. destruct H as (-> & w & -> & S & A2). exists b, w, s1. auto 7.
Qed.
Lemma goto_bwd a l n b w r' s s1 s' : blanks b -> stops w r' -> run_acts a (b ++ B ":" ++ w ++ r') s = inl s1 -> run_acts l r' s1 = inl s' ->
  ms (m_acts a (m_hcolon (m_goto l n))) (b ++ B ":" ++ w ++ r') s r' s' (Some (Hold n)).
Proof.
  intros Bb S A1 A2. apply b_acts. exists s1. split; [assumption|]. apply b_hcolon. eexists _, _. split; [reflexivity|]. split; [assumption|]. apply b_goto. split; [reflexivity|]. exists w. auto.
Qed.
Lemma h_value k a f : m_header k = m_acts a (m_hcolon (m_goto [] 263)) -> (forall r s, exists s1, run_acts a r s = inl s1 /\ m_val s1 = Some f /\ core s1 = core s) ->
  (forall w v d d', header_value k w v d d' <-> lead_ws w v /\ value_text v /\ d' = with_msg (set_str f v) d) -> h_fwd k /\ h_bwd k.
Proof.
  intros HK HA HV. split.
  - intros r s j r1 s1 m H K. rewrite HK in H. apply goto_fwd in H; [|intros r0 s0; destruct (HA r0 s0) as (x & X & _); eauto]. destruct H as (b & w & s2 & [= ->] & -> & Bb & S & A1 & [= <-]).
    destruct (HA (b ++ B ":" ++ w ++ r1) s) as (s3 & A3 & V3 & C3). rewrite A3 in A1. injection A1 as <-. apply value_fwd in K. destruct K as (v & r2 & s2 & -> & (V & C) & SB & R).
    exists (b ++ B ":" ++ w ++ v), r2, s2. rewrite <- !app_assoc. split; [reflexivity|]. split; [|auto]. exists b, w, v. split; [reflexivity|]. split; [assumption|]. apply HV.
    split; [apply (stops_lead w v r2); assumption|]. split; [assumption|]. rewrite C, V3, C3. reflexivity.
  - intros t s d r2 (b & w & v & -> & Bb & V) SB L. apply HV in V. destruct V as (W & V & ->). rewrite <- !app_assoc. destruct (HA (b ++ B ":" ++ w ++ v ++ CRLF ++ r2) s) as (s1 & A1 & V1 & C1).
    destruct (value_bwd v r2 s1 V SB) as (s2 & C2 & K2). exists s2. split; [rewrite C2, V1, C1; reflexivity|]. intros m R. exists (Hold 263), (v ++ CRLF ++ r2). eexists. split; [|apply K2; exact R].
    rewrite HK. apply goto_bwd with (s1 := s1); [assumption|apply stops_lead; assumption|assumption|reflexivity].
Qed.
Lemma h_str f : h_fwd (HStr f) /\ h_bwd (HStr f).
Proof. apply (h_value _ [MValuep f] f); [reflexivity| |reflexivity]. intros r s. eexists. split; [reflexivity|]. split; reflexivity. Qed.
Lemma h_allow_u : h_fwd HAllow_u /\ h_bwd HAllow_u.
Proof. apply (h_value _ [MValuep Allow; MValuep AllowEvents] AllowEvents); [reflexivity| |reflexivity]. intros r s. eexists. split; [reflexivity|]. split; reflexivity. Qed.
Lemma h_addr f : h_fwd (HAddr f) /\ h_bwd (HAddr f).
Proof.
  split.
  - intros r s j r1 s1 m H K. change (m_header (HAddr f)) with (m_acts [MAddrp f] (m_hcolon (m_goto [MValueNil] 256))) in H. apply goto_fwd in H; [|intros; eexists; reflexivity].
    destruct H as (b & w & s2 & [= ->] & -> & Bb & S & [= <-] & [= <-]). unfold MsgVia.after in K. cbn [jump] in K.
    destruct (addr_fwd_all cap (Datatypes.S (length r1)) r1 f ltac:(lia)) as [X _]. apply X in K; [|reflexivity]. destruct K as (v & r2 & s2 & -> & (l & V & C) & SB & R).
    exists (b ++ B ":" ++ w ++ v), r2, s2. rewrite <- !app_assoc. split; [reflexivity|]. split; [|auto]. exists b, w, v. split; [reflexivity|]. split; [assumption|]. split; [exact (proj1 S)|]. exists l. split; [assumption|exact C].
  - intros t s d r2 (b & w & v & -> & Bb & W & l & V & ->) SB L. rewrite <- !app_assoc.
    destruct (addr_bwd_all cap (Datatypes.S (length v)) v r2 f ltac:(lia)) as [X _]; [rewrite !app_length in L; rewrite !app_length; lia|assumption|].
    destruct (X (put_val None (put_addrp (Some f) s)) l eq_refl V) as (s2 & C2 & K2). exists s2. split; [exact C2|]. intros m R. exists (Hold 256), (v ++ CRLF ++ r2). eexists. split; [|apply K2 in R; exact R].
    change (m_header (HAddr f)) with (m_acts [MAddrp f] (m_hcolon (m_goto [MValueNil] 256))). eapply goto_bwd; [assumption|apply at_stops; [assumption|eapply list_at; exact V]|reflexivity|reflexivity].
Qed.
Lemma h_via : h_fwd HVia /\ h_bwd HVia.
Proof.
  split.
  - intros r s j r1 s1 m H K. change (m_header HVia) with (m_acts [] (m_hcolon (m_goto [MViaNew] 103))) in H. apply goto_fwd in H; [|intros; eexists; reflexivity].
    destruct H as (b & w & s2 & [= ->] & -> & Bb & S & [= <-] & [= <-]). unfold MsgVia.after in K. cbn [jump] in K.
    destruct (via_fwd_all cap (Datatypes.S (length r1)) r1 ltac:(lia)) as [X _]. apply X in K; [|reflexivity]. destruct K as (v & r2 & s2 & -> & (l & V & C) & SB & R).
    exists (b ++ B ":" ++ w ++ v), r2, s2. rewrite <- !app_assoc. split; [reflexivity|]. split; [|auto]. exists b, w, v. split; [reflexivity|]. split; [assumption|]. split; [exact (proj1 S)|]. exists l. split; [assumption|exact C].
  - intros t s d r2 (b & w & v & -> & Bb & W & l & V & ->) SB L. rewrite <- !app_assoc.
    destruct (via_bwd_all cap (Datatypes.S (length v)) v r2 ltac:(lia)) as [X _]; [rewrite !app_length in L; rewrite !app_length; lia|assumption|].
    destruct (X (put_via (Some via0) s) l eq_refl V) as (s2 & C2 & K2). exists s2. split; [exact C2|]. intros m R. exists (Hold 103), (v ++ CRLF ++ r2). eexists. split; [|apply K2 in R; exact R].
    change (m_header HVia) with (m_acts [] (m_hcolon (m_goto [MViaNew] 103))). eapply goto_bwd; [assumption|eapply via_stops; eassumption|reflexivity|reflexivity].
Qed.
(** Content-Type *)
Definition ctp_text (t : bytes) : Prop := exists x, ct_param t x.
Definition same_but_buf (s s' : mst) : Prop := exists v h, s' = with_buf v h s.
Lemma sbb_refl s : same_but_buf s s. Proof. exists (m_buf s), (m_hex s). destruct s; reflexivity. Qed.
Lemma sbb_trans a b c : same_but_buf a b -> same_but_buf b c -> same_but_buf a c.
Proof. intros (v & h & ->) (w & k & ->). exists w, k. reflexivity. Qed.
Lemma ctparam_fwd r s r' s' y : ms m_ctparam r s r' s' y -> y = None /\ same_but_buf s s' /\ exists w, r = w ++ r' /\ ct_param w tt.
Proof.
  intros H. unfold m_ctparam in H. apply b_sws in H. destruct H as (a1 & r1 & -> & A1 & H). apply b_chx in H; [|discriminate]. destruct H as (r2 & -> & H). apply b_sws in H. destruct H as (b1 & r3 & -> & B1 & H).
  apply b_token in H. destruct H as (n & r4 & -> & N & H). apply b_sws in H. destruct H as (a2 & r5 & -> & A2 & H). apply b_chx in H; [|discriminate]. destruct H as (r6 & -> & H). apply b_sws in H. destruct H as (b2 & r7 & -> & B2 & H).
  apply b_alt in H. destruct H as [H|H].
  - apply (reads_token cap) in H. destruct H as (-> & -> & x & -> & X). split; [reflexivity|]. split; [apply sbb_refl|]. exists ((a1 ++ B ";" ++ b1) ++ n ++ (a2 ++ B "=" ++ b2) ++ x). split; [rewrite <- !app_assoc; reflexivity|].
    exists (a1 ++ B ";" ++ b1), n, (a2 ++ B "=" ++ b2), x. split; [reflexivity|]. split; [exists a1, b1; auto|]. split; [assumption|]. split; [exists a2, b2; auto|]. auto.
  - assert (E : y = None) by (eapply nojmp_sem; [exact H|reflexivity]). subst y.
    assert (H2 : ms (m_quoted ;; Eps) r7 s r' s' None) by (rewrite b_seq by reflexivity; exists r', s'; split; [assumption|constructor]). apply quoted_fwd in H2. destruct H2 as (q & v & r8 & h & -> & Q & H2).
    apply b_eps in H2. destruct H2 as (_ & -> & ->). split; [reflexivity|]. split; [exists v, h; reflexivity|]. exists ((a1 ++ B ";" ++ b1) ++ n ++ (a2 ++ B "=" ++ b2) ++ [DQ] ++ q ++ [DQ]). split; [rewrite <- !app_assoc; reflexivity|].
    exists (a1 ++ B ";" ++ b1), n, (a2 ++ B "=" ++ b2), ([DQ] ++ q ++ [DQ]). split; [reflexivity|]. split; [exists a1, b1; auto|]. split; [assumption|]. split; [exists a2, b2; auto|]. right. eauto.
Qed.
Lemma ctparam_bwd w r' s u : ct_param w u -> (length w <= cap)%nat -> exists s', same_but_buf s s' /\ ms m_ctparam (w ++ r') s r' s' None.
Proof.
  intros (e1 & n & e2 & x & -> & (a1 & b1 & -> & A1 & B1) & N & (a2 & b2 & -> & A2 & B2) & X) L.
  assert (P : forall s', ms (Alt m_token m_quoted) (x ++ r') s r' s' None -> ms m_ctparam (((a1 ++ [";"%byte] ++ b1) ++ n ++ (a2 ++ ["="%byte] ++ b2) ++ x) ++ r') s r' s' None).
  { intros s' H. rewrite <- !app_assoc. unfold m_ctparam. apply b_sws. eexists _, _. split; [reflexivity|]. split; [assumption|]. apply b_chx; [discriminate|]. eexists. split; [reflexivity|]. apply b_sws. eexists _, _. split; [reflexivity|].
    split; [assumption|]. apply b_token. eexists _, _. split; [reflexivity|]. split; [assumption|]. apply b_sws. eexists _, _. split; [reflexivity|]. split; [assumption|]. apply b_chx; [discriminate|]. eexists. split; [reflexivity|].
    apply b_sws. eexists _, _. split; [reflexivity|]. split; [assumption|]. exact H. }
  destruct X as [X|(q & v & -> & Q)].
  - exists s. split; [apply sbb_refl|]. apply P. apply b_alt. left. apply (reads_token cap). eauto.
  - assert (LV : (length v <= cap)%nat) by (apply quoted_len in Q; rewrite !app_length in L; lia). destruct (quoted_bwd cap q v s Q LV r') as (h & K).
    exists (with_buf v h s). split; [exists v, h; reflexivity|]. apply P. apply b_alt. right. rewrite <- !app_assoc.
    assert (H2 : ms (m_quoted ;; Eps) ([DQ] ++ q ++ [DQ] ++ r') s r' (with_buf v h s) None) by (apply K; constructor). rewrite b_seq in H2 by reflexivity. destruct H2 as (r1 & s1 & H2 & H3). apply b_eps in H3. destruct H3 as (_ & -> & ->). exact H2.
Qed.
Lemma ctparams_fwd x r s r' s' y : ms (Star m_ctparam ;; x) r s r' s' y -> exists w l r1 s1, r = w ++ r1 /\ chain ct_param w l /\ same_but_buf s s1 /\ ms x r1 s1 r' s' y.
Proof.
  intros H. rewrite b_seq in H by reflexivity. destruct H as (r1 & s1 & H & K). apply b_star in H; [|reflexivity]. destruct H as (_ & H).
  assert (Q : exists w l, r = w ++ r1 /\ chain ct_param w l /\ same_but_buf s s1).
  { clear K. induction H as [r s|r s r1 s1 r2 s2 H1 H2 (w & l & -> & C & E)]; [exists [], []; split; [reflexivity|]; split; [constructor|apply sbb_refl]|].
    apply ctparam_fwd in H1. destruct H1 as (_ & E1 & w1 & -> & P). exists (w1 ++ w), (tt :: l). rewrite <- app_assoc. split; [reflexivity|]. split; [constructor; assumption|]. eapply sbb_trans; eassumption. }
  destruct Q as (w & l & -> & C & E). exists w, l, r1, s1. auto.
Qed.
Lemma ctparams_bwd w l r1 s : chain ct_param w l -> (length w <= cap)%nat -> exists s1, same_but_buf s s1 /\ forall x r' s' y, ms x r1 s1 r' s' y -> ms (Star m_ctparam ;; x) (w ++ r1) s r' s' y.
Proof.
  intros C L. assert (Q : exists s1, same_but_buf s s1 /\ @sems mact mjump _ _ (msg_act cap) msg_look m_ctparam (w ++ r1) s r1 s1).
  { revert s. induction C as [|t u ts l P C IH]; intros s; [exists s; split; [apply sbb_refl|constructor]|]. rewrite app_length in L. destruct (ctparam_bwd t (ts ++ r1) s u P) as (s1 & E1 & H1); [lia|].
    destruct (IH ltac:(lia) s1) as (s2 & E2 & H2). exists s2. split; [eapply sbb_trans; eassumption|]. rewrite <- app_assoc. econstructor; eassumption. }
  destruct Q as (s1 & E & H). exists s1. split; [assumption|]. intros x r' s' y K. apply b_seq; [reflexivity|]. exists r1, s1. split; [|assumption]. apply b_star; [reflexivity|]. auto.
Qed.
Lemma h_ctype : h_fwd HCtype /\ h_bwd HCtype.
Proof.
  split.
  - intros r s j r1 s1 m H K. change (m_header HCtype) with (m_acts [] (m_hcolon (m_goto [] 34))) in H. apply goto_fwd in H; [|intros; eexists; reflexivity].
    destruct H as (b & w & s2 & [= ->] & -> & Bb & S & [= <-] & [= <-]). unfold MsgVia.after in K. cbn [jump] in K. apply (reach_at cap 34 r_ctype) in K; [|exact in_ctype]. destruct K as (j & r2 & s2 & H & K).
    unfold r_ctype in H. apply b_do in H. destruct H as (s3 & A & H). cbn [msg_act] in A. injection A as <-. apply b_token in H. destruct H as (t1 & r3 & -> & T1 & H). apply b_chx in H; [|discriminate]. destruct H as (r4 & -> & H).
    apply b_token in H. destruct H as (t2 & r5 & -> & T2 & H). apply b_do in H. destruct H as (s3 & A & H). cbn [msg_act] in A. rewrite (slice_at 0 r5 _ (t1 ++ B "/" ++ t2)) in A; [|cbn; rewrite <- !app_assoc; reflexivity|reflexivity].
    injection A as <-. apply ctparams_fwd in H. destruct H as (ps & l & r6 & s4 & -> & C & (bf & h & ->) & H). apply b_eol in H. destruct H as ([= ->] & r7 & -> & SB & -> & [= <-]).
    exists (b ++ B ":" ++ w ++ (t1 ++ B "/" ++ t2) ++ ps), r7. eexists. split; [rewrite <- !app_assoc; reflexivity|]. split; [|split; [assumption|exact K]].
    exists b, w, ((t1 ++ B "/" ++ t2) ++ ps). split; [reflexivity|]. split; [assumption|]. split; [exact (proj1 S)|]. exists (t1 ++ B "/" ++ t2). split; [|reflexivity]. exists t1, t2, ps, l. auto.
  - intros t s d r2 (b & w & v & -> & Bb & W & ct & (t1 & t2 & ps & l & -> & -> & T1 & T2 & C) & ->) SB L.
    set (s0 := put_ctype (t1 ++ B "/" ++ t2) (put_mark (t1 ++ B "/" ++ t2 ++ ps ++ CRLF ++ r2) s)).
    destruct (ctparams_bwd ps l (CRLF ++ r2) s0 C) as (s1 & (bf & h & ->) & K1); [rewrite !app_length in L; lia|]. exists (with_buf bf h s0). split; [reflexivity|]. intros m R. rewrite <- !app_assoc.
    exists (Hold 34), (t1 ++ B "/" ++ t2 ++ ps ++ CRLF ++ r2), s. split.
    + change (m_header HCtype) with (m_acts [] (m_hcolon (m_goto [] 34))). eapply goto_bwd; [assumption|apply stops_token; assumption|reflexivity|reflexivity].
    + unfold MsgVia.after. cbn [jump]. apply (reach_at cap 34 r_ctype); [exact in_ctype|]. exists (Go 280), (LF :: r2). eexists. split; [|exact R].
      unfold r_ctype. apply b_do. eexists. split; [reflexivity|]. apply b_token. eexists _, _. split; [reflexivity|]. split; [assumption|]. apply b_chx; [discriminate|]. eexists. split; [reflexivity|].
      apply b_token. eexists _, _. split; [reflexivity|]. split; [assumption|]. apply b_do. exists s0. split; [cbn [msg_act]; rewrite (slice_at 0 _ _ (t1 ++ B "/" ++ t2)); [reflexivity|cbn; rewrite <- !app_assoc; reflexivity|reflexivity]|].
      apply K1. apply b_eol. split; [reflexivity|]. exists r2. auto.
Qed.
(** Call-ID *)
Lemma kc_word : forall c, kc k_word c = word_class c. Proof. classes. Qed.
Lemma h_callid : h_fwd HCallID /\ h_bwd HCallID.
Proof.
  split.
  - intros r s j r1 s1 m H K. cbn [m_header] in H. apply b_hcolon in H. destruct H as (b & r2 & -> & Bb & H). apply b_sws in H. destruct H as (w & r3 & -> & W & H). apply b_do in H. destruct H as (s2 & A & H). cbn [msg_act] in A. injection A as <-.
    apply (b_plusx cap k_word word_class) in H; [|reflexivity|exact kc_word]. destruct H as (x & r4 & -> & Nx & Fx & H). rewrite b_seq in H by reflexivity. destruct H as (r5 & s3 & H & H2).
    assert (Q : s3 = put_mark (x ++ r4) s /\ exists z, r4 = z ++ r5 /\ (z = [] \/ exists u, z = B "@" ++ u /\ u <> [] /\ forallb word_class u = true)).
    { apply b_alt in H. destruct H as [H|H]; [apply b_eps in H; destruct H as (_ & -> & ->); split; [reflexivity|]; exists []; auto|].
      assert (H3 : ms (m_ch "@" ;; m_plus (Cls k_word) ;; Eps) r4 (put_mark (x ++ r4) s) r5 s3 None).
      { apply b_chx in H; [|discriminate]. destruct H as (r6 & -> & H). apply b_chx; [discriminate|]. exists r6. split; [reflexivity|]. rewrite b_seq by reflexivity. exists r5, s3. split; [assumption|constructor]. }
      apply b_chx in H3; [|discriminate]. destruct H3 as (r6 & -> & H3). apply (b_plusx cap k_word word_class) in H3; [|reflexivity|exact kc_word]. destruct H3 as (u & r7 & -> & Nu & Fu & H3). apply b_eps in H3. destruct H3 as (_ & -> & ->).
      split; [reflexivity|]. exists (B "@" ++ u). split; [reflexivity|]. right. eauto. }
    destruct Q as (-> & z & -> & Z). apply b_do in H2. destruct H2 as (s2 & A & H2). cbn [msg_act] in A. rewrite (slice_at 0 r5 _ (x ++ z)) in A; [|cbn; rewrite <- !app_assoc; reflexivity|reflexivity]. injection A as <-.
    apply b_eol in H2. destruct H2 as ([= ->] & r7 & -> & SB & -> & [= <-]). exists (b ++ B ":" ++ w ++ x ++ z), r7. eexists. split; [rewrite <- !app_assoc; reflexivity|]. split; [|split; [assumption|exact K]].
    exists b, w, (x ++ z). split; [reflexivity|]. split; [assumption|]. split; [assumption|]. split; [exists x, z; auto|reflexivity].
  - intros t s d r2 (b & w & v & -> & Bb & W & (x & z & -> & Nx & Fx & Z) & ->) SB L. exists (put_msg (set_callid (x ++ z) (m_msg s)) (put_mark (x ++ z ++ CRLF ++ r2) s)). split; [reflexivity|]. intros m R. rewrite <- !app_assoc.
    exists (Go 280), (LF :: r2). eexists. split; [|exact R]. cbn [m_header]. apply b_hcolon. eexists _, _. split; [reflexivity|]. split; [assumption|]. apply b_sws. eexists _, _. split; [reflexivity|]. split; [assumption|]. apply b_do. eexists. split; [reflexivity|].
    apply (b_plusx cap k_word word_class); [reflexivity|exact kc_word|]. eexists _, _. split; [reflexivity|]. split; [assumption|]. split; [assumption|]. rewrite b_seq by reflexivity. exists (CRLF ++ r2), (put_mark (x ++ z ++ CRLF ++ r2) s). split.
    + apply b_alt. destruct Z as [->|(u & -> & Nu & Fu)]; [left; constructor|right]. rewrite <- app_assoc. apply b_chx; [discriminate|]. eexists. split; [reflexivity|].
      assert (H3 : ms (m_plus (Cls k_word) ;; Eps) (u ++ CRLF ++ r2) (put_mark (x ++ (B "@" ++ u) ++ CRLF ++ r2) s) (CRLF ++ r2) (put_mark (x ++ (B "@" ++ u) ++ CRLF ++ r2) s) None).
      { apply (b_plusx cap k_word word_class); [reflexivity|exact kc_word|]. eexists _, _. split; [reflexivity|]. split; [assumption|]. split; [assumption|constructor]. }
      rewrite b_seq in H3 by reflexivity. destruct H3 as (r6 & s6 & H3 & H4). apply b_eps in H4. destruct H4 as (_ & E6 & E7). subst r6 s6. rewrite <- ?app_assoc in H3. rewrite <- ?app_assoc. exact H3.
    + apply b_do. eexists. split; [cbn [msg_act]; rewrite (slice_at 0 _ _ (x ++ z)); [reflexivity|cbn; rewrite <- !app_assoc; reflexivity|reflexivity]|]. apply b_eol. split; [reflexivity|]. exists r2. auto.
Qed.
(** CSeq *)
Definition cseq_step (s : mst) (c : byte) : mst := put_msg (set_cseq (acc_int (cseq (m_msg s)) c) (m_msg s)) s.
Lemma cseq_fold v : forall s, fold_left cseq_step v s = put_msg (set_cseq (fold_left acc_int v (cseq (m_msg s))) (m_msg s)) s.
Proof. induction v as [|c v IH]; intros s; cbn [fold_left]; [destruct s as [m]; destruct m; reflexivity|]. rewrite IH. reflexivity. Qed.
Lemma h_cseq : h_fwd HCSeq /\ h_bwd HCSeq.
Proof.
  split.
  - intros r s j r1 s1 m H K. cbn [m_header] in H. apply b_hcolon in H. destruct H as (b & r2 & -> & Bb & H). apply b_sws in H. destruct H as (w & r3 & -> & W & H).
    apply (b_onplus cap [MCSeq] k_dig is_digit cseq_step) in H; [|reflexivity|exact kc_dig|reflexivity]. destruct H as (v & r4 & -> & Nv & Fv & H). rewrite cseq_fold in H. destruct (digits_number v Nv Fv) as (n & V & _).
    rewrite (acc_number_from v n _ V) in H. apply b_lws in H. destruct H as (l & r5 & -> & L & H). apply b_do in H. destruct H as (s2 & A & H). cbn [msg_act] in A. injection A as <-.
    apply b_token in H. destruct H as (t & r6 & -> & T & H). apply b_do in H. destruct H as (s2 & A & H). cbn [msg_act] in A. rewrite (slice_at 0 r6 _ t) in A; [|reflexivity|reflexivity]. injection A as <-.
    apply b_eol in H. destruct H as ([= ->] & r7 & -> & SB & -> & [= <-]). exists (b ++ B ":" ++ w ++ v ++ l ++ t), r7. eexists. split; [rewrite <- !app_assoc; reflexivity|]. split; [|split; [assumption|exact K]].
    exists b, w, (v ++ l ++ t). split; [reflexivity|]. split; [assumption|]. split; [assumption|]. exists v, l, n, t. repeat (split; [first [reflexivity|assumption]|]). reflexivity.
  - intros t s d r2 (b & w & v & -> & Bb & W & x & l & n & mth & -> & X & L & T & ->) SB LC. eexists. split; [|intros m R; exists (Go 280), (LF :: r2); eexists; split; [|exact R]].
    2:{ rewrite <- !app_assoc. cbn [m_header]. apply b_hcolon. eexists _, _. split; [reflexivity|]. split; [assumption|]. apply b_sws. eexists _, _. split; [reflexivity|]. split; [assumption|]. destruct (number_digits _ _ X) as [Nx Fx].
        apply (b_onplus cap [MCSeq] k_dig is_digit cseq_step); [reflexivity|exact kc_dig|reflexivity|]. eexists _, _. split; [reflexivity|]. split; [assumption|]. split; [assumption|]. rewrite cseq_fold, (acc_number_from x n _ X).
        apply b_lws. eexists _, _. split; [reflexivity|]. split; [assumption|]. apply b_do. eexists. split; [reflexivity|]. apply b_token. eexists _, _. split; [reflexivity|]. split; [assumption|].
        apply b_do. eexists. split; [cbn [msg_act]; rewrite (slice_at 0 _ _ mth); [reflexivity|reflexivity|reflexivity]|]. apply b_eol. split; [reflexivity|]. exists r2. split; [reflexivity|]. split; [assumption|]. split; reflexivity. }
    reflexivity.
Qed.
Lemma h_all k : h_fwd k /\ h_bwd k.
Proof. destruct k; [apply h_str|apply h_addr|apply h_via|apply h_ctype|apply h_callid|apply h_clen|apply h_cseq|apply h_expires|apply h_maxforwards|apply h_minexpires|apply h_allow_u|apply h_length]. Qed.

(** ** One header line *)
Lemma xheader_fwd n r s m : m_mark s = n ++ r -> reach 273 r s m ->
  line_end (fun t d => exists t' b w v, t = t' ++ b ++ B ":" ++ w ++ v /\ token t' /\ blanks b /\ lead_ws w v /\ value_text v /\ d = with_msg (fun m => set_xheader ((n ++ t', v) :: xheader m) m) (core s)) r m.
Proof.
  intros M H. apply (reach_at cap 273 r_xheader) in H; [|exact in_xheader]. destruct H as (j & r1 & s1 & H & K). unfold r_xheader in H. apply b_token in H. destruct H as (t & r2 & -> & T & H).
  apply b_do in H. destruct H as (s2 & A & H). rewrite (mname_act cap (n ++ t) r2 s) in A by (rewrite M, <- app_assoc; reflexivity). injection A as <-.
  change (m_hcolon (m_goto [MValueNil] 263)) with (m_acts [] (m_hcolon (m_goto [MValueNil] 263))) in H. apply goto_fwd in H; [|intros; eexists; reflexivity]. destruct H as (b & w & s2 & [= ->] & -> & Bb & S & [= <-] & [= <-]).
  unfold MsgVia.after in K. cbn [jump] in K. apply value_fwd in K. destruct K as (v & r3 & s3 & -> & (V & C) & SB & R). exists (t ++ b ++ B ":" ++ w ++ v), r3, s3. rewrite <- !app_assoc. split; [reflexivity|]. split; [|auto].
  exists t, b, w, v. split; [reflexivity|]. split; [assumption|]. split; [assumption|]. split; [apply (stops_lead w v r3); assumption|]. auto.
Qed.
Lemma xheader_bwd n t b w v r2 s : m_mark s = n ++ t ++ b ++ B ":" ++ w ++ v ++ CRLF ++ r2 -> token t -> blanks b -> lead_ws w v -> value_text v -> starts_blank r2 = false ->
  leads_to (with_msg (fun m => set_xheader ((n ++ t, v) :: xheader m) m) (core s)) r2 (reach 273 (t ++ b ++ B ":" ++ w ++ v ++ CRLF ++ r2) s).
Proof.
  intros M T Bb W V SB. destruct (value_bwd v r2 (put_val None (put_name (n ++ t) s)) V SB) as (s2 & C2 & K2). exists s2. split; [exact C2|]. intros m R. apply (reach_at cap 273 r_xheader); [exact in_xheader|].
  exists (Hold 263), (v ++ CRLF ++ r2). eexists. split; [|apply K2 in R; exact R]. unfold r_xheader. apply b_token. eexists _, _. split; [reflexivity|]. split; [assumption|]. apply b_do. eexists.
  split; [apply (mname_act cap (n ++ t)); rewrite M, <- app_assoc; reflexivity|]. change (m_hcolon (m_goto [MValueNil] 263)) with (m_acts [] (m_hcolon (m_goto [MValueNil] 263))).
  eapply goto_bwd; [assumption|apply stops_lead; assumption|reflexivity|reflexivity].
Qed.
Lemma names_fwd r s m : m_mark s = r -> reach 281 r s m -> line_end (fun t d => header_text t (core s) d) r m.
Proof.
  intros M H. apply (reach_at cap 281 r_names) in H; [|exact in_names]. destruct H as (j & r1 & s1 & H & K). unfold r_names in H. apply trie_fwd in H; [|exact names_known|discriminate].
  destruct H as [(n & r2 & R & -> & I & H)|([= ->] & -> & n & E & Bn & NB)].
  - apply in_table in I. destruct I as (k & I & ->). destruct (proj1 (h_all k) _ _ _ _ _ _ H K) as (t & r3 & s3 & -> & (b & w & v & -> & Bb & V) & SB & R).
    exists (n ++ b ++ B ":" ++ w ++ v), r3, s3. rewrite <- !app_assoc. split; [reflexivity|]. split; [|auto]. exists n, b, w, v. split; [reflexivity|]. split; [eapply known_token; exact I|]. split; [assumption|]. rewrite (in_find _ _ I). exact V.
  - unfold MsgVia.after in K. cbn [jump] in K. apply (xheader_fwd n) in K; [|rewrite M; exact E]. destruct K as (t & r2 & s2 & -> & (t' & b & w & v & -> & T & Bb & W & V & C) & SB & R).
    exists (n ++ t' ++ b ++ B ":" ++ w ++ v), r2, s2. split; [rewrite E, <- !app_assoc; reflexivity|]. split; [|auto]. pose proof T as [NT FT]. destruct t' as [|c t']; [congruence|].
    assert (NBE : ~ begins name_table (map lower (n ++ c :: t'))).
    { cbn [forallb] in FT. apply andb_prop in FT. destruct FT as [FC _]. rewrite map_app. cbn [map]. change (lower c :: map lower t') with ([lower c] ++ map lower t'). rewrite app_assoc. intros X. apply begins_shorter in X.
      revert X. apply (NB c ((t' ++ b ++ B ":" ++ w ++ v) ++ CRLF ++ r2)); [|assumption]. reflexivity. }
    exists (n ++ c :: t'), b, w, v. split; [rewrite <- !app_assoc; reflexivity|]. split.
    + split; [destruct n; discriminate|]. rewrite forallb_app. cbn [forallb]. destruct Bn as [->|Bn]; [exact FT|].
      assert (Fn : forallb token_class n = true).
      { destruct Bn as (x & R0 & I). destruct (names_known _ _ I) as [_ F]. rewrite forallb_app in F. apply andb_prop in F. destruct F as [F _]. rewrite <- lower_token. apply (class_sub namec); [by_bytes|exact F]. }
      rewrite Fn. exact FT.
    + split; [assumption|]. destruct (find_header (map lower (n ++ c :: t')) known_headers) as [k|] eqn:F.
      * exfalso. apply NBE. apply find_in in F. exists [], (m_header k). rewrite app_nil_r. apply in_table. eauto.
      * split; [apply not_begins; exact NBE|]. auto.
Qed.
Lemma names_bwd t d r2 s : m_mark s = t ++ CRLF ++ r2 -> header_text t (core s) d -> starts_blank r2 = false -> (length (t ++ CRLF ++ r2) <= cap)%nat ->
  leads_to d r2 (reach 281 (t ++ CRLF ++ r2) s).
Proof.
  intros M (n & b & w & v & -> & T & Bb & H) SB L. destruct (find_header (map lower n) known_headers) as [k|] eqn:F.
  - apply find_in in F. destruct (proj2 (h_all k) (b ++ B ":" ++ w ++ v) s d r2) as (s2 & C2 & K2); [exists b, w, v; auto|assumption|rewrite !app_length in L; rewrite !app_length; lia|].
    exists s2. split; [assumption|]. intros m R. apply K2 in R. destruct R as (j & r1 & s1 & H1 & K). apply (reach_at cap 281 r_names); [exact in_names|]. exists j, r1, s1. split; [|exact K].
    unfold r_names. rewrite <- !app_assoc. rewrite <- !app_assoc in H1. eapply trie_known; [exact names_known|apply in_table; exists k; split; [exact F|reflexivity]|exact H1].
  - destruct H as (NP & W & V & ->). apply not_begins in NP. pose proof T as [NT FT]. destruct (leaves name_table n []) as (a & c & t & -> & Ba & NB); [auto|assumption|exact NP|]. cbn [app] in Ba, NB.
    assert (FT2 : token_class c = true /\ token (c :: t)). { rewrite forallb_app in FT. apply andb_prop in FT. destruct FT as [_ FT]. split; [cbn [forallb] in FT; apply andb_prop in FT; tauto|]. split; [discriminate|exact FT]. }
    destruct FT2 as [FC T2]. destruct (xheader_bwd a (c :: t) b w v r2 s) as (s2 & C2 & K2); try assumption; [rewrite M, <- !app_assoc; reflexivity|]. exists s2. split; [assumption|]. intros m R. apply K2 in R.
    apply (reach_at cap 281 r_names); [exact in_names|]. exists (Hold 273), ((c :: t) ++ b ++ B ":" ++ w ++ v ++ CRLF ++ r2), s. split; [|exact R]. unfold r_names. rewrite <- !app_assoc.
    apply trie_other; [exact names_known|discriminate|exact Ba|exact FC|exact NB].
Qed.

(** ** The header block and the payload *)
Lemma finish_spec body s m : msg_finish body s = MOk m <-> payload_text body (core s) m.
Proof.
  unfold msg_finish, payload_text, core. cbn [d_len d_msg d_type]. destruct (Z.ltb_spec 0 (m_clen s)) as [P|P].
  - destruct (Z.eqb_spec (m_clen s) (Z.of_nat (length body))) as [E|E]; cbn [negb].
    + destruct (bseq_reflect (m_ctype s) (B "application/sdp")) as [T|T].
      * destruct (sdp_parse body) as [[p|e]|]; split; try discriminate.
        -- intros [= <-]. right. split; [assumption|]. split; [assumption|]. left. eauto.
        -- intros [[C _]|(_ & _ & [(_ & q & [= <-] & ->)|[C _]])]; [lia|reflexivity|contradiction].
        -- intros [[C _]|(_ & _ & [(_ & q & C & _)|[C _]])]; [lia|discriminate|contradiction].
        -- intros [[C _]|(_ & _ & [(_ & q & C & _)|[C _]])]; [lia|discriminate|contradiction].
      * split; [intros [= <-]; right; auto|]. intros [[C _]|(_ & _ & [(C & _)|[_ ->]])]; [lia|contradiction|reflexivity].
    + split; [discriminate|]. intros [[C _]|(_ & C & _)]; [lia|contradiction].
  - split; [intros [= <-]; left; auto|]. intros [[_ ->]|[C _]]; [reflexivity|lia].
Qed.
Lemma header_fwd r s m : reach 280 r s m ->
  (exists body, r = CRLF ++ body /\ starts_blank body = false /\ payload_text body (core s) m) \/ line_end (fun t d => header_text t (core s) d) r m.
Proof.
  intros H. apply (reach_at cap 280 r_header) in H; [|exact in_header]. destruct H as (j & r1 & s1 & H & K). unfold r_header in H. apply b_alt in H. destruct H as [H|H].
  - left. apply b_cr in H. destruct H as (r2 & -> & SB & H). apply b_jmp in H. destruct H as ([= ->] & -> & -> & n & L & R). destruct (look_is LF r2 n L R) as (t & ->); [discriminate|].
    exists t. split; [reflexivity|]. split; [exact SB|]. apply finish_spec. exact K.
  - right. apply b_do in H. destruct H as (s2 & A & H). cbn [msg_act] in A. injection A as <-. apply b_jmp in H. destruct H as ([= ->] & -> & -> & _). unfold MsgVia.after in K. cbn [jump] in K. apply names_fwd in K; [exact K|reflexivity].
Qed.
Lemma header_end body s m : starts_blank body = false -> payload_text body (core s) m -> reach 280 (CRLF ++ body) s m.
Proof.
  intros SB P. apply (reach_at cap 280 r_header); [exact in_header|]. exists Done, (LF :: body), s. split; [|apply finish_spec in P; exact P]. unfold r_header. apply b_alt. left. apply b_cr. exists (LF :: body). split; [reflexivity|].
  split; [exact SB|]. apply b_jmp. repeat (split; [reflexivity|]). exists 10%N. split; reflexivity.
Qed.
Lemma header_bwd t d r2 s : header_text t (core s) d -> starts_blank r2 = false -> (length (t ++ CRLF ++ r2) <= cap)%nat -> leads_to d r2 (reach 280 (t ++ CRLF ++ r2) s).
Proof.
  intros H SB L. destruct (names_bwd t d r2 (put_mark (t ++ CRLF ++ r2) s) eq_refl H SB L) as (s2 & C2 & K2). exists s2. split; [assumption|]. intros m R. apply (reach_at cap 280 r_header); [exact in_header|].
  exists (Hold 281), (t ++ CRLF ++ r2), (put_mark (t ++ CRLF ++ r2) s). split; [|unfold MsgVia.after; cbn [jump]; auto]. unfold r_header. apply b_alt. right. apply b_do. eexists. split; [reflexivity|]. apply b_jmp. repeat (split; [reflexivity|]).
  destruct H as (n & b & w & v & -> & [N F] & _). destruct n as [|c n]; [congruence|]. cbn [forallb] in F. apply andb_prop in F. destruct F as [F _]. exists (to_N c). split; [apply look_plain; intros ->; discriminate|].
  pose proof (kc_token c) as K. unfold kc in K. rewrite K. exact F.
Qed.
Lemma lines_fwd N : forall r s m, (length r < N)%nat -> reach 280 r s m ->
  exists hs d body, r = hs ++ CRLF ++ body /\ header_lines hs (core s) d /\ starts_blank body = false /\ payload_text body d m.
Proof.
  induction N as [|N IH]; intros r s m L H; [lia|]. apply header_fwd in H. destruct H as [(body & -> & SB & P)|(t & r2 & s2 & -> & HT & SB & R)].
  - exists [], (core s), body. split; [reflexivity|]. split; [constructor|]. auto.
  - apply IH in R; [|rewrite !app_length in L; cbn in L; lia]. destruct R as (hs & d & body & -> & HL & SB2 & P). exists (t ++ CRLF ++ hs), d, body. rewrite <- !app_assoc. split; [reflexivity|]. split; [econstructor; eassumption|]. auto.
Qed.
Lemma lines_start hs d d' r : header_lines hs d d' -> starts_blank (hs ++ CRLF ++ r) = false.
Proof.
  intros H. destruct H as [d|t d d1 ts d2 (n & b & w & v & -> & T & _) _]; [reflexivity|]. pose proof (token_plain _ T) as F. destruct T as [N _]. destruct n as [|c n]; [congruence|]. cbn [forallb] in F. apply andb_prop in F.
  destruct F as [F _]. apply andb_prop in F. destruct F as [F _]. cbn. destruct (blank c); [discriminate|reflexivity].
Qed.
Lemma lines_bwd hs d0 d : header_lines hs d0 d -> forall s body m, core s = d0 -> starts_blank body = false -> payload_text body d m -> (length (hs ++ CRLF ++ body) <= cap)%nat -> reach 280 (hs ++ CRLF ++ body) s m.
Proof.
  intros H. induction H as [d|t d d1 ts d2 HT HL IH]; intros s body m C SB P L.
  - subst d. apply header_end; assumption.
  - subst d. rewrite <- !app_assoc. rewrite <- !app_assoc in L. destruct (header_bwd t d1 (ts ++ CRLF ++ body) s HT) as (s2 & C2 & K2); [eapply lines_start; exact HL|exact L|].
    apply K2. apply IH; try assumption. rewrite !app_length in L. rewrite !app_length. lia.
Qed.

(** ** The start line *)
Definition maj_step (s : mst) (c : byte) : mst := put_msg (set_vmaj (u8 (vmaj (m_msg s) * 10 + (bz c - 48))) (m_msg s)) s.
Definition min_step (s : mst) (c : byte) : mst := put_msg (set_vmin (u8 (vmin (m_msg s) * 10 + (bz c - 48))) (m_msg s)) s.
Definition u8_step (n : Z) (c : byte) : Z := u8 (n * 10 + (bz c - 48)).
Lemma maj_fold v : forall s, fold_left maj_step v s = put_msg (set_vmaj (fold_left u8_step v (vmaj (m_msg s))) (m_msg s)) s.
Proof. induction v as [|c v IH]; intros s; cbn [fold_left]; [destruct s as [m]; destruct m; reflexivity|]. rewrite IH. reflexivity. Qed.
Lemma min_fold v : forall s, fold_left min_step v s = put_msg (set_vmin (fold_left u8_step v (vmin (m_msg s))) (m_msg s)) s.
Proof. induction v as [|c v IH]; intros s; cbn [fold_left]; [destruct s as [m]; destruct m; reflexivity|]. rewrite IH. reflexivity. Qed.
Lemma u8_number w n : number w n -> fold_left u8_step w 0 = n mod 256.
Proof. apply (mod_number 256 ltac:(lia) u8_step). intros a c _. reflexivity. Qed.
Definition versioned (maj min : Z) (s : mst) : mst := put_msg (set_vmin min (set_vmaj maj (m_msg s))) s.
Lemma b_version x r s r' s' y : vmaj (m_msg s) = 0 -> vmin (m_msg s) = 0 -> (ms (m_str (B "SIP/") (m_version x)) r s r' s' y <->
  exists t maj min r1, r = t ++ r1 /\ version_text t maj min /\ ms x r1 (versioned maj min s) r' s' y).
Proof.
  intros V1 V2. rewrite b_str by reflexivity. unfold m_version. split.
  - intros (r1 & -> & H). apply (b_onplus cap [MMajor] k_dig is_digit maj_step) in H; [|reflexivity|exact kc_dig|reflexivity]. destruct H as (a & r2 & -> & Na & Fa & H). rewrite maj_fold, V1 in H. apply b_chx in H; [|discriminate]. destruct H as (r3 & -> & H).
    apply (b_onplus cap [MMinor] k_dig is_digit min_step) in H; [|reflexivity|exact kc_dig|reflexivity]. destruct H as (b & r4 & -> & Nb & Fb & H). rewrite min_fold in H. cbn [m_msg put_msg] in H.
    destruct (digits_number a Na Fa) as (p & P & _). destruct (digits_number b Nb Fb) as (q & Q & _). rewrite (u8_number a p P) in H. change (vmin (set_vmaj (p mod 256) (m_msg s))) with (vmin (m_msg s)) in H. rewrite V2, (u8_number b q Q) in H.
    exists (B "SIP/" ++ a ++ B "." ++ b), (p mod 256), (q mod 256), r4. rewrite <- !app_assoc. split; [reflexivity|]. split; [exists a, b, p, q; auto 6|]. exact H.
  - intros (t & maj & min & r1 & -> & (a & b & p & q & -> & P & Q & -> & ->) & H). rewrite <- !app_assoc. eexists. split; [reflexivity|]. destruct (number_digits _ _ P) as [Na Fa]. destruct (number_digits _ _ Q) as [Nb Fb].
    apply (b_onplus cap [MMajor] k_dig is_digit maj_step); [reflexivity|exact kc_dig|reflexivity|]. eexists _, _. split; [reflexivity|]. split; [assumption|]. split; [assumption|]. rewrite maj_fold, V1, (u8_number a p P). apply b_chx; [discriminate|].
    eexists. split; [reflexivity|]. apply (b_onplus cap [MMinor] k_dig is_digit min_step); [reflexivity|exact kc_dig|reflexivity|]. eexists _, _. split; [reflexivity|]. split; [assumption|]. split; [assumption|]. rewrite min_fold. cbn [m_msg put_msg].
    change (vmin (set_vmaj (p mod 256) (m_msg s))) with (vmin (m_msg s)). rewrite V2, (u8_number b q Q). exact H.
Qed.
Definition nosp (c : byte) : bool := negb (beq c SP).
Lemma kc_not_sp : forall c, kc k_not_sp c = nosp c. Proof. classes. Qed.
Lemma uri_nosp x u : uri_text x u -> x <> [] /\ forallb nosp x = true.
Proof.
  intros U. destruct (uri_chars _ _ U) as (c & sch & r & -> & A & S & N & F & _). split; [discriminate|]. rewrite !forallb_app, (class_sub uric_class nosp r), (class_sub scheme_class nosp (c :: sch)); [reflexivity|by_bytes| |by_bytes|assumption].
  cbn [forallb]. rewrite S, (alpha_scheme c A). reflexivity.
Qed.
Definition reason1 (w v : bytes) : Prop :=
  (exists a b, w = ["%"%byte; a; b] /\ v = [zb (16 * hex_value a + hex_value b)] /\ hex_class a = true /\ hex_class b = true) \/ same_text multibyte w v \/ exists c, w = [c] /\ v = [c] /\ reason_class c = true.
Lemma collects_reason1 : collects cap m_reason reason1.
Proof. apply collects_alt; [apply collects_escaped|apply collects_alt; [apply collects_utf8|apply (collects_put1 cap k_reason reason_class); [reflexivity|exact kc_reason]]]. Qed.
Lemma collects_reasons : collects cap (m_plus m_reason) (fun w v => w <> [] /\ reason_text w v).
Proof.
  eapply collects_ext; [apply collects_seq; [exact collects_reason1|exact (collects_reason cap)]|]. intros w v. split.
  - intros (a & b & c & d & -> & -> & [(x & y & -> & -> & X & Y)|[[-> (x & xs & -> & K)]|(x & -> & -> & X)]] & R); (split; [discriminate|]); [constructor; assumption|apply rt_multi; [exists x, xs; auto|assumption]|constructor; assumption].
  - intros [N R]. destruct R as [|c t u C R|a b t u X Y R|m t u M R]; [congruence| | |].
    + exists [c], t, [c], u. split; [reflexivity|]. split; [reflexivity|]. split; [right; right; eauto|assumption].
    + exists ["%"%byte; a; b], t, [zb (16 * hex_value a + hex_value b)], u. split; [reflexivity|]. split; [reflexivity|]. split; [left; eauto 6|assumption].
    + exists m, t, m, u. split; [reflexivity|]. split; [reflexivity|]. split; [right; left; split; [reflexivity|assumption]|assumption].
Qed.
Lemma reason_len x v : reason_text x v -> (length v <= length x)%nat.
Proof. intros H. induction H; cbn [length]; rewrite ?app_length; lia. Qed.
Definition status_step (s : mst) (c : byte) : mst := put_msg (set_status (acc_int (status (m_msg s)) c) (m_msg s)) s.
Lemma three_digits a b c n : is_digit a = true -> is_digit b = true -> is_digit c = true -> number [a; b; c] n -> acc_int (acc_int (acc_int 0 a) b) c = n.
Proof.
  intros A Bd C H. change (fold_left acc_int [a; b; c] 0 = n). rewrite (acc_number _ _ H). unfold number, digits_value in H. cbn [dec_value] in H. rewrite !digit_value_bz in H by assumption. injection H as <-.
  assert (R : forall x, is_digit x = true -> 0 <= bz x - 48 <= 9) by (intros x D; unfold is_digit, in_range in D; lia). pose proof (R a A). pose proof (R b Bd). pose proof (R c C). apply i64_id. lia.
Qed.
Lemma request_fwd r s r' s' y : m_msg s = msg0 -> ms m_request r s r' s' y -> exists t m0 r1, r = t ++ CRLF ++ r1 /\ start_text t m0 /\ starts_blank r1 = false /\ y = Some (Go 280) /\ r' = LF :: r1 /\ core s' = mkdraft m0 (m_clen s) (m_ctype s).
Proof.
  intros M H. unfold m_request in H. apply b_do in H. destruct H as (s1 & A & H). cbn [msg_act] in A. injection A as <-. apply b_token in H. destruct H as (mt & r1 & -> & T & H). apply b_do in H. destruct H as (s1 & A & H).
  cbn [msg_act] in A. rewrite (slice_at 0 r1 _ mt) in A by reflexivity. injection A as <-. apply b_chx in H; [|discriminate]. destruct H as (r2 & -> & H). apply b_do in H. destruct H as (s1 & A & H). cbn [msg_act] in A. injection A as <-.
  apply (b_plusx cap k_not_sp nosp) in H; [|reflexivity|exact kc_not_sp]. destruct H as (x & r3 & -> & Nx & Fx & H). apply b_do in H. destruct H as (s1 & A & H). cbn [msg_act] in A. rewrite (slice_at 0 r3 _ x) in A by reflexivity.
  unfold call_uri in A. destruct (parse_uri x) as [u| |] eqn:U; try discriminate. injection A as <-. apply uri_parse_exact in U. apply b_chx in H; [|discriminate]. destruct H as (r4 & -> & H). cbn [m_msg put_mark put_msg] in H. rewrite M in H.
  apply b_version in H; [|reflexivity|reflexivity]. destruct H as (v & maj & min & r5 & -> & V & H). apply b_eol in H. destruct H as (-> & r6 & -> & SB & -> & [= <-]).
  exists (mt ++ B " " ++ x ++ B " " ++ v). eexists. exists r6. rewrite <- !app_assoc. split; [reflexivity|]. split; [left; exists u, x, v, maj, min|]. all: cycle 1. { split; [assumption|]. split; [reflexivity|]. split; [reflexivity|]. reflexivity. }
  split; [reflexivity|]. split; [exact T|]. split; [assumption|]. split; [assumption|reflexivity].
Qed.
Lemma response_fwd r s r' s' y : m_msg s = msg0 -> ms m_response r s r' s' y -> exists t m0 r1, r = t ++ CRLF ++ r1 /\ start_text t m0 /\ starts_blank r1 = false /\ y = Some (Go 280) /\ r' = LF :: r1 /\ core s' = mkdraft m0 (m_clen s) (m_ctype s).
Proof.
  intros M H. unfold m_response in H. apply b_do in H. destruct H as (s1 & A & H). cbn [msg_act] in A. injection A as <-. apply b_version in H; [|cbn; rewrite M; reflexivity|cbn; rewrite M; reflexivity]. destruct H as (v & maj & min & r1 & -> & V & H).
  apply b_chx in H; [|discriminate]. destruct H as (r2 & -> & H).
  apply (b_ons1 cap [MStatus] k_dig is_digit status_step) in H; [|reflexivity|exact kc_dig|reflexivity]. destruct H as (a & r3 & -> & Da & H).
  apply (b_ons1 cap [MStatus] k_dig is_digit status_step) in H; [|reflexivity|exact kc_dig|reflexivity]. destruct H as (b & r4 & -> & Db & H).
  apply (b_ons1 cap [MStatus] k_dig is_digit status_step) in H; [|reflexivity|exact kc_dig|reflexivity]. destruct H as (c & r5 & -> & Dc & H). apply b_chx in H; [|discriminate]. destruct H as (r6 & -> & H).
  apply b_do in H. destruct H as (s1 & A & H). cbn [msg_act] in A. injection A as <-. rewrite b_seq in H by reflexivity. destruct H as (r7 & s2 & H1 & H). apply (proj1 collects_reasons) in H1. destruct H1 as (_ & x & ph & hx & -> & [Nx R] & ->).
  apply b_do in H. destruct H as (s1 & A & H). cbn [msg_act] in A. injection A as <-. apply b_eol in H. destruct H as (-> & r8 & -> & SB & -> & [= <-]).
  destruct (digits_number [a; b; c]) as (n & Nn & _); [discriminate|cbn [forallb]; rewrite Da, Db, Dc; reflexivity|]. pose proof (three_digits a b c n Da Db Dc Nn) as TD.
  exists (v ++ B " " ++ [a; b; c] ++ B " " ++ x), (set_phrase ph (set_status n (set_vmin min (set_vmaj maj msg0)))), r8. rewrite <- !app_assoc. split; [reflexivity|].
  split; [right; exists v, maj, min, [a; b; c], n, x; repeat (split; [first [reflexivity|assumption]|]); reflexivity|]. split; [assumption|]. split; [reflexivity|]. split; [reflexivity|].
  unfold core. f_equal. cbn [m_msg put_msg took put_hex put_buf status_step versioned put_mark m_buf app]. rewrite M. change (status (set_vmin min (set_vmaj maj msg0))) with 0.
  rewrite <- TD. reflexivity.
Qed.
Lemma main_bwd t m0 r1 s : m_msg s = msg0 -> start_text t m0 -> starts_blank r1 = false -> (length (t ++ CRLF ++ r1) <= cap)%nat ->
  exists s', core s' = mkdraft m0 (m_clen s) (m_ctype s) /\ ms r_main (t ++ CRLF ++ r1) s (LF :: r1) s' (Some (Go 280)).
Proof.
  intros M [(u & x & v & maj & min & -> & T & U & V & E)|(v & maj & min & d & n & x & -> & V & L3 & Nn & Nx & R & E)] SB L.
  - set (mt := method m0) in *. clearbody mt. subst m0. eexists. split; [|unfold r_main; apply b_alt; left]. all: cycle 1.
    + rewrite <- !app_assoc. unfold m_request. apply b_do. eexists. split; [reflexivity|]. apply b_token. eexists _, _. split; [reflexivity|]. split; [assumption|].
      apply b_do. eexists. split; [cbn [msg_act]; rewrite (slice_at 0 _ _ mt) by reflexivity; reflexivity|]. apply b_chx; [discriminate|]. eexists. split; [reflexivity|]. apply b_do. eexists. split; [reflexivity|].
      destruct (uri_nosp _ _ U) as [Nx Fx]. apply (b_plusx cap k_not_sp nosp); [reflexivity|exact kc_not_sp|]. eexists _, _. split; [reflexivity|]. split; [assumption|]. split; [assumption|].
      apply b_do. eexists. split; [cbn [msg_act]; rewrite (slice_at 0 _ _ x) by reflexivity; unfold call_uri; rewrite (proj2 (uri_parse_exact x u) U); reflexivity|]. apply b_chx; [discriminate|]. eexists. split; [reflexivity|].
      apply b_version; [cbn; rewrite M; reflexivity|cbn; rewrite M; reflexivity|]. exists v, maj, min, (CRLF ++ r1). split; [reflexivity|]. split; [assumption|]. apply b_eol. split; [reflexivity|]. exists r1. split; [reflexivity|]. split; [assumption|]. split; reflexivity.
    + unfold core. cbn [m_msg put_msg put_mark versioned m_clen m_ctype]. rewrite M. reflexivity.
  - destruct (number_digits _ _ Nn) as [_ Fd]. destruct d as [|a [|b [|c [|]]]]; try discriminate. cbn [forallb] in Fd. apply andb_prop in Fd. destruct Fd as [Da Fd]. apply andb_prop in Fd. destruct Fd as [Db Fd]. apply andb_prop in Fd. destruct Fd as [Dc _].
    pose proof (three_digits a b c n Da Db Dc Nn) as TD. set (ph := phrase m0) in *. clearbody ph. subst m0. set (s1 := status_step (status_step (status_step (versioned maj min (put_mark (v ++ B " " ++ [a; b; c] ++ B " " ++ x ++ CRLF ++ r1) s)) a) b) c).
    destruct (proj2 collects_reasons x ph (CRLF ++ r1) (put_buf [] s1) (conj Nx R)) as (hx & H).
    { right. cbn. apply reason_len in R. rewrite !app_length in L. lia. }
    exists (put_msg (set_phrase ph (m_msg s1)) (took (put_buf [] s1) ph hx)). split.
    + unfold core. f_equal. unfold s1. cbn [m_msg put_msg took put_hex put_buf status_step versioned put_mark m_buf app]. rewrite M. change (status (set_vmin min (set_vmaj maj msg0))) with 0. rewrite <- TD. reflexivity.
    + unfold r_main. apply b_alt. right. unfold m_response. apply b_do. eexists. split; [reflexivity|]. rewrite <- !app_assoc. apply b_version; [cbn; rewrite M; reflexivity|cbn; rewrite M; reflexivity|].
      exists v, maj, min. eexists. split; [reflexivity|]. split; [assumption|]. apply b_chx; [discriminate|]. eexists. split; [reflexivity|].
      apply (b_ons1 cap [MStatus] k_dig is_digit status_step); [reflexivity|exact kc_dig|reflexivity|]. eexists _, _. split; [reflexivity|]. split; [assumption|].
      apply (b_ons1 cap [MStatus] k_dig is_digit status_step); [reflexivity|exact kc_dig|reflexivity|]. eexists _, _. split; [reflexivity|]. split; [assumption|].
      apply (b_ons1 cap [MStatus] k_dig is_digit status_step); [reflexivity|exact kc_dig|reflexivity|]. eexists _, _. split; [reflexivity|]. split; [assumption|]. apply b_chx; [discriminate|]. eexists. split; [reflexivity|].
      apply b_do. eexists. split; [reflexivity|]. rewrite b_seq by reflexivity. eexists _, _. split; [exact H|]. apply b_do. eexists. split; [reflexivity|]. apply b_eol. split; [reflexivity|]. exists r1. split; [reflexivity|]. split; [assumption|]. split; reflexivity.
Qed.
End Cap.

Theorem parse_exact data m : parse_msg data = MOk m <-> msg_text data m.
Proof.
  rewrite parse_reach. unfold msg_en_main. rewrite (reach_at (length data) 1 r_main) by exact in_main. split.
  - intros (j & r1 & s1 & H & K). assert (Q : exists t m0 r2, data = t ++ CRLF ++ r2 /\ start_text t m0 /\ starts_blank r2 = false /\ Some j = Some (Go 280) /\ r1 = LF :: r2 /\ core s1 = mkdraft m0 0 []).
    { unfold r_main in H. apply b_alt in H. destruct H as [H|H]; [apply request_fwd in H; [exact H|reflexivity]|apply response_fwd in H; [exact H|reflexivity]]. }
    destruct Q as (st & m0 & r2 & E & ST & SB & [= ->] & -> & C). unfold after in K. cbn [jump tl] in K. apply (lines_fwd _ (S (length r2))) in K; [|lia]. destruct K as (hs & d & body & -> & HL & SB2 & P). rewrite C in HL.
    exists st, m0, hs, d, body. auto.
  - intros (st & m0 & hs & d & body & E & ST & HL & SB & P). destruct (main_bwd (length data) st m0 (hs ++ CRLF ++ body) (mst0 data) eq_refl ST) as (s1 & C1 & H); [eapply lines_start; exact HL|rewrite E; lia|]. rewrite <- E in H.
    exists (Go 280), (LF :: hs ++ CRLF ++ body), s1. split; [exact H|]. unfold after. cbn [jump tl]. eapply lines_bwd; [exact HL|exact C1|exact SB|exact P|]. rewrite E, !app_length. lia.
Qed.
