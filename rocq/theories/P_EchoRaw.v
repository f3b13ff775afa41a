(** C96: the program of example/echo, which keeps its dialog itself, against a server made with the library. *)
From Verif Require Import RtpModel RtpSpec RtpProofs P_Rtp Bytes BytesLemmas GoLib GoLibLemmas SdpModel SdpProofs SipText SipTypes SipAppend UtilModel P_Text P_Lists UriSpec P_Uri MsgModel MsgSpec MsgGrammar P_MsgText MsgWf MsgRound P_MsgRound
  DialogMsg P_DialogMsg P_DialogWire TransportModel P_Transport P_TransportAt P_Received DialogModel P_DialogCount P_Written P_Call P_Invite P_Talk P_FoneCall P_PeerCall P_Echo ExamplesModel P_Examples.
Local Open Scope Z_scope.

(** ** The INVITE *)
Lemma echo_fields lh lp rh rp ip port oid d cid : GenerateCallID (dr_callid d) = Ok cid -> exists o, echo_invite lh lp rh rp ip port oid d = Ok o /\
  status o = 0 /\ method o = B "INVITE" /\ cseqmethod o = B "INVITE" /\ callid o = cid /\ cseq o = GenerateCSeq (dr_cseq d) /\ request o = Some (mkuri (B "sip") (B "echo") [] rh rp [] []) /\
  vias o = [mkvia [] [] [] lh lp [(B "branch", GenerateBranch (dr_branch d))]] /\
  (forall f, addrs o f = match f with Contact => [mkaddr (Some (mkuri (B "sip") [] [] lh lp [] [])) [] []]
     | From => [mkaddr (Some (mkuri (B "sip") [] [] lh lp [] [])) (B "Echo Test") [(B "tag", GenerateTag (dr_tag d))]]
     | To => [mkaddr (Some (mkuri (B "sip") [] [] rh rp [] [])) [] []] | _ => [] end) /\
  (forall f, strs o f = match f with UserAgent => B "gosip/1.o" | _ => [] end) /\
  vmaj o = 0 /\ vmin o = 0 /\ maxforwards o = 0 /\ expires o = 0 /\ minexpires o = 0 /\ xheader o = [] /\ pay o = Some (PSdp (sdp_new ip port oid [ULAWCodec; DTMFCodec])).
Proof.
  intros E. eexists. split; [unfold echo_invite; rewrite E; reflexivity|]. repeat (split; [reflexivity|]). split; [intros []; reflexivity|]. split; [intros []; reflexivity|]. repeat split.
Qed.
Lemma echo_name : display_ok (B "Echo Test").
Proof. right. right. split; [|reflexivity]. apply (words_more (B "Echo") (B " ") (B "Test")); [apply token_text; [reflexivity|discriminate]|split; [left; reflexivity|discriminate]|]. constructor. apply token_text; [reflexivity|discriminate]. Qed.
Lemma echo_on_way lh lp rh rp ip port od d rid : place lh lp -> lp <> 5060 -> place rh rp -> drawn d -> public_host ip -> port_ok port ->
  exists o v b, echo_invite lh lp rh rp ip port (GenerateOriginID od) d = Ok o /\ on_its_way rid o v b /\ v_host v = lh /\ v_port v = lp.
Proof.
  intros PL N5 PR (LB & LT & LC) PI PP. destruct (branch_token _ LB) as [TB _]. destruct (branch_token _ LT) as [_ TT]. destruct (callid_drawn _ LC) as (cid & EC & TC).
  destruct (echo_fields lh lp rh rp ip port (GenerateOriginID od) d cid EC) as (o & E & O1 & O2 & O3 & O4 & O5 & O6 & O7 & O8 & O9 & O10 & O11 & O12 & O13 & O14 & O15 & O16).
  set (v := mkvia [] [] [] lh lp [(B "branch", GenerateBranch (dr_branch d))]) in *. exists o, v, (GenerateBranch (dr_branch d)). split; [exact E|]. split; [|split; reflexivity].
  assert (TO : token (B "INVITE")) by (apply token_text; [reflexivity|discriminate]).
  assert (PK : Forall param_ok (v_param v)) by (constructor; [split; [apply token_text; [reflexivity|discriminate]|right; left; exact TB]|constructor]).
  assert (VG : via_given v). { pose proof PL as ((N & C & _) & _). split; [left; reflexivity|]. split; [left; reflexivity|]. split; [left; reflexivity|]. split; [exact N|]. split; [exact C|exact PK]. }
  split; [|split; [exact O1|]; split; [congruence|]; split; [rewrite O8; reflexivity|]; split; [exact O7|]; split; [|split; [reflexivity|]; split; [rewrite O2; exact TO|congruence]]].
  - assert (AD : forall f, Forall addr_ok (map written_addr (addrs o f))).
    { intros f. rewrite O8. destruct f; cbn [map]; try apply Forall_nil; (apply Forall_cons; [|apply Forall_nil]).
      - apply made_ok; [right; reflexivity|exact PL|left; reflexivity|constructor].
      - apply made_ok; [right; reflexivity|exact PL|exact echo_name|]. constructor; [split; [apply token_text; [reflexivity|discriminate]|right; left; exact TT]|constructor].
      - apply made_ok; [right; reflexivity|exact PR|left; reflexivity|constructor]. }
    unfold msg_ok. cbn [written status method request addrs vias callid cseq cseqmethod maxforwards expires minexpires strs xheader pay vmaj vmin].
    split; [left; cbn [written status method request]; split; [exact O1|]; split; [rewrite O2; exact TO|]; rewrite O6; eexists; split; [reflexivity|]; apply (sip_uri_ok (B "echo") rh rp PR)|].
    rewrite O10, O11, O12, O13, O14, O15, O16, O4, O3, O5. split; [lia|]. split; [lia|]. split; [rewrite O8; discriminate|]. split; [rewrite O8; discriminate|]. split; [exact AD|].
    split; [rewrite O7; constructor; [apply (via_written v VG (proj2 PL))|constructor]|]. split; [exact TC|]. split; [unfold GenerateCSeq; pose proof (Z.mod_pos_bound (dr_cseq d) 50000); lia|]. split; [exact TO|]. split; [lia|]. split; [lia|]. split; [lia|].
    split; [|split; [constructor|]].
    + intros f. rewrite O9. destruct f; try exact header_val_nil. split; [|intros c r H; injection H as <- _; reflexivity]. repeat (constructor; [reflexivity|]). constructor.
    + intros p EP. cbn [option_map] in EP. rewrite (echo_sdp_ok rid ip od port PI PP) in EP. injection EP as <-. apply fone_sdp_ok; assumption.
  - split; [exact VG|]. split; [exact (proj2 PL)|]. split; [exact N5|]. split; [reflexivity|left; reflexivity].
Qed.

(** ** The ACK and the BYE *)
(** a request made of what the answer [y] says *)
Definition follows (inv y : msg) (mth : bytes) (n : Z) (m : msg) : Prop :=
  status m = 0 /\ method m = mth /\ cseqmethod m = mth /\ callid m = callid y /\ cseq m = n /\ request m = request inv /\ vias m = vias y /\
  (forall f, addrs m f = match f with From => addrs y From | To => addrs y To | _ => [] end) /\ (forall f, strs m f = []) /\
  vmaj m = 0 /\ vmin m = 0 /\ maxforwards m = 0 /\ expires m = 0 /\ minexpires m = 0 /\ xheader m = [] /\ pay m = None.
Lemma ack_follows inv y : follows inv y (B "ACK") (cseq y) (echo_ack inv y).
Proof. unfold follows. repeat (split; [reflexivity|]). split; [intros []; reflexivity|]. split; [intros []; reflexivity|]. repeat split. Qed.
Lemma bye_follows inv y : follows inv y (B "BYE") (i64 (cseq y + 1)) (echo_bye (echo_ack inv y)).
Proof. unfold follows. repeat (split; [reflexivity|]). split; [intros []; reflexivity|]. split; [intros []; reflexivity|]. repeat split. Qed.
Lemma follows_on_way rid inv y mth n m u z b : follows inv y mth n m -> token mth -> 0 <= n < 2 ^ 63 -> request inv = Some u -> uri_ok (written_uri u) -> callid_text (callid y) ->
  addrs y From <> [] -> addrs y To <> [] -> Forall addr_ok (addrs y From) -> Forall addr_ok (addrs y To) -> vias y = [z] -> via_plain z -> value_of (B "branch") (v_param z) = Some b -> on_its_way_via via_plain rid m z b.
Proof.
  intros (O1 & O2 & O3 & O4 & O5 & O6 & O7 & O8 & O9 & O10 & O11 & O12 & O13 & O14 & O15 & O16) TO N RU UO TC NF NT AF AT V VP BV. rewrite RU in O6. rewrite V in O7.
  split; [|split; [exact O1|]; split; [congruence|]; split; [rewrite O8; reflexivity|]; split; [exact O7|]; split; [exact VP|]; split; [exact BV|]; split; [rewrite O2; exact TO|congruence]].
  assert (AD : forall f, Forall addr_ok (map written_addr (addrs m f))).
  { intros f. rewrite O8. destruct f; try apply Forall_nil; apply addrs_given_written; eapply Forall_impl; [exact addr_ok_given|exact AF|exact addr_ok_given|exact AT]. }
  unfold msg_ok. cbn [written status method request addrs vias callid cseq cseqmethod maxforwards expires minexpires strs xheader pay vmaj vmin].
  split; [left; cbn [written status method request]; split; [exact O1|]; split; [rewrite O2; destruct mth; [destruct TO; congruence|exact TO]|]; rewrite O6; eexists; split; [reflexivity|exact UO]|].
  rewrite O10, O11, O12, O13, O14, O15, O16, O4, O3, O5. split; [lia|]. split; [lia|]. split; [rewrite O8; destruct (addrs y From); [congruence|discriminate]|]. split; [rewrite O8; destruct (addrs y To); [congruence|discriminate]|]. split; [exact AD|].
  split; [rewrite O7; constructor; [apply (P_Talk.via_written z (proj1 VP) (proj1 (proj2 VP)))|constructor]|]. split; [exact TC|]. split; [exact N|]. split; [exact TO|]. split; [lia|]. split; [lia|]. split; [lia|].
  split; [|split; [constructor|discriminate]]. intros f. rewrite O9. exact header_val_nil.
Qed.

(** ** The audio *)
Definition junk : bytes := map (fun n => zb (Z.of_nat n)) (List.seq 0 160).
Lemma app_inj_len {A} (a b c d : list A) : length a = length c -> a ++ b = c ++ d -> a = c /\ b = d.
Proof. revert c. induction a as [|x a IH]; intros [|y c] L E; try discriminate; [auto|]. injection E as <- E. injection L as L. destruct (IH c L E) as [-> ->]. auto. Qed.
Lemma forallb_same (f f' : nat -> bool) : forall l, (forall n, In n l -> f n = f' n) -> forallb f l = forallb f' l.
Proof. induction l as [|x l IHl]; intros H; [reflexivity|]. cbn [forallb]. rewrite (H x (or_introl eq_refl)), IHl by (intros; apply H; right; assumption). reflexivity. Qed.
Lemma junk_seen (g : nat -> byte) t : forall pre rest k, forallb (fun n => match nth_error (pre ++ t ++ rest) (length pre + (n - k)) with Some b => beq b (g n) | None => false end) (List.seq k (length t)) = true <-> t = map g (List.seq k (length t)).
Proof.
  induction t as [|c t IH]; intros pre rest k; [split; reflexivity|]. cbn [length List.seq forallb map]. rewrite Nat.sub_diag, Nat.add_0_r, nth_error_app2, Nat.sub_diag by lia. cbn [app nth_error].
  assert (E : forallb (fun n => match nth_error (pre ++ c :: t ++ rest) (length pre + (n - k)) with Some b => beq b (g n) | None => false end) (List.seq (S k) (length t))
    = forallb (fun n => match nth_error ((pre ++ [c]) ++ t ++ rest) (length (pre ++ [c]) + (n - S k)) with Some b => beq b (g n) | None => false end) (List.seq (S k) (length t))).
  { apply forallb_same. intros n I. apply in_seq in I. rewrite <- app_assoc, app_length. cbn [app length]. replace (length pre + 1 + (n - S k))%nat with (length pre + (n - k))%nat by lia. reflexivity. }
  rewrite E, andb_true_iff, IH, beq_spec. split; [intros [-> <-]; reflexivity|]. intros H. injection H as H1 H2. auto.
Qed.
(** It takes as an echo what has a header of version 2 without extension, and the audio it sends. *)
Theorem echo_heard_exact : forall memory datagram, (length datagram <= 2048)%nat -> echo_heard memory datagram = true <->
  exists h, length h = 12%nat /\ datagram = h ++ junk /\ f_version h = 2 /\ f_extension h = false.
Proof.
  intros memory d L. unfold echo_heard. rewrite firstn_all2 by exact L. cbv zeta.
  assert (X : length d = 172%nat -> exists h t, d = h ++ t /\ length h = 12%nat /\ length t = 160%nat).
  { intros E. exists (firstn 12 d), (skipn 12 d). rewrite firstn_skipn, firstn_length, skipn_length, E. auto. }
  destruct (Z.eqb_spec (Z.of_nat (length d)) 172) as [E|N].
  - destruct X as (h & t & -> & LH & LT); [lia|]. cbn [andb]. rewrite rtp_header_read_total, <- app_assoc, app_length, LH. cbv iota.
    assert (F : forall r, f_version (h ++ r) = f_version h /\ f_extension (h ++ r) = f_extension h) by (intros r; do 12 (destruct h as [|? h]; [discriminate|]); split; reflexivity).
    destruct (F (t ++ skipn (length (h ++ t)) memory)) as [-> ->]. change (Nat.ltb (12 + length (t ++ skipn (length (h ++ t)) memory)) 12) with false. cbv iota.
    pose proof (junk_seen (fun n => zb (Z.of_nat n)) t h (skipn (length (h ++ t)) memory) 0) as J. rewrite LT, LH in J.
    assert (K : forallb (fun n => match nth_error (h ++ t ++ skipn (length (h ++ t)) memory) (12 + n) with Some b => beq b (zb (Z.of_nat n)) | None => false end) (List.seq 0 160) = true <-> t = junk).
    { rewrite <- J. match goal with |- ?a = true <-> ?b = true => replace a with b; [reflexivity|] end. apply forallb_same. intros n _. rewrite Nat.sub_0_r. reflexivity. }
    rewrite andb_true_iff, K. split.
    + intros [C ->]. exists h. split; [exact LH|]. split; [reflexivity|]. destruct (Z.eqb_spec (f_version h) 2) as [V|V]; [|discriminate C]. cbn [negb] in C. destruct (f_extension h); [discriminate|]. auto.
    + intros (h' & LH' & EH & V & X2). apply app_inj_len in EH; [|congruence]. destruct EH as [-> ->]. rewrite V, X2. auto.
  - cbn [andb]. split; [discriminate|]. intros (h & LH & -> & _). exfalso. apply N. rewrite app_length, LH. reflexivity.
Qed.
(** ... so never what it has sent itself. *)
Theorem echo_of_frame_refuted : forall memory h, echo_heard memory (echo_frame h) = false.
Proof.
  intros memory h. apply not_true_iff_false. rewrite echo_heard_exact by (unfold echo_frame; cbv zeta; rewrite app_length, repeat_length, map_length, seq_length; lia).
  intros (k & LK & E & V & _). unfold echo_frame in E. cbv zeta in E. fold junk in E. apply app_inj_len in E; [|rewrite LK; reflexivity]. destruct E as [<- _]. discriminate V.
Qed.
Theorem echo_heard_rtp : forall memory h, P_Rtp.in_range h -> echo_heard memory (header_write h [] ++ junk) = true.
Proof.
  intros memory h I. destruct (rtp_header_layout h [] I) as (w & E & LW & V & _ & X & _). cbn [app] in E. rewrite E. apply echo_heard_exact; [rewrite app_length, LW; cbn; lia|]. exists w. auto.
Qed.

(** * C96 *)
(** What the server is to see of the INVITE, apart from the session description *)
Definition invite_seen (lh : bytes) (lp : Z) (rh : bytes) (rp : Z) (d : draws) (r : msg) : Prop :=
  status r = 0 /\ method r = B "INVITE" /\ cseqmethod r = B "INVITE" /\ GenerateCallID (dr_callid d) = Ok (callid r) /\ cseq r = GenerateCSeq (dr_cseq d) /\ request r = Some (mkuri (B "sip") (B "echo") [] rh rp [] []) /\
  map (fun v => (v_host v, v_port v)) (vias r) = [(lh, lp)] /\
  (forall f, addrs r f = match f with Contact => [mkaddr (Some (mkuri (B "sip") [] [] lh lp [] [])) [] []]
     | From => [mkaddr (Some (mkuri (B "sip") [] [] lh lp [] [])) (B "Echo Test") [(B "tag", GenerateTag (dr_tag d))]]
     | To => [mkaddr (Some (mkuri (B "sip") [] [] rh rp [] [])) [] []] | _ => [] end) /\
  strs r UserAgent = B "gosip/1.o" /\ maxforwards r = 70.
(** The program sends its INVITE; the server gets it with the session description and answers 100 and then 200 with its own; the program sends the ACK and, once it has heard its audio in a
    proper RTP packet, the BYE; both reach the server in the dialog of the call, and with the 200 to the BYE the program ends with success. *)
Theorem echo_raw_call : forall lh lp rh rp ip port od d rid, place lh lp -> lp <> 5060 -> place rh rp -> drawn d -> public_host ip -> port_ok port ->
  exists inv, echo_invite lh lp rh rp ip port (GenerateOriginID od) d = Ok inv /\
  forall lhost lport src stb, source_ok src -> (forall t, stb = Some t -> token t) ->
  exists r, delivers lhost lport (msg_append rid inv) src stb r /\ invite_seen lh lp rh rp d r /\ pay r = Some (PSdp (fone_sdp ip (GenerateOriginID od) port)) /\
  forall tb w1 x1, (v_host (tp_via tb), v_port (tp_via tb)) <> (lh, lp) -> net_ok w1 -> reply_ok x1 -> rp_via x1 = [] -> rp_rid x1 = n_rid w1 -> rp_status x1 = 100 ->
  exists s1 a1 p1 t1, TransportModel.Send tb (mkheld (reply_msg r x1) false) w1 = Ok s1 /\ sd_ok s1 = true /\ sd_wire s1 = [(a1, p1, t1)] /\ n_resolve w1 (host_port (fst src) (Portstr (snd src))) = Some a1 /\
  forall tb2 w2 x2 sd, (v_host (tp_via tb2), v_port (tp_via tb2)) <> (lh, lp) -> net_ok w2 -> reply_ok x2 -> rp_via x2 = [] -> rp_rid x2 = n_rid w2 -> rp_status x2 = 200 -> rp_pay x2 = Some (PSdp sd) ->
  exists s2 a2 p2 t2, TransportModel.Send tb2 (mkheld (reply_msg r x2) false) w2 = Ok s2 /\ sd_ok s2 = true /\ sd_wire s2 = [(a2, p2, t2)] /\ n_resolve w2 (host_port (fst src) (Portstr (snd src))) = Some a2 /\
  exists tk ty,
    (forall lhost lport src stamp, source_ok src -> (forall t, stamp = Some t -> token t) -> exists k, delivers lhost lport tk src stamp k /\ AckMatch r k = true /\ in_dialog r x2 k /\ request k = request r) /\
    (forall lhost lport src stamp, source_ok src -> (forall t, stamp = Some t -> token t) -> exists k, delivers lhost lport ty src stamp k /\ method k = B "BYE" /\ cseq k = cseq r + 1 /\ in_dialog r x2 k /\ request k = request r) /\
    forall k h z, (forall t, k_sent k t = true) -> k_first k = Some t1 -> k_second k = Some t2 -> (length t1 <= 2048)%nat -> (length t2 <= 2048)%nat ->
      P_Rtp.in_range h -> k_audio k = Some (header_write h [] ++ junk) -> read_msg (k_third k) = Some z -> status z = 200 -> phrase z = B "OK" ->
      echo_main inv rid k = (Passed, [msg_append rid inv; tk; ty]).
Proof.
  intros lh lp rh rp ip port od d rid PL N5 PR DR PI PP. destruct (echo_on_way lh lp rh rp ip port od d rid PL N5 PR DR PI PP) as (o & v & b & E & OW & VH & VP). exists o. split; [exact E|]. intros lhost lport src stb SO TK.
  destruct (request_arrives _ _ _ _ lhost lport src stb OW SO TK) as (r & v' & DL & GT & RV & AN & OK2 & SV). exists r. split; [exact DL|]. pose proof GT as (G1 & G2 & _ & G4 & G5 & _ & G7 & _ & _ & G10 & _).
  destruct DR as (LB & LT & LC). destruct (callid_drawn _ LC) as (cid & EC & TC). destruct (echo_fields lh lp rh rp ip port (GenerateOriginID od) d cid EC) as (o' & E' & O1 & O2 & O3 & O4 & O5 & O6 & O7 & O8 & O9 & O10 & O11 & O12 & O13 & O14 & O15 & O16). assert (o' = o) by congruence. subst o'.
  assert (RQ : request r = Some (mkuri (B "sip") (B "echo") [] rh rp [] [])) by (rewrite G2, O6; reflexivity). pose proof GT as (_ & _ & G3 & _ & _ & G6 & _ & G8 & _ & _ & G11). split.
  { unfold invite_seen. split; [exact G3|]. split; [congruence|]. split; [congruence|]. split; [congruence|]. split; [congruence|]. split; [exact RQ|].
    split; [rewrite RV; pose proof AN as (_ & _ & _ & A4 & A5 & _); cbn [map]; rewrite A4, A5; cbn [written_via v_host v_port]; rewrite VH, VP; reflexivity|].
    split; [intros f; rewrite G7, O8; destruct f; reflexivity|]. split; [rewrite G8, O9 by discriminate; reflexivity|]. rewrite G11, O12. reflexivity. }
  split; [rewrite G10, O16; cbn [option_map]; rewrite (echo_sdp_ok rid ip od port PI PP); reflexivity|].
  assert (EL : forall tb, (v_host (tp_via tb), v_port (tp_via tb)) <> (lh, lp) -> elsewhere_than tb v). { intros tb NE. unfold elsewhere_than. rewrite VH, VP. destruct (list_eq_dec Byte.byte_eq_dec lh (v_host (tp_via tb))) as [->|D]; [right; congruence|left; exact D]. }
  intros tb w1 x1 NE NB RO NV RID S1. destruct (answer_text _ _ _ _ tb src stb r v' x1 w1 OW (proj2 SO) (EL _ NE) NB GT RV AN OK2 SV RO NV RID) as (s1 & a1 & p1 & T1 & T2 & T3 & T4 & y1 & z1 & T5 & (Y1 & Y2 & _) & _).
  exists s1, a1, p1, (msg_append (n_rid w1) p1). split; [exact T1|]. split; [exact T4|]. split; [exact T3|]. split; [exact T2|].
  intros tb2 w2 x2 sd NE2 NB2 RO2 NV2 RID2 S2 PA2. destruct (answer_text _ _ _ _ tb2 src stb r v' x2 w2 OW (proj2 SO) (EL _ NE2) NB2 GT RV AN OK2 SV RO2 NV2 RID2) as (s2 & a2 & p2 & R1 & R2 & R3 & R4 & y & z & R5 & (W1 & W2 & W3 & W4 & W5 & W6 & W7 & W8 & W9) & VZ & ZP & ZH & ZQ & ZB).
  exists s2, a2, p2, (msg_append (n_rid w2) p2). split; [exact R1|]. split; [exact R4|]. split; [exact R3|]. split; [exact R2|].
  exists (msg_append rid (echo_ack o y)), (msg_append rid (echo_bye (echo_ack o y))).
  pose proof (ack_follows o y) as FA. pose proof (bye_follows o y) as FB.
  assert (CS : 0 <= cseq y < 2 ^ 62) by (rewrite W4, O5; unfold GenerateCSeq; pose proof (Z.mod_pos_bound (dr_cseq d) 50000); lia). rewrite i64_id in FB by lia.
  set (ack := echo_ack o y) in *. set (bye := echo_bye ack) in *.
  assert (FF : addrs y From = [mkaddr (Some (mkuri (B "sip") [] [] lh lp [] [])) (B "Echo Test") [(B "tag", GenerateTag (dr_tag d))]]) by (rewrite W6, O8; reflexivity).
  assert (FT : addrs y To = [mkaddr (Some (mkuri (B "sip") [] [] rh rp [] [])) [] (rp_to x2 ++ [])]) by (rewrite W7, O8; reflexivity).
  assert (ID : forall mth n m q v2, follows o y mth n m -> gets rid m q -> vias q = [v2] -> callid q = callid r /\ addrs q From = addrs r From /\ addrs q To = addrs (reply_msg r x2) To).
  { intros mth n m q v2 (_ & _ & _ & K4 & _ & _ & _ & K8 & _) (_ & _ & _ & J4 & _ & _ & J7 & _) _. split; [congruence|]. rewrite !J7, !K8, FF, FT.
    destruct (reply_is_answer r x2 NV2) as (_ & _ & _ & _ & _ & _ & _ & _ & _ & _ & _ & MT). rewrite MT, !G7, !O8. split; reflexivity. }
  assert (OA : forall mth n m, follows o y mth n m -> token mth -> 0 <= n < 2 ^ 63 -> on_its_way_via via_plain rid m z b).
  { intros mth n m F T N. apply (follows_on_way rid o y mth n m _ z b F T N O6); [apply (sip_uri_ok (B "echo") rh rp PR)|rewrite W3, O4; exact TC|rewrite FF; discriminate|rewrite FT; discriminate| | |exact VZ|exact ZP|exact ZB].
    - rewrite FF. constructor; [|constructor]. apply (made_ok (B "sip") [] lh lp); [right; reflexivity|exact PL|exact echo_name|]. constructor; [|constructor]. split; [apply token_text; [reflexivity|discriminate]|right; left; apply (branch_token _ LT)].
    - rewrite FT. constructor; [|constructor]. apply (made_ok (B "sip") [] rh rp [] (rp_to x2 ++ [])); [right; reflexivity|exact PR|left; reflexivity|]. apply Forall_app. split; [apply RO2|constructor]. }
  split; [|split].
  - intros lhost2 lport2 src2 stamp2 SO2 TK2. destruct (request_arrives_via via_plain rid ack z b lhost2 lport2 src2 stamp2 plain_kind (OA _ _ _ FA ltac:(apply token_text; [reflexivity|discriminate]) ltac:(lia)) SO2 TK2) as (k & v2 & DK & GK & KV & AK & _).
    exists k. split; [exact DK|]. pose proof GK as (K1 & K2 & K3 & K4 & K5 & K6 & _). pose proof FA as (_ & F2 & F3 & _ & F5 & F6 & _). split.
    + unfold AckMatch, IsResponse. rewrite K3, K1, F2, K5, F5, K6, F3, KV, RV, W4, G5. pose proof AN as (_ & _ & _ & N4 & N5' & _). pose proof AK as (_ & _ & _ & M4 & M5 & _). cbn [written_via v_host v_port] in N4, N5', M4, M5.
      replace (cseq o =? cseq o) with true by (symmetry; apply Z.eqb_refl). cbn [negb andb]. change (0 <? 0) with false. change (bseq (B "ACK") (B "ACK")) with true. cbn [negb andb]. apply via_compare_spec. exists v2, [], v', []. split; [reflexivity|]. split; [reflexivity|]. split; congruence.
    + split; [exact (ID _ _ _ _ _ FA GK KV)|]. rewrite K2, F6, O6, RQ. reflexivity.
  - intros lhost2 lport2 src2 stamp2 SO2 TK2. destruct (request_arrives_via via_plain rid bye z b lhost2 lport2 src2 stamp2 plain_kind (OA _ _ _ FB ltac:(apply token_text; [reflexivity|discriminate]) ltac:(lia)) SO2 TK2) as (k & v2 & DK & GK & KV & AK & _).
    exists k. split; [exact DK|]. pose proof GK as (K1 & K2 & K3 & K4 & K5 & K6 & _). pose proof FB as (_ & F2 & F3 & _ & F5 & F6 & _). split; [congruence|]. split; [congruence|]. split; [exact (ID _ _ _ _ _ FB GK KV)|]. rewrite K2, F6, O6, RQ. reflexivity.
  - intros k h w KS K1 K2 L1 L2 IR KA K3 S3 P3. unfold echo_main. rewrite KS, K1, K2. unfold read_msg at 1 2. rewrite !firstn_all2 by assumption. rewrite T5, R5. unfold response_is at 1 2. unfold IsResponse at 1 2. rewrite Y1, Y2, S1, W1, W2, S2.
    change ((0 <? 100) && (100 =? 100) && bseq (Phrase 100) (B "Trying")) with true. change ((0 <? 200) && (200 =? 200) && bseq (Phrase 200) (B "OK")) with true. cbv iota.
    unfold echo_answered. rewrite W9, PA2. assert (AU : s_audio sd <> None) by (destruct RO2 as (_ & _ & _ & _ & _ & _ & _ & _ & A & _); apply A; exact PA2). destruct (s_audio sd) as [au|]; [|congruence]. fold ack. rewrite KS, KA, echo_heard_rtp by exact IR.
    unfold echo_hangup. fold ack. fold bye. rewrite KS, K3. unfold response_is, IsResponse. rewrite S3, P3. reflexivity.
Qed.
(** When it ends with success, it has got a 100, a 200 with a session description that has audio, its own audio, and another 200. *)
Theorem echo_raw_only : forall inv rid k out, echo_main inv rid k = (Passed, out) ->
  exists y1 y sd z p, read_msg (k_first k) = Some y1 /\ status y1 = 100 /\ phrase y1 = B "Trying" /\ read_msg (k_second k) = Some y /\ status y = 200 /\ phrase y = B "OK" /\ pay y = Some (PSdp sd) /\ s_audio sd <> None /\
    k_audio k = Some p /\ ((length p <= 2048)%nat -> exists h, length h = 12%nat /\ p = h ++ junk /\ f_version h = 2 /\ f_extension h = false) /\ read_msg (k_third k) = Some z /\ status z = 200 /\ phrase z = B "OK" /\
    out = [msg_append rid inv; msg_append rid (echo_ack inv y); msg_append rid (echo_bye (echo_ack inv y))].
Proof.
  intros inv rid k out. unfold echo_main. destruct (k_sent k _); [|discriminate]. destruct (read_msg (k_first k)) as [y1|] eqn:E1; [|discriminate]. destruct (response_is 100 _ y1) eqn:R1; [|discriminate].
  destruct (read_msg (k_second k)) as [y|] eqn:E2; [|discriminate]. destruct (response_is 200 _ y) eqn:R2; [|discriminate]. unfold echo_answered. destruct (pay y) as [[?|sd]|] eqn:EP; try discriminate. destruct (s_audio sd) as [au|] eqn:EA; [|discriminate].
  destruct (k_sent k (msg_append rid (echo_ack inv y))); [|discriminate]. destruct (k_audio k) as [p|] eqn:EK; [|discriminate]. destruct (echo_heard (k_memory k) p) eqn:EH; [|discriminate]. unfold echo_hangup. destruct (k_sent k _); [|discriminate].
  destruct (read_msg (k_third k)) as [z|] eqn:E3; [|discriminate]. destruct (response_is 200 _ z) eqn:R3; [|discriminate]. intros H. injection H as <-.
  assert (R : forall st ph m, response_is st ph m = true -> status m = st /\ phrase m = ph). { intros st ph m H. unfold response_is in H. rewrite !andb_true_iff, Z.eqb_eq, bseq_spec in H. tauto. }
  apply R in R1, R2, R3. exists y1, y, sd, z, p. destruct R1, R2, R3. repeat (split; [solve [assumption|reflexivity]|]). split; [congruence|]. split; [reflexivity|]. split; [intros L; apply (echo_heard_exact (k_memory k) p L); exact EH|]. auto.
Qed.
(** But what it sends as audio has no RTP header, so a peer that returns exactly what it gets never satisfies it; *)
Theorem echo_raw_echoed_refuted : forall inv rid k h, k_audio k = Some (echo_frame h) -> fst (echo_main inv rid k) <> Passed.
Proof.
  intros inv rid k h K. destruct (echo_main inv rid k) as [v out] eqn:E. cbn [fst]. intros ->. unfold echo_main in E. destruct (k_sent k _); [|discriminate]. destruct (read_msg (k_first k)) as [y1|]; [|discriminate]. destruct (response_is 100 _ y1); [|discriminate].
  destruct (read_msg (k_second k)) as [y|]; [|discriminate]. destruct (response_is 200 _ y); [|discriminate]. unfold echo_answered in E. destruct (pay y) as [[?|sd]|]; try discriminate. destruct (s_audio sd) as [au|]; [|discriminate].
  destruct (k_sent k (msg_append rid (echo_ack inv y))); [|discriminate]. rewrite K, echo_of_frame_refuted in E. discriminate.
Qed.
(** and an answer whose session description has no audio, which ParseMsg accepts, crashes it. *)
Theorem echo_raw_no_audio_refuted : forall inv rid k y1 y sd, (forall t, k_sent k t = true) -> read_msg (k_first k) = Some y1 -> status y1 = 100 -> phrase y1 = B "Trying" ->
  read_msg (k_second k) = Some y -> status y = 200 -> phrase y = B "OK" -> pay y = Some (PSdp sd) -> s_audio sd = None -> fst (echo_main inv rid k) = Crashed.
Proof.
  intros inv rid k y1 y sd KS E1 S1 P1 E2 S2 P2 EP EA. unfold echo_main. rewrite KS, E1, E2. unfold response_is, IsResponse. rewrite S1, P1, S2, P2. change ((0 <? 100) && (100 =? 100) && bseq (B "Trying") (B "Trying")) with true. change ((0 <? 200) && (200 =? 200) && bseq (B "OK") (B "OK")) with true. cbv iota.
  unfold echo_answered. rewrite EP, EA. reflexivity.
Qed.
Definition ex_video : bytes := unlines [B "v=0"; B "o=- 1 1 IN IP4 5.6.7.8"; B "s=x"; B "c=IN IP4 5.6.7.8"; B "t=0 0"; B "m=video 5004 RTP/AVP 31"; B "a=rtpmap:31 H261/90000"].
Definition ex_lines (st : bytes) (type body : bytes) : bytes :=
  st ++ CRLF ++ B "Content-Type: " ++ type ++ CRLF ++ B "Content-Length: " ++ itoa (Z.of_nat (length body)) ++ CRLF ++ CRLF ++ body.
Example no_audio_example : exists y1 y sd, read_msg (Some (B "SIP/2.0 100 Trying" ++ CRLF ++ CRLF)) = Some y1 /\ status y1 = 100 /\ phrase y1 = B "Trying" /\
  read_msg (Some (ex_lines (B "SIP/2.0 200 OK") (B "application/sdp") ex_video)) = Some y /\ status y = 200 /\ phrase y = B "OK" /\ pay y = Some (PSdp sd) /\ s_audio sd = None.
Proof. eexists _, _, _. split; [vm_compute; reflexivity|]. split; [reflexivity|]. split; [reflexivity|]. split; [vm_compute; reflexivity|]. repeat split. Qed.
(** Whether the answers belong to its call it does not look at, nor whether the ACK and the BYE it then sends do. *)
Definition ex_sound : bytes := unlines [B "v=0"; B "o=- 1 1 IN IP4 5.6.7.8"; B "s=x"; B "c=IN IP4 5.6.7.8"; B "t=0 0"; B "m=audio 5004 RTP/AVP 0"; B "a=rtpmap:0 PCMU/8000"].
Theorem echo_raw_foreign_refuted : exists k, forall inv rid, exists out, echo_main inv rid k = (Passed, out) /\
  exists y, read_msg (k_second k) = Some y /\ callid y = [] /\ out = [msg_append rid inv; msg_append rid (echo_ack inv y); msg_append rid (echo_bye (echo_ack inv y))].
Proof.
  exists (mksockets (fun _ => true) (Some (B "SIP/2.0 100 Trying" ++ CRLF ++ CRLF)) (Some (ex_lines (B "SIP/2.0 200 OK") (B "application/sdp") ex_sound)) (repeat x00 2048) (Some (header_write (mkheader false false 0 1 2 3) [] ++ junk)) (Some (B "SIP/2.0 200 OK" ++ CRLF ++ CRLF))).
  intros inv rid. unfold echo_main. cbn [k_sent k_first k_second].
  remember (read_msg (Some (B "SIP/2.0 100 Trying" ++ CRLF ++ CRLF))) as a eqn:E1. vm_compute in E1. subst a. cbv beta iota.
  remember (read_msg (Some (ex_lines (B "SIP/2.0 200 OK") (B "application/sdp") ex_sound))) as a eqn:E2. vm_compute in E2. destruct a as [y|]; [|discriminate]. injection E2 as E2.
  replace (response_is 100 _ _) with true by reflexivity. cbv iota. replace (response_is 200 (B "OK") y) with true by (subst y; reflexivity).
  unfold echo_answered. destruct (pay y) as [[?|sd]|] eqn:EP; [subst y; discriminate| |subst y; discriminate]. destruct (s_audio sd) as [au|] eqn:EA; [|subst y; cbn in EP; injection EP as <-; discriminate].
  cbn [k_sent k_audio k_memory]. rewrite echo_heard_rtp by (repeat split; cbn; lia). unfold echo_hangup. cbn [k_sent k_third].
  remember (read_msg (Some (B "SIP/2.0 200 OK" ++ CRLF ++ CRLF))) as a eqn:E3. vm_compute in E3. subst a. cbv iota. replace (response_is 200 _ _) with true by reflexivity.
  eexists. split; [reflexivity|]. exists y. split; [reflexivity|]. split; [subst y; reflexivity|reflexivity].
Qed.
(** A case that meets the hypotheses of [echo_raw_call] *)
Definition ex_trying : reply := mkreply 100 [] [] [] [] None (B "1") (B "5.6.7.8", 40001) None.
Definition ex_accept : reply := mkreply 200 [] [(B "tag", B "xyz")] [ex_bob] [] (Some (PSdp (fone_sdp (B "5.6.7.8") (GenerateOriginID 77) 5006))) (B "1") (B "5.6.7.8", 40001) None.
Example echo_raw_example : place (B "1.2.3.4") 40000 /\ place (B "5.6.7.8") 40001 /\ drawn (n_draws (ex_wnet "a")) /\ public_host (B "1.2.3.4") /\ port_ok 5004 /\ source_ok (B "1.2.3.4", 40000) /\
  (v_host (tp_via ex_peer), v_port (tp_via ex_peer)) <> (B "1.2.3.4", 40000) /\ net_ok (ex_wnet "b") /\ reply_ok ex_trying /\ reply_ok ex_accept /\ rp_rid ex_trying = n_rid (ex_wnet "b") /\ rp_rid ex_accept = n_rid (ex_wnet "b").
Proof.
  destruct ping_example as (H1 & H2 & H3 & H4 & H5 & H6 & _). destruct peer_call_example as (_ & _ & _ & _ & RO & RC & _). split; [exact H1|]. split; [exact H2|]. split; [exact H3|]. split; [split; [discriminate|]; repeat split|]. split; [unfold port_ok; lia|]. split; [exact H5|]. split; [exact H4|]. split; [exact H6|].
  assert (UB : addr_ok ex_bob) by (destruct RO as (_ & _ & _ & _ & A & _); rewrite RC in A; exact (Forall_inv A)). split; [|split; [|split; reflexivity]].
  - split; [cbn; lia|]. do 6 (split; [constructor|]). split; [discriminate|]. split; discriminate.
  - split; [cbn; lia|]. split; [constructor|]. split; [constructor|]. split; [constructor; [|constructor]; split; [apply token_text; [reflexivity|discriminate]|right; left; apply token_text; [reflexivity|discriminate]]|]. split; [constructor; [exact UB|constructor]|]. split; [constructor|]. split; [constructor|].
    split; [|split; [|discriminate]].
    + intros p E. injection E as <-. apply fone_sdp_ok; [split; [discriminate|]; repeat split|unfold port_ok; lia].
    + intros q E. injection E as <-. discriminate.
Qed.
