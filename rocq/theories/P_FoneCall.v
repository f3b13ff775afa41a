(** C83: the call of the repository's telephone goes through (C77 for the INVITE of fone/main.go). *)
From Verif Require Import Bytes BytesLemmas GoLib GoLibLemmas SdpModel SdpProofs SipText SipTypes SipAppend UtilModel P_Text P_Lists UriSpec UriModel P_Uri MsgModel MsgSpec MsgGrammar P_MsgText MsgWf MsgRound P_MsgRound
  DialogMsg P_DialogMsg DialogModel P_DialogEnd P_DialogRuns P_DialogTell AppModel P_App RtpCloseModel FoneModel P_Fone P_Written P_Call.
Local Open Scope Z_scope.

(** a name or IPv4 address in lower case *)
Definition public_host (h : bytes) : Prop := h <> [] /\ forallb viahost_class h = true /\ lower_case h /\ Z.of_nat (length h) < 256.
Lemma each_byte (P Q : byte -> bool) : forallb (fun n => let c := zb (Z.of_nat n) in negb (P c) || Q c) (List.seq 0 256) = true -> forall h, forallb P h = true -> forallb Q h = true.
Proof.
  intros T h H. apply forallb_forall. intros c I. rewrite forallb_forall in H. specialize (H c I). rewrite forallb_forall in T.
  pose proof (bz_range c) as R. specialize (T (Z.to_nat (bz c)) ltac:(apply in_seq; lia)). cbv zeta in T. rewrite Z2Nat.id in T by lia. rewrite zb_bz in T. rewrite H in T. exact T.
Qed.
Lemma dec_length f : forall n, (length (dec f n) <= f)%nat.
Proof. induction f as [|f IH]; intros n; cbn [dec length]; [lia|]. destruct (n <? 10); [cbn; lia|]. rewrite app_length. specialize (IH (n / 10)). cbn [length]. lia. Qed.
Lemma itoa_length n : 0 <= n < 2 ^ 32 -> (length (itoa n) <= 33)%nat.
Proof.
  intros R. unfold itoa. destruct (Z.ltb_spec n 0); [lia|]. unfold utoa. pose proof (dec_length (S (Z.to_nat (Z.log2 n))) n) as L.
  destruct (Z.eq_dec n 0) as [-> |N]; [cbn; lia|]. assert (Z.log2 n < 32) by (apply Z.log2_lt_pow2; lia). lia.
Qed.
Lemma not_empty (s : bytes) : s <> [] -> bseq s [] = false. Proof. destruct s; [congruence|reflexivity]. Qed.
Lemma public_word h : public_host h -> word h = true /\ host h = true /\ existsb (beq ":") h = false /\ forallb host_class h = true.
Proof.
  intros (N & V & _ & _). unfold host, word. rewrite (not_empty h N).
  assert (F : forall c, forallb (fun n => let x := zb (Z.of_nat n) in negb (viahost_class x) || negb (beq x c))%bool (List.seq 0 256) = true -> free_of c h = true) by (intros c T; exact (each_byte _ _ T h V)).
  rewrite !F by (vm_compute; reflexivity). split; [reflexivity|]. split; [reflexivity|]. split; [|refine (each_byte _ _ _ h V); vm_compute; reflexivity].
  clear F. pose proof (each_byte viahost_class (fun c => negb (beq ":" c)) ltac:(vm_compute; reflexivity) h V) as K. clear -K. induction h as [|c h IH]; [reflexivity|]. cbn [forallb existsb] in *. apply andb_prop in K. destruct K as [K1 K2]. rewrite (IH K2). destruct (beq ":" c); [discriminate|reflexivity].
Qed.
Lemma origin_word d : let id := GenerateOriginID d in id <> [] /\ word id = true /\ (length id <= 33)%nat.
Proof.
  destruct (cseq_and_origin d) as (_ & n & R & E & _ & D & N). cbv zeta. split; [exact N|]. split; [|rewrite E; apply itoa_length; lia].
  unfold word. rewrite (not_empty _ N).
  assert (F : forall c, forallb (fun n => let x := zb (Z.of_nat n) in negb (one_of (B "0123456789") x) || negb (beq x c))%bool (List.seq 0 256) = true -> free_of c (GenerateOriginID d) = true) by (intros c T; exact (each_byte _ _ T _ D)).
  rewrite !F by (vm_compute; reflexivity). reflexivity.
Qed.
Definition fone_sdp (h id : bytes) (port : Z) : sdp := mksdp (mkorigin (B "-") id id h) h (Some (mkmedia (B "RTP/AVP") port [ULAWCodec; DTMFCodec])) None
  (B "my people call themselves dark angels") (B "0 0") 0 false false [] [].
Lemma fone_sdp_ok rid h d port : public_host h -> port_ok port -> payload_ok rid (PSdp (fone_sdp h (GenerateOriginID d) port)).
Proof.
  intros H P. destruct (public_word h H) as (W & HO & NC & _). destruct (origin_word d) as (NI & WI & LI). destruct H as (N & _ & _ & L). split.
  - unfold Data, fone_sdp, sdp_append, origin_append, media_append. cbn [s_origin s_addr s_audio s_video s_session s_time s_ptime s_sendonly s_recvonly s_attrs s_other o_user o_id o_version o_addr m_port m_proto m_codecs].
    generalize dependent (GenerateOriginID d). intros id NI WI LI. destruct id as [|i id]; [congruence|]. destruct h as [|c h]; [congruence|]. pose proof (itoa_length port ltac:(unfold port_ok in P; lia)) as LP.
    assert (V : forall x : bool, (length (if x then B " IN IP6 " else B " IN IP4 ") = 8 /\ length (if x then B "c=IN IP6 " else B "c=IN IP4 ") = 9)%nat) by (intros []; split; reflexivity).
    repeat rewrite app_length. rewrite (proj1 (V _)), (proj2 (V _)). set (n1 := length (concat _)). set (n2 := length (concat (map codec_append _))). set (n3 := length (concat _)). vm_compute in n1, n2, n3. subst n1 n2 n3.
    set (k1 := length (B "my people call themselves dark angels")). vm_compute in k1. subst k1. cbn [length B] in *.
    repeat match goal with |- context [length (B ?x)] => let n := eval vm_compute in (length (B x)) in change (length (B x)) with n end. repeat match goal with |- context [length CRLF] => change (length CRLF) with 2%nat end.
    change (0 <? 0) with false. cbn [length]. lia.
  - unfold fone_sdp. split; [unfold wf_origin; cbn [s_origin o_user o_id o_version o_addr]; rewrite WI, HO; reflexivity|]. split; [exact HO|]. split; [reflexivity|]. split; [reflexivity|]. split; [left; discriminate|].
    split; [intros m [E|E]; [injection E as <-|discriminate]; unfold wf_media; cbn [m_port m_proto m_codecs]; destruct P as [P1 P2]; rewrite (proj2 (Z.leb_le _ _) P1), (proj2 (Z.ltb_lt _ _) P2); reflexivity|].
    split; [cbn; intros x y [<-|[<-|[]]] [<-|[<-|[]]] E; solve [reflexivity|discriminate E]|]. split; [cbn; lia|]. repeat split; reflexivity.
Qed.
(** The INVITE of the phone is one the dialog can carry. *)
Theorem fone_invite_given : forall cfg text u h user d port,
  parse_uri text = POk u -> Forall no_amp (u_header u) -> public_host h -> port_ok port ->
  invite_given cfg (fone_invite u h user (GenerateOriginID d) port).
Proof.
  intros cfg text u h user d port PU NA H P. pose proof (uri_parsed_is_wf _ _ PU) as W. assert (UO : uri_ok u) by (split; assumption).
  destruct (public_word h H) as (WH & HO & NC & HC). destruct (origin_word d) as (NI & WI & LI). pose proof H as (N & V & LC & _).
  assert (AO : forall us, addr_given (mkaddr (Some (mkuri [] us [] h 0 [] [])) [] [])).
  { intros us. split; [eexists; split; [reflexivity|]|split; [left; reflexivity|constructor]]. unfold uri_given, written_uri. cbn [u_scheme u_user u_pass u_host u_port u_param u_header or_else]. split; [|constructor].
    split; [eexists _, _; split; [reflexivity|]; repeat split|]. split; [reflexivity|]. cbn [u_host u_port u_param u_header]. rewrite NC. repeat split; try assumption; try lia; constructor. }
  split; [|split; [reflexivity|]; split; [reflexivity|]; split; [left; reflexivity|reflexivity]].
  split; [reflexivity|]. split; [split; [discriminate|reflexivity]|]. split; [exists u; split; [reflexivity|apply uri_ok_given; exact UO]|]. split; [cbn; lia|]. split; [cbn; lia|].
  split. { intros []; cbn; repeat constructor; try apply AO; cbn; eauto using uri_ok_given. }
  split; [right; eexists; split; [reflexivity|]; repeat split; try (left; reflexivity); try assumption; constructor|].
  split; [left; reflexivity|]. split; [cbn; lia|]. split; [left; reflexivity|]. split; [left; reflexivity|]. split; [cbn; lia|]. split; [cbn; lia|]. split.
  { intros f. destruct f; try exact header_val_nil. split; [repeat (apply vt_char; [reflexivity|]); constructor|]. intros c r E. vm_compute in E. injection E as <- _. reflexivity. }
  split; [constructor|]. intros p E. injection E as <-. split; [reflexivity|]. intros n i a k j _.
  replace (written_sdp _ _) with (fone_sdp h (GenerateOriginID d) port); [apply fone_sdp_ok; assumption|].
  unfold fone_sdp, written_sdp, written_origin, filled_sdp, with_origin, with_addr. cbn [s_origin s_addr s_audio s_video s_session s_time s_ptime s_sendonly s_recvonly s_attrs s_other o_user o_id o_version o_addr].
  assert (OE : forall x e : bytes, x <> [] -> or_else x e = x) by (intros [|? ?] ? X; [congruence|reflexivity]). rewrite !(OE _ _ NI), !(OE _ _ N). cbn [option_map written_media or_else m_proto m_port m_codecs]. reflexivity.
Qed.

(** * C83: the call of the phone goes through *)
(** With a network without faults, a callee who answers and a user who interrupts the program to hang up, there is an execution in which the phone
    sends its INVITE, is told of the progress, has the callee's media address when the call is answered, and ends with status 0 after the BYE was confirmed. *)
Theorem phone_call_goes_through : forall cfg text u h user d port ps a b c cs,
  parse_uri text = POk u -> Forall no_amp (u_header u) -> public_host h -> port_ok port -> (forall n, faultless (c_world cfg n)) ->
  Forall (fun p => reply_ok p /\ rp_status p < 200) ps -> reply_ok a -> rp_status a = 200 -> rp_contact a = c :: cs -> reply_ok b -> rp_status b = 200 -> rp_pay b = None ->
  exists k inv inv_text rs answer ack ack_text k' bye bye_text confirm l p,
    method inv = B "INVITE" /\ request inv = Some u /\ method ack = B "ACK" /\ acked inv (a_uri c) ack_text /\ method bye = B "BYE" /\ request bye = a_uri c /\
    Forall2 (answered k inv_text) ps rs /\ answered k inv_text a answer /\ answered k' bye_text b confirm /\
    first_address cfg (next_hop (fone_invite u h user (GenerateOriginID d) port)) true (so_remote k) /\ first_address cfg (way_back (rp_rr a) (rp_contact a)) false (so_remote k') /\
    psteps cfg (dialled cfg (fone_invite u h user (GenerateOriginID d) port)) l p /\ ph_at p = PExit 0 true /\
    dialled_events l = map EMsg rs ++ [EMsg answer; EHangup; EMsg confirm] /\
    r_out (loop (ph_dl p)) = OSend (so_remote k) inv inv_text :: concat (map told ps) ++ [OSend (so_remote k) ack ack_text] ++ media_of (rp_pay a) ++ [OState Answered; OSend (so_remote k') bye bye_text; OState Hangup] /\
    heard l = concat (map told ps) ++ media_of (rp_pay a) ++ [OState Answered; OState Hangup] /\
    ph_peer p = last_peer (concat (map told ps) ++ media_of (rp_pay a)) /\ ph_readers p = 1%nat.
Proof.
  intros cfg text u h user d port ps a b c cs PU NA H PT NF PS AO A200 AC BO B200 BP.
  pose proof (fone_invite_given cfg text u h user d port PU NA H PT) as IG. set (m := fone_invite u h user (GenerateOriginID d) port) in *.
  destruct (call_goes_through cfg m ps a b c cs NF IG PS AO A200 AC BO B200 BP) as (k & inv & it & rs & an & ack & at_ & k' & bye & bt & co & s & M1 & R1 & _ & _ & F & AN & AM & AK & BM & BR & _ & _ & _ & _ & AC2 & W1 & W2 & D).
  destruct (phone_follows cfg m _ _ D eq_refl) as (l & p & n & t & S & E & L & P & HE). cbn [r_out] in HE.
  assert (NT : forall q, notes (told q) = told q). { intros q. unfold told, progress, media_of, notes. rewrite filter_app. f_equal; [destruct (rp_pay q) as [[? ?|x]|]; try reflexivity; destruct (s_audio x); reflexivity|]. destruct (_ =? 100); [reflexivity|]. destruct (_ || _)%bool; reflexivity. }
  assert (NC : notes (concat (map told ps)) = concat (map told ps)). { clear -NT. induction ps as [|q ps IH]; [reflexivity|]. cbn [map concat]. unfold notes in *. rewrite filter_app, IH, NT. reflexivity. }
  assert (NM : notes (media_of (rp_pay a)) = media_of (rp_pay a)) by (unfold media_of; destruct (rp_pay a) as [[? ?|x]|]; try reflexivity; destruct (s_audio x); reflexivity).
  assert (HF : heard l = concat (map told ps) ++ media_of (rp_pay a) ++ [OState Answered; OState Hangup]).
  { rewrite HE. unfold notes in *. cbn [filter note]. rewrite !filter_app, NC, NM. reflexivity. }
  exists k, inv, it, rs, an, ack, at_, k', bye, bt, co, l, p.
  destruct (memory _ _ _ _ S) as (_ & RD & PE).
  assert (PX : ph_at p = PExit 0 true).
  { destruct (exit_status _ _ _ _ _ _ S P) as (_ & _ & _ & q & o & HQ & K). rewrite HF in HQ. rewrite app_assoc in HQ. change [OState Answered; OState Hangup] with ([OState Answered] ++ [OState Hangup]) in HQ. rewrite app_assoc in HQ. apply app_inj_tail in HQ. destruct HQ as [<- <-].
    destruct K as [(-> & -> & _)|[(_ & _ & _ & X)|(_ & _ & e & X)]]; [exact P|exfalso; apply X; apply in_or_app; right; left; reflexivity|discriminate]. }
  repeat (split; [assumption|]). split; [rewrite L; reflexivity|]. split; [exact HF|]. rewrite RD, PE, HF. clear -PS. split.
  - rewrite app_assoc. unfold last_peer. rewrite (fold_left_app _ (_ ++ _)). reflexivity.
  - rewrite app_assoc. unfold answers_heard. rewrite filter_app, app_length. cbn. enough (filter (fun o : out => match o with OState n => n =? Answered | _ => false end) (concat (map told ps) ++ media_of (rp_pay a)) = []) as -> by reflexivity.
    rewrite filter_app. replace (filter _ (media_of (rp_pay a))) with (@nil out) by (unfold media_of; destruct (rp_pay a) as [[? ?|x]|]; try reflexivity; destruct (s_audio x); reflexivity). rewrite app_nil_r.
    clear PS. induction ps as [|q ps IH]; [reflexivity|]. cbn [map concat]. rewrite filter_app, IH, app_nil_r. unfold told, progress. rewrite filter_app.
    replace (filter _ (media_of (rp_pay q))) with (@nil out) by (unfold media_of; destruct (rp_pay q) as [[? ?|x]|]; try reflexivity; destruct (s_audio x); reflexivity). destruct (_ =? 100); [reflexivity|]. destruct (_ || _)%bool; reflexivity.
Qed.

(** ** Example: a call to sip:+12125650666@10.0.0.1 from 10.0.0.9, RTP port 4000; the callee's media address is 10.0.0.1 port 4000 *)
Example phone_call_example : exists u, parse_uri (B "sip:+12125650666@10.0.0.1") = POk u /\ Forall no_amp (u_header u) /\ public_host (B "10.0.0.9") /\ port_ok 4000 /\
  (forall n, faultless (c_world (ex_cfg 1) n)) /\ Forall (fun p => reply_ok p /\ rp_status p < 200) [ex_reply 100 [] None; ex_reply 180 [] None; ex_reply 183 [] (Some (PSdp peer_sdp))] /\
  reply_ok (ex_reply 200 (at_ (B "10.0.0.2")) (Some (PSdp peer_sdp))) /\ reply_ok (ex_reply 200 [] None) /\
  last_peer (concat (map told [ex_reply 100 [] None; ex_reply 180 [] None; ex_reply 183 [] (Some (PSdp peer_sdp))]) ++ media_of (Some (PSdp peer_sdp))) = Some (B "10.0.0.1", 4000).
Proof.
  destruct call_example as (A1 & _ & A3 & A4 & A5). eexists. split; [vm_compute; reflexivity|]. split; [constructor|]. split; [repeat split; discriminate|]. split; [unfold port_ok; lia|]. repeat (split; [assumption|]). vm_compute. reflexivity.
Qed.
