(** C95, C96: the examples that use datagrams themselves, against a server made with the library. *)
From Verif Require Import RtpModel P_Rtp Bytes BytesLemmas GoLib GoLibLemmas SdpModel SdpProofs SipText SipTypes SipAppend UtilModel P_Text P_Lists UriSpec P_Uri MsgModel MsgSpec MsgGrammar P_MsgText MsgWf MsgRound P_MsgRound
  DialogMsg P_DialogMsg P_DialogWire TransportModel P_Transport P_TransportAt P_Received DialogModel P_DialogCount P_Written P_Call P_Talk P_PeerCall P_SdpExact ExamplesModel.
Local Open Scope Z_scope.

(** ** The server: it receives the request, answers with NewResponse and the additions in [x], and sends that *)
Lemma send_answer tp w m src stamp v v' : 0 < status m -> maxforwards m = 0 -> vias m = [v'] -> annotated false src stamp v v' -> 0 <= snd src < 65536 ->
  value_of (B "received") (v_param v) = None -> (value_of (B "rport") (v_param v) = None \/ value_of (B "rport") (v_param v) = Some []) -> via_CompareHostPort [tp_via tp] [v] = false -> net_ok w -> Forall param_ok (v_param v') ->
  exists s a p, TransportModel.Send tp (mkheld m false) w = Ok s /\ n_resolve w (host_port (fst src) (Portstr (snd src))) = Some a /\
    sd_wire s = [(a, set_vias [set_vparam p v'] m, msg_append (n_rid w) (set_vias [set_vparam p v'] m))] /\ sd_ok s = true /\ Forall param_ok p /\ value_of (B "branch") p = value_of (B "branch") (v_param v').
Proof.
  intros ST M0 HV AN SP R1 R2 NC (NR & NW & NS & _) PK. assert (IR : IsResponse m = true) by (apply Z.ltb_lt; exact ST).
  pose proof (back_to_source (tp_via tp) (tp_contact tp) m src stamp v v' ST HV AN SP R1 R2 NC) as RM.
  specialize (NR (host_port (fst src) (Portstr (snd src)))). destruct (n_resolve w (host_port (fst src) (Portstr (snd src)))) as [a|] eqn:ER; [|congruence].
  assert (TS : exists p, addTimestamp m (n_stamp w) = Ok (set_vias [set_vparam p v'] m) /\ Forall param_ok p /\ value_of (B "branch") p = value_of (B "branch") (v_param v')).
  { unfold addTimestamp. destruct (n_stamp w) as [t|] eqn:ET.
    - rewrite HV. exists ((B "usi", t) :: v_param v'). split; [reflexivity|]. split; [|apply value_skip; reflexivity]. constructor; [|exact PK]. split; [split; [discriminate|reflexivity]|]. right. left. apply NS. reflexivity.
    - exists (v_param v'). split; [|split; [exact PK|reflexivity]]. replace (set_vparam (v_param v') v') with v' by (destruct v'; reflexivity). rewrite <- HV. destruct m; reflexivity. }
  destruct TS as (p & ET & PP & PB). set (rsp := set_vias _ m) in *.
  exists (left_behind tp false rsp [(a, rsp, msg_append (n_rid w) rsp)] (n_write w a (msg_append (n_rid w) rsp))), a, p. split.
  { unfold TransportModel.Send. assert (EM : view tp (mkheld m false) = m) by reflexivity. rewrite EM. clear EM. cbn [h_shared]. cbv zeta. unfold PopulateMessage. rewrite IR. cbn [rbind negb andb orb]. rewrite RM. cbn [rbind]. destruct src as [ip port]. cbn [fst snd] in ER. rewrite joined, ER. rewrite M0. change (0 <? 0) with false. cbv iota. rewrite ET. reflexivity. }
  split; [reflexivity|]. split; [reflexivity|]. split; [apply NW|]. split; assumption.
Qed.
(** The answer as whoever reads the datagram with ParseMsg sees it. *)
Definition read_answer (req : msg) (x : reply) (y : msg) : Prop :=
  status y = rp_status x /\ phrase y = Phrase (rp_status x) /\ callid y = callid req /\ cseq y = cseq req /\ cseqmethod y = cseqmethod req /\ addrs y From = map written_addr (addrs req From) /\
  addrs y To = with_first (fun a => set_aparam (rp_to x ++ a_param a) a) (map written_addr (addrs req To)) /\ addrs y Contact = rp_contact x /\ pay y = rp_pay x.
Lemma reply_phrase m x : phrase (reply_msg m x) = Phrase (rp_status x). Proof. reflexivity. Qed.
Lemma vias_other l m : status (set_vias l m) = status m /\ callid (set_vias l m) = callid m /\ cseq (set_vias l m) = cseq m /\ cseqmethod (set_vias l m) = cseqmethod m /\ (forall f, addrs (set_vias l m) f = addrs m f) /\ pay (set_vias l m) = pay m /\ vias (set_vias l m) = l /\ phrase (set_vias l m) = phrase m.
Proof. repeat split. Qed.
Lemma answer_text rid req v b tp src stamp r v' x w : on_its_way rid req v b -> 0 <= snd src < 65536 -> elsewhere_than tp v -> net_ok w ->
  gets rid req r -> vias r = [v'] -> annotated false src stamp (written_via v) v' -> msg_ok rid (set_vias [v'] (written rid req)) -> survives (set_vias [v'] (written rid req)) r ->
  reply_ok x -> rp_via x = [] -> rp_rid x = n_rid w ->
  exists s a rsp, TransportModel.Send tp (mkheld (reply_msg r x) false) w = Ok s /\ n_resolve w (host_port (fst src) (Portstr (snd src))) = Some a /\
    sd_wire s = [(a, rsp, msg_append (n_rid w) rsp)] /\ sd_ok s = true /\
    exists y z, parse_msg (msg_append (n_rid w) rsp) = MOk y /\ read_answer req x y /\ vias y = [z] /\ via_plain z /\ v_host z = v_host v /\ v_port z = v_port v /\ value_of (B "branch") (v_param z) = Some b.
Proof.
  intros OW SP EL NW GT RV AN OK2 SV RO NV RID. pose proof (reply_msg_ok _ _ _ x OK2 SV RO) as RK. rewrite RID in RK. destruct (reply_is_answer r x NV) as (H1 & H2 & H3 & H4 & H5 & M0 & HV & MR & MF & MC & MRR & MT). pose proof (reply_phrase r x) as H6. set (m := reply_msg r x) in *. clearbody m.
  pose proof OW as (OK & S & CM & RT & V & VS & BV & _ & _). pose proof VS as (VG & VP & N5 & R1 & R2). pose proof AN as (A1 & A2 & A3 & A4 & A5 & _). pose proof (annotated_branch _ _ _ _ _ AN) as BV'. cbn [written_via v_param] in BV'. rewrite BV in BV'.
  pose proof RO as (RR & _). rewrite RV in HV.
  assert (PK : Forall param_ok (v_param v')) by (destruct OK2 as (_ & _ & _ & _ & _ & _ & RVS & _); pose proof (Forall_inv RVS) as (_ & _ & _ & _ & _ & _ & PK); exact PK).
  destruct (send_answer tp w (m) src stamp (written_via v) v') as (s & a & p & ES & ER & EW & EO & PP & PB); [lia|exact M0|exact HV|exact AN|exact SP|exact R1|exact R2|apply elsewhere_compare; exact EL|exact NW|exact PK|].
  exists s, a, (set_vias [set_vparam p v'] (m)). split; [exact ES|]. split; [exact ER|]. split; [exact EW|]. split; [exact EO|]. set (v2 := set_vparam p v'). set (rsp := set_vias [v2] _).
  pose proof (via_written v VG VP) as (V1 & V2 & V3 & V4 & V5 & V6 & _).
  assert (VO : via_ok v2). { unfold via_ok, v2. cbn [set_vparam v_protocol v_version v_transport v_host v_port v_param]. rewrite A1, A2, A3, A4, A5. auto 10. }
  assert (RK2 : msg_ok (n_rid w) rsp) by (apply msg_ok_set_vias; [exact RK|constructor; [exact VO|constructor]]).
  destruct (vias_other [v2] m) as (Q1 & Q2 & Q3 & Q4 & Q5 & Q6 & Q7 & Q8). fold rsp in Q1, Q2, Q3, Q4, Q5, Q6, Q7, Q8. rewrite H1 in Q1. rewrite H2 in Q2. rewrite H3 in Q3. rewrite H4 in Q4. rewrite H5 in Q6. rewrite H6 in Q8. clearbody rsp.
  destruct (msg_round_trip_partial _ _ RK2) as (y & P2 & SV2). destruct SV2 as (_ & RS & FV & FA & FC & FQ & FM & _ & _ & _ & _ & FP & _).
  assert (N52 : v_port v2 <> 5060) by (change (v_port v' <> 5060); rewrite A5; exact N5).
  destruct RS as [ST0 PH]; [unfold IsResponse; rewrite Q1; apply Z.ltb_lt; lia|]. rewrite Q7 in FV. cbn [map] in FV. rewrite dropped_id in FV by exact N52. unfold the_phrase in PH. rewrite Q1, Q8 in PH.
  destruct GT as (G1 & G2 & G3 & G4 & G5 & G6 & G7 & _).
  exists y, v2. split; [exact P2|]. split.
  { unfold read_answer. rewrite !FA, !Q5. split; [congruence|]. split; [rewrite PH; destruct (Phrase _); reflexivity|]. split; [congruence|]. split; [congruence|]. split; [congruence|]. split; [rewrite MF; apply G7|]. split; [rewrite <- (G7 To); exact MT|]. split; [exact MC|]. congruence. }
  split; [exact FV|]. split; [|split; [exact A4|]; split; [exact A5|]; unfold v2; cbn [set_vparam v_param]; congruence].
  split; [|split; [change (port_ok (v_port v')); rewrite A5; exact V6|exact N52]]. unfold via_given. cbn [set_vparam v_protocol v_version v_transport v_host v_port v_param v2]. rewrite A1, A2, A3, A4. split; [right; exact V1|]. split; [right; exact V2|]. split; [right; exact V3|]. split; [exact V4|]. split; [exact V5|exact PP].
Qed.

(** ** The OPTIONS message of the example *)
(** the address of a socket: a host as text, and a port *)
Definition place (h : bytes) (p : Z) : Prop := local_host h /\ port_ok p.
(** what is drawn for one message *)
Definition drawn (d : draws) : Prop := length (dr_branch d) = 6%nat /\ length (dr_tag d) = 6%nat /\ length (dr_callid d) = 15%nat.
Lemma token_text t : forallb token_class t = true -> t <> [] -> token t. Proof. split; assumption. Qed.
Lemma sip_uri_ok us h p : place h p -> uri_ok (mkuri (B "sip") us [] h p [] []).
Proof. intros ((N & _ & L & C) & P). split; [|constructor]. split; [eexists _, _; split; [reflexivity|]; repeat split|]. split; [reflexivity|]. split; [split; [exact N|]; split; [exact L|exact C]|]. split; [exact P|]. split; constructor. Qed.
Lemma pokemon_val : header_val pokemon.
Proof.
  split; [|intros c r E; injection E as <- _; split; reflexivity]. unfold pokemon. change (B "pok" ++ [xc3; xa9] ++ B "mon/1.o") with ("p"%byte :: "o"%byte :: "k"%byte :: [xc3; xa9] ++ B "mon/1.o"). do 3 (constructor; [reflexivity|]). apply vt_multi; [exists xc3, [xa9]; split; [reflexivity|]; split; [discriminate|]; split; reflexivity|].
  repeat (constructor; [reflexivity|]). constructor.
Qed.
Lemma made_ok sch us h p dn ps : sch = [] \/ sch = B "sip" -> place h p -> display_ok dn -> Forall param_ok ps -> addr_ok (written_addr (mkaddr (Some (mkuri sch us [] h p [] [])) dn ps)).
Proof. intros [-> | ->] PL D K; (split; [eexists; split; [reflexivity|]; apply (sip_uri_ok us h p PL)|]; split; [exact D|exact K]). Qed.
Lemma justine : place (B "justinetunney.com") 5060.
Proof. split; [split; [discriminate|]; repeat split|unfold port_ok; lia]. Qed.
(** what the message says *)
Lemma options_fields lh lp rh rp d cid : GenerateCallID (dr_callid d) = Ok cid -> exists o, options_msg lh lp rh rp d = Ok o /\
  status o = 0 /\ method o = B "OPTIONS" /\ cseqmethod o = B "OPTIONS" /\ callid o = cid /\ cseq o = GenerateCSeq (dr_cseq d) /\ request o = Some (mkuri (B "sip") (B "echo") [] rh rp [] []) /\
  vias o = [mkvia (B "UDP") (B "2.0") [] lh lp [(B "branch", GenerateBranch (dr_branch d))]] /\
  (forall f, addrs o f = match f with Contact => [mkaddr (Some (mkuri [] [] [] lh lp [] [])) [] []]
     | From => [mkaddr (Some (mkuri [] (B "gosip") [] (B "justinetunney.com") 5060 [] [])) [] [(B "tag", GenerateTag (dr_tag d))]]
     | To => [mkaddr (Some (mkuri [] [] [] rh rp [] [])) [] []] | _ => [] end) /\
  (forall f, strs o f = match f with Accept => B "application/sdp" | UserAgent => pokemon | _ => [] end) /\
  vmaj o = 0 /\ vmin o = 0 /\ maxforwards o = 0 /\ expires o = 0 /\ minexpires o = 0 /\ xheader o = [] /\ pay o = None.
Proof.
  intros E. eexists. split; [unfold options_msg; rewrite E; reflexivity|]. repeat (split; [reflexivity|]). split; [intros []; reflexivity|]. split; [intros []; reflexivity|]. repeat split.
Qed.
Lemma options_on_way lh lp rh rp d rid : place lh lp -> lp <> 5060 -> place rh rp -> drawn d ->
  exists o v b, options_msg lh lp rh rp d = Ok o /\ on_its_way rid o v b /\ v_host v = lh /\ v_port v = lp.
Proof.
  intros PL N5 PR (LB & LT & LC). destruct (branch_token _ LB) as [TB _]. destruct (branch_token _ LT) as [_ TT]. destruct (callid_drawn _ LC) as (cid & EC & TC).
  destruct (options_fields lh lp rh rp d cid EC) as (o & E & O1 & O2 & O3 & O4 & O5 & O6 & O7 & O8 & O9 & O10 & O11 & O12 & O13 & O14 & O15 & O16).
  set (v := mkvia (B "UDP") (B "2.0") [] lh lp [(B "branch", GenerateBranch (dr_branch d))]) in *. exists o, v, (GenerateBranch (dr_branch d)). split; [exact E|]. split; [|split; reflexivity].
  assert (TO : token (B "OPTIONS")) by (apply token_text; [reflexivity|discriminate]).
  assert (PK : Forall param_ok (v_param v)) by (constructor; [split; [apply token_text; [reflexivity|discriminate]|right; left; exact TB]|constructor]).
  assert (VG : via_given v). { pose proof PL as ((N & C & _) & _). split; [right; apply token_text; [reflexivity|discriminate]|]. split; [right; apply token_text; [reflexivity|discriminate]|]. split; [left; reflexivity|]. split; [exact N|]. split; [exact C|exact PK]. }
  split; [|split; [exact O1|]; split; [congruence|]; split; [rewrite O8; reflexivity|]; split; [exact O7|]; split; [|split; [reflexivity|]; split; [rewrite O2; exact TO|congruence]]].
  - assert (AD : forall f, Forall addr_ok (map written_addr (addrs o f))).
    { intros f. rewrite O8. destruct f; cbn [map]; try apply Forall_nil; (apply Forall_cons; [|apply Forall_nil]).
      - apply made_ok; [left; reflexivity|exact PL|left; reflexivity|constructor].
      - apply made_ok; [left; reflexivity|exact justine|left; reflexivity|]. constructor; [split; [apply token_text; [reflexivity|discriminate]|right; left; exact TT]|constructor].
      - apply made_ok; [left; reflexivity|exact PR|left; reflexivity|constructor]. }
    unfold msg_ok. cbn [written status method request addrs vias callid cseq cseqmethod maxforwards expires minexpires strs xheader pay vmaj vmin].
    split; [left; cbn [written status method request]; split; [exact O1|]; split; [rewrite O2; exact TO|]; rewrite O6; eexists; split; [reflexivity|]; apply (sip_uri_ok (B "echo") rh rp PR)|].
    rewrite O10, O11, O12, O13, O14, O15, O16, O4, O3, O5. split; [lia|]. split; [lia|]. split; [rewrite O8; discriminate|]. split; [rewrite O8; discriminate|]. split; [exact AD|].
    split; [rewrite O7; constructor; [apply (via_written v VG (proj2 PL))|constructor]|]. split; [exact TC|]. split; [unfold GenerateCSeq; pose proof (Z.mod_pos_bound (dr_cseq d) 50000); lia|]. split; [exact TO|]. split; [lia|]. split; [lia|]. split; [lia|].
    split; [|split; [constructor|discriminate]]. intros f. rewrite O9. destruct f; try exact header_val_nil; [|exact pokemon_val].
    split; [|intros c r H; injection H as <- _; reflexivity]. repeat (constructor; [reflexivity|]). constructor.
  - split; [exact VG|]. split; [exact (proj2 PL)|]. split; [exact N5|]. split; [reflexivity|left; reflexivity].
Qed.

(** * C95 *)
(** What the server is to see of the OPTIONS message. Addresses without a scheme are SIP addresses. *)
Definition options_seen (lh : bytes) (lp : Z) (rh : bytes) (rp : Z) (d : draws) (r : msg) : Prop :=
  status r = 0 /\ method r = B "OPTIONS" /\ cseqmethod r = B "OPTIONS" /\ GenerateCallID (dr_callid d) = Ok (callid r) /\ cseq r = GenerateCSeq (dr_cseq d) /\ request r = Some (mkuri (B "sip") (B "echo") [] rh rp [] []) /\
  map (fun v => (v_host v, v_port v)) (vias r) = [(lh, lp)] /\
  (forall f, addrs r f = match f with Contact => [mkaddr (Some (mkuri (B "sip") [] [] lh lp [] [])) [] []]
     | From => [mkaddr (Some (mkuri (B "sip") (B "gosip") [] (B "justinetunney.com") 5060 [] [])) [] [(B "tag", GenerateTag (dr_tag d))]]
     | To => [mkaddr (Some (mkuri (B "sip") [] [] rh rp [] [])) [] []] | _ => [] end) /\
  strs r UserAgent = pokemon /\ strs r Accept = B "application/sdp" /\ maxforwards r = 70 /\ pay r = None.
(** The OPTIONS example sends its message; a server at another address, made with the library, receives it and answers 200 with a tag, and the example is content. *)
Theorem options_ping : forall lh lp rh rp d rid, place lh lp -> lp <> 5060 -> place rh rp -> drawn d ->
  exists o, options_msg lh lp rh rp d = Ok o /\
  forall tb wb src stb x, (v_host (tp_via tb), v_port (tp_via tb)) <> (lh, lp) -> source_ok src -> (forall t, stb = Some t -> token t) ->
    net_ok wb -> reply_ok x -> rp_via x = [] -> rp_rid x = n_rid wb -> rp_status x = 200 -> value_of (B "tag") (rp_to x) <> None ->
  forall lhost lport, exists r, delivers lhost lport (msg_append rid o) src stb r /\ options_seen lh lp rh rp d r /\
  exists s a rsp text, TransportModel.Send tb (mkheld (reply_msg r x) false) wb = Ok s /\ sd_ok s = true /\ sd_wire s = [(a, rsp, text)] /\ n_resolve wb (host_port (fst src) (Portstr (snd src))) = Some a /\
  forall sent, sent (msg_append rid o) = true -> (length text <= 2048)%nat -> options_run o rid sent (Some text) = Passed.
Proof.
  intros lh lp rh rp d rid PL N5 PR DR. destruct (options_on_way lh lp rh rp d rid PL N5 PR DR) as (o & v & b & E & OW & VH & VP). exists o. split; [exact E|]. intros tb wb src stb x NE SO TK NB RO NV RID S2 TG lhost lport.
  destruct (request_arrives _ _ _ _ lhost lport src stb OW SO TK) as (r & v' & DL & GT & RV & AN & OK2 & SV). exists r. split; [exact DL|]. pose proof GT as (G1 & G2 & _ & _ & _ & _ & _ & G8 & _).
  destruct DR as (LB & LT & LC). destruct (callid_drawn _ LC) as (cid & EC & TC). destruct (options_fields lh lp rh rp d cid EC) as (o' & E' & O1 & O2 & O3 & O4 & O5 & O6 & O7 & O8 & O9 & _ & _ & O12 & _ & _ & _ & O16). assert (o' = o) by congruence. subst o'.
  pose proof GT as (_ & _ & G3 & G4 & G5 & G6 & G7 & _ & _ & G10 & G11). split.
  { unfold options_seen. split; [exact G3|]. split; [congruence|]. split; [congruence|]. split; [congruence|]. split; [congruence|]. split; [rewrite G2, O6; reflexivity|].
    split; [rewrite RV; pose proof AN as (_ & _ & _ & A4 & A5 & _); cbn [map]; rewrite A4, A5; cbn [written_via v_host v_port]; rewrite VH, VP; reflexivity|].
    split; [intros f; rewrite G7, O8; destruct f; reflexivity|]. split; [rewrite G8, O9 by discriminate; reflexivity|]. split; [rewrite G8, O9 by discriminate; reflexivity|]. split; [rewrite G11, O12; reflexivity|]. rewrite G10, O16. reflexivity. }
  assert (EL : elsewhere_than tb v). { unfold elsewhere_than. rewrite VH, VP. destruct (list_eq_dec Byte.byte_eq_dec lh (v_host (tp_via tb))) as [->|D]; [right; congruence|left; exact D]. }
  destruct (answer_text _ _ _ _ tb src stb r v' x wb OW (proj2 SO) EL NB GT RV AN OK2 SV RO NV RID) as (s & a & rsp & T1 & T2 & T3 & T4 & y & z & T5 & (Y1 & Y2 & Y3 & Y4 & Y5 & Y6 & Y7 & _) & _).
  exists s, a, rsp, (msg_append (n_rid wb) rsp). split; [exact T1|]. split; [exact T4|]. split; [exact T3|]. split; [exact T2|]. intros sent SE LE. unfold options_run. rewrite SE. unfold read_msg. rewrite firstn_all2 by exact LE. rewrite T5.
  unfold options_check. rewrite Y7, O8. cbn [map with_first]. unfold IsResponse. rewrite Y1, Y2, S2, Y3, Y4, Y5, Y6, written_addr_text, !bseq_refl, Z.eqb_refl.
  replace (bseq (Phrase 200) (B "OK")) with true by reflexivity. change (0 <? 200) with true. change (200 =? 200) with true. cbn [andb].
  cbn [set_aparam a_param written_addr a_uri a_display option_map]. rewrite app_nil_r, value_get in *. destruct (param_get (rp_to x) (B "tag")); [|congruence]. cbn [andb].
  rewrite Z.eqb_refl. reflexivity.
Qed.
(** It is content only with a 200 of its own call, to which the server has put a tag. *)
Theorem options_only : forall o rid sent answer, options_run o rid sent answer = Passed ->
  exists t y a l, answer = Some t /\ parse_msg (firstn 2048 t) = MOk y /\ status y = 200 /\ phrase y = B "OK" /\ callid y = callid o /\ cseq y = cseq o /\ cseqmethod y = cseqmethod o /\
    addr_append (addrs y From) = addr_append (addrs o From) /\ addrs y To = a :: l /\ value_of (B "tag") (a_param a) <> None /\ addr_append (set_aparam [] a :: l) = addr_append (addrs o To).
Proof.
  intros o rid sent answer. unfold options_run. destruct (sent _); [|discriminate]. unfold read_msg. destruct answer as [t|]; [|discriminate]. destruct (parse_msg (firstn 2048 t)) as [y| | |] eqn:EP; try discriminate.
  unfold options_check. destruct (addrs y To) as [|a l] eqn:ET; [discriminate|]. intros H. destruct (_ && _) eqn:C in H; [|discriminate]. rewrite !andb_true_iff, !bseq_spec, !Z.eqb_eq in C. destruct C as (((((((_ & C1) & C2) & C3) & (C4 & C5)) & C6) & C7) & C8).
  exists t, y, a, l. repeat (split; [congruence|]). split; [|congruence]. rewrite value_get. destruct (param_get (a_param a) (B "tag")) as [[]|]; [discriminate|discriminate C7].
Qed.
(** But an answer without To, which ParseMsg accepts, crashes it ... *)
Theorem options_no_to_refuted : forall o rid sent t y, sent (msg_append rid o) = true -> parse_msg (firstn 2048 t) = MOk y -> addrs y To = [] -> options_run o rid sent (Some t) = Crashed.
Proof. intros o rid sent t y S P N. unfold options_run, read_msg, options_check. rewrite S, P, N. reflexivity. Qed.
Example options_no_to_example : exists y, parse_msg (firstn 2048 (B "SIP/2.0 200 OK" ++ CRLF ++ CRLF)) = MOk y /\ addrs y To = [].
Proof. eexists. split; [vm_compute; reflexivity|reflexivity]. Qed.
(** ... and the protocol it names in its Via is not SIP. *)
Theorem options_protocol_refuted : forall lh lp rh rp d rid o, place lh lp -> lp <> 5060 -> place rh rp -> drawn d -> options_msg lh lp rh rp d = Ok o ->
  exists r, parse_msg (msg_append rid o) = MOk r /\ map v_protocol (vias r) = [B "UDP"].
Proof.
  intros lh lp rh rp d rid o PL N5 PR DR E. destruct (options_on_way lh lp rh rp d rid PL N5 PR DR) as (o' & v & b & E' & (OK & _) & _). assert (o' = o) by congruence. subst o'. destruct DR as (_ & _ & LC). destruct (callid_drawn _ LC) as (cid & EC & _).
  destruct (options_fields lh lp rh rp d cid EC) as (o' & E2 & _ & _ & _ & _ & _ & _ & O7 & _). assert (o' = o) by congruence. subst o'.
  destruct (msg_round_trip_partial _ _ OK) as (r & P & (_ & _ & FV & _)). rewrite written_text in P. exists r. split; [exact P|]. rewrite FV. cbn [written vias]. rewrite O7. cbn [map]. rewrite dropped_id by exact N5. reflexivity.
Qed.

(** ** The packet of rawsip *)
(** an address as the socket writes it: host:port *)
Definition at_port (h : bytes) (p : Z) : bytes := h ++ B ":" ++ itoa p.
Lemma site_text inf us h p : place h p -> userinfo_text inf us [] -> uri_text (B "sip:" ++ inf ++ at_port h p) (mkuri (B "sip") us [] h p [] []).
Proof.
  intros ((N & C & L & H) & P) I. exists (B "sip"), inf, h, (B ":" ++ itoa p), [], []. cbn [u_scheme u_user u_pass u_host u_port u_param u_header rev]. rewrite !app_nil_r. split; [reflexivity|].
  split; [eexists _, _; split; [reflexivity|]; repeat split|]. split; [exact I|]. split.
  - exists h. split; [exact N|]. split; [symmetry; exact L|]. left. split; [reflexivity|]. revert C. apply forallb_byte_impl. vm_compute. reflexivity.
  - split; [right; exists (itoa p), p; split; [reflexivity|]; split; [apply itoa_number; apply P|]; symmetry; apply Z.mod_small; exact P|]. split; [exists []; split; [constructor|reflexivity]|left; auto].
Qed.
Lemma site_addr f n h p ps d : find_header (map lower n) known_headers = Some (HAddr f) -> place h p -> Forall param_ok ps ->
  header_lines (n ++ B ": " ++ (B "<sip:" ++ at_port h p ++ B ">" ++ param_append ps) ++ CRLF) d (with_msg (fun m => add_addr f m (mkaddr (Some (mkuri (B "sip") [] [] h p [] [])) [] ps)) d).
Proof.
  intros K PL PP. apply (known_line n (HAddr f)); [exact K|]. split; [apply sws_sp|]. set (a := mkaddr _ [] ps). exists [a]. split; [|reflexivity]. apply (al_one _ _ false).
  exists false, (B "<sip:" ++ at_port h p ++ B ">"), (param_append ps), (mkuri (B "sip") [] [] h p [] []). split; [rewrite <- !app_assoc; reflexivity|]. split; [reflexivity|]. split.
  - exists [], (B "sip:" ++ at_port h p), []. split; [rewrite app_nil_r, <- !app_assoc; reflexivity|]. split; [left; auto|]. split; [apply (site_text [] [] h p PL); left; auto|left; reflexivity].
  - pose proof (params_chain _ PP) as C. change (a_param a) with ps. inversion C as [E1 E2|t x ts xs (e & y & -> & S & Q) C2 E1 E2]; [left; auto|right]. exists e, y, x, ts, xs. rewrite <- app_assoc. auto 8.
Qed.
(** What the packet says. The Request-URI is the caller's own address. *)
Definition raw_fields (lh : bytes) (lp : Z) (rh : bytes) (rp : Z) (d : draws) (cid : bytes) (q : msg) : Prop :=
  status q = 0 /\ method q = B "OPTIONS" /\ cseqmethod q = B "OPTIONS" /\ callid q = cid /\ cseq q = GenerateCSeq (dr_cseq d) /\ request q = Some (mkuri (B "sip") (B "echo") [] lh lp [] []) /\
  vias q = [mkvia (B "SIP") (B "2.0") (B "UDP") lh lp []] /\
  (forall f, addrs q f = match f with Contact => [mkaddr (Some (mkuri (B "sip") [] [] lh lp [] [])) [] []]
     | From => [mkaddr (Some (mkuri (B "sip") [] [] lh lp [] [])) [] [(B "tag", GenerateTag (dr_tag d))]]
     | To => [mkaddr (Some (mkuri (B "sip") [] [] rh rp [] [])) [] []] | _ => [] end) /\
  (forall f, strs q f = match f with Accept => B "application/sdp" | UserAgent => pokemon | _ => [] end) /\
  vmaj q = 2 /\ vmin q = 0 /\ maxforwards q = 70 /\ expires q = 0 /\ minexpires q = 0 /\ xheader q = [] /\ pay q = None.
Lemma cseq_line n mth d : 0 <= n < 2 ^ 62 -> token mth -> cseq (d_msg d) = 0 -> header_lines (B "CSeq" ++ B ": " ++ (itoa n ++ B " " ++ mth) ++ CRLF) d (with_msg (fun m => set_cseqmethod mth (set_cseq n m)) d).
Proof.
  intros N T Z0. apply (known_line (B "CSeq") HCSeq); [reflexivity|]. split; [apply sws_sp|]. exists (itoa n), (B " "), n, mth. split; [reflexivity|]. split; [apply itoa_number; apply N|]. split; [split; [apply sws_sp|discriminate]|]. split; [exact T|].
  unfold with_msg. rewrite Z0, Z.mul_0_l, Z.add_0_l, i64_id by lia. reflexivity.
Qed.
Definition raw_first (lh : bytes) (lp : Z) (tag cid : bytes) (l : list param -> addr) (r : addr) (d : draft) : draft :=
  with_msg (set_callid cid) (with_msg (fun m => add_addr From m (l [(B "tag", tag)])) (with_msg (fun m => add_addr To m r) (with_msg (set_maxforwards 70) (with_msg (fun m => set_vias (vias m ++ [mkvia (B "SIP") (B "2.0") (B "UDP") lh lp []]) m) d)))).
Definition raw_draft (lh : bytes) (lp : Z) (tag cid : bytes) (n : Z) (l : list param -> addr) (r : addr) (d : draft) : draft :=
  (fun e => mkdraft (d_msg e) 0 (d_type e)) (with_msg (set_str Accept (B "application/sdp")) (with_msg (set_str UserAgent pokemon) (with_msg (fun m => add_addr Contact m (l []))
    (with_msg (fun m => set_cseqmethod (B "OPTIONS") (set_cseq n m)) (raw_first lh lp tag cid l r d))))).
Lemma raw_lines l r la ra t cid n d lh lp rh rp tag : la = at_port lh lp -> ra = at_port rh rp -> place lh lp -> place rh rp -> param_append [(B "tag", tag)] = t -> Forall param_ok [(B "tag", tag)] -> callid_text cid -> 0 <= n < 2 ^ 62 -> cseq (d_msg d) = 0 ->
  l = mkaddr (Some (mkuri (B "sip") [] [] lh lp [] [])) [] -> r = mkaddr (Some (mkuri (B "sip") [] [] rh rp [] [])) [] [] ->
  header_lines (B "Via: SIP/2.0/UDP " ++ la ++ CRLF ++ B "Max-Forwards: 70" ++ CRLF ++ B "To: <sip:" ++ ra ++ B ">" ++ CRLF ++ B "From: <sip:" ++ la ++ B ">" ++ t ++ CRLF ++ B "Call-ID: " ++ cid ++ CRLF ++
      B "CSeq: " ++ itoa n ++ B " OPTIONS" ++ CRLF ++ B "Contact: <sip:" ++ la ++ B ">" ++ CRLF ++ B "User-Agent: " ++ pokemon ++ CRLF ++ B "Accept: application/sdp" ++ CRLF ++ B "Content-Length: 0" ++ CRLF) d
    (raw_draft lh lp tag cid n l r d).
Proof.
  intros -> -> PL PR <- PT TC N C0 -> ->.
  pose proof (via_line_text lh (itoa lp) lp (proj1 (proj1 PL)) (proj1 (proj2 (proj1 PL))) (itoa_number _ (proj1 (proj2 PL))) d) as H1. rewrite Z.mod_small in H1 by exact (proj2 PL). apply hl_one in H1.
  eassert (H2 : forall d, header_lines (B "Max-Forwards" ++ B ": " ++ B "70" ++ CRLF) d (with_msg (set_maxforwards 70) d)).
  { intros e. apply (known_line (B "Max-Forwards") HMaxForwards); [reflexivity|]. split; [apply sws_sp|]. exists 70. split; reflexivity. }
  pose proof (fun d => site_addr To (B "To") rh rp [] d eq_refl PR (Forall_nil _)) as H3.
  pose proof (fun d => site_addr From (B "From") lh lp _ d eq_refl PL PT) as H4.
  assert (H5 : forall d, header_lines (B "Call-ID" ++ B ": " ++ cid ++ CRLF) d (with_msg (set_callid cid) d)).
  { intros e. apply (known_line (B "Call-ID") HCallID); [reflexivity|]. split; [apply sws_sp|]. auto. }
  assert (H6 : forall d, cseq (d_msg d) = 0 -> header_lines (B "CSeq" ++ B ": " ++ (itoa n ++ B " " ++ B "OPTIONS") ++ CRLF) d (with_msg (fun m => set_cseqmethod (B "OPTIONS") (set_cseq n m)) d)).
  { intros e Z0. apply cseq_line; [exact N|apply token_text; [reflexivity|discriminate]|exact Z0]. }
  pose proof (fun d => site_addr Contact (B "Contact") lh lp [] d eq_refl PL (Forall_nil _)) as H7.
  assert (ST : forall n f v d, find_header (map lower n) known_headers = Some (HStr f) -> header_val v -> header_lines (n ++ B ": " ++ v ++ CRLF) d (with_msg (set_str f v) d)).
  { intros nm f v e K [V S]. apply (known_line nm (HStr f)); [exact K|]. split; [apply val_lead; [apply sws_sp|exact S]|]. auto. }
  pose proof (fun d => ST (B "User-Agent") UserAgent pokemon d eq_refl pokemon_val) as H8.
  assert (AV : header_val (B "application/sdp")) by (split; [repeat (constructor; [reflexivity|]); constructor|intros c r H; injection H as <- _; split; reflexivity]).
  pose proof (fun d => ST (B "Accept") Accept _ d eq_refl AV) as H9. clear ST AV.
  assert (H10 : forall d, header_lines (B "Content-Length" ++ B ": " ++ B "0" ++ CRLF) d (mkdraft (d_msg d) 0 (d_type d))).
  { intros e. apply (known_line (B "Content-Length") HClen); [reflexivity|]. split; [apply sws_sp|]. exists 0. split; reflexivity. }
  specialize (H6 (raw_first lh lp tag cid (mkaddr (Some (mkuri (B "sip") [] [] lh lp [] [])) []) (mkaddr (Some (mkuri (B "sip") [] [] rh rp [] [])) [] []) d) C0). unfold raw_first in H6.
  pose proof (hl_app _ _ _ _ _ H1 (hl_app _ _ _ _ _ (H2 _) (hl_app _ _ _ _ _ (H3 _) (hl_app _ _ _ _ _ (H4 _) (hl_app _ _ _ _ _ (H5 _) (hl_app _ _ _ _ _ H6 (hl_app _ _ _ _ _ (H7 _) (hl_app _ _ _ _ _ (H8 _) (hl_app _ _ _ _ _ (H9 _) (H10 _)))))))))) as H.
  clear - H. unfold raw_draft, raw_first, at_port in *.
  match type of H with header_lines ?x _ _ => match goal with |- header_lines ?y _ _ => replace y with x; [exact H|] end end. clear.
  generalize (itoa lp) (itoa rp) (itoa n) (param_append [(B "tag", tag)]) pokemon. intros. rewrite <- !app_assoc. reflexivity.
Qed.
Lemma raw_text la ra d cid : GenerateCallID (dr_callid d) = Ok cid -> raw_packet la ra d =
  Ok ((B "OPTIONS " ++ (B "sip:" ++ B "echo@" ++ la) ++ B " " ++ B "SIP/2.0") ++ CRLF ++ (B "Via: SIP/2.0/UDP " ++ la ++ CRLF ++ B "Max-Forwards: 70" ++ CRLF ++ B "To: <sip:" ++ ra ++ B ">" ++ CRLF ++ B "From: <sip:" ++ la ++ B ">" ++ (B ";tag=" ++ GenerateTag (dr_tag d)) ++ CRLF ++ B "Call-ID: " ++ cid ++ CRLF ++
      B "CSeq: " ++ itoa (GenerateCSeq (dr_cseq d)) ++ B " OPTIONS" ++ CRLF ++ B "Contact: <sip:" ++ la ++ B ">" ++ CRLF ++ B "User-Agent: " ++ pokemon ++ CRLF ++ B "Accept: application/sdp" ++ CRLF ++ B "Content-Length: 0" ++ CRLF) ++ CRLF ++ []).
Proof.
  intros E. unfold raw_packet. rewrite E. cbn [rbind]. f_equal. clear E. generalize (itoa (GenerateCSeq (dr_cseq d))) (GenerateTag (dr_tag d)) pokemon. intros. rewrite <- !app_assoc. reflexivity.
Qed.
Lemma raw_start la lh lp : la = at_port lh lp -> place lh lp -> start_text (B "OPTIONS " ++ (B "sip:" ++ B "echo@" ++ la) ++ B " " ++ B "SIP/2.0") (set_request (Some (mkuri (B "sip") (B "echo") [] lh lp [] [])) (set_method (B "OPTIONS") (set_vmin 0 (set_vmaj 2 msg0)))).
Proof.
  intros -> PL. left. exists (mkuri (B "sip") (B "echo") [] lh lp [] []), (B "sip:" ++ B "echo@" ++ at_port lh lp), (B "SIP/2.0"), 2, 0. split; [reflexivity|]. split; [apply token_text; [reflexivity|discriminate]|]. split; [|split; [exists (B "2"), (B "0"), 2, 0; repeat split|reflexivity]].
  apply site_text; [exact PL|]. right. exists (B "echo"), []. split; [reflexivity|]. split; [discriminate|]. split; [split; reflexivity|left; auto].
Qed.
Lemma raw_draft_fields lh lp tag cid n l r m : let q := d_msg (raw_draft lh lp tag cid n l r (mkdraft m 0 [])) in
  status q = status m /\ method q = method m /\ cseqmethod q = B "OPTIONS" /\ callid q = cid /\ cseq q = n /\ request q = request m /\ vias q = vias m ++ [mkvia (B "SIP") (B "2.0") (B "UDP") lh lp []] /\
  (forall f, addrs q f = match f with Contact => addrs m Contact ++ [l []] | From => addrs m From ++ [l [(B "tag", tag)]] | To => addrs m To ++ [r] | _ => addrs m f end) /\
  (forall f, strs q f = match f with Accept => B "application/sdp" | UserAgent => pokemon | _ => strs m f end) /\
  vmaj q = vmaj m /\ vmin q = vmin m /\ maxforwards q = 70 /\ expires q = expires m /\ minexpires q = minexpires m /\ xheader q = xheader m /\ pay q = pay m.
Proof. cbv zeta. repeat (split; [reflexivity|]). split; [intros []; reflexivity|]. split; [intros []; reflexivity|]. repeat split. Qed.
Lemma tag_text t : token t -> param_append [(B "tag", t)] = B ";tag=" ++ t.
Proof. intros T. cbn -[B appendQuoted]. rewrite (token_unquoted t T). destruct T as [T _]. destruct t; [congruence|]. rewrite ?app_nil_r. reflexivity. Qed.
Theorem raw_packet_reads : forall lh lp rh rp d, place lh lp -> place rh rp -> drawn d ->
  exists packet cid q, raw_packet (at_port lh lp) (at_port rh rp) d = Ok packet /\ GenerateCallID (dr_callid d) = Ok cid /\ parse_msg packet = MOk q /\ raw_fields lh lp rh rp d cid q.
Proof.
  intros lh lp rh rp d PL PR (LB & LT & LC). destruct (branch_token _ LT) as [_ TT]. destruct (callid_drawn _ LC) as (cid & EC & TC).
  assert (CS : 0 <= GenerateCSeq (dr_cseq d) < 2 ^ 62) by (unfold GenerateCSeq; pose proof (Z.mod_pos_bound (dr_cseq d) 50000); lia).
  assert (PP : Forall param_ok [(B "tag", GenerateTag (dr_tag d))]) by (constructor; [split; [apply token_text; [reflexivity|discriminate]|right; left; exact TT]|constructor]).
  pose proof (raw_start _ lh lp eq_refl PL) as HS. set (m0 := set_request _ _) in HS.
  pose proof (raw_lines _ _ _ _ _ cid (GenerateCSeq (dr_cseq d)) (mkdraft m0 0 []) lh lp rh rp (GenerateTag (dr_tag d)) eq_refl eq_refl PL PR (tag_text _ TT) PP TC CS eq_refl eq_refl eq_refl) as HL.
  eexists _, cid, _. split; [exact (raw_text _ _ _ _ EC)|]. split; [exact EC|]. split; [apply msg_parse_exact; eexists _, m0, _, _, []; split; [reflexivity|]; split; [exact HS|]; split; [exact HL|]; split; [reflexivity|]; left; split; [apply Z.le_refl|reflexivity]|].
  destruct (raw_draft_fields lh lp (GenerateTag (dr_tag d)) cid (GenerateCSeq (dr_cseq d)) (mkaddr (Some (mkuri (B "sip") [] [] lh lp [] [])) []) (mkaddr (Some (mkuri (B "sip") [] [] rh rp [] [])) [] []) m0) as (F1 & F2 & F3 & F4 & F5 & F6 & F7 & F8 & F9 & F10 & F11 & F12 & F13 & F14 & F15 & F16).
  set (q := d_msg _) in *. clearbody q. unfold raw_fields. rewrite F1, F2, F3, F4, F5, F6, F7, F10, F11, F12, F13, F14, F15, F16. repeat (split; [reflexivity|]). split; [intros f; rewrite F8; destruct f; reflexivity|]. split; [intros f; rewrite F9; destruct f; reflexivity|]. repeat split.
Qed.
Lemma answer_first rid m : status m = 200 -> phrase m = B "OK" -> vmaj m = 0 -> exists rest, msg_append rid m = B "SIP/2.0 200 OK" ++ CRLF ++ rest.
Proof.
  intros S P V. eexists. unfold msg_append, head_lines, start_line, IsResponse, version_append. rewrite S, P, V. change (0 <? 200) with true. change (0 =? 0) with true. cbn [negb]. cbv iota. rewrite <- !app_assoc. reflexivity.
Qed.
Lemma first_line packet sent rest : sent packet = true -> raw_run packet sent (Some (B "SIP/2.0 200 OK" ++ CRLF ++ rest)) = Passed.
Proof.
  intros SE. unfold raw_run. rewrite SE, app_assoc, firstn_app. rewrite firstn_all2 by (cbn; lia). rewrite <- app_assoc, split_crlf_line by reflexivity. rewrite bseq_refl. reflexivity.
Qed.
Lemma reply_vmaj m x : vmaj (reply_msg m x) = 0. Proof. reflexivity. Qed.
Lemma vias_vmaj l m : vmaj (set_vias l m) = vmaj m. Proof. reflexivity. Qed.
Lemma vias_set l m : vias (set_vias l m) = l. Proof. reflexivity. Qed.
(** Its packet is received by a server made with the library as the message it spells, and the server's 200, whatever else is in it and even when cut, satisfies it. *)
Theorem raw_ping : forall lh lp rh rp d, place lh lp -> place rh rp -> drawn d ->
  exists packet cid, raw_packet (at_port lh lp) (at_port rh rp) d = Ok packet /\ GenerateCallID (dr_callid d) = Ok cid /\
  forall tb wb src stb x, (v_host (tp_via tb), v_port (tp_via tb)) <> (lh, lp) -> source_ok src -> (forall t, stb = Some t -> token t) -> net_ok wb -> rp_via x = [] -> rp_status x = 200 ->
  forall lhost lport, exists q v', parse_msg packet = MOk q /\ raw_fields lh lp rh rp d cid q /\ delivers lhost lport packet src stb (set_vias [v'] q) /\
  exists s a rsp text, TransportModel.Send tb (mkheld (reply_msg (set_vias [v'] q) x) false) wb = Ok s /\ sd_ok s = true /\ sd_wire s = [(a, rsp, text)] /\ n_resolve wb (host_port (fst src) (Portstr (snd src))) = Some a /\
  forall sent, sent packet = true -> raw_run packet sent (Some text) = Passed.
Proof.
  intros lh lp rh rp d PL PR DR. destruct (raw_packet_reads lh lp rh rp d PL PR DR) as (packet & cid & q & EP & EC & P & RF). exists packet, cid. split; [exact EP|]. split; [exact EC|]. intros tb wb src stb x NE SO TK NB NV S2 lhost lport.
  pose proof RF as (F1 & _ & _ & _ & _ & _ & F7 & F8 & _). set (v := mkvia (B "SIP") (B "2.0") (B "UDP") lh lp []) in *.
  destruct (prepare_request lhost lport src stb q v F1) as (v' & PQ & AN & PK); [rewrite F8; reflexivity|exact F7|exact SO|exact TK|constructor|].
  exists q, v'. split; [exact P|]. split; [exact RF|]. split; [exact (delivers_prepared _ _ _ _ _ _ _ P PQ)|].
  assert (EL : elsewhere_than tb v). { unfold elsewhere_than. cbn [v v_host v_port]. destruct (list_eq_dec Byte.byte_eq_dec lh (v_host (tp_via tb))) as [->|D]; [right; congruence|left; exact D]. }
  destruct (reply_is_answer (set_vias [v'] q) x NV) as (H1 & _ & _ & _ & _ & M0 & HV & _). rewrite vias_set in HV. pose proof (reply_phrase (set_vias [v'] q) x) as H6. pose proof (reply_vmaj (set_vias [v'] q) x) as V0. set (m := reply_msg _ x) in *. clearbody m.
  destruct (send_answer tb wb m src stb v v') as (s & a & p & ES & ER & EW & EO & PP & PB); [lia|exact M0|exact HV|exact AN|apply SO|reflexivity|left; reflexivity|apply elsewhere_compare; exact EL|exact NB|exact PK|].
  eexists s, a, _, _. split; [exact ES|]. split; [exact EO|]. split; [exact EW|]. split; [exact ER|]. intros sent SE.
  destruct (vias_other [set_vparam p v'] m) as (Q1 & _ & _ & _ & _ & _ & _ & Q8). pose proof (vias_vmaj [set_vparam p v'] m) as V1. rewrite V0 in V1. set (rsp := set_vias _ m) in *. clearbody rsp.
  destruct (answer_first (n_rid wb) rsp) as (rest & ->); [congruence|rewrite Q8, H6, S2; reflexivity|exact V1|]. exact (first_line _ _ rest SE).
Qed.
(** It looks at nothing but the first line: any datagram that starts so satisfies it, a message or not, and whoever's call it belongs to. *)
Theorem raw_only : forall packet sent answer, raw_run packet sent answer = Passed <->
  sent packet = true /\ exists t rest, answer = Some t /\ (firstn 2048 t = B "SIP/2.0 200 OK" \/ firstn 2048 t = B "SIP/2.0 200 OK" ++ CRLF ++ rest).
Proof.
  intros packet sent answer. unfold raw_run. destruct (sent packet); [|split; [discriminate|intros [H _]; discriminate]]. destruct answer as [t|]; [|split; [discriminate|intros (_ & t & rest & H & _); discriminate]].
  split.
  - destruct (split_crlf (firstn 2048 t)) as [|l L] eqn:E; [discriminate|]. destruct (bseq l (B "SIP/2.0 200 OK")) eqn:C; [|discriminate]. intros _. rewrite bseq_spec in C. subst l. split; [reflexivity|].
    pose proof (split_crlf_join (firstn 2048 t)) as J. rewrite E in J. destruct L as [|l' L]; [exists t, []; split; [reflexivity|left; symmetry; exact J]|]. exists t, (GoLibLemmas.join CRLF (l' :: L)). split; [reflexivity|]. right. symmetry. exact J.
  - intros (_ & u & rest & [= <-] & [-> | ->]); [|rewrite split_crlf_line by reflexivity; rewrite bseq_refl; reflexivity]. reflexivity.
Qed.
Theorem raw_answer_unread_refuted : exists t, (forall m, parse_msg t <> MOk m) /\ forall packet, raw_run packet (fun _ => true) (Some t) = Passed.
Proof. exists (B "SIP/2.0 200 OK"). split; [intros m; vm_compute; discriminate|]. reflexivity. Qed.
(** The examples at 1.2.3.4:40000, the server at 5.6.7.8:40001 *)
Lemma ex_places : place (B "1.2.3.4") 40000 /\ place (B "5.6.7.8") 40001.
Proof. split; (split; [split; [discriminate|]; repeat split|unfold port_ok; lia]). Qed.
Example ping_example : place (B "1.2.3.4") 40000 /\ place (B "5.6.7.8") 40001 /\ drawn (n_draws (ex_wnet "a")) /\ (v_host (tp_via ex_peer), v_port (tp_via ex_peer)) <> (B "1.2.3.4", 40000) /\ source_ok (B "1.2.3.4", 40000) /\
  net_ok (ex_wnet "b") /\ reply_ok ex_confirm /\ rp_via ex_confirm = [] /\ rp_rid ex_confirm = n_rid (ex_wnet "b") /\ rp_status ex_confirm = 200 /\ value_of (B "tag") (rp_to ex_confirm) <> None /\
  (exists o r, options_msg (B "1.2.3.4") 40000 (B "5.6.7.8") 40001 (n_draws (ex_wnet "a")) = Ok o /\ parse_msg (msg_append (B "1") o) = MOk r /\
     options_run o (B "1") (fun _ => true) (Some (msg_append (B "1") (reply_msg r ex_confirm))) = Passed /\
     options_run o (B "1") (fun _ => true) (Some (msg_append (B "1") (reply_msg r (mkreply 404 [] [(B "tag", B "xyz")] [] [] None (B "1") (B "5.6.7.8", 40001) None)))) = Failed) /\
  (exists p, raw_packet (at_port (B "1.2.3.4") 40000) (at_port (B "5.6.7.8") 40001) (n_draws (ex_wnet "a")) = Ok p /\ raw_run p (fun _ => true) (Some (B "SIP/2.0 404 Not Found" ++ CRLF ++ CRLF)) = Failed).
Proof.
  destruct talk_example as (_ & _ & _ & _ & NK & _ & _ & SO & RO & RI). split; [apply ex_places|]. split; [apply ex_places|]. split; [repeat split|]. split; [vm_compute; discriminate|]. split; [exact SO|]. split; [exact NK|]. split; [exact RO|].
  split; [reflexivity|]. split; [exact RI|]. split; [reflexivity|]. split; [vm_compute; discriminate|]. split.
  - eexists _, _. split; [vm_compute; reflexivity|]. split; [vm_compute; reflexivity|]. split; vm_compute; reflexivity.
  - eexists. split; vm_compute; reflexivity.
Qed.
