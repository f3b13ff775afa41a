(** C39 over the network: the request is written, read by the peer, answered with NewResponse; the answer is written and read again. *)
From Verif Require Import Bytes BytesLemmas GoLib GoLibLemmas SdpModel SipText SipTypes SipAppend UtilModel P_Text P_Lists DialogMsg P_DialogMsg MsgModel MsgSpec MsgGrammar P_MsgText MsgWf MsgRound P_MsgRound.
Local Open Scope Z_scope.

Lemma via_ok_dropped v : via_ok v -> via_ok (default_port_dropped v).
Proof. intros (A1 & A2 & A3 & A4 & A5 & A6 & A7). unfold default_port_dropped, via_ok. cbn [v_protocol v_version v_transport v_host v_port v_param]. repeat (split; [assumption|]). split; [|assumption]. destruct (v_port v =? 5060); lia. Qed.
Lemma dropped_id v : v_port v <> 5060 -> default_port_dropped v = v.
Proof. intros N. destruct v as [p1 p2 p3 p4 p5 p6]. unfold default_port_dropped. cbn in *. destruct (Z.eqb_spec p5 5060); [contradiction|reflexivity]. Qed.
Lemma response_ok_any rid rid' m m' st : msg_ok rid m -> survives m m' -> 100 <= st <= 999 -> msg_ok rid' (NewResponse m' st).
Proof.
  intros (S & VA & VI & NF & NT & AD & VS & CI & CS & CM & _) (_ & _ & EV & EA & EC & EQ & EM & _) R. destruct (Phrase_ok st R) as [_ PO].
  assert (AA : forall f, addrs (NewResponse m' st) f = match f with From => addrs m From | To => addrs m To | RecordRoute => addrs m RecordRoute | _ => [] end) by (intros []; cbn; try apply EA; reflexivity).
  split; [right; split; [exact R|exact PO]|]. split; [cbn; lia|]. split; [cbn; lia|]. split; [rewrite AA; exact NF|]. split; [rewrite AA; exact NT|].
  split; [intros f; rewrite AA; destruct f; first [exact (AD _)|constructor]|].
  split; [cbn; rewrite EV; apply Forall_map; revert VS; apply Forall_impl; exact via_ok_dropped|]. split; [cbn; rewrite EC; exact CI|]. split; [cbn; rewrite EQ; exact CS|]. split; [cbn; rewrite EM; exact CM|].
  split; [cbn; lia|]. split; [cbn; lia|]. split; [cbn; lia|].
  split; [intros []; try exact header_val_nil; (split; [repeat (constructor; [reflexivity|]); constructor|intros c r E; injection E as <- _; reflexivity])|].
  split; [constructor|]. intros p E. discriminate.
Qed.
Lemma response_ok rid m m' st : msg_ok rid m -> survives m m' -> 100 <= st <= 999 -> msg_ok rid (NewResponse m' st). Proof. apply response_ok_any. Qed.
(** One Via with a branch, and a port other than 5060. *)
Theorem response_matches_over_wire_partial : forall rid req v x st, msg_ok rid req -> status req = 0 -> cseqmethod req = method req -> 100 <= st <= 999 ->
  vias req = [v] -> v_port v <> 5060 -> value_of (B "branch") (v_param v) = Some x ->
  exists seen rsp, parse_msg (msg_append rid req) = MOk seen /\ parse_msg (msg_append rid (NewResponse seen st)) = MOk rsp /\
    ResponseMatch req rsp = true /\ callid rsp = callid req /\ status rsp = st.
Proof.
  intros rid req v x st OK S0 CM R V NP BR. destruct (msg_round_trip_partial rid req OK) as (seen & P & SV). pose proof (response_ok rid req seen st OK SV R) as OK2.
  destruct (msg_round_trip_partial rid _ OK2) as (rsp & P2 & SV2). exists seen, rsp. split; [exact P|]. split; [exact P2|]. clear P P2 OK2.
  destruct SV as (_ & _ & EV & _ & EC & EQ & EM & _). destruct SV2 as (_ & RS & FV & _ & FC & FQ & FM & _).
  destruct (RS (proj2 (Z.ltb_lt 0 st) ltac:(lia))) as [ST _]. change (status (NewResponse seen st)) with st in ST.
  change (vias (NewResponse seen st)) with (vias seen) in FV. rewrite EV, V in FV. cbn [map] in FV. rewrite (dropped_id v NP), (dropped_id v NP) in FV.
  split; [|split; [rewrite FC; exact EC|exact ST]]. apply response_match_spec. split; [lia|]. split; [rewrite FQ; exact EQ|]. split; [rewrite FM; change (cseqmethod (NewResponse seen st)) with (cseqmethod seen); congruence|].
  exists [], v, v, []. split; [exact FV|]. split; [exact V|]. split; [reflexivity|]. split; [reflexivity|]. eauto.
Qed.
(** The default port is not written: the answer to a request whose Via has the port 5060 is never recognised. *)
Theorem response_default_port_refuted : forall rid req v st, msg_ok rid req -> status req = 0 -> 100 <= st <= 999 -> vias req = [v] -> v_port v = 5060 ->
  exists seen rsp, parse_msg (msg_append rid req) = MOk seen /\ parse_msg (msg_append rid (NewResponse seen st)) = MOk rsp /\ ResponseMatch req rsp = false.
Proof.
  intros rid req v st OK S0 R V NP. destruct (msg_round_trip_partial rid req OK) as (seen & P & SV). pose proof (response_ok rid req seen st OK SV R) as OK2.
  destruct (msg_round_trip_partial rid _ OK2) as (rsp & P2 & SV2). exists seen, rsp. split; [exact P|]. split; [exact P2|]. clear P P2 OK2.
  destruct SV as (_ & _ & EV & _). destruct SV2 as (_ & _ & FV & _). change (vias (NewResponse seen st)) with (vias seen) in FV. rewrite EV, V in FV. cbn [map] in FV.
  apply not_true_iff_false. rewrite response_match_spec. intros (_ & _ & _ & vs & w & w2 & ws & E1 & E2 & (_ & PP & _)). rewrite FV in E1. rewrite V in E2. injection E2 as <- _.
  destruct vs as [|? [|]]; cbn in E1; [|discriminate|discriminate]. injection E1 as <-. rewrite NP in PP. cbn in PP. rewrite NP in PP. cbn in PP. discriminate.
Qed.
Definition wire_req : msg := set_vias [rt_via] rt_msg.
Example wire_example : msg_ok (B "1") wire_req /\ status wire_req = 0 /\ cseqmethod wire_req = method wire_req /\ vias wire_req = [rt_via] /\ v_port rt_via <> 5060 /\ value_of (B "branch") (v_param rt_via) = Some (B "z9hG4bK1") /\
  msg_ok (B "1") (set_vias [set_vport 5060 rt_via] rt_msg).
Proof.
  assert (V : forall p, 0 <= p < 65536 -> via_ok (set_vport p rt_via)).
  { intros p H. repeat split; cbn; try discriminate; try lia. constructor; [|constructor]. split; [split; [discriminate|reflexivity]|right; left; split; [discriminate|reflexivity]]. }
  split; [apply msg_ok_set_vias; [exact rt_msg_ok|constructor; [exact (V 5090 ltac:(lia))|constructor]]|]. split; [reflexivity|]. split; [reflexivity|]. split; [reflexivity|]. split; [discriminate|]. split; [reflexivity|].
  apply msg_ok_set_vias; [exact rt_msg_ok|constructor; [exact (V 5060 ltac:(lia))|constructor]].
Qed.
