(** Exactly when a response made with NewResponse is recognised (C39), exactly which requests a strict router's rewriting is undone for
    (C44), and exactly when populating completes a request, and when it fails (C46). *)
From Verif Require Import Bytes BytesLemmas GoLib GoLibLemmas SdpModel SipText SipTypes SipAppend UtilModel P_Text P_Lists DialogMsg P_DialogMsg MsgModel MsgSpec MsgGrammar P_MsgText MsgWf MsgRound P_MsgRound P_DialogWire.
Local Open Scope Z_scope.

(** ** C39 *)
(** the last Via agrees with the first in host, port and branch *)
Definition ends_as_it_begins (l : list via) : Prop := exists vs v w ws, l = vs ++ [v] /\ l = w :: ws /\ via_agrees v w.
Theorem new_response_matches_exactly : forall req st,
  ResponseMatch req (NewResponse req st) = true <-> 0 < st /\ cseqmethod req = method req /\ ends_as_it_begins (vias req).
Proof.
  intros req st. rewrite response_match_spec. unfold ends_as_it_begins. change (status (NewResponse req st)) with st. change (cseq (NewResponse req st)) with (cseq req).
  change (cseqmethod (NewResponse req st)) with (cseqmethod req). change (vias (NewResponse req st)) with (vias req). intuition.
Qed.
(** over the network the port 5060 of a Via is lost *)
Definition without_5060 (p : Z) : Z := if p =? 5060 then 0 else p.
Definition ends_on_wire (l : list via) : Prop := exists vs v w ws x, l = vs ++ [v] /\ l = w :: ws /\
  v_host v = v_host w /\ without_5060 (v_port v) = v_port w /\ value_of (B "branch") (v_param v) = Some x /\ value_of (B "branch") (v_param w) = Some x.
Theorem response_matches_over_wire_exactly : forall rid req st, msg_ok rid req -> status req = 0 -> 100 <= st <= 999 ->
  exists seen rsp, parse_msg (msg_append rid req) = MOk seen /\ parse_msg (msg_append rid (NewResponse seen st)) = MOk rsp /\
    (ResponseMatch req rsp = true <-> cseqmethod req = method req /\ ends_on_wire (vias req)).
Proof.
  intros rid req st OK S0 R. destruct (msg_round_trip_partial rid req OK) as (seen & P & SV). pose proof (response_ok rid req seen st OK SV R) as OK2.
  destruct (msg_round_trip_partial rid _ OK2) as (rsp & P2 & SV2). exists seen, rsp. split; [exact P|]. split; [exact P2|]. clear P P2 OK2.
  destruct SV as (_ & _ & EV & _ & EC & EQ & EM & _). destruct SV2 as (_ & RS & FV & _ & FC & FQ & FM & _).
  destruct (RS (proj2 (Z.ltb_lt 0 st) ltac:(lia))) as [ST _]. change (status (NewResponse seen st)) with st in ST.
  change (vias (NewResponse seen st)) with (vias seen) in FV. rewrite EV, map_map in FV. change (cseq (NewResponse seen st)) with (cseq seen) in FQ. change (cseqmethod (NewResponse seen st)) with (cseqmethod seen) in FM.
  rewrite response_match_spec, ST, FQ, EQ, FM, EM, FV. unfold ends_on_wire, via_agrees.
  assert (DP : forall v, v_port (default_port_dropped (default_port_dropped v)) = without_5060 (v_port v)).
  { intros v. unfold default_port_dropped, without_5060. cbn [v_port]. destruct (v_port v =? 5060) eqn:E; [reflexivity|rewrite E; reflexivity]. }
  split.
  - intros (_ & _ & M & vs & v & w & ws & E1 & E2 & H & PP & x & B1 & B2). split; [exact M|]. destruct (vias req) as [|y l _] using rev_ind; [discriminate E2|].
    rewrite map_app in E1. cbn [map] in E1. apply app_inj_tail in E1. destruct E1 as [_ <-]. exists l, y, w, ws, x. rewrite DP in PP. auto 10.
  - intros (M & vs & v & w & ws & x & E1 & E2 & H & PP & B1 & B2). split; [lia|]. split; [reflexivity|]. split; [exact M|].
    exists (map (fun v => default_port_dropped (default_port_dropped v)) vs), (default_port_dropped (default_port_dropped v)), w, ws.
    split; [rewrite E1, map_app; reflexivity|]. split; [exact E2|]. split; [exact H|]. split; [rewrite DP; exact PP|]. exists x. auto.
Qed.
Example wire_match_example : let v := mkvia (B "SIP") (B "2.0") (B "UDP") (B "a") 5070 [(B "branch", B "z9")] in
  let w := mkvia (B "SIP") (B "2.0") (B "UDP") (B "b") 5070 [(B "branch", B "z8")] in
  ends_on_wire [v] /\ ends_on_wire [v; w; v] /\ ~ ends_on_wire [v; w] /\ ~ ends_on_wire [set_vport 5060 v] /\ ends_as_it_begins [set_vport 5060 v].
Proof.
  cbv zeta. split; [|split; [|split; [|split]]].
  - exists []. do 4 eexists. repeat split.
  - exists [mkvia (B "SIP") (B "2.0") (B "UDP") (B "a") 5070 [(B "branch", B "z9")]; mkvia (B "SIP") (B "2.0") (B "UDP") (B "b") 5070 [(B "branch", B "z8")]]. do 4 eexists. repeat split.
  - intros (vs & v & w & ws & x & E1 & E2 & H & _). destruct vs as [|? [|? [|? ?]]]; cbn in E1; try discriminate. injection E1 as <- <-. injection E2 as <- <-. discriminate.
  - intros (vs & v & w & ws & x & E1 & E2 & H & PP & _). destruct vs as [|? [|? ?]]; cbn in E1; try discriminate. injection E1 as <-. injection E2 as <- <-. discriminate.
  - exists []. do 3 eexists. repeat split. eexists. split; reflexivity.
Qed.

(** ** C44 *)
(** The strict router's rewriting is undone exactly if the Route list that arrives does not begin with an entry at our own address. (If the
    router's URI is the one it replaced there is nothing to undo.) *)
Theorem strict_undone_exactly : forall lhost lport own m u, ours lhost lport own -> looser own -> request m = Some u -> u <> own ->
  ((exists m', rbind (pop_own_route lhost lport (strict_routed own m)) (fun x => Ok (fixMessagesFromStrictRouters lhost lport x)) = Ok m' /\ same_but_route m m') <->
   exists v, (match addrs m Route with [] => Some u | r :: _ => a_uri r end) = Some v /\ ~ ours lhost lport v).
Proof.
  intros lhost lport own m u O L Q NE. pose proof O as O'. apply ours_dec in O'. pose proof L as L'. apply looser_get in L'. destruct L' as [x L'].
  assert (R : addrs (strict_routed own m) Route = addrs m Route ++ [mkaddr (Some u) [] []]) by (unfold strict_routed; rewrite Q; reflexivity).
  assert (FX : forall l a, fixMessagesFromStrictRouters lhost lport (set_addr Route (l ++ [a]) (strict_routed own m)) = set_addr Route l (set_request (a_uri a) (set_addr Route (l ++ [a]) (strict_routed own m)))).
  { intros l a. unfold fixMessagesFromStrictRouters. change (request (set_addr Route (l ++ [a]) (strict_routed own m))) with (Some own). cbv iota. rewrite L'.
    change (addrs (set_addr Route (l ++ [a]) (strict_routed own m)) Route) with (l ++ [a]). unfold addr_Last. rewrite rev_app_distr. cbn [rev app hd_error]. rewrite O', removelast_last. reflexivity. }
  split.
  - intros (m' & E & f & F & ->). unfold pop_own_route in E. rewrite R in E. destruct (addrs m Route) as [|r rs] eqn:A; cbn [app] in E.
    + cbn [a_uri deref rbind] in E. exists u. split; [reflexivity|]. intros U. apply ours_dec in U. rewrite U in E. apply (f_equal (fun x => match x with Ok y => request y | _ => None end)) in E.
      unfold fixMessagesFromStrictRouters in E. change (request (set_addr Route [] (strict_routed own m))) with (Some own) in E. cbv iota in E. change (addr_Last (addrs (set_addr Route [] (strict_routed own m)) Route)) with (@None addr) in E.
      change (request (set_addrs f m)) with (request m) in E. rewrite Q in E. assert (E' : Some own = Some u) by (destruct (param_get (u_param own) (B "lr")); exact E). congruence.
    + destruct (a_uri r) as [v|]; [|discriminate E]. cbn [deref rbind] in E. exists v. split; [reflexivity|]. intros U. apply ours_dec in U. rewrite U, FX in E.
      apply (f_equal (fun x => match x with Ok y => addrs y Route | _ => [] end)) in E. change (rs = f Route) in E. rewrite F, A in E. apply (f_equal (@length addr)) in E. cbn in E. lia.
  - intros (v & V & N). assert (P : pop_own_route lhost lport (strict_routed own m) = Ok (strict_routed own m)).
    { unfold pop_own_route. rewrite R. assert (N' : bseq (u_host v) lhost && (or5060 (u_port v) =? lport) = false) by (apply not_true_iff_false; rewrite <- ours_dec; exact N).
      destruct (addrs m Route) as [|r rs]; cbn [app a_uri]; [injection V as ->|rewrite V]; cbn [deref rbind]; rewrite N'; reflexivity. }
    rewrite P. cbn [rbind]. eexists. split; [reflexivity|]. unfold fixMessagesFromStrictRouters. change (request (strict_routed own m)) with (Some own). cbv iota. rewrite L', R. unfold addr_Last. rewrite rev_app_distr. cbn [rev app hd_error].
    rewrite O', removelast_last. cbn [a_uri]. rewrite <- Q. unfold strict_routed.
    exists (fun g => if afield_eqb Route g then addrs m Route else if afield_eqb Route g then addrs m Route ++ [mkaddr (request m) [] []] else addrs m g). split; [intros []; reflexivity|]. reflexivity.
Qed.
Example strict_exact_example : let own := mkuri (B "sip") [] [] (B "1.2.3.4") 0 [(B "lr", [])] [] in let callee := mkuri (B "sip") (B "bob") [] (B "far.example") 0 [] [] in
  let there := mkuri (B "sip") [] [] (B "9.9.9.9") 0 [(B "lr", [])] [] in
  let m := set_addr Route [mkaddr (Some there) [] []] (set_request (Some callee) msg0) in
  ours (B "1.2.3.4") 5060 own /\ looser own /\ request m = Some callee /\ callee <> own /\ ~ ours (B "1.2.3.4") 5060 there /\ ~ ours (B "1.2.3.4") 5060 callee.
Proof. repeat split; try discriminate; intros [H _]; discriminate. Qed.

(** ** C46 *)
(** Populating a request completes it exactly if it has a method, in its CSeq or as its own, and has a CSeq number or is given one other than 0. *)
Theorem populate_completes_exactly : forall tvia tcontact m r v vl c cl, status m <= 0 -> length (dr_callid r) = 15%nat ->
  or_else (vias m) tvia = v :: vl -> or_else (addrs m Contact) tcontact = c :: cl -> (addrs m From = [] -> a_uri c <> None) ->
  exists m', PopulateMessage tvia tcontact m r = Ok m' /\
    (complete m' <-> (method m <> [] \/ cseqmethod m <> []) /\ (cseq m <> 0 \/ dr_cseq r mod 50000 <> 0)) /\
    (complete m' <-> forall tvia2 tcontact2 r2, length (dr_callid r2) = 15%nat -> PopulateMessage tvia2 tcontact2 m' r2 = Ok m' /\ cseqmethod m' <> []).
Proof.
  intros tvia tcontact m r v vl c cl S LC HV HC HF. destruct (callid_is_uuid _ LC) as (id & HI & _ & LI).
  destruct (populate_result tvia tcontact m r v vl c cl id S LC HI HV HC HF) as (m' & f & fl & E & V & C & T & F & G & I & Q & CM & MF & UA & _ & _ & _ & _ & ME & _ & ST & _).
  exists m'. split; [exact E|]. 
  assert (CQ : cseq m' <> 0 <-> (cseq m <> 0 \/ dr_cseq r mod 50000 <> 0)).
  { rewrite Q. unfold GenerateCSeq. destruct (Z.eqb_spec (cseq m) 0); lia. }
  assert (CMN : cseqmethod m' <> [] <-> (method m <> [] \/ cseqmethod m <> [])).
  { rewrite CM. destruct (cseqmethod m); cbn [or_else]; [tauto|]. split; [right|]; discriminate. }
  assert (K : complete m' <-> cseq m' <> 0 /\ cseqmethod m' <> []).
  { split; [intros (_ & _ & _ & _ & _ & A & B1 & _); auto|]. intros [A B1].
    split; [eexists _, _, _; split; [exact V|]; apply with_value_value; reflexivity|]. split; [rewrite C; discriminate|]. split; [rewrite T; apply or_else_some; discriminate|].
    split; [eexists _, _, _; split; [exact G|]; apply with_value_value; reflexivity|]. split; [rewrite I; apply or_else_some; intros ->; discriminate|].
    split; [exact A|]. split; [exact B1|]. split; [rewrite MF; destruct (Z.eqb_spec (maxforwards m) 0); lia|]. rewrite UA. apply or_else_some. discriminate. }
  split; [rewrite K, CQ, CMN; tauto|]. split.
  - intros KK. intros. split; [apply populate_done; exact KK|]. exact (proj2 (proj1 K KK)).
  - intros H. apply K. split; [|exact (proj2 (H tvia tcontact r LC))]. intros Z0. pose (r2 := mkdraws (dr_branch r) (dr_tag r) (dr_callid r) 1 (dr_origin r)).
    destruct (H tvia tcontact r2 LC) as [E2 _].
    destruct (populate_result tvia tcontact m' r2 _ vl c cl id (eq_ind_r (fun x => x <= 0) S ST) LC HI (f_equal (fun l => or_else l tvia) V) (f_equal (fun l => or_else l tcontact) C)) as (m2 & f2 & fl2 & E3 & _ & _ & _ & _ & _ & _ & Q2 & _).
    { rewrite G. discriminate. }
    rewrite E2 in E3. injection E3 as <-. rewrite Z0 in Q2. discriminate Q2.
Qed.
(** the part of PopulateMessage after the From is there *)
Definition populate_rest (r : draws) (m : msg) : res msg :=
  let* m := match callid m with [] => let* c := GenerateCallID (dr_callid r) in Ok (set_callid c m) | _ => Ok m end in
  let m := if cseq m =? 0 then set_cseq (GenerateCSeq (dr_cseq r)) m else m in
  let m := match cseqmethod m with [] => set_cseqmethod (method m) m | _ => m end in
  let m := if maxforwards m =? 0 then set_maxforwards 70 m else m in
  let m := match strs m UserAgent with [] => set_str UserAgent GosipUA m | _ => m end in
  let* m := match vias m with
            | [] => Panic
            | v :: l => match param_get (v_param v) (B "branch") with
                        | None => Ok (set_vias (set_vparam ((B "branch", GenerateBranch (dr_branch r)) :: v_param v) v :: l) m)
                        | Some _ => Ok m
                        end
            end in
  match addrs m From with
  | [] => Panic
  | a :: l => match param_get (a_param a) (B "tag") with
              | None => Ok (set_addr From (set_aparam ((B "tag", GenerateTag (dr_tag r)) :: a_param a) a :: l) m)
              | Some _ => Ok m
              end
  end.
Lemma populate_rest_panics r m : length (dr_callid r) = 15%nat -> (populate_rest r m = Panic <-> vias m = [] \/ addrs m From = []).
Proof.
  intros LC. destruct (callid_is_uuid _ LC) as (id & HI & _ & _). unfold populate_rest.
  set (m1 := match callid m with [] => set_callid id m | _ => m end).
  replace (match callid m with [] => let* c := GenerateCallID (dr_callid r) in Ok (set_callid c m) | _ => Ok m end) with (Ok m1) by (unfold m1; destruct (callid m); [rewrite HI|]; reflexivity).
  assert (A1 : vias m1 = vias m /\ addrs m1 From = addrs m From) by (unfold m1; destruct (callid m); split; reflexivity). clearbody m1. cbn [rbind].
  set (m2 := if cseq m1 =? 0 then set_cseq (GenerateCSeq (dr_cseq r)) m1 else m1).
  assert (A2 : vias m2 = vias m1 /\ addrs m2 From = addrs m1 From) by (unfold m2; destruct (cseq m1 =? 0); split; reflexivity). clearbody m2. cbv zeta.
  set (m3 := match cseqmethod m2 with [] => set_cseqmethod (method m2) m2 | _ => m2 end).
  assert (A3 : vias m3 = vias m2 /\ addrs m3 From = addrs m2 From) by (unfold m3; destruct (cseqmethod m2); split; reflexivity). clearbody m3.
  set (m4 := if maxforwards m3 =? 0 then set_maxforwards 70 m3 else m3).
  assert (A4 : vias m4 = vias m3 /\ addrs m4 From = addrs m3 From) by (unfold m4; destruct (maxforwards m3 =? 0); split; reflexivity). clearbody m4.
  set (m5 := match strs m4 UserAgent with [] => set_str UserAgent GosipUA m4 | _ => m4 end).
  assert (A5 : vias m5 = vias m4 /\ addrs m5 From = addrs m4 From) by (unfold m5; destruct (strs m4 UserAgent); split; reflexivity). clearbody m5.
  assert (V : vias m5 = vias m) by (destruct A1, A2, A3, A4, A5; congruence). assert (F : addrs m5 From = addrs m From) by (destruct A1, A2, A3, A4, A5; congruence). clear A1 A2 A3 A4 A5.
  rewrite <- V, <- F. clear V F. destruct (vias m5) as [|v l] eqn:V; [cbn [rbind]; tauto|].
  assert (X : exists m6, (match param_get (v_param v) (B "branch") with
                          | Some _ => Ok m5
                          | None => Ok (set_vias (set_vparam ((B "branch", GenerateBranch (dr_branch r)) :: v_param v) v :: l) m5) end) = Ok m6 /\ addrs m6 From = addrs m5 From).
  { destruct (param_get (v_param v) (B "branch")); eexists; split; reflexivity. }
  destruct X as (m6 & X & F). rewrite X. cbn [rbind]. rewrite <- F. destruct (addrs m6 From) as [|a fl]; [tauto|]. destruct (param_get (a_param a) (B "tag")); split; try discriminate; intros [|]; discriminate.
Qed.
(** It fails exactly if there is no Via, neither the request's nor the transport's, or no From and no Contact to make one of. *)
Theorem populate_panics_exactly : forall tvia tcontact m r, status m <= 0 -> length (dr_callid r) = 15%nat ->
  (PopulateMessage tvia tcontact m r = Panic <->
   or_else (vias m) tvia = [] \/ (addrs m From = [] /\ match or_else (addrs m Contact) tcontact with [] => True | c :: _ => a_uri c = None end)).
Proof.
  intros tvia tcontact m r S LC.
  set (m1 := match vias m with [] => set_vias tvia m | _ => m end).
  set (m2 := match addrs m1 Contact with [] => set_addr Contact tcontact m1 | _ => m1 end).
  set (m3 := match addrs m2 To with [] => set_addr To [mkaddr (request m2) [] []] m2 | _ => m2 end).
  assert (E : PopulateMessage tvia tcontact m r =
    let* m := match addrs m3 From with
            | [] => match addr_Copy (addrs m3 Contact) with
                    | [] => Panic
                    | a :: l => let* u := deref (a_uri a) in Ok (set_addr From (set_auri (Some (set_uparam [] u)) a :: l) m3)
                    end
            | _ => Ok m3
            end in populate_rest r m).
  { unfold PopulateMessage, IsResponse. replace (0 <? status m) with false by (symmetry; apply Z.ltb_ge; lia). reflexivity. }
  rewrite E. clear E.
  assert (A1 : vias m1 = or_else (vias m) tvia /\ addrs m1 From = addrs m From /\ addrs m1 Contact = addrs m Contact) by (unfold m1; destruct (vias m) eqn:V; [|rewrite V]; repeat split; reflexivity). clearbody m1.
  assert (A2 : vias m2 = vias m1 /\ addrs m2 From = addrs m1 From /\ addrs m2 Contact = or_else (addrs m1 Contact) tcontact) by (unfold m2; destruct (addrs m1 Contact) eqn:V; [|rewrite V]; repeat split; reflexivity). clearbody m2.
  assert (A3 : vias m3 = vias m2 /\ addrs m3 From = addrs m2 From /\ addrs m3 Contact = addrs m2 Contact) by (unfold m3; destruct (addrs m2 To); repeat split; reflexivity). clearbody m3.
  destruct A1 as (V1 & F1 & C1), A2 as (V2 & F2 & C2), A3 as (V3 & F3 & C3). rewrite F3, F2, F1, C3, C2, C1, copy_map. destruct (addrs m From) as [|f fl].
  - destruct (or_else (addrs m Contact) tcontact) as [|c cl]; [cbn; tauto|]. cbn [bare map nameless]. change (nameless c) with (mkaddr (a_uri c) [] (a_param c)). cbn [a_uri]. destruct (a_uri c) as [u|]; [|cbn; tauto]. cbn [option_map deref rbind].
    rewrite (populate_rest_panics r _ LC). cbn [vias set_addr set_addrs addrs]. rewrite V3, V2, V1. intuition discriminate.
  - cbn [rbind]. rewrite (populate_rest_panics r _ LC), V3, V2, V1, F3, F2, F1. intuition discriminate.
Qed.
Example populate_exact_example : let m := set_cseq 5 (set_callid (B "mine") (ex_req [])) in
  (exists m', PopulateMessage ex_tvia ex_contact m (ex_draws 3) = Ok m' /\ complete m') /\ PopulateMessage ex_tvia [] m (ex_draws 3) = Panic /\ PopulateMessage [] ex_contact m (ex_draws 3) = Panic.
Proof.
  cbv zeta. split; [|split; vm_compute; reflexivity].
  destruct (populate_completes_exactly ex_tvia ex_contact (set_cseq 5 (set_callid (B "mine") (ex_req []))) (ex_draws 3) (hd (mkvia [] [] [] [] 0 []) ex_tvia) [] (hd (mkaddr None [] []) ex_contact) []) as (m' & E & K & _); try reflexivity; try discriminate.
  exists m'. split; [exact E|]. apply K. split; left; discriminate.
Qed.
