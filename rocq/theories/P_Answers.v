(** C107: a request can be answered several times. Every answer goes to where the request came from and belongs to it. Because the answers
    share the request's Via and To objects, parameters added to one of them are in all later ones: a tag has to be added once only. *)
From Coq Require Import List ZArith Lia.
From Verif Require Import Bytes BytesLemmas GoLib GoLibLemmas SdpModel SdpProofs SipText SipTypes SipAppend UtilModel P_Text P_Lists UriSpec P_Uri MsgModel MsgSpec MsgGrammar P_MsgText MsgWf MsgRound P_MsgRound
  DialogMsg P_DialogMsg P_DialogWire TransportModel P_Transport P_TransportAt P_Received DialogModel P_DialogCount P_Written P_Call P_Talk AnswerModel.
Import ListNotations.
Local Open Scope Z_scope.

(** ** Specification *)
(** what is in front of the Via parameters after the answers [xs]: the times at which they were sent, the last one first *)
Definition times (xs : list (reply * net)) : list param := concat (map (fun xw => match n_stamp (snd xw) with Some t => [(B "usi", t)] | None => [] end) (rev xs)).
(** the parameters added to To in the answers [xs], those added last first *)
Definition marks (xs : list (reply * net)) : list param := concat (map (fun xw => rp_to (fst xw)) (rev xs)).
(** the answer [x] with the To parameters [p] *)
Definition marked (p : list param) (x : reply) : reply :=
  mkreply (rp_status x) (rp_via x) p (rp_contact x) (rp_rr x) (rp_pay x) (rp_rid x) (rp_src x) (rp_stamp x).
Definition in_front_via (p : list param) (v : via) : via := set_vparam (p ++ v_param v) v.
Definition in_front (p : list param) (a : addr) : addr := set_aparam (p ++ a_param a) a.

(** an answer the application can give: as in C79 *)
Definition answer_given (xw : reply * net) : Prop := net_ok (snd xw) /\ reply_ok (fst xw) /\ rp_via (fst xw) = [] /\ rp_rid (fst xw) = n_rid (snd xw).

(** ** Lemmas *)
Lemma times_cons x w xs : times ((x, w) :: xs) = times xs ++ match n_stamp w with Some t => [(B "usi", t)] | None => [] end.
Proof. unfold times. cbn [rev]. rewrite map_app, concat_app. cbn [map concat snd]. rewrite app_nil_r. reflexivity. Qed.
Lemma marks_cons x w xs : marks ((x, w) :: xs) = marks xs ++ rp_to x.
Proof. unfold marks. cbn [rev]. rewrite map_app, concat_app. cbn [map concat fst]. rewrite app_nil_r. reflexivity. Qed.

Definition stamps (st : list param) : Prop := Forall (fun p => fst p = B "usi" /\ token (snd p)) st.
Lemma stamps_skip st p n : stamps st -> equal_fold (B "usi") n = false -> param_get (st ++ p) n = param_get p n.
Proof. intros F E. induction F as [|[a b] st [H _] F IH]; [reflexivity|]. change (a = B "usi") in H. rewrite H. cbn [app param_get]. rewrite E. exact IH. Qed.
Lemma stamps_value st p n : stamps st -> equal_fold (B "usi") n = false -> value_of n (st ++ p) = value_of n p.
Proof. intros F E. unfold value_of. rewrite stamps_skip by assumption. reflexivity. Qed.
Lemma stamps_ok st : stamps st -> Forall param_ok st.
Proof. intros F. eapply Forall_impl; [|exact F]. intros [a b] [H T]. change (a = B "usi") in H. rewrite H. split; [split; [discriminate|reflexivity]|right; left; exact T]. Qed.

(** Send, for an answer whose Via has times in front *)
Lemma answer_again rid req v b tp src stamp r v' x w mk st : on_its_way rid req v b -> 0 <= snd src < 65536 -> elsewhere_than tp v -> net_ok w ->
  gets rid req r -> vias r = [v'] -> annotated false src stamp (written_via v) v' -> reply_ok x -> stamps st ->
  vias mk = [in_front_via st v'] -> answer_of r x (set_vias [v'] mk) -> msg_ok (n_rid w) (set_vias [v'] mk) ->
  exists a, n_resolve w (host_port (fst src) (Portstr (snd src))) = Some a /\
  let rsp := set_vias [in_front_via (match n_stamp w with Some t => [(B "usi", t)] | None => [] end ++ st) v'] mk in
  Send tp (mkheld mk false) w = Ok (mksending tp (mkheld rsp false) [(a, rsp, msg_append (n_rid w) rsp)] true) /\
  forall lhost lport, exists y, delivers lhost lport (msg_append (n_rid w) rsp) (rp_src x) (rp_stamp x) y /\ answers req x y.
Proof.
  intros OW SP EL (NR & NW & NS & _) GT RV AN RO ST VM AO RK. pose proof OW as (OK & S & CM & RT & V & VS & BV & _ & _). pose proof AO as (H1 & _ & _ & _ & _ & M0 & HV & _).
  change (status mk = rp_status x) in H1. change (maxforwards mk = 0) in M0. rewrite RV in HV.
  pose proof RO as (RR & _). pose proof VS as (VG & VP & N5 & R1 & R2). pose proof AN as (A1 & A2 & A3 & A4 & A5 & _). pose proof (annotated_branch _ _ _ _ _ AN) as BV'. cbn [written_via v_param] in BV'. rewrite BV in BV'.
  assert (SG : 0 < status mk) by lia. assert (IR : IsResponse mk = true) by (apply Z.ltb_lt; exact SG).
  assert (NC : via_CompareHostPort [tp_via tp] [v'] = false) by (pose proof (elsewhere_compare _ _ EL) as EC; cbn in *; rewrite A4, A5; exact EC).
  assert (RM : RouteMessage [tp_via tp] (tp_contact tp) mk = Ok (mk, inl src)).
  { pose proof (back_to_source (tp_via tp) (tp_contact tp) (set_vias [v'] mk) src stamp (written_via v) v' SG eq_refl AN SP R1 R2 (elsewhere_compare _ _ EL)) as R0.
    rewrite (route_response _ _ (set_vias [v'] mk) v' [] SG eq_refl NC) in R0. rewrite (route_response [tp_via tp] _ mk (in_front_via st v') [] SG VM NC). cbv zeta in R0 |- *.
    change (v_param (in_front_via st v')) with (st ++ v_param v'). rewrite !(stamps_skip st) by (exact ST || reflexivity). change (v_host (in_front_via st v')) with (v_host v'). change (v_port (in_front_via st v')) with (v_port v').
    destruct (param_get (v_param v') (B "rport")) as [[pn [|c y]]|]; [injection R0 as <-; reflexivity| |injection R0 as <-; reflexivity]. destruct (atoi (c :: y)); [injection R0 as <-; reflexivity|discriminate]. }
  specialize (NR (host_port (fst src) (Portstr (snd src)))). destruct (n_resolve w (host_port (fst src) (Portstr (snd src)))) as [a|] eqn:ER; [|congruence]. exists a. split; [reflexivity|]. cbv zeta.
  set (p := match n_stamp w with Some t => [(B "usi", t)] | None => [] end ++ st). assert (SK : stamps p).
  { unfold p. apply Forall_app. split; [|exact ST]. destruct (n_stamp w) as [t|] eqn:ET; [|constructor]. constructor; [|constructor]. split; [reflexivity|apply NS; reflexivity]. }
  assert (ET : addTimestamp mk (n_stamp w) = Ok (set_vias [in_front_via p v'] mk)).
  { unfold addTimestamp, p. destruct (n_stamp w) as [t|]; [rewrite VM; reflexivity|]. cbn [app]. f_equal. rewrite <- VM. destruct mk; reflexivity. }
  set (rsp := set_vias [in_front_via p v'] mk) in *. split.
  - unfold Send. assert (EM : view tp (mkheld mk false) = mk) by reflexivity. rewrite EM. clear EM. cbn [h_shared]. cbv zeta. unfold PopulateMessage. rewrite IR. cbn [rbind negb andb orb]. rewrite RM. cbn [rbind]. destruct src as [ip port]. cbn [fst snd] in ER. rewrite joined, ER. rewrite M0. change (0 <? 0) with false. cbv iota. rewrite ET. cbn [rbind]. unfold left_behind. rewrite NW. reflexivity.
  - intros lhost lport.
    assert (PK : Forall param_ok (v_param v')). { pose proof RK as (_ & _ & _ & _ & _ & _ & RVS & _). pose proof (Forall_inv RVS) as (_ & _ & _ & _ & _ & _ & PK). exact PK. }
    destruct (answer_read _ _ _ _ _ _ _ _ x (n_rid w) (set_vias [v'] mk) (p ++ v_param v') OW GT RV AN ltac:(lia) AO RK) with (lhost := lhost) (lport := lport) as (y & Y1 & Y2 & _).
    + rewrite stamps_value by (exact SK || reflexivity). exact BV'.
    + apply Forall_app. split; [apply stamps_ok; exact SK|exact PK].
    + exists y. split; [exact Y1|exact Y2].
Qed.

(** the request after some answers *)
Definition answered_with (r : msg) (v' : via) (st mt : list param) (rk : msg) : Prop :=
  vias rk = [in_front_via st v'] /\ addrs rk To = with_first (in_front mt) (addrs r To) /\ (forall f, f <> To -> addrs rk f = addrs r f) /\
  set_vias [] (set_addrs (fun _ => []) rk) = set_vias [] (set_addrs (fun _ => []) r).

Lemma with_first_twice A (f g h : A -> A) l : (forall a, f (g a) = h a) -> with_first f (with_first g l) = with_first h l.
Proof. intros E. destruct l; cbn; [reflexivity|rewrite E; reflexivity]. Qed.
Lemma in_front_twice p q a : in_front p (in_front q a) = in_front (p ++ q) a.
Proof. unfold in_front. destruct a. cbn. rewrite app_assoc. reflexivity. Qed.

Lemma msg_ext m m' : vmaj m = vmaj m' -> vmin m = vmin m' -> method m = method m' -> request m = request m' -> status m = status m' -> phrase m = phrase m' -> pay m = pay m' -> source m = source m' ->
  addrs m = addrs m' -> vias m = vias m' -> callid m = callid m' -> cseq m = cseq m' -> cseqmethod m = cseqmethod m' -> maxforwards m = maxforwards m' -> expires m = expires m' -> minexpires m = minexpires m' ->
  strs m = strs m' -> xheader m = xheader m' -> m = m'.
Proof. destruct m, m'. cbn. intros. subst. reflexivity. Qed.
Lemma reply_form m x : method (reply_msg m x) = [] /\ request (reply_msg m x) = None /\ phrase (reply_msg m x) = Phrase (rp_status x) /\ source (reply_msg m x) = None /\ maxforwards (reply_msg m x) = 0 /\
  expires (reply_msg m x) = 0 /\ minexpires (reply_msg m x) = 0 /\ strs (reply_msg m x) = (fun g => if sfield_eqb UserAgent g then GosipUA else if sfield_eqb Allow g then GosipAllow else []) /\ xheader (reply_msg m x) = [].
Proof. repeat split; reflexivity. Qed.
Lemma reply_addrs m x f : addrs (reply_msg m x) f = match f with To => with_first (in_front (rp_to x)) (addrs m To) | From => addrs m From | Contact => rp_contact x | RecordRoute => rp_rr x | _ => [] end.
Proof. destruct f; reflexivity. Qed.
Lemma msg_ok_same_addrs rid g m : (forall f, g f = addrs m f) -> msg_ok rid m -> msg_ok rid (set_addrs g m).
Proof.
  intros E (H1 & VA & VI & NF & NT & AD & R). split; [exact H1|]. split; [exact VA|]. split; [exact VI|]. cbn [set_addrs addrs].
  split; [rewrite E; exact NF|]. split; [rewrite E; exact NT|]. split; [intros f; rewrite E; apply AD|exact R].
Qed.
Lemma answer_of_with r x v M : vias r = [v] -> status M = rp_status x -> callid M = callid r -> cseq M = cseq r -> cseqmethod M = cseqmethod r -> pay M = rp_pay x -> maxforwards M = 0 ->
  addrs M Route = [] -> addrs M From = addrs r From -> addrs M Contact = rp_contact x -> addrs M RecordRoute = rp_rr x -> addrs M To = with_first (in_front (rp_to x)) (addrs r To) ->
  answer_of r x (set_vias [v] M).
Proof. intros RV. unfold answer_of. rewrite RV. cbn [set_vias status callid cseq cseqmethod pay maxforwards vias addrs]. auto 15. Qed.
Lemma same_but_addrs l M N : vmaj M = vmaj N -> vmin M = vmin N -> method M = method N -> request M = request N -> status M = status N -> phrase M = phrase N -> pay M = pay N -> source M = source N ->
  callid M = callid N -> cseq M = cseq N -> cseqmethod M = cseqmethod N -> maxforwards M = maxforwards N -> expires M = expires N -> minexpires M = minexpires N -> strs M = strs N -> xheader M = xheader N ->
  set_vias l M = set_addrs (addrs M) (set_vias l N).
Proof. intros. apply msg_ext; cbn [set_vias set_addrs vmaj vmin method request status phrase pay source addrs vias callid cseq cseqmethod maxforwards expires minexpires strs xheader]; auto. Qed.
Lemma reply_msg_again r v' st mt rk x : vias r = [v'] -> answered_with r v' st mt rk -> rp_via x = [] ->
  vias (reply_msg rk x) = [in_front_via st v'] /\ answer_of r (marked (rp_to x ++ mt) x) (set_vias [v'] (reply_msg rk x)) /\
  (forall rid, msg_ok rid (reply_msg r (marked (rp_to x ++ mt) x)) -> msg_ok rid (set_vias [v'] (reply_msg rk x))) /\
  addrs (reply_msg rk x) To = with_first (in_front (rp_to x ++ mt)) (addrs r To).
Proof.
  intros RV (AV & AT & AO & AR) NV.
  assert (T1 : addrs (reply_msg rk x) To = with_first (in_front (rp_to x ++ mt)) (addrs r To)).
  { rewrite reply_addrs, AT. apply with_first_twice. intros a. apply in_front_twice. }
  assert (F1 : addrs (reply_msg rk x) From = addrs r From) by (rewrite reply_from; apply AO; discriminate).
  assert (C1 : callid rk = callid r) by (apply (f_equal callid) in AR; exact AR). assert (C2 : cseq rk = cseq r) by (apply (f_equal cseq) in AR; exact AR). assert (C3 : cseqmethod rk = cseqmethod r) by (apply (f_equal cseqmethod) in AR; exact AR).
  assert (V1 : vias (reply_msg rk x) = [in_front_via st v']) by (rewrite reply_vias, NV, AV; reflexivity).
  split; [exact V1|]. split; [|split; [|exact T1]].
  - destruct (reply_other rk x) as (H1 & H2 & H3 & H4 & H5 & _). destruct (reply_form rk x) as (_ & _ & _ & _ & L5 & _).
    apply answer_of_with; [exact RV|exact H1|congruence|congruence|congruence|exact H5|exact L5|rewrite reply_addrs; reflexivity|exact F1|rewrite reply_addrs; reflexivity|rewrite reply_addrs; reflexivity|exact T1].
  - intros rid OK.
    assert (AE : forall f, addrs (reply_msg rk x) f = addrs (reply_msg r (marked (rp_to x ++ mt) x)) f).
    { intros f. rewrite !reply_addrs. rewrite reply_addrs in F1, T1. destruct f; first [exact F1|exact T1|reflexivity]. }
    assert (EM : set_vias [v'] (reply_msg rk x) = set_addrs (addrs (reply_msg rk x)) (set_vias [v'] (reply_msg r (marked (rp_to x ++ mt) x)))).
    { destruct (reply_other rk x) as (H1 & H2 & H3 & H4 & H5 & H6 & H7). destruct (reply_other r (marked (rp_to x ++ mt) x)) as (K1 & K2 & K3 & K4 & K5 & K6 & K7).
      destruct (reply_form rk x) as (L1 & L2 & L3 & L4 & L5 & L6 & L7 & L8 & L9). destruct (reply_form r (marked (rp_to x ++ mt) x)) as (M1 & M2 & M3 & M4 & M5 & M6 & M7 & M8 & M9).
apply same_but_addrs; try congruence; [rewrite H1, K1|rewrite L3, M3|rewrite H5, K5]; reflexivity. }
    rewrite EM. clear EM. assert (VV : Forall via_ok [v']).
    { destruct OK as (_ & _ & _ & _ & _ & _ & VV & _). rewrite reply_vias in VV. change (rp_via (marked (rp_to x ++ mt) x)) with (rp_via x) in VV. rewrite NV, RV in VV. cbn [with_first app] in VV. destruct v'. exact VV. }
    revert OK AE. generalize (addrs (reply_msg rk x)) as g. generalize (reply_msg r (marked (rp_to x ++ mt) x)) as M. intros M g OK AE.
    apply msg_ok_same_addrs; [exact AE|]. apply msg_ok_set_vias; assumption.
Qed.

Lemma answered_after r v' st mt st2 mt2 rk rsp : answered_with r v' st mt rk -> vias rsp = [in_front_via st2 v'] -> addrs rsp To = with_first (in_front mt2) (addrs r To) ->
  answered_with r v' st2 mt2 (after_answer rk rsp).
Proof.
  intros (AV & AT & AF & AR) EV ET. unfold after_answer, answered_with. split; [cbn [vias set_vias]; rewrite AV, EV; reflexivity|]. split; [exact ET|]. split.
  - intros f N. rewrite <- (AF f N). destruct f; try reflexivity. exfalso; apply N; reflexivity.
  - rewrite <- AR. destruct rk. reflexivity.
Qed.
Lemma set_vias_addrs l m : addrs (set_vias l m) = addrs m. Proof. reflexivity. Qed.
Lemma answers_go_on rid req v b tp src stamp r v' : on_its_way rid req v b -> 0 <= snd src < 65536 -> elsewhere_than tp v ->
  gets rid req r -> vias r = [v'] -> annotated false src stamp (written_via v) v' -> msg_ok rid (set_vias [v'] (written rid req)) -> survives (set_vias [v'] (written rid req)) r ->
  forall xs st mt rk, Forall answer_given xs -> stamps st -> Forall param_ok mt -> answered_with r v' st mt rk ->
  exists r' l, answer_all tp rk xs = Ok (r', l) /\ length l = length xs /\ answered_with r v' (times xs ++ st) (marks xs ++ mt) r' /\
  forall i x w, nth_error xs i = Some (x, w) -> exists s a rsp text, nth_error l i = Some s /\ sd_ok s = true /\ sd_wire s = [(a, rsp, text)] /\
    n_resolve w (host_port (fst src) (Portstr (snd src))) = Some a /\ vias rsp = [in_front_via (times (firstn (S i) xs) ++ st) v'] /\
    forall lhost lport, exists y, delivers lhost lport text (rp_src x) (rp_stamp x) y /\ answers req (marked (marks (firstn (S i) xs) ++ mt) x) y.
Proof.
  intros OW SP EL GT RV AN OK2 SV. induction xs as [|[x w] xs IH]; intros st mt rk FX ST MK AW.
  { exists rk, []. split; [reflexivity|]. split; [reflexivity|]. split; [exact AW|]. intros [|i] x w H; discriminate. }
  pose proof (Forall_inv FX) as (NW & RO & NV & RID). pose proof (Forall_inv_tail FX) as FT. cbn [fst snd] in NW, RO, NV, RID.
  set (x' := marked (rp_to x ++ mt) x).
  assert (RO' : reply_ok x'). { destruct RO as (Q1 & Q2 & Q3 & Q4 & Q5). split; [exact Q1|]. split; [exact Q2|]. split; [exact Q3|]. split; [apply Forall_app; split; assumption|exact Q5]. }
  destruct (reply_msg_again r v' st mt rk x RV AW NV) as (V1 & AO & MO & T1). pose proof (reply_msg_ok _ _ _ x' OK2 SV RO') as RK. change (rp_rid x') with (rp_rid x) in RK. rewrite RID in RK. apply MO in RK.
  destruct (answer_again _ _ _ _ tp _ _ _ _ x' w (reply_msg rk x) st OW SP EL NW GT RV AN RO' ST V1 AO RK) as (a & ER & ES & DL). cbv zeta in ES, DL.
  set (now := match n_stamp w with Some t => [(B "usi", t)] | None => [] end) in *. set (rsp := set_vias [in_front_via (now ++ st) v'] (reply_msg rk x)) in *.
  assert (ST2 : stamps (now ++ st)). { apply Forall_app. split; [|exact ST]. unfold now. destruct (n_stamp w) as [t|] eqn:ET; [|constructor]. constructor; [|constructor]. split; [reflexivity|apply NW; exact ET]. }
  assert (MK2 : Forall param_ok (rp_to x ++ mt)) by (apply Forall_app; split; [apply RO|exact MK]).
  assert (AW2 : answered_with r v' (now ++ st) (rp_to x ++ mt) (after_answer rk rsp)).
  { apply (answered_after _ _ st mt); [exact AW|reflexivity|unfold rsp; rewrite set_vias_addrs; exact T1]. }
  destruct (IH _ _ _ FT ST2 MK2 AW2) as (r' & l & EA & LL & AW3 & NX).
  eexists r', (_ :: l). split; [|split; [|split]].
  - cbn [answer_all]. rewrite ES. cbn [rbind sd_tp sd_held h_msg]. rewrite EA. reflexivity.
  - cbn [length]. rewrite LL. reflexivity.
  - rewrite times_cons, marks_cons, <- !app_assoc. exact AW3.
  - intros [|i] y z H.
    + injection H as <- <-. eexists _, a, rsp, _. split; [reflexivity|]. split; [reflexivity|]. split; [reflexivity|]. split; [exact ER|]. cbn [firstn]. rewrite times_cons, marks_cons, <- !app_assoc. cbn [times marks rev map concat app]. split; [reflexivity|exact DL].
    + cbn [nth_error] in H. destruct (NX i y z H) as (s & a2 & rsp2 & text & W1 & W2 & W3 & W4 & W5 & W6). exists s, a2, rsp2, text. split; [exact W1|]. split; [exact W2|]. split; [exact W3|]. split; [exact W4|].
      change (firstn (S (S i)) ((x, w) :: xs)) with ((x, w) :: firstn (S i) xs). rewrite times_cons, marks_cons, <- !app_assoc. split; [exact W5|exact W6].
Qed.

(** * C107 *)
(** Transport [ta] sends the request [m]; it travels to transport [tb], which sees it come from [src]; the application there gives any number of
    answers, of which the i-th is [x]. Each is sent once, to the source of the request, is received and belongs to the request; its To has
    the parameters the application added to this and the earlier answers, the latest first. Afterwards the request is as it was received,
    with those parameters and the times of sending in front. *)
Theorem answers_all_arrive : forall ta tb wa m src stb xs,
  site_ok ta -> net_ok wa -> request_ok (n_rid wa) m -> source_ok src -> (forall t, stb = Some t -> token t) ->
  (forall v, vias m = [v] \/ vias m = [] /\ v = tp_via ta -> elsewhere_than tb v) -> Forall answer_given xs ->
  exists s a req text, Send ta (mkheld m false) wa = Ok s /\ sd_ok s = true /\ sd_wire s = [(a, req, text)] /\ says m req /\
  forall lhost lport, exists r, delivers lhost lport text src stb r /\ gets (n_rid wa) req r /\
  exists r' l, answer_all tb r xs = Ok (r', l) /\ length l = length xs /\
    (vias r' = with_first (in_front_via (times xs)) (vias r) /\ addrs r' To = with_first (in_front (marks xs)) (addrs r To) /\
     (forall f, f <> To -> addrs r' f = addrs r f) /\ set_vias [] (set_addrs (fun _ => []) r') = set_vias [] (set_addrs (fun _ => []) r)) /\
  forall i x w, nth_error xs i = Some (x, w) -> exists s2 b rsp text2, nth_error l i = Some s2 /\ sd_ok s2 = true /\ sd_wire s2 = [(b, rsp, text2)] /\
    n_resolve w (host_port (fst src) (Portstr (snd src))) = Some b /\
    vias rsp = with_first (in_front_via (times (firstn (S i) xs))) (vias r) /\
  forall lhost' lport', exists y, delivers lhost' lport' text2 (rp_src x) (rp_stamp x) y /\ answers req (marked (marks (firstn (S i) xs)) x) y.
Proof.
  intros ta tb wa m src stb xs SA NA RQ SO TK EL FX. destruct (send_request_ok ta wa m SA NA RQ) as (s & u & a & req & v & b & ES & EU & ER & EW & EO & OW & SY & E1 & E2).
  exists s, a, req, (msg_append (n_rid wa) req). split; [exact ES|]. split; [exact EO|]. split; [exact EW|]. split; [exact SY|]. intros lhost lport.
  destruct (request_arrives _ _ _ _ lhost lport src stb OW SO TK) as (r & v' & DL & GT & RV & AN & OK2 & SV). exists r. split; [exact DL|]. split; [exact GT|].
  assert (EV : elsewhere_than tb v).
  { destruct RQ as (_ & _ & _ & _ & _ & _ & _ & VG & _). unfold elsewhere_than. destruct VG as [V0|(v0 & V0 & _)].
    - destruct (E1 V0) as [-> ->]. exact (EL _ (or_intror (conj V0 eq_refl))).
    - destruct (E2 _ V0) as [-> ->]. exact (EL _ (or_introl V0)). }
  assert (A0 : answered_with r v' [] [] r).
  { split; [rewrite RV; destruct v'; reflexivity|]. split; [destruct (addrs r To) as [|[] k]; reflexivity|]. split; reflexivity. }
  destruct (answers_go_on _ _ _ _ tb src stb r v' OW (proj2 SO) EV GT RV AN OK2 SV xs [] [] r FX (Forall_nil _) (Forall_nil _) A0) as (r' & l & EA & LL & AW & NX).
  exists r', l. split; [exact EA|]. split; [exact LL|]. rewrite !app_nil_r in AW. rewrite RV. split; [exact AW|].
  intros i x w H. destruct (NX i x w H) as (s2 & a2 & rsp & text & W1 & W2 & W3 & W4 & W5 & W6). rewrite !app_nil_r in W5, W6. exists s2, a2, rsp, text. auto 10.
Qed.

(** An application which adds To parameters to the first answer only, its tag for instance: they are the To parameters of every answer. *)
Lemma marks_once x w xs i : Forall (fun xw => rp_to (fst xw) = []) xs -> marks (firstn (S i) ((x, w) :: xs)) = rp_to x.
Proof.
  intros F. cbn [firstn]. rewrite marks_cons. assert (E : marks (firstn i xs) = []); [|rewrite E; reflexivity].
  revert i. induction F as [|[y z] xs H F IH]; intros [|i]; [reflexivity|reflexivity|reflexivity|]. cbn [firstn]. rewrite marks_cons, IH. cbn in H. rewrite H. reflexivity.
Qed.
Theorem tag_added_once : forall ta tb wa m src stb x0 w0 xs,
  site_ok ta -> net_ok wa -> request_ok (n_rid wa) m -> source_ok src -> (forall t, stb = Some t -> token t) ->
  (forall v, vias m = [v] \/ vias m = [] /\ v = tp_via ta -> elsewhere_than tb v) -> Forall answer_given ((x0, w0) :: xs) -> Forall (fun xw => rp_to (fst xw) = []) xs ->
  exists s a req text, Send ta (mkheld m false) wa = Ok s /\ sd_wire s = [(a, req, text)] /\
  forall lhost lport, exists r, delivers lhost lport text src stb r /\
  exists r' l, answer_all tb r ((x0, w0) :: xs) = Ok (r', l) /\
  forall i x w, nth_error ((x0, w0) :: xs) i = Some (x, w) -> exists s2 b rsp text2, nth_error l i = Some s2 /\ sd_wire s2 = [(b, rsp, text2)] /\
  forall lhost' lport', exists y, delivers lhost' lport' text2 (rp_src x) (rp_stamp x) y /\
    ResponseMatch req y = true /\ status y = rp_status x /\ addrs y To = with_first (in_front (rp_to x0)) (map written_addr (addrs req To)).
Proof.
  intros ta tb wa m src stb x0 w0 xs SA NA RQ SO TK EL FX NX. destruct (answers_all_arrive ta tb wa m src stb _ SA NA RQ SO TK EL FX) as (s & a & req & text & ES & _ & EW & _ & D).
  exists s, a, req, text. split; [exact ES|]. split; [exact EW|]. intros lhost lport. destruct (D lhost lport) as (r & DL & _ & r' & l & EA & _ & _ & AX). exists r. split; [exact DL|]. exists r', l. split; [exact EA|].
  intros i x w H. destruct (AX i x w H) as (s2 & b & rsp & text2 & W1 & _ & W2 & _ & _ & W3). exists s2, b, rsp, text2. split; [exact W1|]. split; [exact W2|].
  intros lhost' lport'. destruct (W3 lhost' lport') as (y & Y1 & Y2 & Y3 & _ & _ & _ & Y4 & _). exists y. split; [exact Y1|]. split; [exact Y2|]. split; [exact Y3|]. rewrite marks_once in Y4 by exact NX. exact Y4.
Qed.

(** ** An answer is not as if it were the only one *)
(** An application which gives each of two answers a tag of its own (msg.To.Tag(), say): the second arrives with both. *)
Theorem two_tags_refuted : forall ta tb wa m src stb x1 w1 x2 w2 t1 t2,
  site_ok ta -> net_ok wa -> request_ok (n_rid wa) m -> source_ok src -> (forall t, stb = Some t -> token t) ->
  (forall v, vias m = [v] \/ vias m = [] /\ v = tp_via ta -> elsewhere_than tb v) -> Forall answer_given [(x1, w1); (x2, w2)] -> rp_to x1 = [(B "tag", t1)] -> rp_to x2 = [(B "tag", t2)] ->
  exists s a req text, Send ta (mkheld m false) wa = Ok s /\ sd_wire s = [(a, req, text)] /\
  forall lhost lport, exists r, delivers lhost lport text src stb r /\
  exists r' s1 s2 b rsp text2, answer_all tb r [(x1, w1); (x2, w2)] = Ok (r', [s1; s2]) /\ sd_wire s2 = [(b, rsp, text2)] /\
  forall lhost' lport', exists y, delivers lhost' lport' text2 (rp_src x2) (rp_stamp x2) y /\
    addrs y To = with_first (in_front [(B "tag", t2); (B "tag", t1)]) (map written_addr (addrs req To)).
Proof.
  intros ta tb wa m src stb x1 w1 x2 w2 t1 t2 SA NA RQ SO TK EL FX E1 E2. destruct (answers_all_arrive ta tb wa m src stb _ SA NA RQ SO TK EL FX) as (s & a & req & text & ES & _ & EW & _ & D).
  exists s, a, req, text. split; [exact ES|]. split; [exact EW|]. intros lhost lport. destruct (D lhost lport) as (r & DL & _ & r' & l & EA & LL & _ & AX). exists r. split; [exact DL|].
  destruct l as [|s1 [|s2 [|? ?]]]; try discriminate LL. destruct (AX 1%nat x2 w2 eq_refl) as (s2' & b & rsp & text2 & W1 & _ & W2 & _ & _ & W3). cbn in W1. injection W1 as <-.
  exists r', s1, s2, b, rsp, text2. split; [exact EA|]. split; [exact W2|]. intros lhost' lport'. destruct (W3 lhost' lport') as (y & Y1 & _ & _ & _ & _ & _ & Y4 & _). exists y. split; [exact Y1|].
  cbn [firstn] in Y4. rewrite !marks_cons, E1, E2 in Y4. exact Y4.
Qed.
(** If messages are stamped, the second answer is written with the time at which the first was sent as well. *)
Theorem two_times_refuted : forall ta tb wa m src stb x1 w1 x2 w2 t1 t2,
  site_ok ta -> net_ok wa -> request_ok (n_rid wa) m -> source_ok src -> (forall t, stb = Some t -> token t) ->
  (forall v, vias m = [v] \/ vias m = [] /\ v = tp_via ta -> elsewhere_than tb v) -> Forall answer_given [(x1, w1); (x2, w2)] -> n_stamp w1 = Some t1 -> n_stamp w2 = Some t2 ->
  exists s a req text, Send ta (mkheld m false) wa = Ok s /\ sd_wire s = [(a, req, text)] /\
  forall lhost lport, exists r, delivers lhost lport text src stb r /\
  exists r' s1 s2 b rsp text2, answer_all tb r [(x1, w1); (x2, w2)] = Ok (r', [s1; s2]) /\ sd_wire s2 = [(b, rsp, text2)] /\
    vias rsp = with_first (in_front_via [(B "usi", t2); (B "usi", t1)]) (vias r).
Proof.
  intros ta tb wa m src stb x1 w1 x2 w2 t1 t2 SA NA RQ SO TK EL FX E1 E2. destruct (answers_all_arrive ta tb wa m src stb _ SA NA RQ SO TK EL FX) as (s & a & req & text & ES & _ & EW & _ & D).
  exists s, a, req, text. split; [exact ES|]. split; [exact EW|]. intros lhost lport. destruct (D lhost lport) as (r & DL & _ & r' & l & EA & LL & _ & AX). exists r. split; [exact DL|].
  destruct l as [|s1 [|s2 [|? ?]]]; try discriminate LL. destruct (AX 1%nat x2 w2 eq_refl) as (s2' & b & rsp & text2 & W1 & _ & W2 & _ & W3 & _). cbn in W1. injection W1 as <-.
  exists r', s1, s2, b, rsp, text2. split; [exact EA|]. split; [exact W2|]. cbn [firstn] in W3. rewrite !times_cons, E1, E2 in W3. exact W3.
Qed.

(** ** Example: a text message, answered with 100 and a tag and then with 200; the conditions of the theorems are met *)
Definition ex_trying : reply := mkreply 100 [] [(B "tag", B "xyz")] [] [] None (B "1") (B "5.6.7.8", 40001) (Some (B "123")).
Definition ex_done : reply := mkreply 200 [] [] [] [] None (B "1") (B "5.6.7.8", 40001) None.
Theorem answers_example : site_ok ex_made /\ net_ok (ex_wnet "b") /\ request_ok (n_rid (ex_wnet "b")) ex_message /\ source_ok (B "1.2.3.4", 40000) /\
  (forall v, vias ex_message = [v] \/ vias ex_message = [] /\ v = tp_via ex_made -> elsewhere_than ex_peer v) /\
  Forall answer_given [(ex_trying, ex_wnet "b"); (ex_done, ex_wnet "b")] /\ Forall (fun xw => rp_to (fst xw) = []) [(ex_done, ex_wnet "b")].
Proof.
  destruct talk_example as (N1 & N2 & AO & _ & NB & RQ & VM & SO & RO & RID).
  split. { refine (proj1 (made_site _ _ _ _ _ N1 (Forall_inv AO) _ _ _ _)); [discriminate|reflexivity|unfold port_ok; lia|discriminate]. }
  split; [exact NB|]. split; [exact RQ|]. split; [exact SO|]. split.
  { intros v [E|[_ ->]]; [discriminate|]. left. intros E. vm_compute in E. discriminate. }
  destruct RO as (_ & Q2 & Q3 & Q4 & Q5 & Q6 & Q7 & Q8 & Q9 & Q10). split; [|repeat constructor]. constructor; [|constructor; [|constructor]]; (split; [exact NB|]; split; [|split; reflexivity]).
  - split; [cbn; lia|]. repeat (split; [assumption|]). exact Q10.
  - split; [cbn; lia|]. split; [constructor|]. split; [constructor|]. split; [constructor|]. split; [constructor|]. split; [constructor|]. split; [constructor|]. split; [discriminate|]. split; [discriminate|]. discriminate.
Qed.

Print Assumptions answers_all_arrive.
Print Assumptions tag_added_once.
Print Assumptions two_tags_refuted.
Print Assumptions two_times_refuted.
Print Assumptions answers_example.
