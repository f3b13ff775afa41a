(** C108: a transport does not wear out. Unless messages are stamped with the time, what is sent through a transport is what a new one would
    send; the stamps pile up in the transport's Via. *)
From Coq Require Import List ZArith Lia.
From Verif Require Import Bytes BytesLemmas GoLib GoLibLemmas SdpModel SdpProofs SipText SipTypes SipAppend UtilModel P_Text P_Lists UriSpec P_Uri MsgModel MsgSpec MsgGrammar P_MsgText MsgWf MsgRound P_MsgRound
  DialogMsg P_DialogMsg P_DialogWire TransportModel P_Transport P_TransportAt P_Received DialogModel P_DialogCount P_Written P_Call P_Talk P_CutSend.
Import ListNotations.
Local Open Scope Z_scope.

(** ** Specification *)
(** the transports an application gets from one by sending any messages through it, without time stamps (the default, dialog/trace.go:26) *)
Inductive used_quietly : transport -> transport -> Prop :=
| unused_quietly tp : used_quietly tp tp
| quietly_once_more tp h w s tp' : n_stamp w = None -> Send tp h w = Ok s -> used_quietly (sd_tp s) tp' -> used_quietly tp tp'.
(** what Send does as far as anyone but the transport sees: the message left behind, the datagrams, and what is returned *)
Definition outcome (r : res sending) : res (held * list (bytes * msg * bytes) * bool) :=
  match r with Ok s => Ok (sd_held s, sd_wire s, sd_ok s) | Panic => Panic end.
(** the same world, but another number is drawn for the branch *)
Definition with_branch (x : bytes) (w : net) : net :=
  mknet (mkdraws x (dr_tag (n_draws w)) (dr_callid (n_draws w)) (dr_cseq (n_draws w)) (dr_origin (n_draws w))) (n_stamp w) (n_resolve w) (n_write w) (n_rid w).

(** ** What Send does to the Via of the transport *)
Definition stamped (w : net) : list param := match n_stamp w with Some t => [(B "usi", t)] | None => [] end.
Lemma send_via tp h w s : Send tp h w = Ok s -> tp_contact (sd_tp s) = tp_contact tp /\
  (tp_via (sd_tp s) = tp_via tp \/ exists p, (p = [] \/ p = stamped w) /\ tp_via (sd_tp s) = set_vparam (p ++ with_value (B "branch") (GenerateBranch (dr_branch (n_draws w))) (v_param (tp_via tp))) (tp_via tp)).
Proof.
  destruct (IsResponse (view tp h)) eqn:IR; [intros S; rewrite (send_response_at _ _ _ _ IR S); split; [reflexivity|left; reflexivity]|].
  unfold Send. rewrite IR. cbv zeta. cbn [negb andb]. set (shared := h_shared h || match vias (view tp h) with [] => true | _ => false end).
  assert (SH : shared = true -> or_else (vias (view tp h)) [tp_via tp] = [tp_via tp]).
  { unfold shared. destruct (vias (view tp h)) eqn:E; [reflexivity|]. rewrite orb_false_r. intros X. revert E. unfold view. rewrite X. cbn. intros E. rewrite <- E. reflexivity. }
  clearbody shared. intros H. apply rbind_ok in H. destruct H as (m1 & P & H). destruct (populate_vias _ _ _ _ IR _ P) as (v & vl & EV & V1). destruct (populate_at _ _ _ _ IR _ P) as (_ & _ & _ & _ & ST). clear P.
  apply rbind_ok in H. destruct H as ([m2 r] & R & H). assert (IR1 : IsResponse m1 = false) by (unfold IsResponse in *; rewrite ST; exact IR).
  destruct (route_at _ _ _ _ _ IR1 R) as (V2 & _). rewrite V1 in V2. clear V1 R IR1.
  set (br := with_value (B "branch") (GenerateBranch (dr_branch (n_draws w))) (v_param (tp_via tp))).
  assert (L : forall m' wire ok p, (p = [] \/ p = stamped w) -> (shared = true -> vias m' = [set_vparam (p ++ br) (tp_via tp)]) ->
    tp_contact (sd_tp (left_behind tp shared m' wire ok)) = tp_contact tp /\ (tp_via (sd_tp (left_behind tp shared m' wire ok)) = tp_via tp \/
      exists p, (p = [] \/ p = stamped w) /\ tp_via (sd_tp (left_behind tp shared m' wire ok)) = set_vparam (p ++ br) (tp_via tp))).
  { intros m' wire ok p HP K. unfold left_behind. cbn [sd_tp]. destruct shared; [|auto]. rewrite (K eq_refl). cbn [tp_contact tp_via]. split; [reflexivity|]. right. exists p. auto. }
  assert (V3 : shared = true -> vias m2 = [set_vparam br (tp_via tp)]).
  { intros X. rewrite (SH X) in EV. injection EV as <- <-. exact V2. }
  destruct r as [[host port]|e]; [|injection H as <-; apply (L _ _ _ []); [auto|exact V3]]. destruct (n_resolve w _) as [a|]; [|injection H as <-; apply (L _ _ _ []); [auto|exact V3]].
  set (m3 := if 0 <? maxforwards m2 then _ else _) in *. assert (E3 : vias m3 = vias m2) by (unfold m3; destruct (0 <? maxforwards m2); reflexivity). clearbody m3. rewrite <- E3 in V3.
  apply rbind_ok in H. destruct H as (m4 & T & H). injection H as <-. apply (L _ _ _ (stamped w)); [auto|]. intros X. specialize (V3 X). unfold addTimestamp in T. unfold stamped. destruct (n_stamp w) as [t|] eqn:ET.
  - rewrite V3 in T. injection T as <-. reflexivity.
  - injection T as <-. exact V3.
Qed.

(** ** Without stamps *)
Definition as_new (tp0 tp : transport) : Prop :=
  tp_contact tp = tp_contact tp0 /\ (tp_via tp = tp_via tp0 \/ exists x, tp_via tp = set_vparam [(B "branch", GenerateBranch x)] (tp_via tp0)).
Lemma quiet_as_new tp0 tp tp' : v_param (tp_via tp0) = [] -> as_new tp0 tp -> used_quietly tp tp' -> as_new tp0 tp'.
Proof.
  intros NP A U. induction U as [tp|tp h w s tp' NS S U IH]; [exact A|]. apply IH. destruct A as (AC & AV). destruct (send_via _ _ _ _ S) as (SC & SV). split; [congruence|].
  destruct SV as [SV|(p & HP & SV)]; [rewrite SV; exact AV|]. assert (EP : p = []) by (destruct HP as [-> | ->]; [reflexivity|unfold stamped; rewrite NS; reflexivity]). rewrite EP in SV. cbn [app] in SV.
  right. destruct AV as [AV|(x & AV)]; rewrite AV in SV.
  - exists (dr_branch (n_draws w)). rewrite SV, NP. reflexivity.
  - exists x. rewrite SV. reflexivity.
Qed.

(** PopulateMessage with another Via of the same place *)
Definition tag_step (m : msg) (r : draws) : res msg :=
  match addrs m From with
  | [] => Panic
  | a :: l => match param_get (a_param a) (B "tag") with
              | None => Ok (set_addr From (set_aparam ((B "tag", GenerateTag (dr_tag r)) :: a_param a) a :: l) m)
              | Some _ => Ok m
              end
  end.
Definition branch_step (m : msg) (r : draws) : res msg :=
  match vias m with
  | [] => Panic
  | v :: l => match param_get (v_param v) (B "branch") with
              | None => Ok (set_vias (set_vparam ((B "branch", GenerateBranch (dr_branch r)) :: v_param v) v :: l) m)
              | Some _ => Ok m
              end
  end.
Definition id_step (m : msg) (r : draws) : res msg := match callid m with [] => let* c := GenerateCallID (dr_callid r) in Ok (set_callid c m) | _ => Ok m end.
Definition plain_steps (m : msg) (r : draws) : msg :=
  let m := if cseq m =? 0 then set_cseq (GenerateCSeq (dr_cseq r)) m else m in
  let m := match cseqmethod m with [] => set_cseqmethod (method m) m | _ => m end in
  let m := if maxforwards m =? 0 then set_maxforwards 70 m else m in
  match strs m UserAgent with [] => set_str UserAgent GosipUA m | _ => m end.
Definition from_step (m : msg) : res msg :=
  match addrs m From with
  | [] => match addr_Copy (addrs m Contact) with
          | [] => Panic
          | a :: l => let* u := deref (a_uri a) in Ok (set_addr From (set_auri (Some (set_uparam [] u)) a :: l) m)
          end
  | _ => Ok m
  end.
Definition first_steps (C : list addr) (m : msg) : msg :=
  let m := match addrs m Contact with [] => set_addr Contact C m | _ => m end in
  match addrs m To with [] => set_addr To [mkaddr (request m) [] []] m | _ => m end.
Definition core (C : list addr) (m : msg) (r : draws) : res msg :=
  let* m := from_step (first_steps C m) in let* m := id_step m r in tag_step (plain_steps m r) r.

Lemma populate_steps k C m r : IsResponse m = false -> vias m = [] ->
  PopulateMessage k C m r = let* m := from_step (first_steps C (set_vias k m)) in let* m := id_step m r in let* m := branch_step (plain_steps m r) r in tag_step m r.
Proof. intros IR VM. unfold PopulateMessage. rewrite IR, VM. reflexivity. Qed.
Lemma first_vias k C m : first_steps C (set_vias k m) = set_vias k (first_steps C m).
Proof. unfold first_steps. change (addrs (set_vias k m) Contact) with (addrs m Contact). destruct (addrs m Contact); cbv zeta.
  - change (addrs (set_addr Contact C (set_vias k m)) To) with (addrs (set_addr Contact C m) To). destruct (addrs (set_addr Contact C m) To); reflexivity.
  - change (addrs (set_vias k m) To) with (addrs m To). destruct (addrs m To); reflexivity.
Qed.
Lemma from_vias k m : from_step (set_vias k m) = let* m' := from_step m in Ok (set_vias k m').
Proof. unfold from_step. change (addrs (set_vias k m)) with (addrs m). destruct (addrs m From); [|reflexivity]. destruct (addr_Copy (addrs m Contact)) as [|a l]; [reflexivity|]. destruct (a_uri a); reflexivity. Qed.
Lemma id_vias k m r : id_step (set_vias k m) r = let* m' := id_step m r in Ok (set_vias k m').
Proof. unfold id_step. change (callid (set_vias k m)) with (callid m). destruct (callid m); [|reflexivity]. destruct (GenerateCallID _); reflexivity. Qed.
Lemma plain_vias k m r : plain_steps (set_vias k m) r = set_vias k (plain_steps m r).
Proof.
  unfold plain_steps. assert (E1 : (if cseq (set_vias k m) =? 0 then set_cseq (GenerateCSeq (dr_cseq r)) (set_vias k m) else set_vias k m) = set_vias k (if cseq m =? 0 then set_cseq (GenerateCSeq (dr_cseq r)) m else m)).
  { change (cseq (set_vias k m)) with (cseq m). destruct (cseq m =? 0); reflexivity. }
  rewrite E1. clear E1. generalize (if cseq m =? 0 then set_cseq (GenerateCSeq (dr_cseq r)) m else m). clear m. intros m. cbv zeta.
  assert (E2 : match cseqmethod (set_vias k m) with [] => set_cseqmethod (method (set_vias k m)) (set_vias k m) | _ => set_vias k m end = set_vias k (match cseqmethod m with [] => set_cseqmethod (method m) m | _ => m end)).
  { change (cseqmethod (set_vias k m)) with (cseqmethod m). destruct (cseqmethod m); reflexivity. }
  rewrite E2. clear E2. generalize (match cseqmethod m with [] => set_cseqmethod (method m) m | _ => m end). clear m. intros m.
  assert (E3 : (if maxforwards (set_vias k m) =? 0 then set_maxforwards 70 (set_vias k m) else set_vias k m) = set_vias k (if maxforwards m =? 0 then set_maxforwards 70 m else m)).
  { change (maxforwards (set_vias k m)) with (maxforwards m). destruct (maxforwards m =? 0); reflexivity. }
  rewrite E3. clear E3. generalize (if maxforwards m =? 0 then set_maxforwards 70 m else m). clear m. intros m.
  change (strs (set_vias k m)) with (strs m). destruct (strs m UserAgent); reflexivity.
Qed.
Lemma branch_vias v m r : branch_step (set_vias [v] m) r = Ok (set_vias [set_vparam (with_value (B "branch") (GenerateBranch (dr_branch r)) (v_param v)) v] m).
Proof. unfold branch_step, with_value. cbn [vias set_vias]. rewrite value_get. destruct (param_get (v_param v) (B "branch")) as [[n x]|]; [destruct v; reflexivity|reflexivity]. Qed.
Lemma tag_vias k m r : tag_step (set_vias k m) r = let* m' := tag_step m r in Ok (set_vias k m').
Proof. unfold tag_step. change (addrs (set_vias k m)) with (addrs m). destruct (addrs m From) as [|a l]; [reflexivity|]. destruct (param_get (a_param a) (B "tag")); reflexivity. Qed.

Lemma populate_core v C m r : IsResponse m = false -> vias m = [] ->
  PopulateMessage [v] C m r = let* m' := core C m r in Ok (set_vias [set_vparam (with_value (B "branch") (GenerateBranch (dr_branch r)) (v_param v)) v] m').
Proof.
  intros IR VM. rewrite (populate_steps _ _ _ _ IR VM), first_vias, from_vias. unfold core. destruct (from_step (first_steps C m)) as [m1|]; [|reflexivity]. cbn [rbind].
  rewrite id_vias. destruct (id_step m1 r) as [m2|]; [|reflexivity]. cbn [rbind]. rewrite plain_vias, branch_vias. cbn [rbind]. apply tag_vias.
Qed.
Lemma populate_branch v x C m r : IsResponse m = false -> vias m = [] -> v_param v = [] ->
  PopulateMessage [set_vparam [(B "branch", GenerateBranch x)] v] C m r = PopulateMessage [v] C m (mkdraws x (dr_tag r) (dr_callid r) (dr_cseq r) (dr_origin r)).
Proof.
  intros IR VM NP. rewrite !populate_core by assumption. change (core C m (mkdraws x (dr_tag r) (dr_callid r) (dr_cseq r) (dr_origin r))) with (core C m r). destruct (core C m r) as [m'|]; [|reflexivity]. cbn [rbind]. rewrite NP. reflexivity.
Qed.
(** a message with its own Via *)
Lemma populate_own k k' C m r : vias m <> [] -> PopulateMessage k C m r = PopulateMessage k' C m r.
Proof. intros N. unfold PopulateMessage. destruct (vias m); [congruence|reflexivity]. Qed.
Lemma populate_response k C m r : IsResponse m = true -> PopulateMessage k C m r = Ok m.
Proof. intros IR. unfold PopulateMessage. rewrite IR. reflexivity. Qed.
Lemma route_place v v' C m : v_host v' = v_host v -> v_port v' = v_port v -> RouteMessage [v'] C m = RouteMessage [v] C m.
Proof. intros H P. unfold RouteMessage. assert (E : via_CompareHostPort [v'] (vias m) = via_CompareHostPort [v] (vias m)) by (unfold via_CompareHostPort; rewrite H, P; reflexivity). rewrite E. reflexivity. Qed.

Definition drawn_before (x : option bytes) (m : msg) (w : net) : net := match x, vias m with Some x, [] => with_branch x w | _, _ => w end.

(** * C108 *)
(** After any use without time stamps a transport does what a new one does with the same message in the same world; only, once a branch was drawn
    for a request without Via, that is the one drawn for all others. *)
Theorem transport_as_new : forall contact lhost lport tp0 tp, NewTransport contact lhost lport = Ok tp0 -> used_quietly tp0 tp ->
  exists x, forall m w, outcome (Send tp (mkheld m false) w) = outcome (Send tp0 (mkheld m false) (drawn_before x m w)).
Proof.
  intros contact lhost lport tp0 tp N U. assert (NP : v_param (tp_via tp0) = []).
  { revert N. unfold NewTransport. destruct (addr_Copy contact) as [|a l]; [discriminate|]. intros H. apply rbind_ok in H. destruct H as (u & _ & H). injection H as <-. reflexivity. }
  assert (A0 : as_new tp0 tp0) by (split; auto). pose proof (quiet_as_new tp0 tp0 tp NP A0 U) as (AC & AV). clear A0 U N.
  assert (HP : v_host (tp_via tp) = v_host (tp_via tp0) /\ v_port (tp_via tp) = v_port (tp_via tp0)) by (destruct AV as [-> |(x & ->)]; split; reflexivity). destruct HP as (HH & HP).
  assert (LB : forall sh m1 wire ok, outcome (Ok (left_behind tp sh m1 wire ok)) = outcome (Ok (left_behind tp0 sh m1 wire ok))) by reflexivity.
  assert (REST : forall w w' sh (p : res msg), n_stamp w' = n_stamp w -> n_resolve w' = n_resolve w -> n_write w' = n_write w -> n_rid w' = n_rid w ->
    outcome (let* m := p in let* (m, r) := RouteMessage [tp_via tp] (tp_contact tp) m in
      match r with inr _ => Ok (left_behind tp sh m [] false) | inl (host, port) =>
        match n_resolve w (JoinHostPort host (Portstr port)) with None => Ok (left_behind tp sh m [] false) | Some a =>
          let m := if 0 <? maxforwards m then set_maxforwards (maxforwards m - 1) m else m in let* m := addTimestamp m (n_stamp w) in let text := msg_append (n_rid w) m in
          Ok (left_behind tp sh m [(a, m, text)] (n_write w a text)) end end) =
    outcome (let* m := p in let* (m, r) := RouteMessage [tp_via tp0] (tp_contact tp0) m in
      match r with inr _ => Ok (left_behind tp0 sh m [] false) | inl (host, port) =>
        match n_resolve w' (JoinHostPort host (Portstr port)) with None => Ok (left_behind tp0 sh m [] false) | Some a =>
          let m := if 0 <? maxforwards m then set_maxforwards (maxforwards m - 1) m else m in let* m := addTimestamp m (n_stamp w') in let text := msg_append (n_rid w') m in
          Ok (left_behind tp0 sh m [(a, m, text)] (n_write w' a text)) end end)).
  { intros w w' sh p -> -> -> ->. destruct p as [m1|]; [|reflexivity]. cbn [rbind]. rewrite (route_place (tp_via tp0) (tp_via tp) _ m1 HH HP), AC. destruct (RouteMessage [tp_via tp0] (tp_contact tp0) m1) as [[m2 [[host port]|e]]|]; [| |reflexivity]; cbn [rbind]; [|reflexivity].
    destruct (n_resolve w (JoinHostPort host (Portstr port))) as [a|]; [|reflexivity]. cbv zeta. destruct (addTimestamp _ (n_stamp w)) as [m4|]; reflexivity. }
  destruct AV as [AV|(x & AV)].
  - exists None. intros m w. unfold drawn_before. unfold Send. cbv zeta. assert (V1 : view tp (mkheld m false) = m) by reflexivity. assert (V2 : view tp0 (mkheld m false) = m) by reflexivity. rewrite V1, V2. cbn [h_shared].
    rewrite <- (REST w w _ _ eq_refl eq_refl eq_refl eq_refl). rewrite AV, AC. reflexivity.
  - exists (Some x). intros m w. unfold drawn_before. destruct (vias m) as [|v l] eqn:VM.
    + unfold Send. cbv zeta. assert (V1 : view tp (mkheld m false) = m) by reflexivity. assert (V2 : view tp0 (mkheld m false) = m) by reflexivity. rewrite V1, V2. cbn [h_shared].
      assert (EP : PopulateMessage [tp_via tp] (tp_contact tp) m (n_draws w) = PopulateMessage [tp_via tp0] (tp_contact tp0) m (n_draws (with_branch x w))).
      { destruct (IsResponse m) eqn:IR; [rewrite !populate_response by exact IR; reflexivity|]. rewrite AV, AC. apply populate_branch; assumption. }
      rewrite <- EP. apply REST; reflexivity.
    + unfold Send. cbv zeta. assert (V1 : view tp (mkheld m false) = m) by reflexivity. assert (V2 : view tp0 (mkheld m false) = m) by reflexivity. rewrite V1, V2. cbn [h_shared].
      assert (EP : PopulateMessage [tp_via tp] (tp_contact tp) m (n_draws w) = PopulateMessage [tp_via tp0] (tp_contact tp0) m (n_draws w)) by (rewrite AC; apply populate_own; congruence).
      rewrite <- EP. apply REST; reflexivity.
Qed.

(** ** With stamps *)
(** one request after another through one transport *)
Fixpoint send_all (tp : transport) (l : list (msg * net)) : res (transport * list sending) :=
  match l with
  | [] => Ok (tp, [])
  | (m, w) :: l => let* s := Send tp (mkheld m false) w in let* (tp', ss) := send_all (sd_tp s) l in Ok (tp', s :: ss)
  end.
(** the times in the order in which they are in the Via: the last first *)
Definition all_times (l : list (msg * net)) : list param := concat (map (fun mw => stamped (snd mw)) (rev l)).
Definition request_given_to (mw : msg * net) : Prop := net_ok (snd mw) /\ request_ok (n_rid (snd mw)) (fst mw) /\ vias (fst mw) = [].

(** no receiver with a smaller buffer delivers it *)
Definition unheard (text : bytes) : Prop := forall lhost lport src stamp buf, (length buf < length text)%nat -> TransportModel.receive lhost lport buf text src stamp = Ok (firstn (length buf) text, None).

Lemma send_plain tp m w : site_ok tp -> net_ok w -> request_ok (n_rid w) m -> vias m = [] ->
  exists s a req, Send tp (mkheld m false) w = Ok s /\ sd_ok s = true /\ sd_wire s = [(a, req, msg_append (n_rid w) req)] /\ (pay m <> None -> unheard (msg_append (n_rid w) req)) /\ vias req = [tp_via (sd_tp s)] /\
    tp_via (sd_tp s) = set_vparam (stamped w ++ with_value (B "branch") (GenerateBranch (dr_branch (n_draws w))) (v_param (tp_via tp))) (tp_via tp).
Proof.
  intros SA NW RQ VM. destruct (send_request_ok tp w m SA NW RQ) as (s & u & a & req & v & b & ES & EU & ER & EW & EO & OW & SY & _ & _). exists s, a, req. split; [exact ES|]. split; [exact EO|]. split; [exact EW|].
  split.
  { intros PM lhost lport src stamp buf L. destruct (long_message_lost_refuted tp w m src stamp SA NW RQ PM) as (s' & a' & req' & text' & E1 & _ & E3 & _ & E5). rewrite ES in E1. injection E1 as <-. rewrite EW in E3. injection E3 as _ _ <-. apply E5. exact L. }
  assert (IR : IsResponse m = false) by (unfold IsResponse; destruct RQ as (E & _); rewrite E; reflexivity).
  revert ES EW. unfold Send. assert (V1 : view tp (mkheld m false) = m) by reflexivity. rewrite V1. cbv zeta. cbn [h_shared]. rewrite IR, VM. cbn [negb andb orb]. rewrite (populate_core _ _ _ _ IR VM).
  destruct (core (tp_contact tp) m (n_draws w)) as [m1|] eqn:EC; [|discriminate]. cbn [rbind]. set (m2 := set_vias _ m1).
  destruct (RouteMessage [tp_via tp] (tp_contact tp) m2) as [[m3 r]|] eqn:R; [|discriminate]. cbn [rbind].
  assert (IR2 : IsResponse m2 = false).
  { assert (P : PopulateMessage [tp_via tp] (tp_contact tp) m (n_draws w) = Ok m2) by (rewrite (populate_core _ _ _ _ IR VM), EC; reflexivity). destruct (populate_at _ _ _ _ IR _ P) as (_ & _ & _ & _ & ST). unfold IsResponse in *. rewrite ST. exact IR. }
  destruct (route_at _ _ _ _ _ IR2 R) as (V3 & _). unfold m2 in V3. cbn [vias set_vias] in V3. clearbody m2.
  destruct r as [[host port]|e]; [|intros H W; injection H as <-; discriminate]. clear ER; destruct (n_resolve w (JoinHostPort host (Portstr port))) as [a'|]; [|intros H W; injection H as <-; discriminate].
  set (m4 := if 0 <? maxforwards m3 then _ else _). assert (E4 : vias m4 = vias m3) by (unfold m4; destruct (0 <? maxforwards m3); reflexivity). clearbody m4. rewrite V3 in E4.
  unfold addTimestamp, stamped. destruct (n_stamp w) as [t|].
  - rewrite E4. cbn [rbind]. intros H W. injection H as <-. unfold left_behind in W. cbn [sd_wire] in W. injection W as _ <- _. split; reflexivity.
  - cbn [rbind]. intros H W. injection H as <-. unfold left_behind in W |- *. cbn [sd_wire] in W. injection W as _ <- _. cbn [sd_tp]. rewrite E4. split; reflexivity.
Qed.

Lemma all_times_cons m w l : all_times ((m, w) :: l) = all_times l ++ stamped w.
Proof. unfold all_times. cbn [rev]. rewrite map_app, concat_app. cbn [map concat snd]. rewrite app_nil_r. reflexivity. Qed.
Lemma branch_kept p b b' st : value_of (B "branch") p = Some b' -> (forall q, In q st -> fst q = B "usi") -> with_value (B "branch") b (st ++ p) = st ++ p.
Proof.
  intros E F. assert (V : value_of (B "branch") (st ++ p) = Some b').
  { induction st as [|[n x] st IH]; [exact E|]. cbn [app]. assert (N : n = B "usi") by (apply (F (n, x)); left; reflexivity). rewrite N, value_skip by reflexivity. apply IH. intros q I. apply F. right. exact I. }
  unfold with_value. rewrite V. reflexivity.
Qed.
Lemma with_value_has n x p : equal_fold n n = true -> exists y, value_of n (with_value n x p) = Some y.
Proof. intros E. unfold with_value. destruct (value_of n p) as [y|] eqn:V; [exists y; exact V|]. exists x. apply value_head. exact E. Qed.

Lemma stamped_usi w q : In q (stamped w) -> fst q = B "usi".
Proof. unfold stamped. destruct (n_stamp w); [|intros []]. intros [<-|[]]. reflexivity. Qed.

Lemma via_piles : forall l tp st p b, site_ok tp -> Forall request_given_to l -> v_param (tp_via tp) = st ++ p -> value_of (B "branch") p = Some b -> (forall q, In q st -> fst q = B "usi") ->
  exists tp' ss, send_all tp l = Ok (tp', ss) /\ length ss = length l /\ site_ok tp' /\ tp_via tp' = set_vparam (all_times l ++ st ++ p) (tp_via tp) /\
  forall i m w, nth_error l i = Some (m, w) -> exists s a req, nth_error ss i = Some s /\ sd_ok s = true /\ sd_wire s = [(a, req, msg_append (n_rid w) req)] /\ (pay m <> None -> unheard (msg_append (n_rid w) req)) /\
    vias req = [set_vparam (all_times (firstn (S i) l) ++ st ++ p) (tp_via tp)].
Proof.
  induction l as [|[m w] l IH]; intros tp st p b SA F EP BP US.
  { exists tp, []. split; [reflexivity|]. split; [reflexivity|]. split; [exact SA|]. split; [cbn [all_times rev map concat app]; rewrite <- EP; destruct (tp_via tp); reflexivity|]. intros [|i] m w H; discriminate. }
  pose proof (Forall_inv F) as (NW & RQ & VM). pose proof (Forall_inv_tail F) as FT. cbn [fst snd] in NW, RQ, VM.
  destruct (send_plain tp m w SA NW RQ VM) as (s & a & req & ES & EO & EW & EH & EV & ET). pose proof (site_kept _ _ _ _ SA NW ES) as SK.
  rewrite EP, (branch_kept p _ b st BP US) in ET.
  destruct (IH (sd_tp s) (stamped w ++ st) p b SK FT) as (tp' & ss & E1 & E2 & E3 & E4 & E5); [rewrite ET; cbn [set_vparam v_param]; apply app_assoc|exact BP| |].
  { intros q I. apply in_app_or in I. destruct I as [I|I]; [apply (stamped_usi w); exact I|apply US; exact I]. }
  exists tp', (s :: ss). split; [cbn [send_all]; rewrite ES; cbn [rbind]; rewrite E1; reflexivity|]. split; [cbn [length]; rewrite E2; reflexivity|]. split; [exact E3|].
  split; [rewrite E4, ET, all_times_cons, <- !app_assoc; reflexivity|].
  intros [|i] m' w' H.
  - injection H as <- <-. exists s, a, req. split; [reflexivity|]. split; [exact EO|]. split; [exact EW|]. split; [exact EH|]. rewrite EV, ET. cbn [firstn]. rewrite all_times_cons. reflexivity.
  - cbn [nth_error] in H. destruct (E5 i m' w' H) as (s' & a' & req' & W1 & W2 & W3 & WH & W4). exists s', a', req'. split; [exact W1|]. split; [exact W2|]. split; [exact W3|]. split; [exact WH|].
    rewrite W4, ET. change (firstn (S (S i)) ((m, w) :: l)) with ((m, w) :: firstn (S i) l). rewrite all_times_cons, <- !app_assoc. reflexivity.
Qed.

(** Whatever is sent, one request after another and without Via: the Via of each has the times of all that were sent before it. *)
Theorem times_pile_up : forall l tp, site_ok tp -> Forall request_given_to l ->
  exists tp' ss p, send_all tp l = Ok (tp', ss) /\ length ss = length l /\ (exists b, value_of (B "branch") p = Some b) /\
  forall i m w, nth_error l i = Some (m, w) -> exists s a req, nth_error ss i = Some s /\ sd_ok s = true /\ sd_wire s = [(a, req, msg_append (n_rid w) req)] /\ (pay m <> None -> unheard (msg_append (n_rid w) req)) /\
    vias req = [set_vparam (all_times (firstn (S i) l) ++ p) (tp_via tp)].
Proof.
  intros [|[m w] l] tp SA F.
  { exists tp, [], [(B "branch", [])]. split; [reflexivity|]. split; [reflexivity|]. split; [eexists; apply value_head; reflexivity|]. intros [|i] m w H; discriminate. }
  pose proof (Forall_inv F) as (NW & RQ & VM). pose proof (Forall_inv_tail F) as FT. cbn [fst snd] in NW, RQ, VM.
  destruct (send_plain tp m w SA NW RQ VM) as (s & a & req & ES & EO & EW & EH & EV & ET). pose proof (site_kept _ _ _ _ SA NW ES) as SK.
  set (p := with_value _ _ _) in ET. assert (BP : exists b, value_of (B "branch") p = Some b) by (apply with_value_has; reflexivity). destruct BP as (b & BP).
  destruct (via_piles l (sd_tp s) (stamped w) p b SK FT) as (tp' & ss & E1 & E2 & E3 & E4 & E5); [rewrite ET; reflexivity|exact BP|apply stamped_usi|].
  exists tp', (s :: ss), p. split; [cbn [send_all]; rewrite ES; cbn [rbind]; rewrite E1; reflexivity|]. split; [cbn [length]; rewrite E2; reflexivity|]. split; [eauto|].
  intros [|i] m' w' H.
  - injection H as <- <-. exists s, a, req. split; [reflexivity|]. split; [exact EO|]. split; [exact EW|]. split; [exact EH|]. rewrite EV, ET. cbn [firstn]. rewrite all_times_cons. reflexivity.
  - cbn [nth_error] in H. destruct (E5 i m' w' H) as (s' & a' & req' & W1 & W2 & W3 & WH & W4). exists s', a', req'. split; [exact W1|]. split; [exact W2|]. split; [exact W3|]. split; [exact WH|].
    rewrite W4, ET. change (firstn (S (S i)) ((m, w) :: l)) with ((m, w) :: firstn (S i) l). rewrite all_times_cons, <- !app_assoc. reflexivity.
Qed.

Lemma param_append_app a b : param_append (a ++ b) = param_append b ++ param_append a.
Proof. induction a as [|[n v] a IH]; cbn [app param_append]; [rewrite app_nil_r; reflexivity|]. rewrite IH, <- app_assoc. reflexivity. Qed.
Lemma times_long l : Forall (fun mw : msg * net => n_stamp (snd mw) <> None) l -> (4 * length l <= length (param_append (all_times l)))%nat.
Proof.
  induction l as [|[m w] l IH]; intros F; [cbn; lia|]. rewrite all_times_cons, param_append_app, app_length. pose proof (IH (Forall_inv_tail F)). pose proof (Forall_inv F) as N. cbn [snd] in N. unfold stamped. destruct (n_stamp w) as [t|]; [|contradiction].
  cbn [param_append app]. rewrite app_length. change (length (B ";")) with 1%nat. rewrite app_length. change (length (appendSanitized tokenc (B "usi"))) with 3%nat. cbn [length]. lia.
Qed.
Lemma long_via rid m v : vias m = [v] -> (length (param_append (v_param v)) <= length (msg_append rid m))%nat.
Proof.
  intros E. unfold msg_append, head_lines. rewrite E. unfold via_lines. cbn [map concat]. rewrite app_nil_r. unfold via_append. rewrite !app_length. lia.
Qed.

(** With time stamps a transport does wear out: each is sent with success, but a receiver drops, once enough was sent before it, a message it would take from a new transport. *)
Theorem stamped_transport_unheard_refuted : forall l tp, site_ok tp -> Forall request_given_to l -> Forall (fun mw => n_stamp (snd mw) <> None) l ->
  exists tp' ss, send_all tp l = Ok (tp', ss) /\
  forall i m w, nth_error l i = Some (m, w) -> exists s a req text, nth_error ss i = Some s /\ sd_ok s = true /\ sd_wire s = [(a, req, text)] /\ (4 * S i <= length text)%nat /\
    (pay m <> None -> forall lhost lport src stamp buf, (length buf <= 4 * i)%nat -> TransportModel.receive lhost lport buf text src stamp = Ok (firstn (length buf) text, None)).
Proof.
  intros l tp SA F ST. destruct (times_pile_up l tp SA F) as (tp' & ss & p & E & _ & _ & H). exists tp', ss. split; [exact E|]. intros i m w N.
  destruct (H i m w N) as (s & a & req & E1 & E2 & E3 & E4 & E5). exists s, a, req, (msg_append (n_rid w) req). split; [exact E1|]. split; [exact E2|]. split; [exact E3|].
  assert (L : (4 * S i <= length (msg_append (n_rid w) req))%nat).
  { pose proof (long_via (n_rid w) req _ E5) as LV. cbn [v_param set_vparam] in LV. rewrite param_append_app, app_length in LV.
    pose proof (times_long (firstn (S i) l)) as LT. rewrite firstn_length_le in LT by (apply nth_error_Some; congruence).
    assert (FS : Forall (fun mw : msg * net => n_stamp (snd mw) <> None) (firstn (S i) l)) by (rewrite <- (firstn_skipn (S i) l) in ST; apply Forall_app in ST; exact (proj1 ST)). specialize (LT FS). lia. }
  split; [exact L|]. intros PM lhost lport src stamp buf LB. apply (E4 PM). lia.
Qed.

(** ** Examples: one text message after another; the conditions of the theorems are met *)
Definition ex_stamped : net := let w := ex_wnet "b" in mknet (n_draws w) (Some (B "1414141414141414")) (n_resolve w) (n_write w) (n_rid w).
Theorem as_new_example : NewTransport ex_app (B "1.2.3.4") 40000 = Ok ex_made /\
  exists tp, used_quietly ex_made tp /\ tp <> ex_made /\ exists s, Send tp (mkheld ex_message false) (ex_wnet "b") = Ok s /\ sd_ok s = true.
Proof.
  destruct talk_example as (N1 & _). split; [exact N1|]. exists (after (Send ex_made (mkheld ex_message false) (ex_wnet "a"))). split; [|split].
  - remember (Send ex_made (mkheld ex_message false) (ex_wnet "a")) as r eqn:E. destruct r as [s|]; [|vm_compute in E; discriminate]. eapply quietly_once_more; [|symmetry; exact E|apply unused_quietly]. reflexivity.
  - intros E. apply (f_equal (fun t => length (v_param (tp_via t)))) in E. vm_compute in E. discriminate.
  - eexists. split; vm_compute; reflexivity.
Qed.
(** the first such message is heard with a buffer of 2048 bytes; the 513th is not *)
Theorem worn_example : site_ok ex_made /\ Forall request_given_to (repeat (ex_message, ex_stamped) 513) /\ Forall (fun mw : msg * net => n_stamp (snd mw) <> None) (repeat (ex_message, ex_stamped) 513) /\
  (exists s a req text buf' d, Send ex_made (mkheld ex_message false) ex_stamped = Ok s /\ sd_wire s = [(a, req, text)] /\ TransportModel.receive (B "5.6.7.8") 40001 (repeat "000"%byte 2048) text (B "1.2.3.4", 40000) None = Ok (buf', Some d)) /\
  (exists tp' ss s a req text, send_all ex_made (repeat (ex_message, ex_stamped) 513) = Ok (tp', ss) /\ nth_error ss 512 = Some s /\ sd_ok s = true /\ sd_wire s = [(a, req, text)] /\
    TransportModel.receive (B "5.6.7.8") 40001 (repeat "000"%byte 2048) text (B "1.2.3.4", 40000) None = Ok (firstn 2048 text, None)).
Proof.
  destruct talk_example as (N1 & N2 & AO & _ & NB & RQ & VM & SO & RO & RID).
  assert (SA : site_ok ex_made). { refine (proj1 (made_site _ _ _ _ _ N1 (Forall_inv AO) _ _ _ _)); [discriminate|reflexivity|unfold port_ok; lia|discriminate]. }
  assert (F1 : Forall request_given_to (repeat (ex_message, ex_stamped) 513)).
  { apply Forall_forall. intros mw I. apply repeat_spec in I. subst mw. split; [|split; [exact RQ|exact VM]]. cbn [snd]. split; [discriminate|]. split; [reflexivity|]. split; [intros t E; injection E as <-; split; [discriminate|reflexivity]|]. repeat (split; [reflexivity|]). discriminate. }
  assert (F2 : Forall (fun mw : msg * net => n_stamp (snd mw) <> None) (repeat (ex_message, ex_stamped) 513)) by (apply Forall_forall; intros mw I; apply repeat_spec in I; subst mw; discriminate).
  split; [exact SA|]. split; [exact F1|]. split; [exact F2|]. split.
  - do 6 eexists. split; [vm_compute; reflexivity|]. split; [vm_compute; reflexivity|vm_compute; reflexivity].
  - destruct (stamped_transport_unheard_refuted _ _ SA F1 F2) as (tp' & ss & E & H). destruct (H 512%nat ex_message ex_stamped) as (s & a & req & text & E1 & E2 & E3 & _ & E4); [apply nth_error_repeat; lia|].
    exists tp', ss, s, a, req, text. split; [exact E|]. split; [exact E1|]. split; [exact E2|]. split; [exact E3|].
    assert (L : length (repeat "000"%byte 2048) = 2048%nat) by apply repeat_length. rewrite <- L at 2. apply E4; [discriminate|]. rewrite L. apply Nat.leb_le. vm_compute. reflexivity.
Qed.

Print Assumptions transport_as_new.
Print Assumptions times_pile_up.
Print Assumptions stamped_transport_unheard_refuted.
Print Assumptions as_new_example.
Print Assumptions worn_example.
