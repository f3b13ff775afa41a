(** C68, C69 and C70: what the application is told, and why. *)
From Verif Require Import Bytes BytesLemmas GoLib GoLibLemmas SdpModel SipText SipTypes SipAppend UtilModel P_Text P_Lists DialogMsg P_DialogMsg DialogModel P_DialogEnd P_Dialog P_DialogSafe P_DialogFail P_DialogPeer P_DialogRuns P_DialogCount P_DialogCall.
Local Open Scope Z_scope.

(** [m] is a response to the request that is outstanding *)
Definition matching (s : dstate) (m : msg) : Prop := sip2 m /\ callid m = callid (the_request s) /\ ResponseMatch (the_request s) m = true.
(** [m] is a request of the peer in this call *)
Definition asking (s : dstate) (m : msg) : Prop := sip2 m /\ callid m = callid (the_request s) /\ status m <= 0.
(** [m] carries a session description with audio at this address *)
Definition describes (m : msg) (ip : bytes) (port : Z) : Prop := exists d a, pay m = Some (PSdp d) /\ s_audio d = Some a /\ s_addr d = ip /\ m_port a = port.

(** ** Why something is reported: one turn *)
Inductive state_reason (s : dstate) : event -> Z -> Prop :=
| by_100 m : matching s m -> status m = 100 -> state_reason s (EMsg m) Proceeding
| by_180 m : matching s m -> status m = 180 \/ status m = 183 -> state_reason s (EMsg m) Ringing
| by_200 m : matching s m -> status m = 200 -> cseqmethod m = B "INVITE" -> remote s = None -> state_reason s (EMsg m) Answered
| by_bye m : asking s m -> method m = B "BYE" -> state_reason s (EMsg m) Hangup
| by_confirmation m : matching s m -> status m = 200 -> cseqmethod m = B "BYE" \/ cseqmethod m = B "CANCEL" -> state_reason s (EMsg m) Hangup
| by_hangup : ~ In (st s) [Proceeding; Ringing; Answered; Hangup] -> state_reason s EHangup Hangup.
Definition peer_reason (s : dstate) (e : event) (ip : bytes) (port : Z) : Prop :=
  exists m, e = EMsg m /\ describes m ip port /\ (matching s m /\ status m <= 200 \/ asking s m /\ method m = B "INVITE").
Definition error_reason (s : dstate) (e : event) (x : derr) : Prop :=
  match x with
  | DResponse m => e = EMsg m /\ matching s m /\ 200 < status m
  | DNoContact => exists m, e = EMsg m /\ matching s m /\ 200 <= status m /\ addrs m Contact = []
  | DVersion => exists m, e = EMsg m /\ ~ sip2 m
  | DRemoteLoop => exists m, e = EMsg m /\ asking s m /\ maxforwards m <= 0
  | _ => True
  end.
Definition reason (s : dstate) (e : event) (o : out) : Prop :=
  match o with OState n => state_reason s e n | OPeer ip port => peer_reason s e ip port | OErr x => error_reason s e x | OSend _ _ _ => True end.

(** [a] reports only what is in P *)
Definition reports (P : out -> Prop) (a : action) : Prop := forall s, Forall P (r_out (a s)).
Lemma reports_seq P a b : reports P a -> reports P b -> reports P (a ;; b).
Proof. intros A C s. unfold seq. cbv zeta. destruct (r_v (a s)); try apply A. cbn [r_out]. apply Forall_app. split; [apply A|apply C]. Qed.
Lemma reports_upd P f : reports P (upd f). Proof. intros s. constructor. Qed.
Lemma reports_crash P : reports P crash. Proof. intros s. constructor. Qed.
Lemma reports_halt P : reports P halt. Proof. intros s. constructor. Qed.
Lemma reports_emit (P : out -> Prop) o : P o -> reports P (emit o). Proof. intros H s. repeat constructor. exact H. Qed.
Lemma reports_fail (P : out -> Prop) e : P (OErr e) -> reports P (fail e). Proof. intros H. apply reports_seq; [apply reports_emit; exact H|apply reports_halt]. Qed.
Lemma reports_transition (P : out -> Prop) n : P (OState n) -> reports P (transition n). Proof. intros H. apply reports_seq; [apply reports_upd|apply reports_emit; exact H]. Qed.
Lemma reports_look {A} P (f : dstate -> A) k : (forall x, reports P (k x)) -> reports P (look f k). Proof. intros H s. apply H. Qed.
Lemma reports_val {A} P (x : res A) k : (forall a, reports P (k a)) -> reports P (val x k). Proof. intros H. destruct x; [apply H|apply reports_crash]. Qed.
Lemma reports_ask P cfg k : (forall w, reports P (k w)) -> reports P (ask cfg k). Proof. intros H s. apply (H _ (set_clock _ s)). Qed.
(** P allows what is not explained by the event: datagrams and errors of sockets, routing and name lookup *)
Definition allows (P : out -> Prop) : Prop := (forall to m t, P (OSend to m t)) /\ P (OErr DRoute) /\ P (OErr DLookup) /\ P (OErr DSocket) /\ P (OErr DLocalLoop) /\ forall d, P (OErr (DContact d)).
Lemma reports_send P cfg m keep : allows P -> reports P (send cfg m keep).
Proof.
  intros (A1 & A2 & A3 & A4 & A5 & A6). unfold send. apply reports_seq; [apply reports_upd|]. destruct (_ && _); [apply reports_fail; exact A5|]. apply reports_ask. intros w. apply reports_val. intros m2. apply reports_seq; [apply reports_upd|].
  apply reports_look. intros [k|]; [|apply reports_crash]. cbv zeta. destruct (w_write w _); [apply reports_emit; apply A1|apply reports_fail; exact A4].
Qed.
Lemma reports_pop P cfg rs : allows P -> reports P (pop_route cfg rs).
Proof.
  intros A. induction rs as [|a rest IH]; cbn [pop_route]; [apply reports_seq; [apply reports_upd|]; apply reports_look; intros; apply reports_fail; apply A|].
  do 2 (apply reports_seq; [apply reports_upd|]). apply reports_ask. intros w s. destruct (connect cfg w s) as [s1 ok]. destruct ok; [|exact (IH s1)]. cbn [negb]. destruct (so s1) as [k|]; [|exact (reports_crash P s1)].
  match goal with |- Forall P (r_out (?a s1)) => enough (T : reports P a) by exact (T s1) end. apply reports_val. intros m. apply reports_seq; [apply reports_upd|].
  apply reports_seq; [apply reports_look; intros n; destruct (n <? Answered); repeat (apply reports_seq; [apply reports_upd|]); apply reports_upd|]. do 2 (apply reports_seq; [apply reports_upd|]). apply reports_send. exact A.
Qed.
Lemma reports_popRoute P cfg : allows P -> reports P (popRoute cfg). Proof. intros A. apply reports_look. intros rs. apply reports_pop. exact A. Qed.
Lemma reports_sendRequest P cfg w : allows P -> reports P (sendRequest cfg w).
Proof.
  intros A. apply reports_look. intros m. apply reports_val. intros [m' r]. apply reports_seq; [apply reports_upd|].
  destruct r as [[host port]|e]; [|apply reports_fail; apply A]. apply reports_ask. intros x. apply reports_look. intros n. destruct (RouteAddress _ _ _ _); [|apply reports_fail; apply A]. do 3 (apply reports_seq; [apply reports_upd|]). apply reports_popRoute. exact A.
Qed.
Lemma reports_sdp (P : out -> Prop) m : (forall ip port, describes m ip port -> P (OPeer ip port)) -> reports P (checkSDP m).
Proof.
  intros H. unfold checkSDP. destruct (pay m) as [[|d]|] eqn:E; try apply reports_upd. destruct (s_audio d) as [a|] eqn:F; [|apply reports_crash]. apply reports_emit. apply H. exists d, a. auto.
Qed.
Ltac rp1 := match goal with
  | |- reports _ (upd _) => apply reports_upd
  | |- reports _ crash => apply reports_crash
  | |- reports _ halt => apply reports_halt
  | |- reports _ (send _ _ _) => apply reports_send; assumption
  | |- reports _ (popRoute _) => apply reports_popRoute; assumption
  | |- reports _ (sendRequest _ _) => apply reports_sendRequest; assumption
  | |- reports _ (fail _) => apply reports_fail
  | |- reports _ (transition _) => apply reports_transition
  | |- reports _ (checkSDP _) => apply reports_sdp
  | |- reports _ (look _ _) => apply reports_look; intros
  | |- reports _ (val _ _) => apply reports_val; intros
  | |- reports _ (_ ;; _) => apply reports_seq
  | |- reports _ (if ?b then _ else _) => destruct b
  | |- reports _ (match ?x with _ => _ end) => destruct x end.
Lemma reason_allows s e : allows (reason s e). Proof. repeat split. Qed.
Lemma response_reasons cfg s m : sip2 m -> callid m = callid (the_request s) -> Forall (reason s (EMsg m)) (r_out (handleResponse cfg m s)).
Proof.
  intros V C. pose proof (reason_allows s (EMsg m)) as A. unfold handleResponse, look at 1. destruct (ResponseMatch (the_request s) m) eqn:M; cbn [negb]; [|constructor].
  assert (MA : matching s m) by (repeat split; try assumption; apply V).
  assert (P1 : status m <= 200 -> forall ip port, describes m ip port -> reason s (EMsg m) (OPeer ip port)) by (intros L ip port D; exists m; auto).
  assert (P2 : status m = 100 -> reason s (EMsg m) (OState Proceeding)) by (intros E; apply by_100; assumption).
  assert (P3 : status m = 180 \/ status m = 183 -> reason s (EMsg m) (OState Ringing)) by (intros E; apply by_180; assumption).
  assert (P4 : status m = 200 -> cseqmethod m = B "INVITE" -> remote s = None -> reason s (EMsg m) (OState Answered)) by (intros; apply by_200; assumption).
  assert (P5 : status m = 200 -> cseqmethod m = B "BYE" \/ cseqmethod m = B "CANCEL" -> reason s (EMsg m) (OState Hangup)) by (intros; apply by_confirmation; assumption).
  assert (P6 : 200 < status m -> reason s (EMsg m) (OErr (DResponse m))) by (intros L; repeat split; try assumption; apply V).
  assert (P7 : 200 <= status m -> addrs m Contact = [] -> reason s (EMsg m) (OErr DNoContact)) by (intros L E; exists m; auto).
  set (R := remote s) in *. set (P := reason s (EMsg m)) in *.
  (* the remembered message is looked at after steps which do not change it *)
  assert (K : forall a b : action, reports P a -> (forall s, remote (r_state (a s)) = remote s) -> (forall z, remote z = R -> Forall P (r_out (b z))) -> forall z, remote z = R -> Forall P (r_out ((a ;; b) z))).
  { intros a b HA HR HB z Z. unfold seq. cbv zeta. destruct (r_v (a z)); try apply HA. cbn [r_out]. apply Forall_app. split; [apply HA|]. apply HB. rewrite HR. exact Z. }
  assert (RS : remote s = R) by reflexivity. set (q := the_request s). clearbody q P R. revert RS. generalize s. clear MA V C M s.
  apply K. { destruct (Z.leb_spec 200 (status m)); cbn [andb]; [|rp1]. destruct (bseq _ _); [|rp1]. destruct (addrs m Contact) eqn:E; [rp1; auto|repeat rp1]. }
  { intros s. destruct (_ && _); [|reflexivity]. destruct (addrs m Contact); [reflexivity|]. destruct (NewAck m q); [|reflexivity]. cbn [val]. rewrite send_eq. unfold drop. cbv zeta. destruct (_ =? 1); [reflexivity|]. destruct (addTimestamp _ _); [|reflexivity]. destruct (so _); [|reflexivity]. destruct (w_write _ _); reflexivity. }
  apply K; [rp1|reflexivity|]. apply K; [rp1|reflexivity|]. apply K.
  { destruct (Z.leb_spec (status m) 200); [rp1; auto|rp1]. }
  { intros s. destruct (_ <=? _); [|reflexivity]. unfold checkSDP. destruct (pay m) as [[|d]|]; try reflexivity. destruct (s_audio d); reflexivity. }
  intros z Z. destruct (Z.eqb_spec (status m) 100); [apply reports_transition; auto|]. destruct (orb (status m =? 180) _) eqn:O; [apply reports_transition; apply P3; apply orb_true_iff in O; rewrite !Z.eqb_eq in O; exact O|].
  destruct (Z.eqb_spec (status m) 200).
  - destruct (bseq_reflect (cseqmethod m) (B "INVITE")) as [CI|CI].
    + unfold seq, look. rewrite Z. cbv zeta. destruct R; [constructor|]. cbn. constructor; [auto|constructor].
    + destruct (bseq (cseqmethod m) (B "BYE") || bseq (cseqmethod m) (B "CANCEL"))%bool eqn:Q; [|constructor]. cbn. constructor; [|constructor]. apply P5; [assumption|]. apply orb_true_iff in Q. destruct (bseq_reflect (cseqmethod m) (B "BYE")); [auto|]. destruct (bseq_reflect (cseqmethod m) (B "CANCEL")); [auto|]. destruct Q; discriminate.
  - enough (T : reports P (if status m =? 503 then look req (fun r => match r with None => look so (fun k => match k with Some _ => popRoute cfg | None => crash end) | Some _ => fail (DResponse m) end)
      else if (status m =? 301) || (status m =? 302) then val (uri_of (addrs m Contact)) (fun u => upd (fun s => set_invite (set_addr Route [] (set_request u (invite s))) s) ;; sendRequest cfg None)
      else if 200 <? status m then fail (DResponse m) else upd (fun s => s))) by exact (T z).
    clear O. destruct (Z.eqb_spec (status m) 503); [destruct (Z.ltb_spec 200 (status m)); [repeat (rp1; auto)|lia]|]. destruct (orb _ _); [repeat rp1|]. destruct (Z.ltb_spec 200 (status m)); [rp1; apply P6; assumption|rp1].
Qed.
Lemma request_reasons cfg s m : sip2 m -> callid m = callid (the_request s) -> status m <= 0 -> Forall (reason s (EMsg m)) (r_out (handleRequest cfg m s)).
Proof.
  intros V C S. pose proof (reason_allows s (EMsg m)) as A. assert (AK : asking s m) by (repeat split; try assumption; apply V).
  assert (P1 : method m = B "INVITE" -> forall ip port, describes m ip port -> reason s (EMsg m) (OPeer ip port)) by (intros L ip port D; exists m; auto).
  assert (P2 : method m = B "BYE" -> reason s (EMsg m) (OState Hangup)) by (intros E; apply by_bye; assumption).
  assert (P3 : maxforwards m <= 0 -> reason s (EMsg m) (OErr DRemoteLoop)) by (intros L; exists m; auto).
  set (P := reason s (EMsg m)) in *. clearbody P. revert s V C AK. enough (T : reports P (handleRequest cfg m)) by (intros; apply T).
  unfold handleRequest, sendResponse. destruct (Z.leb_spec (maxforwards m) 0); [repeat (rp1; auto)|]. rp1. destruct (_ && _); [rp1|]. rp1; [rp1|].
  destruct (bseq_reflect (method m) (B "BYE")); [repeat (rp1; auto)|]. destruct (bseq _ _); [rp1|]. destruct (bseq_reflect (method m) (B "INVITE")); [repeat (rp1; auto)|]. repeat rp1.
Qed.

(** * C68, C69, C70: everything that is reported has its reason in the event that is being handled. *)
Theorem reported_for_a_reason : forall cfg e s, Forall (reason s e) (r_out (handle cfg e s)).
Proof.
  intros cfg e s. pose proof (reason_allows s e) as A. pose proof A as (_ & _ & _ & A4 & _ & _).
  destruct e as [[|]| | | |m|]; cbn [handle].
  - set (P := reason _ _) in *. clearbody P. match goal with |- Forall P (r_out (?a s)) => enough (T : reports P a) by exact (T s) end. repeat (rp1; auto).
  - set (P := reason _ _) in *. clearbody P. match goal with |- Forall P (r_out (?a s)) => enough (T : reports P a) by exact (T s) end. repeat (rp1; auto).
  - set (P := reason _ _) in *. clearbody P. match goal with |- Forall P (r_out (?a s)) => enough (T : reports P a) by exact (T s) end. repeat (rp1; auto).
  - set (P := reason _ _) in *. clearbody P. match goal with |- Forall P (r_out (?a s)) => enough (T : reports P a) by exact (T s) end. unfold resendRequest. repeat (rp1; auto).
  - set (P := reason _ _) in *. clearbody P. match goal with |- Forall P (r_out (?a s)) => enough (T : reports P a) by exact (T s) end. unfold resendResponse. repeat (rp1; auto).
  - unfold handleMessage. destruct (negb (vmaj m =? 2) || negb (vmin m =? 0)) eqn:V.
    + assert (NV : ~ sip2 m) by (intros X; rewrite (version_ok _ X) in V; discriminate). assert (PV : reason s (EMsg m) (OErr DVersion)) by (exists m; auto). set (P := reason _ _) in *. clearbody P.
      match goal with |- Forall P (r_out (?a s)) => enough (T : reports P a) by exact (T s) end. repeat (rp1; auto).
    + assert (V2 : sip2 m) by (unfold sip2; destruct (Z.eqb_spec (vmaj m) 2), (Z.eqb_spec (vmin m) 0); try discriminate; auto). unfold look at 1. destruct (bseq_reflect (callid m) (callid (the_request s))) as [C|C]; cbn [negb]; [|apply reports_send; exact A].
      unfold IsResponse. destruct (Z.ltb_spec 0 (status m)); [apply response_reasons; assumption|apply request_reasons; [assumption|assumption|lia]].
  - unfold sendHangup, look at 1. destruct (orb (st s =? Proceeding) _) eqn:O; [apply (reports_look _ _ _ (fun c => reports_send _ _ _ _ A))|]. destruct (Z.eqb_spec (st s) Answered).
    { unfold look at 1. destruct (remote s) as [rm|]; [|constructor]. destruct (NewBye _ _ _) as [[b n]|]; [|constructor]. cbn [val]. apply (reports_seq _ _ _ (reports_upd _ _) (reports_sendRequest _ _ _ A)). }
    destruct (Z.eqb_spec (st s) Hangup); [constructor|]. cbn. constructor; [|constructor]. apply by_hangup. apply orb_false_iff in O. destruct O as [O1 O2]. apply Z.eqb_neq in O1, O2. intros [X|[X|[X|[X|[]]]]]; congruence.
Qed.

(** The same over a whole execution: what was reported was reported while placing the call, or while handling one of the events, for a
    reason found in that event and in the state the dialog had reached. *)
Theorem reported_over_time : forall cfg m es r o, dialog cfg m es r -> In o (r_out r) ->
  In o (r_out (start cfg m)) \/ exists es1 e es2 r1, es = es1 ++ e :: es2 /\ dialog cfg m es1 r1 /\ reason (r_state r1) e o.
Proof.
  intros cfg m es r o D I. unfold dialog in *. set (r0 := start cfg m) in *. clearbody r0. revert I. induction D as [r|r e es r' V EN D IH]; intros I; [left; exact I|].
  destruct (IH I) as [J|(es1 & e' & es2 & r1 & -> & J & X)].
  - cbn [r_out] in J. apply in_app_or in J. destruct J as [J|J]; [left; exact J|]. right. exists [], e, es, r. split; [reflexivity|]. split; [constructor|]. exact (proj1 (Forall_forall _ _) (reported_for_a_reason cfg e (r_state r)) o J).
  - right. exists (e :: es1), e', es2, r1. split; [reflexivity|]. split; [|exact X]. econstructor; [exact V|exact EN|exact J].
Qed.
(** placing the call reports no state and no peer *)
Lemma start_reports cfg m : Forall (fun o => match o with OState _ | OPeer _ _ | OErr (DResponse _) => False | _ => True end) (r_out (start cfg m)).
Proof. unfold start. set (P := fun o : out => _). assert (A : allows P) by (repeat split). apply (reports_sendRequest P cfg None A). Qed.

(** The state of a dialog is one of the four. *)
Definition four (n : Z) : Prop := In n [Proceeding; Ringing; Answered; Hangup].
Lemma start_state cfg m : st (r_state (start cfg m)) = Proceeding.
Proof.
  unfold start. assert (X : forall a, moves (fun n => n = Proceeding) a -> st (r_state (a (init m))) = Proceeding) by (intros a H; destruct (H (init m)) as [E _]; destruct E as [E|E]; exact E).
  apply X. apply moves_sendRequest.
Qed.
Lemma state_four cfg m es r : dialog cfg m es r -> four (st (r_state r)).
Proof.
  intros D. unfold dialog in D. assert (F : four (st (r_state (start cfg m)))) by (rewrite start_state; left; reflexivity). revert F. induction D as [r|r e es r' V EN D IH]; intros F; [exact F|]. apply IH. cbn [r_state].
  destruct (Z.eq_dec (st (r_state r)) (st (r_state (handle cfg e (r_state r))))) as [E|E]; [rewrite <- E; exact F|].
  destruct (going_back_partial cfg e (r_state r) (st (r_state (handle cfg e (r_state r))))) as [X|[X|(x & _ & [[X _]|[X _]] & _)]]; [right; split; [reflexivity|exact E]| | | |]; unfold four; rewrite X; cbn; auto.
Qed.
(** Over a whole execution, a state or an address is reported only because of a message of the peer; the state of the dialog at that time is [s]. *)
Theorem told_by_the_peer : forall cfg m es r o, dialog cfg m es r -> In o (r_out r) -> (exists n, o = OState n) \/ (exists ip port, o = OPeer ip port) ->
  exists es1 x es2 r1, es = es1 ++ EMsg x :: es2 /\ dialog cfg m es1 r1 /\ reason (r_state r1) (EMsg x) o.
Proof.
  intros cfg m es r o D I K. destruct (reported_over_time _ _ _ _ _ D I) as [J|(es1 & e & es2 & r1 & E & D1 & R)].
  - pose proof (proj1 (Forall_forall _ _) (start_reports cfg m) _ J) as F. destruct K as [(n & ->)|(ip & port & ->)]; destruct F.
  - exists es1. destruct K as [(n & ->)|(ip & port & ->)]; cbn [reason] in R.
    + pose proof (state_four _ _ _ _ D1) as F4. destruct R as [x A C|x A C|x A C C2 C3|x A C|x A C C2|N]; try (exists x, es2, r1; split; [exact E|]; split; [exact D1|]; cbn [reason]).
      * apply by_100; assumption. * apply by_180; assumption. * apply by_200; assumption. * apply by_bye; assumption. * apply by_confirmation; assumption. * contradiction.
    + destruct R as (x & -> & R). exists x, es2, r1. split; [exact E|]. split; [exact D1|]. exists x. split; [reflexivity|exact R].
Qed.

(** ** What is reported: the other direction *)
Definition media (m : msg) : list out := match pay m with Some (PSdp d) => match s_audio d with Some a => [OPeer (s_addr d) (m_port a)] | None => [] end | _ => [] end.
(** a session without audio crashes the dialog, see video_only_refuted *)
Definition has_audio (m : msg) : Prop := forall d, pay m = Some (PSdp d) -> s_audio d <> None.
Definition progress (n : Z) : list out := if n =? 100 then [OState Proceeding] else if (n =? 180) || (n =? 183) then [OState Ringing] else [].
Definition last_state (l : list out) (n : Z) : Z := fold_left (fun n o => match o with OState k => k | _ => n end) l n.
(* what handleResponse does after acknowledging: dialog/dialog.go:312-353 *)
Definition after_ack (cfg : config) (m : msg) : action :=
  if status m =? 100 then transition Proceeding
  else if (status m =? 180) || (status m =? 183) then transition Ringing
  else if status m =? 200 then
    if bseq (cseqmethod m) (B "INVITE") then
      look remote (fun r => match r with None => transition Answered | Some _ => upd (fun s => s) end) ;; upd (set_remote (Some m))
    else if bseq (cseqmethod m) (B "BYE") || bseq (cseqmethod m) (B "CANCEL") then transition Hangup ;; halt
    else upd (fun s => s)
  else if status m =? 503 then
    look req (fun r => match r with
      | None => look so (fun k => match k with Some _ => popRoute cfg | None => crash end)
      | Some _ => fail (DResponse m)
      end)
  else if (status m =? 301) || (status m =? 302) then
    val (uri_of (addrs m Contact)) (fun u => upd (fun s => set_invite (set_addr Route [] (set_request u (invite s))) s) ;; sendRequest cfg None)
  else if 200 <? status m then fail (DResponse m)
  else upd (fun s => s).
Lemma matching_split cfg s m : matching s m -> 0 < status m -> handle cfg (EMsg m) s =
  ((if (200 <=? status m) && bseq (method (the_request s)) (B "INVITE") then match addrs m Contact with [] => fail DNoContact | _ => val (NewAck m (the_request s)) (fun ack => send cfg ack drop) end else upd (fun s => s)) ;;
   upd (set_routes []) ;; upd (set_rtimer false) ;; (if status m <=? 200 then checkSDP m else upd (fun s => s)) ;; after_ack cfg m) s.
Proof. intros (V & C & M) S. cbn [handle]. unfold handleMessage. rewrite (version_ok _ V). unfold look at 1. rewrite C, bseq_refl. unfold IsResponse. destruct (Z.ltb_spec 0 (status m)); [|lia]. cbn [negb]. unfold handleResponse, look at 1. rewrite M. reflexivity. Qed.
Lemma media_no_state m l n : last_state (media m ++ l) n = last_state l n.
Proof. unfold media. destruct (pay m) as [[|d]|]; try reflexivity. destruct (s_audio d); reflexivity. Qed.
Lemma after_provisional cfg m s : 100 <= status m < 200 -> after_ack cfg m s = mkres (set_st (last_state (progress (status m)) (st s)) s) (progress (status m)) Cont.
Proof.
  intros S. unfold after_ack, progress. destruct (Z.eqb_spec (status m) 100); [reflexivity|]. destruct ((status m =? 180) || (status m =? 183)); [reflexivity|].
  destruct (Z.eqb_spec (status m) 200); [lia|]. destruct (Z.eqb_spec (status m) 503); [lia|]. replace ((status m =? 301) || (status m =? 302)) with false by (symmetry; apply orb_false_iff; split; apply Z.eqb_neq; lia).
  destruct (Z.ltb_spec 200 (status m)); [lia|]. destruct s; reflexivity.
Qed.
(** A provisional response is reported at once: first the address for audio, then the state. *)
Theorem provisional_told : forall cfg s m, matching s m -> 100 <= status m < 200 -> has_audio m -> let r := handle cfg (EMsg m) s in
  r_v r = Cont /\ r_out r = media m ++ progress (status m) /\ st (r_state r) = last_state (r_out r) (st s) /\ rtimer (r_state r) = false /\ remote (r_state r) = remote s /\ the_request (r_state r) = the_request s.
Proof.
  intros cfg s m MA S AU. cbv zeta. rewrite (matching_split _ _ _ MA) by lia. destruct (Z.leb_spec 200 (status m)); [lia|]. cbn [andb]. rewrite !upd_seq.
  destruct (Z.leb_spec (status m) 200); [|lia]. rewrite seq_eq, (sdp_reported _ _ AU). fold (media m). cbn [r_v r_state r_out]. rewrite (after_provisional _ _ _ S). cbn [r_v r_state r_out]. rewrite media_no_state. repeat split.
Qed.
Lemma after_answer cfg m s : status m = 200 -> cseqmethod m = B "INVITE" -> let l := match remote s with None => [OState Answered] | Some _ => [] end in
  after_ack cfg m s = mkres (set_remote (Some m) (set_st (last_state l (st s)) s)) l Cont.
Proof. intros S C. unfold after_ack. rewrite S, C. destruct s as [? ? ? ? ? ? ? [r|] ? ? ? ? ? ? ? ? ?]; reflexivity. Qed.
Lemma matching_method s m : matching s m -> cseqmethod m = method (the_request s).
Proof. intros (_ & _ & M). unfold ResponseMatch in M. rewrite !andb_true_iff in M. destruct M as ((((_ & _) & M) & _) & _). destruct (bseq_reflect (cseqmethod m) (method (the_request s))); congruence. Qed.
(** The final response to the INVITE of a peer which gave a Contact: the ACK is the first thing to be sent, or the socket fails. Then ... *)
Lemma after_final cfg s m k c cs : so s = Some k -> matching s m -> method (the_request s) = B "INVITE" -> 200 <= status m -> addrs m Contact = c :: cs ->
  let r := handle cfg (EMsg m) s in r_out r = [OErr DSocket] /\ r_v r = Halt \/
  exists n ack text, method ack = B "ACK" /\ let r' := ((if status m <=? 200 then checkSDP m else upd (fun s => s)) ;; after_ack cfg m) (set_rtimer false (set_routes [] (set_clock n s))) in
    r_state r = r_state r' /\ r_out r = OSend (so_remote k) ack text :: r_out r' /\ r_v r = r_v r'.
Proof.
  intros K MA I S CT. cbv zeta. rewrite (matching_split _ _ _ MA) by lia. rewrite I, bseq_refl, CT. destruct (Z.leb_spec 200 (status m)); [|lia]. cbn [andb]. destruct MA as (_ & _ & M).
  destruct (match_via _ _ M) as (v & l & VV). destruct (new_ack m (the_request s) _ _ _ _ CT VV) as (ack & EA & MA & _ & _ & _ & _ & _ & _ & _ & VA & MF). rewrite EA. cbn [val].
  match goal with |- context[(send cfg ack drop ;; ?b) s] => destruct (sent_then cfg ack s k b K MF) as [n [X|(vs & text & X)]]; [rewrite VA; discriminate| |] end; rewrite X; [left; split; reflexivity|].
  right. exists n, (set_vias vs ack), text. split; [exact MA|]. cbn [r_state r_out r_v]. rewrite !upd_seq. repeat split.
Qed.
(** ... if it is 200: the address for audio is reported, and Answered if this is the first answer; the message is remembered. *)
Theorem answer_told : forall cfg s m k c cs, so s = Some k -> matching s m -> method (the_request s) = B "INVITE" -> status m = 200 -> addrs m Contact = c :: cs -> has_audio m -> let r := handle cfg (EMsg m) s in
  r_out r = [OErr DSocket] /\ r_v r = Halt \/
  exists ack text, method ack = B "ACK" /\ r_out r = OSend (so_remote k) ack text :: media m ++ match remote s with None => [OState Answered] | Some _ => [] end /\
    r_v r = Cont /\ st (r_state r) = last_state (r_out r) (st s) /\ remote (r_state r) = Some m /\ rtimer (r_state r) = false.
Proof.
  intros cfg s m k c cs K MA I S CT AU. cbv zeta. destruct (after_final cfg s m k c cs K MA I) as [X|(n & ack & text & MK & X)]; [lia|exact CT|left; exact X|]. right. exists ack, text. split; [exact MK|]. cbv zeta in X. destruct X as (-> & -> & ->).
  rewrite S. cbn [Z.leb Z.compare Pos.compare Pos.compare_cont]. rewrite seq_eq, (sdp_reported _ _ AU). fold (media m). cbn [r_v r_state r_out]. rewrite (after_answer cfg m _ S) by (rewrite (matching_method _ _ MA); exact I). cbn [r_v r_state r_out].
  change (remote (set_rtimer _ _)) with (remote s). split; [reflexivity|]. split; [reflexivity|]. split; [|split; reflexivity]. unfold last_state at 2. cbn [fold_left]. fold (last_state (media m ++ match remote s with Some _ => [] | None => [OState Answered] end) (st s)). rewrite media_no_state. reflexivity.
Qed.
(** ... if it is a refusal: the response itself is reported as the error, and the dialog ends. *)
Definition refusal (m : msg) : Prop := 200 < status m /\ status m <> 301 /\ status m <> 302 /\ status m <> 503.
Lemma after_refusal cfg m s : refusal m -> ((if status m <=? 200 then checkSDP m else upd (fun s => s)) ;; after_ack cfg m) s = mkres s [OErr (DResponse m)] Halt.
Proof.
  intros (S & N1 & N2 & N3). destruct (Z.leb_spec (status m) 200); [lia|]. rewrite upd_seq. unfold after_ack. destruct (Z.eqb_spec (status m) 100); [lia|]. destruct (Z.eqb_spec (status m) 180); [lia|]. destruct (Z.eqb_spec (status m) 183); [lia|]. destruct (Z.eqb_spec (status m) 200); [lia|].
  destruct (Z.eqb_spec (status m) 503); [contradiction|]. destruct (Z.eqb_spec (status m) 301); [contradiction|]. destruct (Z.eqb_spec (status m) 302); [contradiction|]. destruct (Z.ltb_spec 200 (status m)); [reflexivity|lia].
Qed.
Theorem refusal_told_partial : forall cfg s m k c cs, so s = Some k -> matching s m -> method (the_request s) = B "INVITE" -> refusal m -> addrs m Contact = c :: cs -> let r := handle cfg (EMsg m) s in
  r_v r = Halt /\ (r_out r = [OErr DSocket] \/ exists ack text, method ack = B "ACK" /\ r_out r = [OSend (so_remote k) ack text; OErr (DResponse m)]).
Proof.
  intros cfg s m k c cs K MA I R CT. cbv zeta. destruct (after_final cfg s m k c cs K MA I) as [[X1 X2]|(n & ack & text & MK & X)]; [destruct R; lia|exact CT|split; [exact X2|left; exact X1]|].
  cbv zeta in X. rewrite (after_refusal _ _ _ R) in X. destruct X as (_ & X1 & X2). split; [exact X2|]. right. exists ack, text. split; [exact MK|exact X1].
Qed.
(** the same of a BYE, which is not acknowledged *)
Theorem bye_refusal_told : forall cfg s m, matching s m -> method (the_request s) = B "BYE" -> refusal m -> let r := handle cfg (EMsg m) s in r_v r = Halt /\ r_out r = [OErr (DResponse m)].
Proof.
  intros cfg s m MA I R. cbv zeta. rewrite (matching_split _ _ _ MA) by (destruct R; lia). rewrite I. change (bseq (B "BYE") (B "INVITE")) with false. rewrite andb_false_r, !upd_seq, (after_refusal _ _ _ R). split; reflexivity.
Qed.

(** ** Redirects *)
Definition towards (u : option uri) (m : msg) : Prop := request m = u /\ addrs m Route = [].
Ltac tleaf := repeat match goal with
  | |- all_ok _ (Ok _) => apply all_ok_ok
  | |- all_ok _ Panic => apply all_ok_panic
  | |- all_ok _ (let x := _ in _) => cbv zeta
  | |- all_ok _ (rbind _ _) => apply all_ok_bind'; intros
  | |- context[match ?x with _ => _ end] => destruct x end; first [assumption|match goal with H : towards _ _ |- _ => split; [exact (proj1 H)|exact (proj2 H)] end].
Ltac tstep R := match goal with
  | |- all_ok ?P (let x := ?X in @?K x) => let y := fresh "y" in assert (y : R X); [tleaf|change (all_ok P (K X)); cbv beta; generalize dependent X; intros ? y]
  | |- all_ok ?P (rbind ?X ?K) => apply (all_ok_bind P R X K); [tleaf|let x := fresh "x" in let y := fresh "y" in intros x y] end.
Lemma populate_message_towards u tv tc m r : towards u m -> all_ok (towards u) (PopulateMessage tv tc m r).
Proof.
  intros T. cbv delta [PopulateMessage] beta. destruct (IsResponse m); [apply all_ok_ok; exact T|].
  tstep (towards u). clear T. tstep (towards u). clear y. tstep (towards u). clear y0. tstep (towards u). clear y. tstep (towards u). clear y0. tstep (towards u). clear y. tstep (towards u). clear y0. tstep (towards u). clear y. tstep (towards u). clear y0. tstep (towards u). clear y. tleaf.
Qed.
Lemma populate_towards u k c w m : towards u m -> all_ok (towards u) (populate k c w m).
Proof.
  intros T. cbv delta [populate] beta. tstep (towards u). clear T. tstep (towards u). clear y. tstep (towards u). clear y0. tstep (towards u). clear y. tstep (towards u). clear y0.
  apply populate_message_towards. exact y.
Qed.
(** nothing but an error comes out, or exactly one datagram: the request [m], addressed to [u] and with no Route *)
Definition sent_towards (u : option uri) (m : msg) (r : result) : Prop :=
  (r_v r <> Cont /\ (r_out r = [] \/ exists e, r_out r = [OErr e])) \/ (r_v r = Cont /\ exists to b t, r_out r = [OSend to b t] /\ same_call m b /\ towards u b).
Lemma send_towards cfg u m s : towards u m -> sent_towards u m (send cfg m set_the_request s).
Proof.
  intros T. rewrite send_eq. cbv zeta. destruct (maxforwards m =? 1); [left; split; [discriminate|right; eexists; reflexivity]|].
  destruct (addTimestamp _ _) as [m2|] eqn:E; [|left; split; [discriminate|left; reflexivity]]. apply stamp_ok in E. destruct E as [v ->]. set (s2 := set_the_request _ _). clearbody s2.
  destruct (so s2) as [k|]; [|left; split; [discriminate|left; reflexivity]]. destruct (w_write _ _); [|left; split; [discriminate|right; eexists; reflexivity]]. right. split; [reflexivity|]. do 3 eexists. split; [reflexivity|]. split; [apply sc_vias, lowered_same|].
  unfold lowered. destruct (0 <? maxforwards m); split; exact (proj1 T) || exact (proj2 T).
Qed.
Lemma sent_same u m m' r : same_call m m' -> sent_towards u m' r -> sent_towards u m r.
Proof. intros E [X|(X1 & to & b & t & X2 & X3 & X4)]; [left; exact X|]. right. split; [exact X1|]. exists to, b, t. split; [exact X2|]. split; [exact (sc_trans _ _ _ E X3)|exact X4]. Qed.
Lemma pop_towards cfg u rs : forall s, towards u (the_request s) -> sent_towards u (the_request s) (pop_route cfg rs s).
Proof.
  induction rs as [|a rs IH]; intros s T; cbn [pop_route].
  { left. rewrite upd_seq. unfold look. split; [discriminate|right; eexists; reflexivity]. }
  rewrite upd_seq, upd_seq. unfold ask. match goal with |- context[clock ?x] => set (s0 := x) end. set (j := clock s0). set (s0' := set_clock _ s0). pose proof (connect_same cfg j s0') as (C1 & C2 & C3). change (req s0') with (req s) in C1. change (response s0') with (response s) in C2. change (invite s0') with (invite s) in C3. clearbody s0' j. clear s0.
  destruct (connect cfg (c_world cfg j) s0') as [s1 ok]. cbn [fst] in *. assert (TR : the_request s1 = the_request s) by (unfold the_request; rewrite C1, C3; reflexivity). rewrite <- TR in *. destruct ok; cbn [negb]; [|apply IH; exact T]. clear IH.
  destruct (so s1) as [k|]; [|left; split; [discriminate|left; reflexivity]]. destruct (populate _ _ _ _) as [m|] eqn:PO; [|left; split; [discriminate|left; reflexivity]]. cbn [val]. pose proof (populate_towards _ _ _ _ _ T _ PO) as T2. apply populate_same in PO.
  rewrite upd_seq. set (s2 := set_the_request m s1). clearbody s2. set (LK := look st _). assert (G : exists s3, LK s2 = go s3) by (unfold LK, look; destruct (st s2 <? Answered); eexists; reflexivity). clearbody LK.
  destruct G as (s3 & G). rewrite (seq_go _ _ _ _ G), !upd_seq. apply (sent_same _ _ _ _ PO). apply send_towards. exact T2.
Qed.
Lemma invite_towards cfg u s : status (invite s) <= 0 -> towards u (invite s) -> sent_towards u (invite s) (sendRequest cfg None s).
Proof.
  intros S T. unfold sendRequest, look at 1. destruct (RouteMessage [] [] (invite s)) as [[m r]|] eqn:E; [|left; split; [discriminate|left; reflexivity]]. cbn [val].
  assert (M : m = invite s). { unfold RouteMessage, IsResponse in E. destruct (Z.ltb_spec 0 (status (invite s))); [lia|]. rewrite (proj2 T) in E. change (addr_CompareHostPort [] []) with false in E. cbv iota in E. rewrite (proj2 T) in E. destruct (request (invite s)); [|discriminate E]. cbn in E. injection E as <- _. reflexivity. }
  subst m. rewrite upd_seq. set (s1 := set_invite (invite s) s). assert (I1 : invite s1 = invite s) by reflexivity. rewrite <- I1 in *. clearbody s1. destruct r as [[host port]|e]; [|left; split; [discriminate|right; eexists; reflexivity]].
  unfold ask, look. destruct (RouteAddress _ _ _ _) as [rs|]; [|left; split; [discriminate|right; eexists; reflexivity]]. rewrite !upd_seq. unfold popRoute, look. cbn [routes set_dest set_routes set_req]. set (s2 := set_dest _ _). pose proof (pop_towards cfg u rs s2) as P. change (the_request s2) with (invite s1) in P. exact (P T).
Qed.
(** ... if it is a redirect: the same INVITE is sent again, to the address in the Contact and without a Route. *)
Theorem redirect_followed_partial : forall cfg s m k c cs, so s = Some k -> matching s m -> method (the_request s) = B "INVITE" -> status (invite s) <= 0 -> status m = 301 \/ status m = 302 -> addrs m Contact = c :: cs -> let r := handle cfg (EMsg m) s in
  r_out r = [OErr DSocket] /\ r_v r = Halt \/
  exists ack text r', method ack = B "ACK" /\ r_out r = OSend (so_remote k) ack text :: r_out r' /\ r_v r = r_v r' /\ sent_towards (a_uri c) (set_addr Route [] (set_request (a_uri c) (invite s))) r'.
Proof.
  intros cfg s m k c cs K MA I S R CT. cbv zeta. destruct (after_final cfg s m k c cs K MA I) as [X|(n & ack & text & MK & X)]; [lia|exact CT|left; exact X|]. right. exists ack, text. eexists. split; [exact MK|]. cbv zeta in X. destruct X as (_ & X1 & X2). split; [exact X1|]. split; [exact X2|].
  set (s1 := set_rtimer _ _). assert (I1 : invite s1 = invite s) by reflexivity. rewrite <- I1 in *. clearbody s1. clear X1 X2. destruct (Z.leb_spec (status m) 200); [lia|]. rewrite upd_seq. unfold after_ack. rewrite CT. destruct R as [-> | ->]; cbn [Z.eqb Pos.eqb orb uri_of val]; rewrite upd_seq; apply invite_towards; [exact S|split; reflexivity|exact S|split; reflexivity].
Qed.
(** Refuted for a BYE: the redirect of a BYE makes the dialog place the call again. *)
Theorem bye_redirect_run_refuted : happens (ex_cfg 1) ex_invite [inv; ack; State Answered; Sent a1 (B "BYE"); inv] Cont.
Proof. apply outcome_happens with (l := [reply 200 (at_ (B "10.0.0.1")); SEvent EHangup; reply 302 (at_ (B "10.0.0.1"))]). vm_compute. reflexivity. Qed.
(** Refuted for a refusal without Contact, as most are: not the response is reported, but the missing Contact. *)
Theorem busy_run_refuted : happens (ex_cfg 1) ex_invite [inv; Failed (B "no contact")] Halt.
Proof. apply outcome_happens with (l := [reply 486 []]). vm_compute. reflexivity. Qed.

(** ** Examples: a dialog whose INVITE has been sent, and responses to it *)
Definition ex_state : dstate := r_state (start (ex_cfg 1) ex_invite).
Definition ex_told (n : Z) (p : option payload) : msg := set_vmaj 2 (set_pay p (set_addr Contact (at_ (B "10.0.0.2")) (NewResponse (the_request ex_state) n))).
Example told_met : so ex_state <> None /\ method (the_request ex_state) = B "INVITE" /\ status (invite ex_state) <= 0 /\
  forall n p, 0 < n -> matching ex_state (ex_told n p) /\ status (ex_told n p) = n /\ addrs (ex_told n p) Contact = at_ (B "10.0.0.2") /\ pay (ex_told n p) = p.
Proof.
  split; [vm_compute; discriminate|]. split; [vm_compute; reflexivity|]. split; [vm_compute; discriminate|]. intros n p N. split; [|repeat split].
  split; [vm_compute; auto|]. split; [vm_compute; reflexivity|]. destruct n; try lia. vm_compute. reflexivity.
Qed.
(** early media, ringing, the answer with another address *)
Example told_run : r_out (handle (ex_cfg 1) (EMsg (ex_told 183 (Some (PSdp (ex_sdp true))))) ex_state) = [OPeer (B "10.0.0.1") 4000; OState Ringing].
Proof. vm_compute. reflexivity. Qed.
Example redirect_run : happens (ex_cfg 1) ex_invite [inv; ack; Sent a2 (B "INVITE")] Cont.
Proof. apply outcome_happens with (l := [reply 302 (at_ (B "10.0.0.2"))]). vm_compute. reflexivity. Qed.
Example refusal_run : happens (ex_cfg 1) ex_invite [inv; ack; Failed (B "response 486")] Halt.
Proof. apply outcome_happens with (l := [reply 486 (at_ (B "10.0.0.2"))]). vm_compute. reflexivity. Qed.
