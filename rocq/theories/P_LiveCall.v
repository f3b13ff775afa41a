(** C98: calls whose requests all go to one address, and calls whose requests do not. *)
From Verif Require Import Bytes BytesLemmas GoLib GoLibLemmas SdpModel SdpProofs SipText SipTypes SipAppend UtilModel P_Text P_Lists UriSpec P_Uri MsgModel MsgSpec MsgGrammar P_MsgText MsgWf MsgRound P_MsgRound DialogMsg DialogModel CleanupModel AppModel P_DialogEnd P_Dialog P_DialogTell P_DialogRuns P_Call P_Loss P_Detour LiveModel P_Live.
Local Open Scope Z_scope.

(** ** What is sent and reported *)
Lemma faultless_opens cfg : (forall n, faultless (c_world cfg n)) -> opens cfg.
Proof. intros NF n. destruct (NF n) as (_ & D & (p & L & _) & _). split; [|rewrite L; discriminate]. intros a. destruct (D a) as (k & K & R & _). exists k. auto. Qed.
(** no error is reported, and nothing is sent but to [a] *)
Definition fair (a : bytes) (o : out) : Prop := match o with OErr _ => False | OSend to _ _ => to = a | _ => True end.
Lemma fair_all a l : Forall (fair a) l -> (forall e, ~ In (OErr e) l) /\ forall to x t, In (OSend to x t) l -> to = a.
Proof. intros F. rewrite Forall_forall in F. split; [intros e I; exact (F _ I)|intros to x t I; exact (F _ I)]. Qed.
Lemma fair_media a p : Forall (fair a) (media_of p). Proof. destruct p as [[|d]|]; cbn; try constructor. destruct (s_audio d); repeat constructor. Qed.
Lemma fair_told a p : Forall (fair a) (told p).
Proof. apply Forall_app. split; [apply fair_media|]. unfold progress. destruct (_ =? 100); [repeat constructor|]. destruct (_ || _)%bool; repeat constructor. Qed.
Lemma fair_progress a ps : Forall (fair a) (concat (map told ps)). Proof. induction ps as [|p ps IH]; [constructor|]. cbn [map concat]. apply Forall_app. split; [apply fair_told|exact IH]. Qed.
Lemma fair_heard a ps : Forall (fair a) (heard ps). Proof. unfold heard. induction ps as [|p ps IH]; [constructor|]. cbn [map concat]. apply Forall_app. split; [apply fair_told|exact IH]. Qed.
Lemma fair_sent k l : Forall (fair (so_remote k)) (sent_to k l). Proof. induction l; constructor; [reflexivity|assumption]. Qed.
Lemma fair_acks k p l : Forall (fair (so_remote k)) (acks_again k p l).
Proof. unfold acks_again. induction l as [|c l IH]; [constructor|]. cbn [map concat]. apply Forall_app. split; [constructor; [reflexivity|apply fair_media]|exact IH]. Qed.
Lemma regular_msgs rs : Forall regular (map EMsg rs). Proof. induction rs; constructor; [exact I|assumption]. Qed.
Lemma regular_repeat e n : regular e -> Forall regular (repeat e n). Proof. intros R. induction n; constructor; assumption. Qed.
Ltac fairs := repeat (first [apply Forall_app; split | apply Forall_cons; [first [reflexivity|exact I|assumption]|] | apply Forall_nil | apply fair_media | apply fair_progress | apply fair_heard | apply fair_sent | apply fair_acks]).
Ltac regulars := repeat (first [apply Forall_app; split | apply Forall_cons; [exact I|] | apply Forall_nil | apply regular_msgs | apply regular_repeat; exact I]).
(** An execution with one address is one of the dialog with its goroutines. *)
Lemma fair_lives cfg m es s o v a : opens cfg -> dialog cfg m es (mkres s o v) -> v <> Crash -> Forall regular es -> Forall (fair a) o ->
  exists l, lsteps cfg (lbegin cfg m) es l /\ lat l = place (mkres s o v) /\ shown cfg l = o.
Proof. intros O D V R F. destruct (fair_all _ _ F) as [F1 F2]. destruct (one_address_lives cfg m es _ a O D V R F1 F2) as (l & L1 & _ & L3 & L4). exists l. auto. Qed.
(** An event for which another address is written to, at the end of such an execution. *)
Lemma steady_so cfg r es r' k : run cfg r es r' -> steady cfg r es -> Forall regular es -> so (r_state r) = Some k -> so (r_state r') = Some k.
Proof.
  induction 1 as [r|r e es r' V E R IH]; intros S G K; [exact K|]. inversion S as [|? ? ? C S']; subst. inversion G as [|? ? GE G']; subst. apply IH; [exact S'|exact G'|]. apply (closes_not cfg e _ k K); [intros b ->; destruct GE|exact C].
Qed.
Lemma lsteps_app cfg l es l1 es' l2 : lsteps cfg l es l1 -> lsteps cfg l1 es' l2 -> lsteps cfg l (es ++ es') l2.
Proof. induction 1; intros Q; cbn [app]; [exact Q|eapply ls_quiet; eauto|eapply ls_event; eauto]. Qed.
Lemma move_hangs cfg m es s o a e s' pre to x t post : opens cfg -> dialog cfg m es (mkres s o Cont) -> Forall regular es -> regular e -> enabled e s = true -> Forall (fair a) o ->
  handle cfg e s = mkres s' (pre ++ OSend to x t :: post) Cont -> (exists later, r_out (handle (deaf cfg) e s) = pre ++ later) -> (forall e, ~ In (OErr e) pre) -> to <> a ->
  exists l, lsteps cfg (lbegin cfg m) (es ++ [e]) l /\ stuck cfg l /\ shown cfg l = o ++ pre.
Proof.
  intros O D R RE E F H (later & DP) NE N. destruct (fair_all _ _ F) as [F1 F2].
  pose proof (one_address_steady cfg m es _ a O D ltac:(discriminate) R F1 F2) as ST.
  assert (V : r_v (start cfg m) = Cont) by (unfold dialog in D; clear -D; remember (mkres s o Cont) as r eqn:X; destruct D; [rewrite X; reflexivity|assumption]). destruct (start_so cfg m V) as (k & x0 & t0 & K & I0).
  destruct (run_grows _ _ _ _ D) as (q & Q). cbn [r_out] in Q. assert (KA : so_remote k = a) by (apply (F2 _ x0 t0); rewrite Q; apply in_or_app; left; exact I0).
  pose proof (steady_so _ _ _ _ k D ST R K) as KS. cbn [r_state] in KS.
  assert (C : closes cfg e s = true). { destruct (closes cfg e s) eqn:C; [reflexivity|]. destruct (kept_here cfg e s k KS C) as [S1 _]. exfalso. apply N. rewrite <- KA. apply (S1 to x t). rewrite H. apply in_or_app. right. left. reflexivity. }
  assert (SD : said cfg e s = pre).
  { assert (NS : forall b, e <> ESockErr b) by (intros b ->; destruct RE). pose proof (said_here cfg e s k KS) as SH. destruct (handle_splits cfg e NS s k KS) as [[E1 E2]|(p1 & more & d & E1 & E2 & _)].
    - exfalso. unfold closes in C. rewrite KS, E1, E2 in C. clear -C. destruct e; discriminate C.
    - unfold said in *. rewrite E1 in *. rewrite removelast_last in *. rewrite H in E2. cbn [r_out] in E2. rewrite KA in SH. clear -E2 DP SH NE N.
      revert pre later E2 DP NE. induction p1 as [|y p1 IH]; intros pre later E2 DP NE.
      + destruct pre as [|z pre]; [reflexivity|]. exfalso. injection DP as <- _. exact (NE d (or_introl eq_refl)).
      + destruct pre as [|z pre]; [exfalso; injection E2 as <- _; apply N; apply (SH to x t); left; reflexivity|]. injection E2 as -> E2. injection DP as DP. f_equal. apply (IH (fun to x t I => SH to x t (or_intror I)) pre later E2 DP). intros e I. exact (NE e (or_intror I)). }
  destruct (steady_live_from cfg _ _ _ D ST R k (reader false (has (cso (r_state (start cfg m)))) None) K) as (q1 & X).
  assert (X1 : lsteps cfg (lbegin cfg m) es (mklive (mkres s o Cont) LLoop (Some fresh) q1)) by (unfold lbegin; rewrite K; exact X).
  exists (mklive (mkres s o Cont) (LClose1 e) (Some (close fresh)) q1). split; [|split; [apply moving_hangs_refuted; split; [left|]; reflexivity|unfold shown; cbn [lv lat r_out r_state]; rewrite SD; reflexivity]].
  apply (lsteps_app _ _ _ _ _ _ X1). assert (T : forall p, taken e p q1 (Some fresh) q1 -> lsteps cfg (mklive (mkres s o Cont) LLoop p q1) [e] (mklive (mkres s o Cont) (LClose1 e) (Some (close fresh)) q1)).
  { intros p T. eapply ls_event; [exact (l_busy cfg (mkres s o Cont) e p q1 (Some fresh) q1 eq_refl E T C)|]. eapply ls_quiet; [apply l_close|]. apply ls_nil. }
  destruct e; try destruct RE; try (apply T; constructor). eapply ls_quiet; [apply l_read1, r_datagram|]. eapply ls_quiet; [apply l_read1, r_deliver|]. apply T. constructor.
Qed.

(** ** C77 *)
(** The requests within the call go where the INVITE went, whatever the names stand for. *)
Definition goes_back (cfg : config) (m : msg) (a : reply) : Prop :=
  forall x y, first_address cfg (next_hop m) true x -> first_address cfg (way_back (rp_rr a) (rp_contact a)) false y -> y = x.
(** They never do. *)
Definition goes_elsewhere (cfg : config) (m : msg) (a : reply) : Prop :=
  forall x y, first_address cfg (next_hop m) true x -> first_address cfg (way_back (rp_rr a) (rp_contact a)) false y -> y <> x.
(** The call of call_goes_through, by the dialog with its goroutines. *)
Theorem call_goes_through_live : forall cfg m ps a b c cs,
  (forall n, faultless (c_world cfg n)) -> invite_given cfg m -> goes_back cfg m a ->
  Forall (fun p => reply_ok p /\ rp_status p < 200) ps -> reply_ok a -> rp_status a = 200 -> rp_contact a = c :: cs -> reply_ok b -> rp_status b = 200 -> rp_pay b = None ->
  exists k inv inv_text rs answer ack ack_text k' bye bye_text confirm l,
    method inv = B "INVITE" /\ request inv = request m /\ (callid m <> [] -> callid inv = callid m) /\ (cseq m <> 0 -> cseq inv = cseq m) /\
    Forall2 (answered k inv_text) ps rs /\ answered k inv_text a answer /\
    method ack = B "ACK" /\ acked inv (a_uri c) ack_text /\
    method bye = B "BYE" /\ request bye = a_uri c /\ callid bye = callid inv /\ cseq bye = cseq inv + 1 /\ addrs bye From = addrs inv From /\ addrs bye To = addrs answer To /\
    answered k' bye_text b confirm /\ so_remote k' = so_remote k /\
    lsteps cfg (lbegin cfg m) (map EMsg rs ++ [EMsg answer; EHangup; EMsg confirm]) l /\ lat l = LOver /\
    shown cfg l = OSend (so_remote k) inv inv_text :: concat (map told ps) ++ [OSend (so_remote k) ack ack_text] ++ media_of (rp_pay a) ++ [OState Answered; OSend (so_remote k') bye bye_text; OState Hangup].
Proof.
  intros cfg m ps a b c cs NF IG GB PS AO A200 AC BO B200 BP.
  destruct (call_goes_through cfg m ps a b c cs NF IG PS AO A200 AC BO B200 BP) as (k & inv & it & rs & an & ack & at_ & k' & bye & bt & co & s & H1 & H2 & H3 & H4 & H5 & H6 & H7 & H8 & H9 & H10 & H11 & H12 & H13 & H14 & H15 & W1 & W2 & D).
  pose proof (GB _ _ W1 W2) as RK. destruct (fair_lives cfg m _ _ _ _ (so_remote k) (faultless_opens _ NF) D) as (l & L1 & L2 & L3); [discriminate|regulars|fairs|].
  exists k, inv, it, rs, an, ack, at_, k', bye, bt, co, l. do 16 (split; [assumption|]). split; [exact L1|]. split; [exact L2|exact L3].
Qed.
(** If the BYE belongs to another address, the call is answered as before, but the wish to hang up may be the end: nothing is sent or reported any more. *)
Theorem call_hangs_refuted : forall cfg m ps a c cs,
  (forall n, faultless (c_world cfg n)) -> invite_given cfg m -> goes_elsewhere cfg m a ->
  Forall (fun p => reply_ok p /\ rp_status p < 200) ps -> reply_ok a -> rp_status a = 200 -> rp_contact a = c :: cs ->
  exists k inv inv_text rs answer ack ack_text l,
    method inv = B "INVITE" /\ Forall2 (answered k inv_text) ps rs /\ answered k inv_text a answer /\ method ack = B "ACK" /\ acked inv (a_uri c) ack_text /\
    lsteps cfg (lbegin cfg m) (map EMsg rs ++ [EMsg answer; EHangup]) l /\ stuck cfg l /\
    shown cfg l = OSend (so_remote k) inv inv_text :: concat (map told ps) ++ [OSend (so_remote k) ack ack_text] ++ media_of (rp_pay a) ++ [OState Answered].
Proof.
  intros cfg m ps a c cs NF IG GE PS AO A200 AC.
  set (b := mkreply 200 [] [] [] [] None [] (B "10.0.0.1", 5060) None). assert (BO : reply_ok b). { split; [cbn; lia|]. split; [constructor|]. split; [constructor|]. split; [constructor|]. split; [constructor|]. split; [constructor|]. split; [constructor|]. split; [discriminate|]. split; discriminate. }
  destruct (call_stages cfg m ps a b c cs NF IG PS AO A200 AC BO eq_refl eq_refl) as (k & inv & it & rs & an & ack & at_ & k' & bye & bt & co & s & H1 & H2 & H3 & H4 & H5 & H6 & H7 & H8 & H9 & H10 & H11 & H12 & H13 & H14 & H15 & W1 & W2 & D & s1 & s2 & T1 & T2).
  destruct (move_hangs cfg m _ _ _ (so_remote k) EHangup s1 [] (so_remote k') bye bt [] (faultless_opens _ NF) D) as (l & L1 & L2 & L3); [regulars|exact I|reflexivity|fairs|exact T1|eexists; reflexivity|intros e []|exact (GE _ _ W1 W2)|]. rewrite app_nil_r in L3.
  exists k, inv, it, rs, an, ack, at_, l. do 5 (split; [assumption|]). split; [rewrite <- app_assoc in L1; exact L1|]. split; [exact L2|exact L3].
Qed.

(** ** C91 *)
Theorem call_survives_loss_live : forall cfg m j0 ps ia a d j1 e ib b c cs,
  (forall n, faultless (c_world cfg n)) -> invite_given cfg m -> goes_back cfg m a ->
  Z.of_nat j0 <= c_max cfg -> Z.of_nat j0 + 2 <= hops m -> Z.of_nat j1 <= c_max cfg -> Z.of_nat j1 + 2 <= 70 ->
  Forall (fun p => (fst p <= j0)%nat /\ reply_ok (snd p) /\ rp_status (snd p) < 200) ps -> (ia <= j0)%nat -> reply_ok a -> rp_status a = 200 -> rp_contact a = c :: cs ->
  (ib <= j1)%nat -> reply_ok b -> rp_status b = 200 -> rp_pay b = None ->
  exists k inv invs rs answer ack ack_text acks k' bye byes confirm l,
    method inv = B "INVITE" /\ request inv = request m /\ (callid m <> [] -> callid inv = callid m) /\ (cseq m <> 0 -> cseq inv = cseq m) /\ maxforwards inv = hops m - 1 /\
    length invs = S j0 /\ copies inv invs /\ Forall2 (answered_copy k invs) ps rs /\ answered_copy k invs (ia, a) answer /\
    method ack = B "ACK" /\ acked inv (a_uri c) ack_text /\ length acks = d /\ Forall (fun x => method (fst x) = B "ACK" /\ acked inv (a_uri c) (snd x)) acks /\
    method bye = B "BYE" /\ request bye = a_uri c /\ callid bye = callid inv /\ cseq bye = cseq inv + 1 /\ addrs bye From = addrs inv From /\ addrs bye To = addrs answer To /\ maxforwards bye = 69 /\
    length byes = S j1 /\ copies bye byes /\ answered_copy k' byes (ib, b) confirm /\ so_remote k' = so_remote k /\
    lsteps cfg (lbegin cfg m) (repeat EReqTimer j0 ++ map EMsg rs ++ EMsg answer :: repeat (EMsg answer) d ++ EHangup :: repeat EReqTimer j1 ++ repeat (EMsg answer) e ++ [EMsg confirm]) l /\ lat l = LOver /\
    shown cfg l = sent_to k invs ++ heard ps ++ OSend (so_remote k) ack ack_text :: media_of (rp_pay a) ++ OState Answered :: acks_again k (rp_pay a) acks ++ sent_to k' byes ++ [OState Hangup].
Proof.
  intros cfg m j0 ps ia a d j1 e ib b c cs NF IG GB J0 H0 J1 H1 PS IA AO A200 AC IB BO B200 BP.
  destruct (call_survives_loss cfg m j0 ps ia a d j1 e ib b c cs NF IG J0 H0 J1 H1 PS IA AO A200 AC IB BO B200 BP) as (k & inv & invs & rs & an & ack & at_ & acks & k' & bye & byes & co & s & Q1 & Q2 & Q3 & Q4 & Q5 & Q6 & Q7 & Q8 & Q9 & Q10 & Q11 & Q12 & Q13 & Q14 & Q15 & Q16 & Q17 & Q18 & Q19 & Q20 & Q21 & Q22 & Q23 & W1 & W2 & D).
  pose proof (GB _ _ W1 W2) as RK. destruct (fair_lives cfg m _ _ _ _ (so_remote k) (faultless_opens _ NF) D) as (l & L1 & L2 & L3); [discriminate|regulars|fairs; rewrite <- RK; apply fair_sent|].
  exists k, inv, invs, rs, an, ack, at_, acks, k', bye, byes, co, l. do 24 (split; [assumption|]). split; [exact L1|]. split; [exact L2|exact L3].
Qed.

(** ** C92 *)
(** every leg of the way stays with the address [x] *)
Fixpoint legs_at (d : dns) (x : bytes) (left : list bytes) (ls : list leg) : Prop :=
  match ls with
  | [] => True
  | Silent :: ls => match left with [] => False | y :: rest => y = x /\ legs_at d x rest ls end
  | Moved ps a :: ls => match rp_contact a with [] => False | c :: _ => match candidates d (hop_of (a_uri c)) with [] => False | y :: rest => y = x /\ legs_at d x rest ls end end
  end.
Lemma legs_where cfg d left k x t ls k' x' t' es o : legs_run cfg d left k x t ls k' x' t' es o ->
  Forall regular es /\ ((legs_at d (so_remote k) left ls /\ so_remote k' = so_remote k /\ Forall (fair (so_remote k)) o) \/ (~ legs_at d (so_remote k) left ls /\ exists to y u, In (OSend to y u) o /\ to <> so_remote k)).
Proof.
  induction 1 as [left k x t|left k x t l k1 y t1 ls k' x' t' es o CX LL SI RY L IH|left k x t ps rs a r c cs ack at_ k1 y t1 rest ls k' x' t' es o F AN AM AC AK SI RY RT CD L IH].
  - split; [constructor|]. left. split; [exact I|]. split; [reflexivity|constructor].
  - destruct IH as [RE IH]. split; [regulars; exact RE|]. cbn [legs_at]. destruct (bseq (so_remote k1) (so_remote k)) eqn:E.
    + apply bseq_spec in E. rewrite E in IH. destruct IH as [(A & K & F)|(A & to & z & u & I0 & N)].
      * left. split; [split; [exact E|exact A]|]. split; [congruence|]. fairs. exact F.
      * right. split; [intros [_ X]; exact (A X)|]. exists to, z, u. split; [|exact N]. apply in_or_app. right. right. exact I0.
    + right. assert (N : so_remote k1 <> so_remote k) by (intros X; rewrite X, bseq_refl in E; discriminate). split; [intros [X _]; exact (N X)|]. exists (so_remote k1), y, t1. split; [|exact N]. apply in_or_app. right. left. reflexivity.
  - destruct IH as [RE IH]. split; [regulars; exact RE|]. cbn [legs_at]. rewrite AC, CD. destruct (bseq (so_remote k1) (so_remote k)) eqn:E.
    + apply bseq_spec in E. rewrite E in IH. destruct IH as [(A & K & FF)|(A & to & z & u & I0 & N)].
      * left. split; [split; [exact E|exact A]|]. split; [congruence|]. fairs. exact FF.
      * right. split; [intros [_ X]; exact (A X)|]. exists to, z, u. split; [|exact N]. apply in_or_app. right. right. right. exact I0.
    + right. assert (N : so_remote k1 <> so_remote k) by (intros X; rewrite X, bseq_refl in E; discriminate). split; [intros [X _]; exact (N X)|]. exists (so_remote k1), y, t1. split; [|exact N]. apply in_or_app. right. right. left. reflexivity.
Qed.
(** The call of call_reaches_callee, if every leg of the way stays with one address. *)
Theorem call_reaches_callee_live_partial : forall cfg d m legs ps a b c cs,
  (forall n, faultless (c_world cfg n)) -> (forall n, w_dns (c_world cfg n) = d) -> 0 <= c_max cfg -> invite_given cfg m -> goes_back cfg m a ->
  legs_ok cfg d (tl (candidates d (next_hop m))) (hops m - 1) legs -> legs_at d (hd [] (candidates d (next_hop m))) (tl (candidates d (next_hop m))) legs ->
  Forall (fun p => reply_ok p /\ rp_status p < 200) ps -> reply_ok a -> rp_status a = 200 -> rp_contact a = c :: cs -> reply_ok b -> rp_status b = 200 -> rp_pay b = None ->
  exists k inv inv_text rest k1 inv1 text1 es o rs answer ack ack_text k' bye bye_text confirm l,
    method inv = B "INVITE" /\ request inv = request m /\ (callid m <> [] -> callid inv = callid m) /\ (cseq m <> 0 -> cseq inv = cseq m) /\
    candidates d (next_hop m) = so_remote k :: rest /\ legs_run cfg d rest k inv inv_text legs k1 inv1 text1 es o /\ same_invite inv inv1 /\
    Forall2 (answered k1 text1) ps rs /\ answered k1 text1 a answer /\ method ack = B "ACK" /\ acked inv1 (a_uri c) ack_text /\
    method bye = B "BYE" /\ request bye = a_uri c /\ callid bye = callid inv /\ cseq bye = cseq inv + 1 /\ addrs bye From = addrs inv From /\ addrs bye To = addrs answer To /\ answered k' bye_text b confirm /\
    lsteps cfg (lbegin cfg m) (es ++ map EMsg rs ++ [EMsg answer; EHangup; EMsg confirm]) l /\ lat l = LOver /\
    shown cfg l = OSend (so_remote k) inv inv_text :: o ++ concat (map told ps) ++ [OSend (so_remote k1) ack ack_text] ++ media_of (rp_pay a) ++ [OState Answered; OSend (so_remote k') bye bye_text; OState Hangup].
Proof.
  intros cfg d m legs ps a b c cs NF DN MX IG GB LO LA PS AO A200 AC BO B200 BP.
  destruct (call_reaches_callee cfg d m legs ps a b c cs NF DN MX IG LO PS AO A200 AC BO B200 BP) as (k & inv & it & rest & k1 & inv1 & t1 & es & o & rs & an & ack & at_ & k' & bye & bt & co & s & Q1 & Q2 & Q3 & Q4 & Q5 & Q6 & Q7 & Q8 & Q9 & Q10 & Q11 & Q12 & Q13 & Q14 & Q15 & Q16 & Q17 & Q18 & W2 & D).
  assert (W1 : first_address cfg (next_hop m) true (so_remote k)). { exists 0%nat, rest. rewrite DN. unfold candidates in Q5. destruct (RouteAddress d _ _ _) as [x|]; [rewrite Q5; reflexivity|discriminate Q5]. }
  pose proof (GB _ _ W1 W2) as RK. rewrite Q5 in LA. cbn [hd tl] in LA. destruct (legs_where _ _ _ _ _ _ _ _ _ _ _ _ Q6) as [RE [(_ & K1 & FO)|(X & _)]]; [|destruct (X LA)].
  destruct (fair_lives cfg m _ _ _ _ (so_remote k) (faultless_opens _ NF) D) as (l & L1 & L2 & L3); [discriminate|regulars; exact RE|fairs; exact FO|].
  exists k, inv, it, rest, k1, inv1, t1, es, o, rs, an, ack, at_, k', bye, bt, co, l. do 18 (split; [assumption|]). split; [exact L1|]. split; [exact L2|exact L3].
Qed.
(** The same call, wherever the legs lead: it goes through in the dialog with its goroutines too, in some of its schedules, in which a datagram that nobody needs arrives
    in time at each socket the dialog leaves. *)
Theorem call_may_reach_callee_partial : forall cfg d m legs ps a b c cs,
  (forall n, faultless (c_world cfg n)) -> (forall n, w_dns (c_world cfg n) = d) -> 0 <= c_max cfg -> invite_given cfg m ->
  legs_ok cfg d (tl (candidates d (next_hop m))) (hops m - 1) legs ->
  Forall (fun p => reply_ok p /\ rp_status p < 200) ps -> reply_ok a -> rp_status a = 200 -> rp_contact a = c :: cs -> reply_ok b -> rp_status b = 200 -> rp_pay b = None ->
  exists k inv inv_text rest k1 inv1 text1 es o rs answer ack ack_text k' bye bye_text confirm l,
    method inv = B "INVITE" /\ request inv = request m /\ (callid m <> [] -> callid inv = callid m) /\ (cseq m <> 0 -> cseq inv = cseq m) /\
    candidates d (next_hop m) = so_remote k :: rest /\ legs_run cfg d rest k inv inv_text legs k1 inv1 text1 es o /\ same_invite inv inv1 /\
    Forall2 (answered k1 text1) ps rs /\ answered k1 text1 a answer /\ method ack = B "ACK" /\ acked inv1 (a_uri c) ack_text /\
    method bye = B "BYE" /\ request bye = a_uri c /\ callid bye = callid inv /\ cseq bye = cseq inv + 1 /\ addrs bye From = addrs inv From /\ addrs bye To = addrs answer To /\ answered k' bye_text b confirm /\
    lsteps cfg (lbegin cfg m) (es ++ map EMsg rs ++ [EMsg answer; EHangup; EMsg confirm]) l /\ lat l = LOver /\
    shown cfg l = OSend (so_remote k) inv inv_text :: o ++ concat (map told ps) ++ [OSend (so_remote k1) ack ack_text] ++ media_of (rp_pay a) ++ [OState Answered; OSend (so_remote k') bye bye_text; OState Hangup].
Proof.
  intros cfg d m legs ps a b c cs NF DN MX IG LO PS AO A200 AC BO B200 BP.
  destruct (call_reaches_callee cfg d m legs ps a b c cs NF DN MX IG LO PS AO A200 AC BO B200 BP) as (k & inv & it & rest & k1 & inv1 & t1 & es & o & rs & an & ack & at_ & k' & bye & bt & co & s & Q1 & Q2 & Q3 & Q4 & Q5 & Q6 & Q7 & Q8 & Q9 & Q10 & Q11 & Q12 & Q13 & Q14 & Q15 & Q16 & Q17 & Q18 & W2 & D).
  pose proof (proj1 (legs_where _ _ _ _ _ _ _ _ _ _ _ _ Q6)) as RE.
  destruct (dialog_lives cfg m _ _ D) as (l & L1 & _ & L2 & L3); [regulars; exact RE|].
  exists k, inv, it, rest, k1, inv1, t1, es, o, rs, an, ack, at_, k', bye, bt, co, l. do 18 (split; [assumption|]). split; [exact L1|]. split; [exact L2|exact L3].
Qed.
(** If a leg of the way leads elsewhere, the dialog may stop for good before it sends anything there: the INVITE has gone to the first address only, and no
    error is reported. *)
Theorem detour_hangs_refuted : forall cfg d m legs,
  (forall n, faultless (c_world cfg n)) -> (forall n, w_dns (c_world cfg n) = d) -> 0 <= c_max cfg -> invite_given cfg m ->
  legs_ok cfg d (tl (candidates d (next_hop m))) (hops m - 1) legs -> ~ legs_at d (hd [] (candidates d (next_hop m))) (tl (candidates d (next_hop m))) legs ->
  exists first es l inv t, candidates d (next_hop m) <> [] /\ first = hd [] (candidates d (next_hop m)) /\ lsteps cfg (lbegin cfg m) es l /\ stuck cfg l /\
    In (OSend first inv t) (shown cfg l) /\ method inv = B "INVITE" /\ (forall to x t, In (OSend to x t) (shown cfg l) -> to = first) /\ forall e, ~ In (OErr e) (shown cfg l).
Proof.
  intros cfg d m legs NF DN MX IG LO LA. destruct call_example as (_ & _ & _ & C4 & C5).
  destruct (call_reaches_callee cfg d m legs [] _ _ (hd (mkaddr None [] []) (at_ (B "10.0.0.2"))) [] NF DN MX IG LO (Forall_nil _) C4 eq_refl eq_refl C5 eq_refl eq_refl) as (k & inv & it & rest & k1 & inv1 & t1 & es & o & rs & an & ack & at_ & k' & bye & bt & co & s & Q1 & _ & _ & _ & Q5 & Q6 & _ & Q8 & _ & _ & _ & _ & _ & _ & _ & _ & _ & _ & _ & D).
  rewrite Q5 in *. cbn [hd tl] in *. destruct (legs_where _ _ _ _ _ _ _ _ _ _ _ _ Q6) as [RE [(X & _)|(_ & to & x & t & I & N)]]; [destruct (LA X)|].
  assert (NE : forall e o', In (OErr e) o' -> legs_run cfg d rest k inv it legs k1 inv1 t1 es o' -> False).
  { clear. intros e o' I L. induction L as [left k x t|left k x t l k1 y t1 ls k' x' t' es o CX LL SI RY L IH|left k x t ps rs a r c cs ack at_ k1 y t1 rest ls k' x' t' es o F AN AM AC AK SI RY RT CD L IH]; [destruct I| |].
    - apply in_app_or in I. destruct I as [I|[I|I]]; [exact (proj1 (fair_all _ _ (fair_sent k l)) e I)|discriminate I|exact (IH I)].
    - apply in_app_or in I. destruct I as [I|[I|[I|I]]]; [exact (proj1 (fair_all _ _ (fair_progress [] ps)) e I)|discriminate I|discriminate I|exact (IH I)]. }
  destruct (second_address_hangs_refuted cfg m _ _ D) as (es1 & e & es2 & l & _ & S & ST & (mo & M) & (q & Q) & a & A).
  { regulars. exact RE. }
  { exists (so_remote k), inv, it, to, x, t. split; [left; reflexivity|]. split; [right; apply in_or_app; left; exact I|congruence]. }
  cbn [r_out] in M.
  assert (IS : In (OSend (so_remote k) inv it) (shown cfg l)).
  { destruct (shown cfg l) as [|y z] eqn:SH; [|injection M as <- _; left; reflexivity]. exfalso. destruct (r_out (start cfg m)) as [|w1 w2] eqn:W; [|discriminate Q].
    destruct (r_v (start cfg m)) eqn:V; [destruct (start_so cfg m V) as (k0 & x0 & t0 & _ & J); rewrite W in J; destruct J|..];
    (clear -D V W; remember (mkres s _ Halt) as r eqn:X in D; destruct D as [|? ? ? ? V' _ _]; [rewrite X in W; discriminate W|rewrite V in V'; discriminate V']). }
  exists (so_remote k), (es1 ++ [e]), l, inv, it. split; [discriminate|]. split; [reflexivity|]. split; [exact S|]. split; [exact ST|]. split; [exact IS|]. split; [exact Q1|]. split.
  - intros u y z J. rewrite (A _ _ _ J). symmetry. exact (A _ _ _ IS).
  - intros e0 J. assert (J2 : In (OErr e0) (shown cfg l ++ mo)) by (apply in_or_app; left; exact J). rewrite <- M in J2. destruct J2 as [J2|J2]; [discriminate J2|]. apply in_app_or in J2. destruct J2 as [J2|J2]; [exact (NE e0 o J2 Q6)|].
    cbn in J2. repeat (destruct J2 as [J2|J2]; [discriminate J2|]). exact J2.
Qed.

(** the beginning of a call *)
Lemma first_try cfg d m : (forall n, faultless (c_world cfg n)) -> (forall n, w_dns (c_world cfg n) = d) -> invite_given cfg m ->
  exists k inv t s left, method inv = B "INVITE" /\ request inv = request m /\ candidates d (next_hop m) = so_remote k :: left /\ trying cfg left (hops m - 1) k inv t s /\ start cfg m = mkres s [OSend (so_remote k) inv t] Cont.
Proof.
  intros NF DN IG. pose proof IG as (RG & MI & RR & LR & CB).
  destruct (sent_faultless cfg NF None (init m)) as (s0 & k & x & n & E0 & FX & CP & (CR & MF & T0 & N0 & n' & RA) & _ & K0 & SG0 & TR0 & ST0 & RI & LS); [split; discriminate|exact RG|change (method m <> B "REGISTER"); rewrite MI; discriminate|exact LR|].
  destruct (RI eq_refl) as [R0 I0]. destruct LS as (RM0 & LS0 & RS0); [reflexivity|]. change (match None with Some b => b | None => invite (init m) end) with m in *. change (completed m x) in CP. change (carries k (cso s0) m x) in CR. change (maxforwards x = hops m - 1) in MF. change (RouteAddress (w_dns (c_world cfg n')) (fst (next_hop m)) (snd (next_hop m)) true = Some (so_remote k :: routes s0)) in RA. rewrite DN in RA.
  pose proof (first_sendable cfg k _ _ _ FX IG (proj1 SG0 _ K0) CP CR) as SX. destruct CP as (D1 & D2 & D3 & D4 & _ & D6 & _).
  exists k, x, (msg_append (w_rid (c_world cfg n)) x), s0, (routes s0). split; [congruence|]. split; [exact D6|]. split; [unfold candidates; rewrite RA; reflexivity|]. split; [|exact E0].
  split; [|repeat (split; [first [assumption|reflexivity]|]); exists n; reflexivity]. unfold calling. repeat (split; [assumption|]). left. exact ST0.
Qed.
(** A silent server, and another address after it: the INVITE is sent the configured number of times more, and when the timer fires the last time the
    dialog stops. Nothing is reported. *)
Theorem silent_hangs_refuted : forall cfg d m x y rest, (forall n, faultless (c_world cfg n)) -> (forall n, w_dns (c_world cfg n) = d) -> 0 <= c_max cfg -> invite_given cfg m -> c_max cfg + 3 <= hops m ->
  candidates d (next_hop m) = x :: y :: rest -> y <> x ->
  exists k inv invs l, so_remote k = x /\ method inv = B "INVITE" /\ request inv = request m /\ copies inv invs /\ Z.of_nat (length invs) = c_max cfg + 1 /\
    lsteps cfg (lbegin cfg m) (repeat EReqTimer (length invs)) l /\ stuck cfg l /\ shown cfg l = sent_to k invs.
Proof.
  intros cfg d m x y rest NF DN MX IG HM CD NE. destruct (first_try cfg d m NF DN IG) as (k & inv & t & s & left & M & RQ & CK & T & E0). rewrite CD in CK. injection CK as -> <-.
  destruct (silent_stages cfg d NF DN MX y rest (hops m - 1) k inv t s [OSend (so_remote k) inv t] T ltac:(lia)) as (l & k1 & z & t1 & s1 & s' & CX & LL & _ & _ & KY & _ & R & RT & H).
  assert (D : dialog cfg m (repeat EReqTimer (length l)) (mkres s1 ([OSend (so_remote k) inv t] ++ sent_to k l) Cont)) by (unfold dialog; rewrite E0; exact R).
  destruct (move_hangs cfg m _ _ _ (so_remote k) EReqTimer s' [] (so_remote k1) z t1 [] (faultless_opens _ NF) D) as (v & L1 & L2 & L3); [regulars|exact I|exact RT|fairs|exact H|eexists; reflexivity|intros e []|congruence|].
  exists k, inv, ((inv, t) :: l), v. split; [reflexivity|]. split; [exact M|]. split; [exact RQ|]. split; [exact CX|]. split; [cbn [length]; lia|]. split; [|split; [exact L2|rewrite L3, app_nil_r; reflexivity]].
  cbn [length]. change (repeat EReqTimer (S (length l))) with (EReqTimer :: repeat EReqTimer (length l)). rewrite repeat_cons. exact L1.
Qed.
(** A redirect elsewhere is acknowledged; then the dialog stops. *)
Theorem redirect_hangs_refuted : forall cfg d m ps a c cs, (forall n, faultless (c_world cfg n)) -> (forall n, w_dns (c_world cfg n) = d) -> invite_given cfg m -> 3 <= hops m ->
  Forall (fun p => reply_ok p /\ rp_status p < 200) ps -> reply_ok a -> rp_status a = 301 \/ rp_status a = 302 -> rp_contact a = c :: cs ->
  hd [] (candidates d (hop_of (a_uri c))) <> hd [] (candidates d (next_hop m)) ->
  exists k inv inv_text rs r ack ack_text l, so_remote k = hd [] (candidates d (next_hop m)) /\ method inv = B "INVITE" /\ request inv = request m /\ Forall2 (answered k inv_text) ps rs /\ answered k inv_text a r /\ method ack = B "ACK" /\ acked inv (a_uri c) ack_text /\
    lsteps cfg (lbegin cfg m) (map EMsg rs ++ [EMsg r]) l /\ stuck cfg l /\ shown cfg l = OSend (so_remote k) inv inv_text :: concat (map told ps) ++ [OSend (so_remote k) ack ack_text].
Proof.
  intros cfg d m ps a c cs NF DN IG HM PS AO AS AC NE. destruct (first_try cfg d m NF DN IG) as (k & inv & t & s & left & M & RQ & CK & T & E0). rewrite CK in *. cbn [hd] in *.
  destruct (moved_stages cfg d NF DN left (hops m - 1) k inv t s [OSend (so_remote k) inv t] ps a c cs T ltac:(lia) PS AO AS AC) as (rs & r & ack & at_ & k1 & y & t1 & s1 & s' & rest & F & AN & AM & AK & _ & _ & _ & CD & _ & R & H & DF). rewrite CD in NE. cbn [hd] in NE.
  assert (D : dialog cfg m (map EMsg rs) (mkres s1 ([OSend (so_remote k) inv t] ++ concat (map told ps)) Cont)) by (unfold dialog; rewrite E0; exact R).
  destruct (move_hangs cfg m _ _ _ (so_remote k) (EMsg r) s' [OSend (so_remote k) ack at_] (so_remote k1) y t1 [] (faultless_opens _ NF) D) as (v & L1 & L2 & L3); [regulars|exact I|reflexivity|fairs|exact H|exact (DF (deaf cfg) (fun _ _ _ => eq_refl))|intros e [X|[]]; discriminate X|exact NE|].
  exists k, inv, t, rs, r, ack, at_, v. do 7 (split; [assumption || reflexivity|]). split; [exact L1|]. split; [exact L2|]. rewrite L3. reflexivity.
Qed.

(** ** Examples *)
Definition direct_reply (n : Z) (contact : list addr) (p : option payload) : reply := mkreply n [] [(B "tag", B "xyz")] contact [] p (B "7") (B "10.0.0.1", 5060) None.
Lemma direct_ok n h p : 100 <= n <= 999 -> h = B "10.0.0.1" \/ h = B "10.0.0.2" -> p = None \/ p = Some (PSdp peer_sdp) -> reply_ok (direct_reply n (at_ h) p).
Proof.
  intros N H P. assert (T : forall b, forallb token_class b = true -> b <> [] -> token b) by (split; assumption).
  split; [exact N|]. split; [constructor|]. split; [constructor|]. split; [constructor; [|constructor]; split; [apply T; [reflexivity|discriminate]|right; left; apply T; [reflexivity|discriminate]]|]. split.
  { constructor; [|constructor]. split; [eexists; split; [reflexivity|]|split; [left; reflexivity|constructor]]. split; [|constructor]. split; [eexists _, _; split; [reflexivity|]; repeat split|]. split; [discriminate|]. split; [destruct H as [-> | ->]; (split; [discriminate|]; split; reflexivity)|]. split; [cbn; lia|]. split; constructor. }
  split; [constructor|]. split; [constructor|]. split; [intros q E; destruct P as [P|P]; cbn in E; rewrite P in E; [discriminate|]; injection E as <-; apply ex_sdp_ok; [left; reflexivity|left; reflexivity|reflexivity]|].
  split; [intros d E; destruct P as [P|P]; cbn in E; rewrite P in E; [discriminate|]; injection E as <-; discriminate|]. discriminate.
Qed.
Lemma forall2_len {A B} (P : A -> B -> Prop) l k : Forall2 P l k -> length l = length k. Proof. induction 1; cbn; congruence. Qed.
(** A callee who is where the INVITE went: the call goes through. A callee who is elsewhere, or whose proxy is: it may hang. *)
Example back_example : goes_back (ex_cfg 1) ex_call (direct_reply 200 (at_ (B "10.0.0.1")) (Some (PSdp peer_sdp))) /\ reply_ok (direct_reply 200 (at_ (B "10.0.0.1")) (Some (PSdp peer_sdp))).
Proof. split; [|apply direct_ok; [lia|left; reflexivity|right; reflexivity]]. intros x y (n & r & X) (n' & r' & Y). vm_compute in X, Y. injection X as <- _. injection Y as <- _. reflexivity. Qed.
Example elsewhere_example : goes_elsewhere (ex_cfg 1) ex_call (direct_reply 200 (at_ (B "10.0.0.2")) (Some (PSdp peer_sdp))) /\ reply_ok (direct_reply 200 (at_ (B "10.0.0.2")) (Some (PSdp peer_sdp))) /\
  goes_elsewhere (ex_cfg 1) ex_call (ex_reply 200 (at_ (B "10.0.0.2")) (Some (PSdp peer_sdp))).
Proof. split; [|split; [apply direct_ok; [lia|right; reflexivity|right; reflexivity]|]]; intros x y (n & r & X) (n' & r' & Y); vm_compute in X, Y; injection X as <- _; injection Y as <- _; discriminate. Qed.
(** The whole call, with its goroutines; and the one that stops for good when the application hangs up. *)
Example live_call_example : exists l k k' inv ack bye it at_ bt, lsteps (ex_cfg 1) (lbegin (ex_cfg 1) ex_call) l k /\ length l = 4%nat /\ lat k = LOver /\ method inv = B "INVITE" /\ method ack = B "ACK" /\ method bye = B "BYE" /\
  shown (ex_cfg 1) k = [OSend k' inv it; OState Ringing; OSend k' ack at_; OPeer (s_addr peer_sdp) 4000; OState Answered; OSend k' bye bt; OState Hangup].
Proof.
  destruct call_example as (C1 & C2 & C3 & _ & C5). inversion C3 as [|? ? _ C6]; subst. inversion C6 as [|? ? C7 _]; subst. destruct back_example as [B1 B2].
  destruct (call_goes_through_live (ex_cfg 1) ex_call [ex_reply 180 [] None] _ (ex_reply 200 [] None) (hd (mkaddr None [] []) (at_ (B "10.0.0.1"))) [] C1 C2 B1) as (k & inv & it & rs & an & ack & at_ & k' & bye & bt & co & l & M1 & _ & _ & _ & F & _ & M2 & _ & M3 & _ & _ & _ & _ & _ & _ & RK & S & A & SH);
    [constructor; [exact C7|constructor]|exact B2|reflexivity|reflexivity|exact C5|reflexivity|reflexivity|].
  rewrite RK in SH. eexists _, l, (so_remote k), inv, ack, bye, it, at_, bt. split; [exact S|]. split; [rewrite app_length, map_length; rewrite <- (forall2_len _ _ _ F); reflexivity|]. split; [exact A|]. do 3 (split; [assumption|]). exact SH.
Qed.
Example live_hang_example : exists l k a inv ack it at_, lsteps (ex_cfg 1) (lbegin (ex_cfg 1) ex_call) l k /\ length l = 3%nat /\ stuck (ex_cfg 1) k /\ method inv = B "INVITE" /\ method ack = B "ACK" /\
  shown (ex_cfg 1) k = [OSend a inv it; OState Ringing; OSend a ack at_; OPeer (s_addr peer_sdp) 4000; OState Answered].
Proof.
  destruct call_example as (C1 & C2 & C3 & _ & C5). inversion C3 as [|? ? _ C6]; subst. inversion C6 as [|? ? C7 _]; subst. destruct elsewhere_example as (B1 & B2 & _).
  destruct (call_hangs_refuted (ex_cfg 1) ex_call [ex_reply 180 [] None] _ (hd (mkaddr None [] []) (at_ (B "10.0.0.2"))) [] C1 C2 B1) as (k & inv & it & rs & an & ack & at_ & l & M1 & F & _ & M2 & _ & S & A & SH);
    [constructor; [exact C7|constructor]|exact B2|reflexivity|reflexivity|].
  eexists _, l, (so_remote k), inv, ack, it, at_. split; [exact S|]. split; [rewrite app_length, map_length; rewrite <- (forall2_len _ _ _ F); reflexivity|]. split; [exact A|]. do 2 (split; [assumption|]). exact SH.
Qed.
(** example.org has two servers. If the first is silent, the second is not tried. *)
Example silent_hang_example : exists es l inv t, lsteps (ex_cfg 2) (lbegin (ex_cfg 2) ex_call) es l /\ stuck (ex_cfg 2) l /\ In (OSend (B "10.0.0.1:5060") inv t) (shown (ex_cfg 2) l) /\ method inv = B "INVITE" /\
  (forall to x t, In (OSend to x t) (shown (ex_cfg 2) l) -> to = B "10.0.0.1:5060") /\ forall e, ~ In (OErr e) (shown (ex_cfg 2) l).
Proof.
  destruct call_example as (C1 & C2 & _). assert (CD : candidates ex_dns (next_hop ex_call) = [B "10.0.0.1:5060"; B "10.0.0.2:5060"]) by reflexivity.
  destruct (detour_hangs_refuted (ex_cfg 2) ex_dns ex_call [Silent] C1 (fun _ => eq_refl) ltac:(cbn; lia) C2) as (first & es & l & inv & t & _ & F & S & ST & I & M & A & E).
  - rewrite CD. cbn [tl legs_ok]. split; [cbn; lia|exact I].
  - rewrite CD. cbn [hd tl legs_at]. intros [X _]. discriminate X.
  - rewrite CD in F. cbn [hd] in F. subst first. exists es, l, inv, t. auto 8.
Qed.
Example detours_hang_example : (c_max (ex_cfg 2) + 3 <= hops ex_call /\ candidates ex_dns (next_hop ex_call) = [B "10.0.0.1:5060"; B "10.0.0.2:5060"]) /\ reply_ok (direct_reply 302 (at_ (B "10.0.0.2")) None) /\ hd [] (candidates ex_dns (hop_of (a_uri (hd (mkaddr None [] []) (at_ (B "10.0.0.2")))))) = B "10.0.0.2:5060".
Proof. split; [split; [cbn; lia|reflexivity]|]. split; [apply direct_ok; [lia|right; reflexivity|left; reflexivity]|reflexivity]. Qed.
