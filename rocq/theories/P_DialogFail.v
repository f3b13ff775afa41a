(** C54: failover to the next candidate address. *)
From Verif Require Import Bytes BytesLemmas GoLib GoLibLemmas SdpModel SipText SipTypes SipAppend UtilModel P_Text P_Lists DialogMsg P_DialogMsg DialogModel P_DialogEnd P_Dialog P_DialogSafe.
Local Open Scope Z_scope.

(** The addresses of [bad] are tried one after the other, starting with the n-th answer of the world, and none can be connected to. *)
Definition unreachable (cfg : config) (n : nat) (bad : list bytes) : Prop := forall i a, nth_error bad i = Some a -> w_dial (c_world cfg (n + i)%nat) a = None.
(** the address of the current socket *)
Definition elsewhere (s : dstate) (a : bytes) : Prop := forall k, so s = Some k -> a <> so_remote k.
(** the state in which the next address is tried *)
Definition skipped (cfg : config) (s s' : dstate) (n : nat) : Prop :=
  clock s' = (clock s + n)%nat /\ (so s' = so s \/ so s' = None) /\ cso s' = cso s /\ st s' = st s /\ dest s' = dest s /\ invite s' = invite s /\ remote s' = remote s /\ req s' = req s /\
  response s' = response s /\ lseq s' = lseq s /\ rseq s' = rseq s.
Lemma connect_other cfg w s a : daddr s = a -> elsewhere s a -> connect cfg w s =
  match w_dial w a with
  | None => (set_so None s, false)
  | Some k => match cso s with None => if c_loose cfg then match w_listen w with Some p => (set_cso (Some p) (set_so (Some k) s), true) | None => (set_so (Some k) s, false) end else (set_so (Some k) s, true) | Some _ => (set_so (Some k) s, true) end
  end.
Proof.
  intros D E. unfold connect. replace (match so s with Some k => bseq (daddr s) (so_remote k) | None => false end) with false.
  - cbv zeta. change (daddr (set_so None s)) with (daddr s). rewrite D. destruct (w_dial w a); [|reflexivity]. change (cso (set_so (Some s0) (set_so None s))) with (cso s). destruct (cso s); reflexivity.
  - destruct (so s) as [k|] eqn:K; [|reflexivity]. rewrite D. destruct (bseq_reflect a (so_remote k)) as [X|X]; [|reflexivity]. destruct (E k K X).
Qed.
Lemma pop_skips cfg bad : forall rest s, unreachable cfg (clock s) bad -> Forall (elsewhere s) bad -> exists s', skipped cfg s s' (length bad) /\ pop_route cfg (bad ++ rest) s = pop_route cfg rest s'.
Proof.
  induction bad as [|a bad IH]; intros rest s U E.
  - exists s. split; [|reflexivity]. repeat split; auto.
  - inversion E as [|? ? E1 E2]; subst. cbn [app pop_route]. rewrite !upd_seq. unfold ask. set (s1 := set_clock _ _).
    rewrite (connect_other cfg _ s1 a eq_refl E1). change (clock (set_routes (bad ++ rest) (set_daddr a s))) with (clock s). pose proof (U 0%nat a eq_refl) as U0. rewrite Nat.add_0_r in U0. rewrite U0. cbn [negb].
    destruct (IH rest (set_so None s1)) as (s' & (F1 & F2 & F3) & F).
    { intros i b N. specialize (U (S i) b N). rewrite Nat.add_succ_r in U. exact U. }
    { apply Forall_forall. intros b _ k K. discriminate. }
    exists s'. split; [|exact F]. split; [rewrite F1; unfold s1; cbn [clock set_so set_clock set_routes set_daddr length]; lia|]. split; [right; destruct F2 as [-> | ->]; reflexivity|exact F3].
Qed.
(** the time stamp that may be added to the first Via entry *)
Definition stamped (l l' : list via) : Prop := l' = l \/ exists v k t, l = v :: k /\ l' = set_vparam ((B "usi", t) :: v_param v) v :: k.
Lemma stamp_stamped m t m2 : addTimestamp m t = Ok m2 -> exists v, stamped (vias m) v /\ m2 = set_vias v m.
Proof.
  unfold addTimestamp. destruct t as [t|]; [|intros E; injection E as <-; exists (vias m); split; [left; reflexivity|destruct m; reflexivity]]. destruct (vias m) as [|v l]; [discriminate|]. intros E. injection E as <-. eexists. split; [|reflexivity]. right. eauto.
Qed.
(** The request [m] goes to [k], and what is left to try is [rest]. The socket may fail, which ends the dialog. What is sent is the text
    of the message, and the message is remembered for repetition. *)
Definition placed (cfg : config) (s : dstate) (k : sock) (cport : option Z) (rest : list bytes) (m : msg) (r : result) : Prop :=
  (r_out r = [OErr DSocket] /\ r_v r = Halt) \/
  (r_v r = Cont /\ so (r_state r) = Some k /\ cso (r_state r) = cport /\ routes (r_state r) = rest /\ resends (r_state r) = 0 /\ rtimer (r_state r) = true /\ st (r_state r) = st s /\ dest (r_state r) = dest s /\
   exists v n, let x := set_vias v (lowered m) in stamped (vias m) v /\ the_request (r_state r) = x /\ r_out r = [OSend (so_remote k) x (msg_append (w_rid (c_world cfg n)) x)]).
(** the port of the socket for incoming requests: the one that is open, or a new one if it is wanted *)
Definition contact_port (cfg : config) (s : dstate) (w : world) : option Z := match cso s with Some p => Some p | None => if c_loose cfg then w_listen w else None end.
Lemma pop_next cfg s bad a rest k' m : unreachable cfg (clock s) bad -> Forall (elsewhere s) (bad ++ [a]) -> let w := c_world cfg (clock s + length bad)%nat in
  w_dial w a = Some k' -> cso s <> None \/ c_loose cfg = false \/ w_listen w <> None -> populate k' (contact_port cfg s w) w (the_request s) = Ok m -> vias m <> [] -> maxforwards m <> 1 ->
  placed cfg s k' (contact_port cfg s w) rest m (pop_route cfg (bad ++ a :: rest) s).
Proof.
  intros U E w D CS P V MF. apply Forall_app in E. destruct E as [E1 E2]. inversion E2 as [|? ? E3 _]; subst.
  destruct (pop_skips cfg bad (a :: rest) s) as (s1 & (F1 & F2 & F3 & F4 & F5 & F6 & F7 & F8 & F9) & ->); [exact U|exact E1|]. unfold placed. rewrite <- F4, <- F5.
  cbn [pop_route]. rewrite !upd_seq. unfold ask. change (clock (set_routes rest (set_daddr a s1))) with (clock s1). rewrite F1. fold w. set (s2 := set_clock _ _).
  rewrite (connect_other cfg _ s2 a eq_refl). 2: { intros x X. change (so s2) with (so s1) in X. destruct F2 as [F2|F2]; rewrite F2 in X; [exact (E3 x X)|discriminate]. }
  rewrite D. change (cso s2) with (cso s1). rewrite F3. set (cp := contact_port cfg s w) in *.
  assert (X : exists s3, (match cso s with None => if c_loose cfg then match w_listen w with Some p => (set_cso (Some p) (set_so (Some k') s2), true) | None => (set_so (Some k') s2, false) end else (set_so (Some k') s2, true) | Some _ => (set_so (Some k') s2, true) end) = (s3, true) /\
    so s3 = Some k' /\ cso s3 = cp /\ routes s3 = rest /\ st s3 = st s1 /\ dest s3 = dest s1 /\ req s3 = req s1 /\ invite s3 = invite s1).
  { unfold cp, contact_port. destruct (cso s) as [p|] eqn:CE; [eexists; split; [reflexivity|]; cbn; repeat split; congruence|]. destruct (c_loose cfg); [|eexists; split; [reflexivity|]; cbn; repeat split; congruence].
    destruct (w_listen w) as [p|]; [eexists; split; [reflexivity|]; cbn; repeat split; congruence|]. destruct CS as [CS|[CS|CS]]; congruence. }
  destruct X as (s3 & -> & G1 & G2 & G3 & G4 & G5 & G6 & G7). cbn [negb]. clearbody s2. rewrite G1. cbv iota beta. rewrite G2.
  assert (TR : the_request s3 = the_request s) by (unfold the_request; rewrite G6, G7, F6, F8; reflexivity). rewrite TR, P. cbn [val]. rewrite upd_seq. rewrite <- G4, <- G5. clear G4 G5 G6 G7 TR F1 F2 F3 F4 F5 F6 F7 F8 F9 s1.
  set (s4 := set_the_request m s3). assert (H4 : so s4 = Some k' /\ cso s4 = cp /\ routes s4 = rest /\ st s4 = st s3 /\ dest s4 = dest s3) by (unfold s4, set_the_request; destruct (req s3); auto). clearbody s4. destruct H4 as (A1 & A2 & A3 & A4 & A5). rewrite <- A4, <- A5. clear A4 A5 G1 G2 G3 s3.
  assert (Y : exists s5, so s5 = Some k' /\ cso s5 = cp /\ routes s5 = rest /\ st s5 = st s4 /\ dest s5 = dest s4 /\ forall b, ((look st (fun n => if n <? Answered then upd (set_rseq 0) ;; upd (set_remote None) ;; upd (set_lseq (cseq m)) else upd (fun s => s))) ;; b) s4 = b s5).
  { destruct (Z.ltb_spec (st s4) Answered) as [L'|L'].
    - exists (set_lseq (cseq m) (set_remote None (set_rseq 0 s4))). do 5 (split; [assumption || reflexivity|]). intros b. apply seq_go. unfold look. destruct (Z.ltb_spec (st s4) Answered); [|lia]. rewrite !upd_seq. reflexivity.
    - exists s4. do 5 (split; [assumption || reflexivity|]). intros b. apply seq_go. unfold look. destruct (Z.ltb_spec (st s4) Answered); [lia|]. reflexivity. }
  destruct Y as (s5 & B1 & B2 & B3 & B4 & B5 & ->). rewrite <- B4, <- B5. clear B4 B5 A1 A2 A3 s4. rewrite !upd_seq. set (s6 := set_rtimer true _).
  assert (H6 : so s6 = Some k' /\ cso s6 = cp /\ routes s6 = rest /\ resends s6 = 0 /\ rtimer s6 = true /\ st s6 = st s5 /\ dest s6 = dest s5) by (repeat split; assumption). clearbody s6. destruct H6 as (C1 & C2 & C3 & C4 & C5 & C6 & C7). rewrite <- C6, <- C7. clear C6 C7 B1 B2 B3 s5.
  rewrite send_eq. cbv zeta. destruct (Z.eqb_spec (maxforwards m) 1); [contradiction|].
  assert (K : forall x z, so (set_the_request x z) = so z /\ cso (set_the_request x z) = cso z /\ routes (set_the_request x z) = routes z /\ resends (set_the_request x z) = resends z /\ rtimer (set_the_request x z) = rtimer z /\ st (set_the_request x z) = st z /\ dest (set_the_request x z) = dest z) by (intros; unfold set_the_request; destruct (req z); repeat split).
  set (s7 := set_the_request (lowered m) s6). destruct (K (lowered m) s6) as (I1 & I2 & I3 & I4 & I5 & I6 & I7). fold s7 in I1, I2, I3, I4, I5, I6, I7. clearbody s7.
  destruct (addTimestamp (lowered m) (w_stamp (c_world cfg (clock s7)))) as [m7|] eqn:ST; [|apply stamp_panic in ST; rewrite lowered_vias in ST; contradiction]. destruct (stamp_stamped _ _ _ ST) as (v & SV & ->). rewrite lowered_vias in SV. clear ST.
  set (s8 := set_clock _ s7). set (m7 := set_vias v (lowered m)). destruct (K m7 s8) as (J1 & J2 & J3 & J4 & J5 & J6 & J7). pose proof (the_request_set m7 s8) as J8.
  rewrite J1. change (so s8) with (so s7). rewrite I1, C1. destruct (w_write _ _); [right|left; split; reflexivity]. cbn [r_v r_state r_out]. rewrite J1, J2, J3, J4, J5, J6, J7, J8. unfold s8. cbn [so cso routes resends rtimer st dest set_clock]. repeat split; try congruence.
  exists v. eexists. split; [exact SV|]. split; reflexivity.
Qed.
(** With the contact socket not to be had, the address is given up. *)
Lemma pop_no_contact cfg s a rest k' : elsewhere s a -> w_dial (c_world cfg (clock s)) a = Some k' -> cso s = None -> c_loose cfg = true -> w_listen (c_world cfg (clock s)) = None ->
  exists s', pop_route cfg (a :: rest) s = pop_route cfg rest s' /\ clock s' = S (clock s) /\ so s' = Some k' /\ cso s' = None /\ st s' = st s /\ dest s' = dest s /\ the_request s' = the_request s.
Proof.
  intros E D C L N. cbn [pop_route]. rewrite !upd_seq. unfold ask. change (clock (set_routes rest (set_daddr a s))) with (clock s). set (s2 := set_clock _ _). rewrite (connect_other cfg _ s2 a eq_refl E), D, L, N. change (cso s2) with (cso s). rewrite C. cbn [negb]. eexists. split; [reflexivity|]. repeat split; assumption.
Qed.
(** a request which is repeated no more *)
Lemma timeout_pops cfg s k : so s = Some k -> c_max cfg <= resends s -> handle cfg EReqTimer s = pop_route cfg (routes s) (set_rtimer false s).
Proof.
  intros K L. cbn [handle]. rewrite upd_seq. unfold resendRequest, look. change (resends (set_rtimer false s)) with (resends s). destruct (Z.ltb_spec (resends s) (c_max cfg)); [lia|]. change (so (set_rtimer false s)) with (so s). rewrite K. reflexivity.
Qed.
(** The timer of the last repetition runs out. The addresses which cannot be connected to are passed over; the first that can receives
    the request, populated for the new socket. *)
Theorem timeout_tries_next : forall cfg s k bad a rest k' m, so s = Some k -> c_max cfg <= resends s -> routes s = bad ++ a :: rest ->
  unreachable cfg (clock s) bad -> Forall (elsewhere s) (bad ++ [a]) -> let w := c_world cfg (clock s + length bad)%nat in
  w_dial w a = Some k' -> cso s <> None \/ c_loose cfg = false \/ w_listen w <> None -> populate k' (contact_port cfg s w) w (the_request s) = Ok m -> vias m <> [] -> maxforwards m <> 1 ->
  placed cfg s k' (contact_port cfg s w) rest m (handle cfg EReqTimer s).
Proof.
  intros cfg s k bad a rest k' m K L R U E w D CS P V MF. rewrite (timeout_pops _ _ _ K L), R. exact (pop_next cfg (set_rtimer false s) bad a rest k' m U E D CS P V MF).
Qed.
(** When no address is left, or none of those left can be connected to, an error that names the destination is reported and the dialog ends. *)
Theorem timeout_none_left : forall cfg s k, so s = Some k -> c_max cfg <= resends s -> unreachable cfg (clock s) (routes s) -> Forall (elsewhere s) (routes s) ->
  r_out (handle cfg EReqTimer s) = [OErr (DContact (dest s))] /\ r_v (handle cfg EReqTimer s) = Halt.
Proof.
  intros cfg s k K L U E. rewrite (timeout_pops _ _ _ K L). destruct (pop_skips cfg (routes s) [] (set_rtimer false s)) as (s1 & (_ & _ & _ & _ & F & _) & X); [exact U|exact E|]. rewrite app_nil_r in X. rewrite X. cbn [pop_route]. rewrite upd_seq. unfold look.
  change (dest (set_routes [] s1)) with (dest s1). rewrite F. split; reflexivity.
Qed.
Lemma sent_then cfg m s k rest : so s = Some k -> maxforwards m = 0 -> vias m <> [] ->
  exists n, (send cfg m drop ;; rest) s = mkres (set_clock n s) [OErr DSocket] Halt \/
    exists vs text, let s' := set_clock n s in (send cfg m drop ;; rest) s = mkres (r_state (rest s')) (OSend (so_remote k) (set_vias vs m) text :: r_out (rest s')) (r_v (rest s')).
Proof.
  intros K MF V. exists (S (clock s)). unfold seq. cbv zeta. rewrite send_eq. unfold drop. cbv zeta. rewrite MF, (lowered_zero _ MF). cbn [Z.eqb so set_clock]. rewrite K.
  destruct (stamp_vias m (w_stamp (c_world cfg (clock s))) V) as (v & NV & ->). destruct (w_write _ _); [right|left; reflexivity]. cbn [r_v r_out r_state app]. eauto.
Qed.
(** A server that answers 503: whatever addresses are left, none is tried. The 503 is acknowledged, and then the dialog ends. *)
Theorem unavailable_refuted : forall cfg s m k c cs, so s = Some k -> final_response s m -> req s = None -> status m = 503 -> addrs m Contact = c :: cs ->
  let r := handle cfg (EMsg m) s in r_v r = Halt /\ (r_out r = [OErr DSocket] \/ exists ack text, method ack = B "ACK" /\ r_out r = [OSend (so_remote k) ack text; OErr (DContact (dest s))]).
Proof.
  intros cfg s m k c cs K (V & C & M & I & S) Q ST CT. cbv zeta. cbn [handle].
  assert (E : handleMessage cfg m s = (val (NewAck m (the_request s)) (fun ack => send cfg ack drop) ;; upd (set_routes []) ;; upd (set_rtimer false) ;; upd (fun s => s) ;;
    look req (fun r => match r with None => look so (fun k => match k with Some _ => popRoute cfg | None => crash end) | Some _ => fail (DResponse m) end)) s).
  { unfold handleMessage. rewrite (version_ok _ V). unfold look at 1. rewrite C, bseq_refl. unfold IsResponse. destruct (Z.ltb_spec 0 (status m)); [|lia]. cbn [negb]. unfold handleResponse, look at 1. rewrite M, I, bseq_refl, ST, CT. reflexivity. }
  rewrite E. destruct (match_via _ _ M) as (v & l & VV). destruct (new_ack m (the_request s) _ _ _ _ CT VV) as (ack & EA & MA & _ & _ & _ & _ & _ & _ & _ & VA & MF). rewrite EA. cbn [val].
  match goal with |- context[(send cfg ack drop ;; ?b) s] => destruct (sent_then cfg ack s k b K MF) as [n [X|(vs & text & X)]]; [rewrite VA; discriminate| |] end; rewrite X; [split; [reflexivity|left; reflexivity]|].
  set (s1 := set_clock n s). assert (F : so s1 = Some k /\ req s1 = None /\ dest s1 = dest s) by auto. clearbody s1. destruct F as (F1 & F2 & F3). rewrite !upd_seq. unfold look. change (req (set_rtimer false (set_routes [] s1))) with (req s1). rewrite F2.
  change (so (set_rtimer false (set_routes [] s1))) with (so s1). rewrite F1. unfold popRoute, look. cbn [routes set_rtimer set_routes pop_route]. rewrite upd_seq. cbn [r_v r_out r_state fail seq emit halt]. split; [reflexivity|]. right. exists (set_vias vs ack), text. split; [exact MA|]. cbn. rewrite F3. reflexivity.
Qed.
(** A server whose host refuses the datagram crashes the loop, see refusal_refuted. *)
