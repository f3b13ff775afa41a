(** C109: several goroutines may send through one transport. *)
From Coq Require Import List ZArith Lia.
From Verif Require Import Bytes BytesLemmas GoLib GoLibLemmas SdpModel SdpProofs SipText SipTypes SipAppend UtilModel P_Text P_Lists UriSpec P_Uri MsgModel MsgSpec MsgGrammar P_MsgText MsgWf MsgRound P_MsgRound
  DialogMsg P_DialogMsg P_DialogWire TransportModel P_Transport P_TransportAt P_Received DialogModel P_DialogCount P_Written P_Call P_Talk P_CutSend P_Worn SendersModel.
Import ListNotations.
Local Open Scope Z_scope.

(** ** Specification *)
(** a goroutine's result is the one of Send called alone, but for the parameters of the transport's Via, which are q *)
Definition but_for_params (tp : transport) (w : net) (q : list param) (alone r : result) : Prop :=
  let v := [set_vparam q (tp_via tp)] in
  match alone with
  | Panic => r = Panic
  | Ok (h, [], _) => r = Ok (mkheld (set_vias v (h_msg h)) true, [], false)
  | Ok (_, (a, m, _) :: _, _) => let m := set_vias v m in r = Ok (mkheld m true, [(a, m, msg_append (n_rid w) m)], n_write w a (msg_append (n_rid w) m))
  end.
(** a parameter of one of the requests which are being sent, or one the transport had before *)
Definition of_one (tp : transport) (jobs : list (msg * net)) (x : param) : Prop :=
  In x (v_param (tp_via tp)) \/ exists m w, In (m, w) jobs /\ (x = (B "branch", GenerateBranch (dr_branch (n_draws w))) \/ exists t, n_stamp w = Some t /\ x = (B "usi", t)).

(** ** Send alone *)
Lemma set_vias_twice k k' m : set_vias k (set_vias k' m) = set_vias k m. Proof. destruct m. reflexivity. Qed.
Lemma set_vias_own m : set_vias (vias m) m = m. Proof. destruct m. reflexivity. Qed.
Lemma set_vparam_twice p q v : set_vparam p (set_vparam q v) = set_vparam p v. Proof. destruct v. reflexivity. Qed.

Definition branched (w : net) (p : list param) : list param := with_value (B "branch") (GenerateBranch (dr_branch (n_draws w))) p.
Lemma prepared_vias tp m w m1 o : borrows m = true -> prepared tp m w = Ok (m1, o) -> vias m1 = [set_vparam (branched w (v_param (tp_via tp))) (tp_via tp)].
Proof.
  unfold borrows, prepared. intros BR H. apply andb_prop in BR. destruct BR as [IR VM]. apply negb_true_iff in IR. destruct (vias m) as [|? ?] eqn:EV; [clear VM|discriminate].
  apply rbind_ok in H. destruct H as (m2 & P & H). destruct (populate_vias _ _ _ _ IR _ P) as (v & vl & E & V2). rewrite EV in E. cbn [or_else] in E. injection E as <- <-. destruct (populate_at _ _ _ _ IR _ P) as (_ & _ & _ & _ & ST).
  apply rbind_ok in H. destruct H as ([m3 r] & R & H). assert (IR2 : IsResponse m2 = false) by (unfold IsResponse in *; rewrite ST; exact IR). destruct (route_at _ _ _ _ _ IR2 R) as (V3 & _). rewrite V2 in V3.
  destruct r as [[host port]|e]; [|injection H as <- _; exact V3]. destruct (n_resolve w (JoinHostPort host (Portstr port))) as [a|]; [|injection H as <- _; exact V3]. injection H as <- _. destruct (0 <? maxforwards m3); exact V3.
Qed.
Lemma alone_borrowed tp m w : borrows m = true -> result_of (Send tp (mkheld m false) w) =
  match prepared tp m w with
  | Panic => Panic
  | Ok (m1, None) => Ok (mkheld (set_vias [set_vparam (branched w (v_param (tp_via tp))) (tp_via tp)] m1) true, [], false)
  | Ok (m1, Some a) => let m2 := set_vias [set_vparam (stamped w ++ branched w (v_param (tp_via tp))) (tp_via tp)] m1 in
      Ok (mkheld m2 true, [(a, m2, msg_append (n_rid w) m2)], n_write w a (msg_append (n_rid w) m2))
  end /\ forall s, Send tp (mkheld m false) w = Ok s -> v_param (tp_via (sd_tp s)) = match prepared tp m w with Ok (_, Some _) => stamped w ++ branched w (v_param (tp_via tp)) | _ => branched w (v_param (tp_via tp)) end.
Proof.
  intros BR. pose proof (prepared_vias tp m w) as PV. assert (V1 : view tp (mkheld m false) = m) by reflexivity. unfold Send. rewrite V1. cbv zeta. cbn [h_shared orb]. fold (borrows m). rewrite BR.
  unfold prepared in *. destruct (PopulateMessage [tp_via tp] (tp_contact tp) m (n_draws w)) as [m2|]; [|split; [reflexivity|discriminate]]. cbn [rbind] in *.
  destruct (RouteMessage [tp_via tp] (tp_contact tp) m2) as [[m3 r]|]; [|split; [reflexivity|discriminate]]. cbn [rbind] in *.
  assert (NO : forall m1, vias m1 = [set_vparam (branched w (v_param (tp_via tp))) (tp_via tp)] ->
    result_of (Ok (left_behind tp true m1 [] false)) = Ok (mkheld (set_vias [set_vparam (branched w (v_param (tp_via tp))) (tp_via tp)] m1) true, [], false) /\
    forall s, Ok (left_behind tp true m1 [] false) = Ok s -> v_param (tp_via (sd_tp s)) = branched w (v_param (tp_via tp))).
  { intros m1 E. rewrite <- E at 1. rewrite set_vias_own. split; [reflexivity|]. intros s H. injection H as <-. unfold left_behind. cbn [sd_tp]. rewrite E. reflexivity. }
  destruct r as [[host port]|e]; [|apply NO; exact (PV _ _ BR eq_refl)]. destruct (n_resolve w (JoinHostPort host (Portstr port))) as [a|]; [|apply NO; exact (PV _ _ BR eq_refl)].
  specialize (PV _ _ BR eq_refl). set (m4 := if 0 <? maxforwards m3 then _ else _) in *. clearbody m4. clear NO. unfold addTimestamp, stamped. destruct (n_stamp w) as [t|].
  - rewrite PV, set_vparam_twice. cbn [rbind v_param set_vparam app]. split; [reflexivity|]. intros s H. injection H as <-. unfold left_behind. cbn [sd_tp vias set_vias]. reflexivity.
  - cbn [rbind app]. cbv zeta. assert (E : set_vias [set_vparam (branched w (v_param (tp_via tp))) (tp_via tp)] m4 = m4) by (rewrite <- PV; apply set_vias_own). rewrite E. split; [reflexivity|]. intros s H. injection H as <-. unfold left_behind. cbn [sd_tp]. rewrite PV. reflexivity.
Qed.

(** ** Turns *)
Lemma nth_put {A} i (x : A) l g : nth_error l i = Some g -> nth_error (put i x l) i = Some x.
Proof. intros H. assert (L : (i < length l)%nat) by (apply nth_error_Some; congruence). unfold put. rewrite nth_error_app2; rewrite firstn_length_le by lia; [|lia]. rewrite Nat.sub_diag. reflexivity. Qed.
Lemma nth_put_other {A} i j (x : A) l g : nth_error l i = Some g -> j <> i -> nth_error (put i x l) j = nth_error l j.
Proof.
  revert i j. induction l as [|a l IH]; intros [|i] [|j] H N; try discriminate; try congruence; try reflexivity. unfold put in *. cbn [firstn skipn app nth_error]. apply (IH i j H). congruence.
Qed.
Lemma put_length {A} i (x : A) l g : nth_error l i = Some g -> length (put i x l) = length l.
Proof. intros H. assert (L : (i < length l)%nat) by (apply nth_error_Some; congruence). unfold put. rewrite app_length, firstn_length_le by lia. cbn [length]. rewrite skipn_length. lia. Qed.

(** an invariant of the parameters, and one of each goroutine which follows from it *)
Lemma kept_along tp jobs (I : list param -> Prop) (J : list param -> msg -> net -> place -> Prop) :
  (forall p p' m w g, I p -> I p' -> (exists m' w' g0 g1, In (m', w') jobs /\ J p m' w' g0 /\ access tp m' w' p g0 = Some (p', g1)) -> J p m w g -> J p' m w g) ->
  (forall p m w g p' g', In (m, w) jobs -> I p -> J p m w g -> access tp m w p g = Some (p', g') -> I p' /\ J p' m w g') ->
  forall c l c', turns tp jobs c l c' ->
    I (fst c) /\ (forall i m w g, nth_error jobs i = Some (m, w) -> nth_error (snd c) i = Some g -> J (fst c) m w g) ->
    I (fst c') /\ (forall i m w g, nth_error jobs i = Some (m, w) -> nth_error (snd c') i = Some g -> J (fst c') m w g).
Proof.
  intros JK ST c l c' T. induction T as [c|c i c' l c'' T _ IH]; [auto|]. intros (HI & HJ). apply IH. clear IH. destruct T as [i m w p g p' g' gs E1 E2 A]. cbn [fst snd] in *.
  assert (IN : In (m, w) jobs) by (eapply nth_error_In; exact E1). destruct (ST _ _ _ _ _ _ IN HI (HJ _ _ _ _ E1 E2) A) as (HI' & HJ'). split; [exact HI'|]. intros k m2 w2 g2 K1 K2. destruct (Nat.eq_dec k i) as [-> | N].
  - rewrite (nth_put _ _ _ _ E2) in K2. injection K2 as <-. rewrite E1 in K1. injection K1 as <- <-. exact HJ'.
  - rewrite (nth_put_other _ _ _ _ _ E2 N) in K2. apply (JK p); [exact HI|exact HI'| |exact (HJ _ _ _ _ K1 K2)]. exists m, w, g, g'. split; [exact IN|]. split; [exact (HJ _ _ _ _ E1 E2)|exact A].
Qed.
Lemma opening_fresh tp (jobs : list (msg * net)) i g : nth_error (snd (opening tp jobs)) i = Some g -> g = Fresh.
Proof. intros H. apply nth_error_In in H. cbn [snd opening] in H. exact (repeat_spec _ _ _ H). Qed.

(** ** Every schedule *)
Definition has_branch (p : list param) : Prop := value_of (B "branch") p <> None.
Lemma value_get_none n p : value_of n p = None <-> param_get p n = None.
Proof. rewrite value_get. destruct (param_get p n) as [[]|]; cbn; split; congruence. Qed.
Lemma has_after n x p : has_branch p -> n = B "usi" -> has_branch ((n, x) :: p).
Proof. intros H ->. unfold has_branch. rewrite value_skip by reflexivity. exact H. Qed.
Lemma has_added x p : has_branch ((B "branch", x) :: p).
Proof. unfold has_branch. rewrite value_head by reflexivity. discriminate. Qed.

Definition whole (tp : transport) (jobs : list (msg * net)) (p : list param) (m : msg) (w : net) (g : place) : Prop :=
  match g with
  | Fresh => True
  | Checked => borrows m = true
  | Adding q => borrows m = true /\ Forall (of_one tp jobs) q
  | Branched => borrows m = true /\ has_branch p
  | Stamped => borrows m = true /\ has_branch p /\ exists x a, prepared tp m w = Ok (x, Some a)
  | Stamping q => borrows m = true /\ has_branch p /\ has_branch q /\ Forall (of_one tp jobs) q /\ exists x a, prepared tp m w = Ok (x, Some a)
  | Finished r => if borrows m then exists q, (r <> Panic -> has_branch q) /\ Forall (of_one tp jobs) q /\ but_for_params tp w q (result_of (Send tp (mkheld m false) w)) r
                  else r = result_of (Send tp (mkheld m false) w)
  end.
Lemma whole_access tp jobs p m w g p' g' : In (m, w) jobs -> Forall (of_one tp jobs) p -> whole tp jobs p m w g -> access tp m w p g = Some (p', g') ->
  Forall (of_one tp jobs) p' /\ (has_branch p -> has_branch p') /\ whole tp jobs p' m w g'.
Proof.
  intros IN HP W A.
  assert (BRN : forall q, Forall (of_one tp jobs) q -> Forall (of_one tp jobs) ((B "branch", GenerateBranch (dr_branch (n_draws w))) :: q)) by (intros q F; constructor; [right; exists m, w; auto|exact F]).
  assert (USI : forall q t, n_stamp w = Some t -> Forall (of_one tp jobs) q -> Forall (of_one tp jobs) ((B "usi", t) :: q)) by (intros q t E F; constructor; [right; exists m, w; split; [exact IN|right; exists t; auto]|exact F]).
  destruct g as [| |q| |q| |r]; cbv beta iota delta [access whole] in W, A.
  - destruct (borrows m) eqn:BR; [|injection A as <- <-; split; [exact HP|split; [auto|]]; cbn [whole]; rewrite BR; reflexivity].
    destruct (prepared tp m w) as [x|] eqn:PR.
    + destruct (param_get p (B "branch")) eqn:G; injection A as <- <-; (split; [exact HP|]; split; [auto|]); cbn [whole]; [|exact BR]. split; [exact BR|]. unfold has_branch. rewrite value_get_none. congruence.
    + injection A as <- <-. split; [exact HP|]. split; [auto|]. cbn [whole]. rewrite BR. exists p. split; [congruence|]. split; [exact HP|]. unfold but_for_params. rewrite (proj1 (alone_borrowed tp m w BR)), PR. reflexivity.
  - injection A as <- <-. split; [exact HP|]. split; [auto|]. cbn [whole]. auto.
  - injection A as <- <-. destruct W as (BR & F). split; [apply BRN; exact F|]. split; [intros _; apply has_added|]. cbn [whole]. split; [exact BR|apply has_added].
  - destruct W as (BR & HB). destruct (prepared tp m w) as [[m1 [a|]]|] eqn:PR; injection A as <- <-; (split; [exact HP|]; split; [auto|]).
    + destruct (n_stamp w); cbn [whole]; eauto 8.
    + cbn [whole]. rewrite BR. exists p. split; [auto|]. split; [exact HP|]. unfold but_for_params. rewrite (proj1 (alone_borrowed tp m w BR)), PR. cbn [h_msg]. reflexivity.
    + cbn [whole]. rewrite BR. exists p. split; [congruence|]. split; [exact HP|]. unfold but_for_params. rewrite (proj1 (alone_borrowed tp m w BR)), PR. reflexivity.
  - destruct W as (BR & HB & HQ & F & PE). injection A as <- <-. destruct (n_stamp w) as [t|] eqn:ST; (split; [auto|]); (split; [auto using has_after|]); cbn [whole]; auto using has_after.
  - destruct W as (BR & HB & m1 & a & PR). rewrite PR in A. cbv zeta in A. injection A as <- <-. split; [exact HP|]. split; [auto|]. cbn [whole]. rewrite BR. exists p. split; [auto|]. split; [exact HP|]. unfold but_for_params. rewrite (proj1 (alone_borrowed tp m w BR)), PR. cbv zeta. reflexivity.
  - discriminate.
Qed.

(** * C109 *)
(** Whatever the schedule: a message with its own Via is sent as if nothing else were; a request without Via is sent to the same place with the same
    contents, and with a Via of the transport which has a branch and parameters of the requests being sent only. *)
Theorem senders_whole : forall tp jobs l p gs, turns tp jobs (opening tp jobs) l (p, gs) ->
  forall i m w r, nth_error jobs i = Some (m, w) -> nth_error gs i = Some (Finished r) ->
  (borrows m = false -> r = result_of (Send tp (mkheld m false) w)) /\
  (borrows m = true -> exists q, (r <> Panic -> exists b, value_of (B "branch") q = Some b) /\ Forall (of_one tp jobs) q /\ but_for_params tp w q (result_of (Send tp (mkheld m false) w)) r).
Proof.
  intros tp jobs l p gs T i m w r E1 E2.
  destruct (kept_along tp jobs (Forall (of_one tp jobs)) (whole tp jobs)) with (c := opening tp jobs) (l := l) (c' := (p, gs)) as (_ & K).
  - intros p1 p2 m2 w2 g HI _ (m' & w' & g0 & g1 & IN & W0 & A) W. destruct (whole_access _ _ _ _ _ _ _ _ IN HI W0 A) as (_ & HB & _). destruct g; cbn [whole] in *; intuition auto.
  - intros p1 m2 w2 g p2 g2 IN HI W A. destruct (whole_access _ _ _ _ _ _ _ _ IN HI W A) as (H1 & _ & H2). auto.
  - exact T.
  - split; [cbn [fst opening]; apply Forall_forall; intros x I; left; exact I|]. intros k m2 w2 g _ H. rewrite (opening_fresh _ _ _ _ H). exact I.
  - specialize (K i m w (Finished r) E1 E2). cbn [whole] in K. split; intros BR; rewrite BR in K; [exact K|]. destruct K as (q & K1 & K2 & K3). exists q. split; [|auto]. intros N. specialize (K1 N). unfold has_branch in K1. destruct (value_of (B "branch") q) as [b|]; [eauto|congruence].
Qed.

(** No goroutine waits for another: one which is not finished can go on, and it is finished after at most six accesses. *)
Definition left_to_do (g : place) : nat := match g with Fresh => 6 | Checked => 5 | Adding _ => 4 | Branched => 3 | Stamping _ => 2 | Stamped => 1 | Finished _ => 0 end.
Lemma access_less tp m w p g p' g' : access tp m w p g = Some (p', g') -> (left_to_do g' < left_to_do g)%nat.
Proof.
  destruct g; cbv beta iota delta [access]; intros A; try (injection A as _ <-; cbn; lia); try discriminate.
  - destruct (borrows m); [|injection A as _ <-; cbn; lia]. destruct (prepared tp m w); [|injection A as _ <-; cbn; lia]. injection A as _ <-. destruct (param_get p _); cbn; lia.
  - destruct (prepared tp m w) as [[m1 [a|]]|]; injection A as _ <-; [destruct (n_stamp w)| |]; cbn; lia.
  - destruct (prepared tp m w) as [[m1 [a|]]|]; injection A as _ <-; cbn; lia.
Qed.
Lemma turns_left tp jobs c l c' : turns tp jobs c l c' -> length (snd c') = length (snd c) /\ forall i g, nth_error (snd c) i = Some g -> exists g', nth_error (snd c') i = Some g' /\ (count_occ Nat.eq_dec l i + left_to_do g' <= left_to_do g)%nat.
Proof.
  intros T. induction T as [c|c i c' l c'' T _ (IL & IH)]; [split; [reflexivity|]; intros i g H; exists g; split; [exact H|cbn; lia]|].
  destruct T as [i m w p g p' g' gs E1 E2 A]. cbn [snd] in *. rewrite (put_length _ _ _ _ E2) in IL. split; [exact IL|]. intros k gk H. cbn [count_occ]. destruct (Nat.eq_dec i k) as [<- | N].
  - rewrite E2 in H. injection H as <-. destruct (IH i g' (nth_put _ _ _ _ E2)) as (g2 & H1 & H2). exists g2. split; [exact H1|]. pose proof (access_less _ _ _ _ _ _ _ A). lia.
  - rewrite <- (nth_put_other _ k g' _ _ E2 ltac:(congruence)) in H. exact (IH k gk H).
Qed.
Theorem senders_never_wait : forall tp jobs l p gs, turns tp jobs (opening tp jobs) l (p, gs) -> forall i m w, nth_error jobs i = Some (m, w) ->
  (count_occ Nat.eq_dec l i <= 6)%nat /\ exists g, nth_error gs i = Some g /\ ((exists r, g = Finished r) \/ exists c, turn tp jobs (p, gs) i c).
Proof.
  intros tp jobs l p gs T i m w E. destruct (turns_left _ _ _ _ _ T) as (L & H). cbn [snd opening] in L, H. rewrite repeat_length in L.
  assert (LI : (i < length jobs)%nat) by (apply nth_error_Some; congruence). destruct (H i Fresh) as (g & G & C); [apply nth_error_repeat; exact LI|]. cbn [left_to_do] in C. split; [lia|]. exists g. split; [exact G|].
  assert (AC : (exists r, g = Finished r) \/ exists p' g', access tp m w p g = Some (p', g')).
  { destruct g; cbv beta iota delta [access]; eauto. - right. destruct (borrows m); [destruct (prepared tp m w)|]; eauto. - right. destruct (prepared tp m w) as [[m1 [a|]]|]; eauto. - right. destruct (prepared tp m w) as [[m1 [a|]]|]; eauto. }
  destruct AC as [(r & ->)|(p' & g' & A)]; [left; eauto|]. right. exists (p', put i g' gs). eapply turn_of; eassumption.
Qed.

(** Once a request without Via was sent through the transport, and if messages are not stamped, every goroutine gets what Send alone does. *)
Theorem senders_as_alone : forall tp jobs l p gs b, value_of (B "branch") (v_param (tp_via tp)) = Some b -> Forall (fun mw => n_stamp (snd mw) = None) jobs ->
  turns tp jobs (opening tp jobs) l (p, gs) -> p = v_param (tp_via tp) /\
  forall i m w r, nth_error jobs i = Some (m, w) -> nth_error gs i = Some (Finished r) -> r = result_of (Send tp (mkheld m false) w).
Proof.
  intros tp jobs l p gs b HB NS T.
  destruct (kept_along tp jobs (fun p => p = v_param (tp_via tp)) (fun _ m w g => match g with Fresh => True | Branched => borrows m = true | Stamped => borrows m = true /\ exists x a, prepared tp m w = Ok (x, Some a) | Finished r => r = result_of (Send tp (mkheld m false) w) | _ => False end))
    with (c := opening tp jobs) (l := l) (c' := (p, gs)) as (KP & K).
  - intros. assumption.
  - intros p1 m w g p2 g2 IN -> J A. assert (NW : n_stamp w = None) by (rewrite Forall_forall in NS; exact (NS _ IN)). assert (BE : branched w (v_param (tp_via tp)) = v_param (tp_via tp)) by (unfold branched, with_value; rewrite HB; reflexivity).
    assert (SE : stamped w = []) by (unfold stamped; rewrite NW; reflexivity).
    destruct g as [| |q| |q| |r]; try contradiction; cbv beta iota delta [access] in A; try discriminate.
    + destruct (borrows m) eqn:BR; [|injection A as <- <-; auto]. destruct (prepared tp m w) eqn:PR.
      * destruct (param_get (v_param (tp_via tp)) (B "branch")) eqn:G; [injection A as <- <-; auto|]. apply value_get_none in G. congruence.
      * injection A as <- <-. split; [reflexivity|]. rewrite (proj1 (alone_borrowed tp m w BR)), PR. reflexivity.
    + rewrite NW in A. destruct (prepared tp m w) as [[m1 [a|]]|] eqn:PR; injection A as <- <-; (split; [reflexivity|]); [split; [exact J|eauto]| |]; rewrite (proj1 (alone_borrowed tp m w J)), PR; [rewrite BE|]; reflexivity.
    + destruct J as (J & m1 & a & PR). rewrite PR in A. cbv zeta in A. injection A as <- <-. split; [reflexivity|]. rewrite (proj1 (alone_borrowed tp m w J)), PR, SE, BE. reflexivity.
  - exact T.
  - split; [reflexivity|]. intros k m w g _ H. rewrite (opening_fresh _ _ _ _ H). exact I.
  - split; [exact KP|]. intros i m w r E1 E2. exact (K i m w (Finished r) E1 E2).
Qed.

(** A goroutine which is alone does what Send does, to its message and to the transport. *)
Lemma turn_one tp m w p g l p' r : turns tp [(m, w)] (p, [g]) l (p', [Finished r]) -> (g = Finished r /\ p = p') \/ exists p1 g1 l1, access tp m w p g = Some (p1, g1) /\ turns tp [(m, w)] (p1, [g1]) l1 (p', [Finished r]).
Proof.
  intros T. inversion T as [c E1 E2 E3|c i c' l1 c'' T1 T2 E1 E2 E3]; subst; [left; auto|]. right. inversion T1 as [i' m' w' p1 g1 p2 g2 gs H1 H2 H3]; subst. destruct i as [|i]; [|destruct i; discriminate]. cbn in H1, H2. injection H1 as <- <-. injection H2 as <-. exists p2, g2, l1. split; [exact H3|exact T2].
Qed.
Lemma finished_stays tp m w p r l p' r' : turns tp [(m, w)] (p, [Finished r]) l (p', [Finished r']) -> r = r' /\ p = p'.
Proof. intros T. destruct (turn_one _ _ _ _ _ _ _ _ T) as [(E & ->)|(p1 & g1 & l1 & A & _)]; [split; congruence|discriminate]. Qed.
Theorem sender_alone : forall tp m w l p r, turns tp [(m, w)] (opening tp [(m, w)]) l (p, [Finished r]) ->
  r = result_of (Send tp (mkheld m false) w) /\ forall s, Send tp (mkheld m false) w = Ok s -> tp_via (sd_tp s) = set_vparam p (tp_via tp).
Proof.
  intros tp m w l p r T. unfold opening in T. cbn [length repeat] in T.
  assert (VV : forall v : via, v = set_vparam (v_param v) v) by (intros []; reflexivity).
  assert (SV : forall s, Send tp (mkheld m false) w = Ok s -> v_param (tp_via (sd_tp s)) = p -> tp_via (sd_tp s) = set_vparam p (tp_via tp)).
  { intros s ES EP. destruct (send_via _ _ _ _ ES) as (_ & [E|(q & _ & E)]); rewrite E in EP |- *; [rewrite <- EP; apply VV|]. cbn [v_param set_vparam] in EP. rewrite EP. reflexivity. }
  cut (r = result_of (Send tp (mkheld m false) w) /\ forall s, Send tp (mkheld m false) w = Ok s -> v_param (tp_via (sd_tp s)) = p); [intros (H1 & H2); split; [exact H1|]; intros s ES; exact (SV s ES (H2 s ES))|].
  clear SV. destruct (turn_one _ _ _ _ _ _ _ _ T) as [(E & _)|(p1 & g1 & l1 & A & T1)]; [discriminate|]. clear T. cbv beta iota delta [access] in A. destruct (borrows m) eqn:BR.
  2:{ injection A as <- <-. destruct (finished_stays _ _ _ _ _ _ _ _ T1) as (<- & <-). split; [reflexivity|]. intros s ES. revert ES. unfold Send. assert (V1 : view tp (mkheld m false) = m) by reflexivity. rewrite V1. cbv zeta. cbn [h_shared orb]. fold (borrows m). rewrite BR. intros H.
      apply rbind_ok in H. destruct H as (m1 & _ & H). apply rbind_ok in H. destruct H as ([m2 x] & _ & H). destruct x as [[host port]|e]; [|injection H as <-; reflexivity]. destruct (n_resolve w (JoinHostPort host (Portstr port))); [|injection H as <-; reflexivity]. apply rbind_ok in H. destruct H as (m3 & _ & H). injection H as <-. reflexivity. }
  destruct (alone_borrowed tp m w BR) as (AR & AV). rewrite AR. clear AR.
  assert (REST : forall l2, turns tp [(m, w)] (branched w (v_param (tp_via tp)), [Branched]) l2 (p, [Finished r]) ->
    r = match prepared tp m w with
        | Panic => Panic
        | Ok (m1, None) => Ok (mkheld (set_vias [set_vparam (branched w (v_param (tp_via tp))) (tp_via tp)] m1) true, [], false)
        | Ok (m1, Some a) => let m2 := set_vias [set_vparam (stamped w ++ branched w (v_param (tp_via tp))) (tp_via tp)] m1 in Ok (mkheld m2 true, [(a, m2, msg_append (n_rid w) m2)], n_write w a (msg_append (n_rid w) m2))
        end /\ forall s, Send tp (mkheld m false) w = Ok s -> v_param (tp_via (sd_tp s)) = p).
  { intros l2 T2. generalize dependent (branched w (v_param (tp_via tp))). intros pb AV T2. destruct (turn_one _ _ _ _ _ _ _ _ T2) as [(E & _)|(p2 & g2 & l3 & A2 & T3)]; [discriminate|]. cbv beta iota delta [access] in A2.
    destruct (prepared tp m w) as [[m1 [a|]]|] eqn:PR.
    - assert (LAST : forall l4 p4, p4 = stamped w ++ pb -> turns tp [(m, w)] (p4, [Stamped]) l4 (p, [Finished r]) ->
        r = (let m2 := set_vias [set_vparam (stamped w ++ pb) (tp_via tp)] m1 in Ok (mkheld m2 true, [(a, m2, msg_append (n_rid w) m2)], n_write w a (msg_append (n_rid w) m2))) /\ p = stamped w ++ pb).
      { intros l4 p4 -> T4. destruct (turn_one _ _ _ _ _ _ _ _ T4) as [(E & _)|(p5 & g5 & l5 & A5 & T5)]; [discriminate|]. cbv beta iota delta [access] in A5. rewrite PR in A5. cbv zeta in A5 |- *. inversion A5. subst p5 g5. destruct (finished_stays _ _ _ _ _ _ _ _ T5) as (<- & <-). split; reflexivity. }
      destruct (n_stamp w) as [t|] eqn:ST.
      + injection A2 as <- <-. destruct (turn_one _ _ _ _ _ _ _ _ T3) as [(E & _)|(p5 & g5 & l5 & A5 & T5)]; [discriminate|]. cbv beta iota delta [access] in A5. rewrite ST in A5. injection A5 as <- <-.
        destruct (LAST _ _ ltac:(unfold stamped; rewrite ST; reflexivity) T5) as (H1 & H2). split; [exact H1|]. intros s ES. rewrite (AV s ES), H2. reflexivity.
      + injection A2 as <- <-. destruct (LAST _ _ ltac:(unfold stamped; rewrite ST; reflexivity) T3) as (H1 & H2). split; [exact H1|]. intros s ES. rewrite (AV s ES), H2. reflexivity.
    - inversion A2. subst p2 g2. destruct (finished_stays _ _ _ _ _ _ _ _ T3) as (<- & <-). split; [reflexivity|exact AV].
    - inversion A2. subst p2 g2. destruct (finished_stays _ _ _ _ _ _ _ _ T3) as (<- & <-). split; [reflexivity|exact AV]. }
  destruct (prepared tp m w) as [x|] eqn:PR.
  - destruct (param_get (v_param (tp_via tp)) (B "branch")) as [b|] eqn:G; injection A as <- <-.
    + apply (REST l1). unfold branched, with_value. destruct (value_of (B "branch") (v_param (tp_via tp))) eqn:V; [exact T1|]. apply value_get_none in V. congruence.
    + destruct (turn_one _ _ _ _ _ _ _ _ T1) as [(E & _)|(p2 & g2 & l2 & A2 & T2)]; [discriminate|]. cbv beta iota delta [access] in A2. injection A2 as <- <-.
      destruct (turn_one _ _ _ _ _ _ _ _ T2) as [(E & _)|(p3 & g3 & l3 & A3 & T3)]; [discriminate|]. cbv beta iota delta [access] in A3. injection A3 as <- <-.
      apply (REST l3). unfold branched, with_value. apply value_get_none in G. rewrite G. exact T3.
  - injection A as <- <-. destruct (finished_stays _ _ _ _ _ _ _ _ T1) as (<- & <-). split; [reflexivity|]. intros s ES. exfalso. pose proof (proj1 (alone_borrowed tp m w BR)) as Q. rewrite ES, PR in Q. discriminate.
Qed.

(** ** What is not so *)
Lemma given_borrows mw : request_given_to mw -> borrows (fst mw) = true.
Proof. intros (_ & (E & _) & VM). unfold borrows, IsResponse. rewrite E, VM. reflexivity. Qed.
Lemma given_prepared tp m w : site_ok tp -> request_given_to (m, w) -> exists m1 a, prepared tp m w = Ok (m1, Some a) /\ vias m1 = [set_vparam (branched w (v_param (tp_via tp))) (tp_via tp)].
Proof.
  intros SA RG. pose proof (given_borrows _ RG) as BR. cbn [fst] in BR. destruct RG as (NW & RQ & VM). cbn [fst snd] in *. destruct (send_plain tp m w SA NW RQ VM) as (s & a & req & ES & _ & EW & _).
  pose proof (proj1 (alone_borrowed tp m w BR)) as Q. rewrite ES in Q. cbn [result_of] in Q. destruct (prepared tp m w) as [[m1 [a'|]]|] eqn:PR; [|rewrite EW in Q; discriminate|discriminate]. exists m1, a'. split; [reflexivity|]. eapply prepared_vias; eassumption.
Qed.
Lemma go tp jobs i m w p g p' g' gs l c : nth_error jobs i = Some (m, w) -> nth_error gs i = Some g -> access tp m w p g = Some (p', g') -> turns tp jobs (p', put i g' gs) l c -> turns tp jobs (p, gs) (i :: l) c.
Proof. intros H1 H2 H3 T. eapply next_turn; [|exact T]. eapply turn_of; eassumption. Qed.

(** the two branches drawn *)
Definition own_branch (w : net) : param := (B "branch", GenerateBranch (dr_branch (n_draws w))).
(** The first two requests of a transport, sent at the same time, may both leave with two branches in their Via. *)
Theorem senders_two_branches_refuted : forall tp m1 w1 m2 w2, site_ok tp -> v_param (tp_via tp) = [] -> request_given_to (m1, w1) -> request_given_to (m2, w2) -> n_stamp w1 = None -> n_stamp w2 = None ->
  exists l p a1 x1 a2 x2 h1 h2, let v := [set_vparam [own_branch w2; own_branch w1] (tp_via tp)] in
    turns tp [(m1, w1); (m2, w2)] (opening tp [(m1, w1); (m2, w2)]) l (p, [Finished (Ok (h1, [(a1, x1, msg_append (n_rid w1) x1)], true)); Finished (Ok (h2, [(a2, x2, msg_append (n_rid w2) x2)], true))]) /\ vias x1 = v /\ vias x2 = v.
Proof.
  intros tp m1 w1 m2 w2 SA NP R1 R2 S1 S2. destruct (given_prepared tp m1 w1 SA R1) as (y1 & a1 & P1 & _). destruct (given_prepared tp m2 w2 SA R2) as (y2 & a2 & P2 & _).
  pose proof (given_borrows _ R1) as B1. pose proof (given_borrows _ R2) as B2. cbn [fst] in B1, B2. destruct R1 as ((_ & W1 & _) & _). destruct R2 as ((_ & W2 & _) & _). cbn [snd] in W1, W2.
  exists [0; 1; 0; 0; 1; 1; 0; 0; 1; 1]%nat. do 7 eexists. cbv zeta. split.
  - unfold opening. rewrite NP. cbn [length repeat].
    eapply (go tp _ 0 m1 w1); [reflexivity|reflexivity|unfold access; rewrite B1, P1; reflexivity|]. cbn [put firstn skipn app].
    eapply (go tp _ 1 m2 w2); [reflexivity|reflexivity|unfold access; rewrite B2, P2; reflexivity|]. cbn [put firstn skipn app].
    eapply (go tp _ 0 m1 w1); [reflexivity|reflexivity|reflexivity|]. cbn [put firstn skipn app].
    eapply (go tp _ 0 m1 w1); [reflexivity|reflexivity|reflexivity|]. cbn [put firstn skipn app].
    eapply (go tp _ 1 m2 w2); [reflexivity|reflexivity|reflexivity|]. cbn [put firstn skipn app].
    eapply (go tp _ 1 m2 w2); [reflexivity|reflexivity|reflexivity|]. cbn [put firstn skipn app].
    eapply (go tp _ 0 m1 w1); [reflexivity|reflexivity|unfold access; rewrite P1, S1; reflexivity|]. cbn [put firstn skipn app].
    eapply (go tp _ 0 m1 w1); [reflexivity|reflexivity|unfold access; rewrite P1, W1; reflexivity|]. cbn [put firstn skipn app].
    eapply (go tp _ 1 m2 w2); [reflexivity|reflexivity|unfold access; rewrite P2, S2; reflexivity|]. cbn [put firstn skipn app].
    eapply (go tp _ 1 m2 w2); [reflexivity|reflexivity|unfold access; rewrite P2, W2; reflexivity|]. cbn [put firstn skipn app].
    apply no_turn.
  - split; reflexivity.
Qed.
(** Or each leaves with its own branch, but afterwards the first, which the application may send again, has the branch of the second. *)
Theorem senders_branch_lost_refuted : forall tp m1 w1 m2 w2, site_ok tp -> v_param (tp_via tp) = [] -> request_given_to (m1, w1) -> request_given_to (m2, w2) -> n_stamp w1 = None -> n_stamp w2 = None ->
  exists l p a1 x1 a2 x2 h1 h2,
    turns tp [(m1, w1); (m2, w2)] (opening tp [(m1, w1); (m2, w2)]) l (p, [Finished (Ok (h1, [(a1, x1, msg_append (n_rid w1) x1)], true)); Finished (Ok (h2, [(a2, x2, msg_append (n_rid w2) x2)], true))]) /\
    vias x1 = [set_vparam [own_branch w1] (tp_via tp)] /\ vias x2 = [set_vparam [own_branch w2] (tp_via tp)] /\ vias (view (mktp (set_vparam p (tp_via tp)) (tp_contact tp)) h1) = vias x2.
Proof.
  intros tp m1 w1 m2 w2 SA NP R1 R2 S1 S2. destruct (given_prepared tp m1 w1 SA R1) as (y1 & a1 & P1 & _). destruct (given_prepared tp m2 w2 SA R2) as (y2 & a2 & P2 & _).
  pose proof (given_borrows _ R1) as B1. pose proof (given_borrows _ R2) as B2. cbn [fst] in B1, B2. destruct R1 as ((_ & W1 & _) & _). destruct R2 as ((_ & W2 & _) & _). cbn [snd] in W1, W2.
  exists [0; 1; 0; 1; 0; 0; 0; 1; 1; 1]%nat. do 7 eexists. split.
  - unfold opening. rewrite NP. cbn [length repeat].
    eapply (go tp _ 0 m1 w1); [reflexivity|reflexivity|unfold access; rewrite B1, P1; reflexivity|]. cbn [put firstn skipn app].
    eapply (go tp _ 1 m2 w2); [reflexivity|reflexivity|unfold access; rewrite B2, P2; reflexivity|]. cbn [put firstn skipn app].
    eapply (go tp _ 0 m1 w1); [reflexivity|reflexivity|reflexivity|]. cbn [put firstn skipn app].
    eapply (go tp _ 1 m2 w2); [reflexivity|reflexivity|reflexivity|]. cbn [put firstn skipn app].
    eapply (go tp _ 0 m1 w1); [reflexivity|reflexivity|reflexivity|]. cbn [put firstn skipn app].
    eapply (go tp _ 0 m1 w1); [reflexivity|reflexivity|unfold access; rewrite P1, S1; reflexivity|]. cbn [put firstn skipn app].
    eapply (go tp _ 0 m1 w1); [reflexivity|reflexivity|unfold access; rewrite P1, W1; reflexivity|]. cbn [put firstn skipn app].
    eapply (go tp _ 1 m2 w2); [reflexivity|reflexivity|reflexivity|]. cbn [put firstn skipn app].
    eapply (go tp _ 1 m2 w2); [reflexivity|reflexivity|unfold access; rewrite P2, S2; reflexivity|]. cbn [put firstn skipn app].
    eapply (go tp _ 1 m2 w2); [reflexivity|reflexivity|unfold access; rewrite P2, W2; reflexivity|]. cbn [put firstn skipn app].
    apply no_turn.
  - split; [reflexivity|]. split; reflexivity.
Qed.

(** ** Example: the same text message from two goroutines, through a new transport and through one that was used *)
Theorem senders_example : site_ok ex_made /\ v_param (tp_via ex_made) = [] /\ request_given_to (ex_message, ex_wnet "a") /\ request_given_to (ex_message, ex_wnet "b") /\ own_branch (ex_wnet "a") <> own_branch (ex_wnet "b") /\
  exists b, value_of (B "branch") (v_param (tp_via (after (Send ex_made (mkheld ex_message false) (ex_wnet "a"))))) = Some b.
Proof.
  destruct talk_example as (N1 & N2 & AO & _ & NB & RQ & VM & SO & RO & RID).
  split. { refine (proj1 (made_site _ _ _ _ _ N1 (Forall_inv AO) _ _ _ _)); [discriminate|reflexivity|unfold port_ok; lia|discriminate]. }
  split; [reflexivity|]. split. { split; [|split; [exact RQ|exact VM]]. cbn [snd]. split; [discriminate|]. split; [reflexivity|]. split; [discriminate|]. repeat (split; [reflexivity|]). discriminate. }
  split. { split; [exact NB|split; [exact RQ|exact VM]]. } split; [intros E; vm_compute in E; discriminate|]. eexists. vm_compute. reflexivity.
Qed.

Print Assumptions senders_whole.
Print Assumptions senders_never_wait.
Print Assumptions senders_as_alone.
Print Assumptions sender_alone.
Print Assumptions senders_two_branches_refuted.
Print Assumptions senders_branch_lost_refuted.
Print Assumptions senders_example.
