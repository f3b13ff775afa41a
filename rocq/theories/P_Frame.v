(** C106: a frame belongs to the application until it gives it back. *)
From Verif Require Import Bytes RtpModel RtpSpec P_Rtp P_Audio FrameModel.

(** ** What is expected *)
(** The frames the application has after the actions [l], if it had [mine]: those it received or made and has not given back. *)
Fixpoint has (mine : list nat) (l : list fact) : list nat :=
  match l with
  | [] => mine
  | FTake (Some p) :: l' => has (p :: mine) l'
  | FGive (Some p) :: l' => has (filter (fun q => negb (Nat.eqb q p)) mine) l'
  | FMake p :: l' => has (p :: mine) l'
  | _ :: l' => has mine l'
  end.
(** An application that writes to and gives back only frames it has, and no nil. *)
Definition fair (l : list fact) : Prop :=
  forall before a after, l = before ++ a :: after ->
    match a with FGive (Some p) => In p (has [] before) | FGive None => False | FStore p _ => In p (has [] before) | _ => True end.
(** the datagrams that arrived *)
Fixpoint arrived (l : list fact) : list bytes := match l with [] => [] | FArrive p :: l' => p :: arrived l' | _ :: l' => arrived l' end.
(** the frames received, each with what was in it at that moment *)
Fixpoint received (l : list fact) (s : fstate) : list (list Z) :=
  match l with
  | [] => []
  | a :: l' => match fdo a s with
    | Some s' => (match a with FTake (Some p) => [mem s p] | _ => [] end) ++ received l' s'
    | None => []
    end
  end.
Definition took (a : fact) : bool := match a with FTake _ => true | _ => false end.
Definition gave (a : fact) : bool := match a with FGive _ => true | _ => false end.
Definition count (f : fact -> bool) (l : list fact) : nat := length (filter f l).

(** ** Proofs *)
Lemma has_app mine l k : has mine (l ++ k) = has (has mine l) k.
Proof. revert mine. induction l as [|a l IH]; intros mine; [reflexivity|]. destruct a as [?| |[?|]|[?|]|?|? ?]; cbn [app has]; apply IH. Qed.
Lemma fdos_app l k s : fdos (l ++ k) s = match fdos l s with Some s' => fdos k s' | None => None end.
Proof. revert s. induction l as [|a l IH]; intros s; [reflexivity|]. cbn [app fdos]. destruct (fdo a s); [apply IH|reflexivity]. Qed.
Lemma arrived_app l k : arrived (l ++ k) = arrived l ++ arrived k.
Proof. induction l as [|a l IH]; [reflexivity|]. destruct a; cbn [app arrived]; rewrite IH; reflexivity. Qed.
Lemma received_app l k s s' : fdos l s = Some s' -> received (l ++ k) s = received l s ++ received k s'.
Proof.
  revert s. induction l as [|a l IH]; intros s H; [injection H as ->; reflexivity|]. cbn [app fdos received] in *. destruct (fdo a s) as [s1|]; [|discriminate]. rewrite <- app_assoc. f_equal. exact (IH _ H).
Qed.
Lemma fair_app l a : fair (l ++ [a]) -> fair l.
Proof. intros F b x k E. apply (F b x (k ++ [a])). rewrite E, <- app_assoc. reflexivity. Qed.
Lemma count_app f l k : count f (l ++ k) = (count f l + count f k)%nat.
Proof. unfold count. rewrite filter_app, app_length. reflexivity. Qed.

Lemma into_length n (buf p : bytes) : length buf = n -> length (firstn n p ++ skipn (length (firstn n p)) buf) = n.
Proof. intros L. rewrite app_length, skipn_length, L, firstn_length. lia. Qed.
Lemma one_packet buf p : length buf = 2048%nat -> exists b amt, recv_into buf p = (b, amt) /\ length b = 2048%nat /\ recv_packet b amt = Ok (if wantedb p then Some (sound_of p) else None).
Proof.
  intros L. pose proof (rtp_receive_exact buf [p] L) as X. cbn [recv_stream] in X. destruct (recv_into buf p) as [b amt] eqn:R. exists b, amt. split; [reflexivity|]. split.
  - pose proof (into_length _ buf p L : length (fst (recv_into buf p)) = 2048%nat) as Y. rewrite R in Y. exact Y.
  - cbn [filter] in X. destruct (recv_packet b amt) as [f|]; [|discriminate X]. cbn [rbind] in X. destruct f as [x|], (wantedb p); cbn [map] in X; try discriminate X; [injection X as ->; reflexivity|reflexivity].
Qed.

(** What holds in every state. *)
Record inv (l : list fact) (s : fstate) : Prop := {
  i_buf : length (fbuf s) = 2048%nat;
  i_mine : forall p, In p (has [] l) -> (p < made s)%nat;
  i_frame : exists p, frame s = Some p /\ (p < made s)%nat /\ (fl s = FRead \/ fl s = FOffer -> ~ In p (has [] l));
  i_safe : fl s <> FPanic;
  i_heard : map sound_of (filter wantedb (arrived l)) = received l fstart ++ match fl s, frame s with FOffer, Some p => [mem s p] | _, _ => [] end;
  i_count : count took l = (count gave l + match fl s with FWait => 1 | _ => 0 end)%nat }.

Lemma inv_start : inv [] fstart.
Proof. constructor; try reflexivity; try (intros p []); try discriminate. exists 0%nat. split; [reflexivity|]. split; [cbn; lia|]. intros _ []. Qed.

Lemma write_same h p x : write h p x p = x. Proof. unfold write. rewrite Nat.eqb_refl. reflexivity. Qed.
Lemma write_other h p x q : q <> p -> write h p x q = h q. Proof. intros N. unfold write. destruct (Nat.eqb_spec q p); [contradiction|reflexivity]. Qed.

Lemma inv_step l a s s' : fdos l fstart = Some s -> inv l s -> fair (l ++ [a]) -> fdo a s = Some s' -> inv (l ++ [a]) s'.
Proof.
  intros R [IB IM (p & IF & IP & IN) IS IH IC] F D. pose proof (F l a [] eq_refl) as FA. cbn beta in FA.
  assert (RA : received (l ++ [a]) fstart = received l fstart ++ match a with FTake (Some p) => [mem s p] | _ => [] end).
  { rewrite (received_app _ _ _ _ R). cbn [received]. rewrite D. rewrite !app_nil_r. reflexivity. }
  destruct a as [pkt| |q|q|q|q x]; cbn [fdo] in D.
  - destruct (fl s) eqn:L; try discriminate D. destruct (one_packet (fbuf s) pkt IB) as (b & amt & E1 & E2 & E3). rewrite E1, E3, IF in D.
    assert (A : arrived (l ++ [FArrive pkt]) = arrived l ++ [pkt]) by (rewrite arrived_app; reflexivity).
    assert (H : has [] (l ++ [FArrive pkt]) = has [] l) by (rewrite has_app; reflexivity).
    destruct (wantedb pkt) eqn:W; injection D as <-; (constructor; cbn [fl frame fbuf mem made]; [exact E2|rewrite H; exact IM|exists p; rewrite H; split; [reflexivity|]; split; [exact IP|intros _; apply IN; left; reflexivity]|discriminate| |rewrite !count_app, IC; cbn; lia]);
      rewrite A, RA, filter_app, map_app, IH; cbn [filter]; rewrite W; cbn [map]; rewrite ?app_nil_r; [rewrite write_same|]; reflexivity.
  - destruct (fl s) eqn:L; try discriminate D. injection D as <-. assert (H : has [] (l ++ [FFail]) = has [] l) by (rewrite has_app; reflexivity).
    constructor; cbn [fl frame fbuf mem made]; [exact IB|rewrite H; exact IM|exists p; rewrite H; split; [first [exact IF|reflexivity]|]; split; [exact IP|intros [?|?]; discriminate]|discriminate| |rewrite !count_app, IC; cbn; lia].
    rewrite RA, arrived_app, app_nil_r, IH, !app_nil_r. reflexivity.
  - destruct (fl s) eqn:L; try discriminate D. rewrite IF in D. destruct q as [q|]; [|discriminate D]. destruct (Nat.eqb_spec q p) as [->|]; [|discriminate D]. injection D as <-.
    assert (H : has [] (l ++ [FTake (Some p)]) = p :: has [] l) by (rewrite has_app; reflexivity).
    constructor; cbn [fl frame fbuf mem made]; [exact IB|rewrite H; intros u [<-|U]; [exact IP|exact (IM _ U)]|exists p; rewrite H; split; [first [exact IF|reflexivity]|]; split; [exact IP|intros [?|?]; discriminate]|discriminate| |rewrite !count_app, IC; cbn; lia].
    rewrite RA, arrived_app, app_nil_r, IH, IF, app_nil_r. reflexivity.
  - destruct (fl s) eqn:L; try discriminate D. destruct q as [q|]; [|destruct FA]. injection D as <-.
    assert (H : has [] (l ++ [FGive (Some q)]) = filter (fun u => negb (Nat.eqb u q)) (has [] l)) by (rewrite has_app; reflexivity).
    constructor; cbn [fl frame fbuf mem made]; [exact IB|rewrite H; intros u U; apply filter_In in U; exact (IM _ (proj1 U))|exists q; rewrite H; split; [reflexivity|]; split; [exact (IM _ FA)|intros _ U; apply filter_In in U; rewrite Nat.eqb_refl in U; destruct U; discriminate]|discriminate| |rewrite !count_app, IC; cbn; lia].
    rewrite RA, arrived_app, app_nil_r, IH, !app_nil_r. reflexivity.
  - destruct (Nat.eqb_spec q (made s)) as [->|]; [|discriminate D]. injection D as <-.
    assert (H : has [] (l ++ [FMake (made s)]) = made s :: has [] l) by (rewrite has_app; reflexivity).
    constructor; cbn [fl frame fbuf mem made]; [exact IB|rewrite H; intros u [<-|U]; [lia|pose proof (IM _ U); lia]|exists p; rewrite H; split; [first [exact IF|reflexivity]|]; split; [lia|intros X [U|U]; [lia|exact (IN X U)]]|exact IS| |rewrite !count_app, IC; cbn; destruct (fl s); lia].
    rewrite RA, arrived_app, app_nil_r, IH, IF, app_nil_r. destruct (fl s); try reflexivity. rewrite write_other by lia. reflexivity.
  - destruct (Nat.ltb q (made s) && Nat.eqb (length x) 160)%bool eqn:E; [|discriminate D]. injection D as <-.
    assert (H : has [] (l ++ [FStore q x]) = has [] l) by (rewrite has_app; reflexivity).
    constructor; cbn [fl frame fbuf mem made]; [exact IB|rewrite H; exact IM|exists p; rewrite H; split; [first [exact IF|reflexivity]|]; split; [exact IP|exact IN]|exact IS| |rewrite !count_app, IC; cbn; destruct (fl s); lia].
    rewrite RA, arrived_app, app_nil_r, IH, IF, app_nil_r. destruct (fl s) eqn:L; try reflexivity. rewrite write_other; [reflexivity|]. intros ->. exact (IN (or_intror eq_refl) FA).
Qed.
Lemma inv_all l s : fdos l fstart = Some s -> fair l -> inv l s.
Proof.
  revert s. induction l as [|a l IH] using rev_ind; intros s R F; [injection R as <-; exact inv_start|].
  pose proof R as R0. rewrite fdos_app in R. destruct (fdos l fstart) as [s1|] eqn:R1; [|discriminate R]. cbn [fdos] in R. destruct (fdo a s1) as [s2|] eqn:D; [|discriminate R]. injection R as ->.
  exact (inv_step l a s1 s R1 (IH _ eq_refl (fair_app _ _ F)) F D).
Qed.

(** ** C106 *)
(** Whatever arrives, however the two sides are interleaved, and whichever of its frames the application gives back: the frames it receives contain the sound of the
    G.711 packets that arrived, in order, none is lost or changed on the way, except that the last one may not have been received yet. The goroutine does not crash. *)
Theorem frames_are_heard : forall l s, fdos l fstart = Some s -> fair l ->
  fl s <> FPanic /\ exists waiting, map sound_of (filter wantedb (arrived l)) = received l fstart ++ waiting /\ (length waiting <= 1)%nat /\ (fl s <> FOffer -> waiting = []).
Proof.
  intros l s R F. destruct (inv_all l s R F) as [_ _ (p & IF & _) IS IH _]. split; [exact IS|]. exists (match fl s, frame s with FOffer, Some p => [mem s p] | _, _ => [] end).
  split; [exact IH|]. rewrite IF. destruct (fl s); cbn; split; try lia; try reflexivity. intros X. destruct (X eq_refl).
Qed.
(** A frame the application has is not touched by the session: what is in it is what the application received or wrote there last. *)
Theorem frame_stays : forall l p k s s', fdos l fstart = Some s -> fdos k s = Some s' -> fair (l ++ k) -> In p (has [] l) ->
  ~ In (FGive (Some p)) k -> (forall x, ~ In (FStore p x) k) -> mem s' p = mem s p /\ In p (has [] (l ++ k)).
Proof.
  intros l p k. revert l. induction k as [|a k IH]; intros l s s' R D F I G W; [injection D as <-; rewrite app_nil_r; split; [reflexivity|exact I]|].
  cbn [fdos] in D. destruct (fdo a s) as [s1|] eqn:E; [|discriminate D].
  assert (R1 : fdos (l ++ [a]) fstart = Some s1) by (rewrite fdos_app, R; cbn [fdos]; rewrite E; reflexivity).
  assert (F0 : fair l). { intros b x c X. apply (F b x (c ++ a :: k)). rewrite X, <- app_assoc. reflexivity. }
  assert (FK : fair ((l ++ [a]) ++ k)) by (rewrite <- app_assoc; exact F).
  destruct (inv_all l s R F0) as [_ IM (q & IF & IP & IN) _ _ _].
  assert (Y : mem s1 p = mem s p /\ In p (has [] (l ++ [a]))).
  { rewrite has_app. destruct a as [pkt| |u|u|u|u x]; cbn [fdo has] in *.
    - split; [|exact I]. destruct (fl s) eqn:L; try discriminate E. destruct (recv_into (fbuf s) pkt) as [b amt]. destruct (recv_packet b amt) as [[x|]|]; rewrite IF in E; injection E as <-; cbn [mem]; try reflexivity.
      apply write_other. intros ->. exact (IN (or_introl eq_refl) I).
    - split; [|exact I]. destruct (fl s); try discriminate E. injection E as <-. reflexivity.
    - split; [|destruct u; [right|]; exact I]. destruct (fl s); try discriminate E. destruct (match u with Some _ => _ | None => _ end); [injection E as <-; reflexivity|discriminate E].
    - destruct (fl s); try discriminate E. injection E as <-. split; [reflexivity|]. destruct u as [u|]; [|exact I]. apply filter_In. split; [exact I|]. apply negb_true_iff, Nat.eqb_neq. intros ->. apply G. left. reflexivity.
    - destruct (Nat.eqb_spec u (made s)) as [->|]; [|discriminate E]. injection E as <-. cbn [mem]. split; [apply write_other; pose proof (IM _ I); lia|right; exact I].
    - destruct (_ && _)%bool; [|discriminate E]. injection E as <-. cbn [mem]. split; [apply write_other; intros ->; exact (W x (or_introl eq_refl))|exact I]. }
  destruct (IH (l ++ [a]) s1 s' R1 D FK (proj2 Y)) as [M N]; [intros X; exact (G (or_intror X))|intros x X; exact (W x (or_intror X))|].
  split; [rewrite M; exact (proj1 Y)|]. rewrite <- app_assoc in N. exact N.
Qed.
(** In particular a frame received keeps the sound of its packet until the application gives it back or writes to it, whatever arrives and whatever other frames come and go. *)
Theorem sound_stays : forall l p k s, fdos (l ++ FTake (Some p) :: k) fstart = Some s -> fair (l ++ FTake (Some p) :: k) ->
  ~ In (FGive (Some p)) k -> (forall x, ~ In (FStore p x) k) ->
  exists packet, hd_error (rev (filter wantedb (arrived l))) = Some packet /\ mem s p = sound_of packet.
Proof.
  intros l p k s R F G W. rewrite fdos_app in R. destruct (fdos l fstart) as [s0|] eqn:R0; [|discriminate R]. cbn [fdos] in R. destruct (fdo (FTake (Some p)) s0) as [s1|] eqn:D; [|discriminate R].
  assert (F0 : fair l). { intros b x c X. apply (F b x (c ++ FTake (Some p) :: k)). rewrite X, <- app_assoc. reflexivity. }
  assert (R1 : fdos (l ++ [FTake (Some p)]) fstart = Some s1) by (rewrite fdos_app, R0; cbn [fdos]; rewrite D; reflexivity).
  destruct (inv_all l s0 R0 F0) as [_ _ (q & IF & _) _ IH _]. cbn [fdo] in D. destruct (fl s0) eqn:L; try discriminate D. rewrite IF in D, IH. destruct (Nat.eqb_spec p q) as [PQ|]; [|discriminate D]. subst q.
  assert (M1 : mem s1 p = mem s0 p) by (injection D as <-; reflexivity).
  destruct (frame_stays (l ++ [FTake (Some p)]) p k s1 s R1 R) as [M _]; [rewrite <- app_assoc; exact F|rewrite has_app; left; reflexivity|exact G|exact W|].
  destruct (filter wantedb (arrived l)) as [|z w] eqn:E using rev_ind.
  - destruct (received l fstart); discriminate IH.
  - clear IHw. rewrite map_app in IH. cbn [map] in IH. apply app_inj_tail in IH. destruct IH as [_ IH]. exists z. split; [rewrite rev_app_distr; reflexivity|]. rewrite M, M1. symmetry. exact IH.
Qed.
(** The session never holds a frame that the application has: what it is about to write to, or offers, is none of them. *)
Theorem frames_not_shared : forall l s p, fdos l fstart = Some s -> fair l -> frame s = Some p -> fl s = FRead \/ fl s = FOffer -> ~ In p (has [] l).
Proof. intros l s p R F E X. destruct (inv_all l s R F) as [_ _ (q & IF & _ & IN) _ _ _]. rewrite E in IF. injection IF as <-. exact (IN X). Qed.
(** One at a time: the application has received as many frames as it gave back, or one more; in that case nothing is read from the socket. *)
Theorem one_frame_at_a_time : forall l s, fdos l fstart = Some s -> fair l ->
  (count took l = count gave l \/ count took l = S (count gave l)) /\
  (count took l = S (count gave l) -> forall a s', fdo a s = Some s' -> match a with FArrive _ | FFail | FTake _ => False | _ => True end).
Proof.
  intros l s R F. destruct (inv_all l s R F) as [_ _ _ _ _ IC]. split; [destruct (fl s); lia|]. intros E a s' D. destruct (fl s) eqn:L; try lia.
  destruct a; try exact I; cbn [fdo] in D; rewrite L in D; discriminate D.
Qed.
(** Nothing keeps the session from going on: reading, it takes any datagram; a frame offered can be received; after that any frame can be given back. *)
Theorem session_goes_on : forall l s, fdos l fstart = Some s -> fair l ->
  match fl s with
  | FRead => forall pkt, exists s', fdo (FArrive pkt) s = Some s' /\ fl s' = if wantedb pkt then FOffer else FRead
  | FOffer => exists p s', fdo (FTake (Some p)) s = Some s' /\ fl s' = FWait
  | FWait => forall p, exists s', fdo (FGive (Some p)) s = Some s' /\ fl s' = FRead
  | FEnd => True
  | FPanic => False
  end.
Proof.
  intros l s R F. destruct (inv_all l s R F) as [IB _ (p & IF & _) IS _ _]. destruct (fl s) eqn:L.
  - intros pkt. cbn [fdo]. rewrite L. destruct (one_packet (fbuf s) pkt IB) as (b & amt & E1 & _ & E3). rewrite E1, E3, IF. destruct (wantedb pkt); eexists; (split; [reflexivity|reflexivity]).
  - exists p. cbn [fdo]. rewrite L, IF, Nat.eqb_refl. eexists. split; reflexivity.
  - intros q. cbn [fdo]. rewrite L. eexists. split; reflexivity.
  - exact I.
  - exact (IS eq_refl).
Qed.
(** The conditions are needed. Who gives back nil instead of a frame crashes the session when the next G.711 packet arrives; *)
Theorem nil_frame_crashes : forall l s pkt, fdos l fstart = Some s -> fair l -> fl s = FWait -> wanted pkt ->
  exists s', fdos [FGive None; FArrive pkt] s = Some s' /\ fl s' = FPanic.
Proof.
  intros l s pkt R F L W. destruct (inv_all l s R F) as [IB _ _ _ _ _]. cbn [fdos fdo]. rewrite L. cbn [fl fbuf frame mem made].
  destruct (one_packet (fbuf s) pkt IB) as (b & amt & E1 & _ & E3). apply wantedb_spec in W. rewrite E1, E3, W. eexists. split; reflexivity.
Qed.
(** and who looks at a frame after giving it back finds the sound of a later packet in it. *)
Theorem given_frame_changes : forall l s p pkt, fdos l fstart = Some s -> fair l -> fl s = FWait -> wanted pkt ->
  exists s', fdos [FGive (Some p); FArrive pkt] s = Some s' /\ mem s' p = sound_of pkt.
Proof.
  intros l s p pkt R F L W. destruct (inv_all l s R F) as [IB _ _ _ _ _]. cbn [fdos fdo]. rewrite L. cbn [fl fbuf frame mem made].
  destruct (one_packet (fbuf s) pkt IB) as (b & amt & E1 & _ & E3). apply wantedb_spec in W. rewrite E1, E3, W. eexists. split; [reflexivity|]. apply write_same.
Qed.

(** An application that keeps the first frame and gives back one of its own instead; the second packet leaves the first frame alone. *)
Definition pkt_of (b : byte) : bytes := [x80] ++ repeat x00 11 ++ repeat b 160.
Definition keeping : list fact := [FArrive (B "junk"); FArrive (pkt_of x7f); FTake (Some 0%nat); FMake 1; FGive (Some 1%nat); FArrive (pkt_of x10); FTake (Some 1%nat); FStore 1 (repeat 5%Z 160); FGive (Some 1%nat)].
Theorem keeping_example : fair keeping /\ (exists s, fdos keeping fstart = Some s /\ mem s 0%nat = sound_of (pkt_of x7f) /\ fl s = FRead) /\ received keeping fstart = [sound_of (pkt_of x7f); sound_of (pkt_of x10)] /\ sound_of (pkt_of x7f) <> sound_of (pkt_of x10).
Proof.
  split; [|split; [eexists; split; [vm_compute; reflexivity|split; vm_compute; reflexivity]|split; [vm_compute; reflexivity|vm_compute; discriminate]]].
  intros b a k E. unfold keeping in E.
  do 9 (destruct b as [|? b]; [injection E as <- _; cbn; tauto|cbn [app] in E; injection E as <- E]). destruct b; discriminate E.
Qed.

(** fone/main.go:204-212 and example/echo3/echo3_test.go:93-94 give back the frame they received last and write to none. *)
Definition returns (l : list fact) : Prop :=
  (forall before p after, l = before ++ FGive p :: after -> exists q b m, p = Some q /\ before = b ++ FTake (Some q) :: m /\ forall r, ~ In (FGive r) m) /\ forall p x, ~ In (FStore p x) l.
Theorem returning_is_fair : forall l, returns l -> fair l.
Proof.
  intros l [G W] b a k E. destruct a as [?| |?|q|?|p x]; try exact I.
  - destruct (G b q k E) as (p & c & m & -> & -> & N). rewrite has_app. cbn [has]. assert (H : In p (p :: has [] c)) by (left; reflexivity). revert H N. generalize (p :: has [] c). clear.
    induction m as [|a m IH]; intros mine H N; [exact H|]. destruct a as [?| |[?|]|r|?|? ?]; cbn [has]; try (apply IH; [first [exact H|right; exact H]|intros r X; exact (N r (or_intror X))]).
    destruct (N r (or_introl eq_refl)).
  - destruct (W p x). rewrite E. apply in_or_app. right. left. reflexivity.
Qed.
(** example/echo2/echo2_test.go:84 receives frames and gives none back: it receives one at most. *)
Theorem keeping_all_gets_one : forall l s, fdos l fstart = Some s -> fair l -> (forall p, ~ In (FGive p) l) -> (length (received l fstart) <= 1)%nat.
Proof.
  intros l s R F N. destruct (one_frame_at_a_time l s R F) as [C _]. assert (G : count gave l = 0%nat).
  { unfold count. clear -N. induction l as [|a l IH]; [reflexivity|]. cbn [filter]. destruct a; cbn [gave]; try (apply IH; intros q X; exact (N q (or_intror X))). destruct (N p (or_introl eq_refl)). }
  assert (L : (length (received l fstart) <= count took l)%nat).
  { clear. generalize fstart. unfold count. induction l as [|a l IH]; intros s; [cbn; lia|]. cbn [received filter]. destruct (fdo a s) as [s1|]; [|cbn; lia]. rewrite app_length. specialize (IH s1). destruct a as [?| |[?|]|?|?|? ?]; cbn [took length]; lia. }
  lia.
Qed.
