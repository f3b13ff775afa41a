(** Property C80: the sound of one session is the sound of the other. Everything a session
    sends during its life (rtp/session.go:95-163) is given to the receive loop of another
    (rtp/session.go:188-220), whatever the sockets and the network between them do. *)
From Verif Require Import Bytes BytesLemmas Asm DspModel DspProofs P_Dsp RtpModel RtpSpec RtpProofs P_Rtp.
Local Open Scope Z_scope.

(** ** Specification *)
(** What becomes of one sample: at most half a G.711 step away and on the same side of zero,
    or the loudest value of its sign when it is beyond what G.711 can express. *)
Definition close (x y : Z) : Prop :=
  is_sample y /\
  (Z.abs x <= g711_clip -> 2 * Z.abs (y - x) <= g711_step x /\ (0 < x -> 0 <= y) /\ (x < 0 -> y <= 0)) /\
  (g711_clip < Z.abs x -> y = if x <? 0 then -32124 else 32124).

(** The calls the other side is meant to hear: Send, and SendRaw of one frame of G.711. *)
Definition audible (x : op) : bool :=
  match x with
  | OpSend _ => true
  | OpRaw pt d _ => (pt =? 0) && Nat.eqb (length d) 160
  | OpDTMF _ => false
  end.

(** The frame [g] is what such a call sounds like. *)
Definition sounds (x : op) (g : list Z) : Prop :=
  match x with
  | OpSend f => Forall2 close f g
  | OpRaw _ d _ => g = map (fun b => g711_decode (bz b)) d
  | OpDTMF _ => False
  end.

(** Each call of a history with what it returned. *)
Fixpoint results (s : sess) (xs : list op) (o : list bool) : list (op * option send_err) :=
  match xs with
  | [] => []
  | x :: xs' => let '(s1, _, o1, e) := do_op s x o in (x, e) :: results s1 xs' o1
  end.

(** The audible calls that returned nil, in order. *)
Definition voiced (s : sess) (xs : list op) (o : list bool) : list op :=
  map fst (filter (fun c => audible (fst c) && match snd c with None => true | Some _ => false end) (results s xs o)).

(** The datagrams that left the socket, in order. *)
Definition left_socket (l : list (bool * bytes)) : list bytes := map snd (filter fst l).

(** Losing datagrams without reordering the rest. *)
Inductive loses {A} : list A -> list A -> Prop :=
| loses_nil : loses [] []
| loses_keep x l k : loses l k -> loses (x :: l) (x :: k)
| loses_drop x l k : loses l k -> loses (x :: l) k.

(** Applications pass frames of samples. *)
Definition plain (x : op) : Prop :=
  match x with OpSend f => Forall is_sample f | _ => True end.

(** ** Proofs *)
Lemma close_companded x : is_sample x -> close x (g711_decode (bz (encode_sample x))).
Proof.
  intros Hx. unfold close. destruct (Z_le_gt_dec (Z.abs x) g711_clip) as [Hc|Hc].
  - destruct (ulaw_error_bound x Hx Hc) as (u & y & Hu & Hb & Hy & H).
    unfold encode_sample. rewrite Hu, bz_zb, (Z.mod_small u 256) by exact Hb. 
    pose proof (ulaw_decode_is_g711 u Hb) as Hd. rewrite Hd in Hy. injection Hy as <-.
    destruct (ulaw_encode_decode u Hb) as (z & Hz & Hs & _). rewrite Hd in Hz. injection Hz as <-.
    split; [exact Hs|]. split; [intros _; exact H|lia].
  - destruct (ulaw_clipping x Hx) as (u & Hu & Hb & Hy); [lia|].
    unfold encode_sample. rewrite Hu, bz_zb, (Z.mod_small u 256) by exact Hb.
    pose proof (ulaw_decode_is_g711 u Hb) as Hd. rewrite Hd in Hy. injection Hy as ->.
    split; [unfold is_sample; destruct (x <? 0); lia|]. split; [lia|reflexivity].
Qed.

Definition sound_of (p : bytes) : list Z := map (fun b => g711_decode (bz b)) (f_payload p).

Lemma wanted_written h pl : wf_header h ->
  wantedb (header_write h [] ++ pl) = (h_pt h =? 0) && Nat.eqb (length pl) 160 /\
  f_payload (header_write h [] ++ pl) = pl.
Proof.
  intros W. pose proof (write_layout h pl W) as L. cbv zeta in L.
  destruct L as (_ & Hv & He & _ & _ & _ & Hpt & _ & _ & _ & Hp & Hl). split; [|exact Hp].
  unfold wantedb. rewrite Hv, He, Hpt, Hl. cbn [Z.eqb Pos.eqb negb]. rewrite !andb_true_r, andb_comm. reflexivity.
Qed.

Lemma op_sounds s x o s1 ps o1 e : live s = true -> wf_sess s -> wf_op x -> legal x -> plain x ->
  do_op s x o = (s1, ps, o1, e) ->
  Forall2 (fun y q => sounds y (sound_of q))
    (if audible x && match e with None => true | Some _ => false end then [x] else [])
    (filter wantedb (left_socket ps)).
Proof.
  intros Hl [Hwf Hpad] Hw Hx Hpl E. destruct x as [f|pt d n|digit]; cbn [do_op] in E.
  - unfold Send in E. rewrite Hl in E. cbn [negb] in E.
    assert (W : wf_header (set_pt (hdr s) ulaw_PT)) by (apply wf_set_pt; [exact Hwf|unfold ulaw_PT; lia]).
    destruct (wanted_written _ (map encode_sample f) W) as [Hwt Hp]. revert Hwt Hp E.
    generalize (header_write (set_pt (hdr s) ulaw_PT) [] ++ map encode_sample f). intros q Hwt Hp E.
    injection E as <- <- <- <-.
    cbn [audible]. unfold left_socket. cbn [filter fst].
    destruct (next_ok o); cbn [map snd andb filter]; [|constructor].
    rewrite Hwt. rewrite map_length. cbn in Hx. rewrite Hx. cbn [set_pt h_pt ulaw_PT Z.eqb Nat.eqb andb].
    constructor; [|constructor]. cbn [sounds]. unfold sound_of. rewrite Hp, map_map.
    cbn in Hpl. clear -Hpl. induction Hpl; constructor; auto. apply close_companded. assumption.
  - destruct Hw as [Hw1 Hw2]. unfold SendRaw in E. rewrite Hl in E. cbn [negb] in E.
    assert (W : wf_header (set_pt (hdr s) pt)) by (apply wf_set_pt; [exact Hwf|lia]).
    destruct (wanted_written _ d W) as [Hwt Hp]. revert Hwt Hp E.
    generalize (header_write (set_pt (hdr s) pt) [] ++ d). intros q Hwt Hp E.
    injection E as <- <- <- <-.
    cbn [audible]. unfold left_socket. cbn [filter fst].
    destruct (next_ok o); cbn [map snd filter]; [|rewrite andb_false_r; constructor].
    rewrite Hwt, andb_true_r. cbn [set_pt h_pt].
    destruct ((pt =? 0) && Nat.eqb (length d) 160); [|constructor].
    constructor; [|constructor]. cbn [sounds]. unfold sound_of. rewrite Hp. reflexivity.
  - cbn [audible andb]. destruct ((dtmfCodes digit =? 0) && negb (beq digit "0")) eqn:Hv.
    { unfold SendDTMF in E. rewrite Hv in E. injection E as <- <- <- <-. constructor. }
    rewrite (dtmf_send_calls s digit o Hl) in E by (try exact Hv; apply Hwf).
    injection E as <- <- <- <-.
    replace (filter wantedb (left_socket (dtmf_calls (hdr s) (dtmfCodes digit) o))) with (@nil bytes); [constructor|].
    symmetry. unfold left_socket, dtmf_calls. generalize (seq 0 (attempts_of 7 o)). intros l.
    induction l as [|j l IH]; [reflexivity|]. cbn [map filter fst].
    destruct (_ || _); cbn [map filter snd]; [|exact IH].
    destruct (dtmf_pkt_carries (hdr s) (dtmfCodes digit) j Hwf) as (_ & _ & _ & _ & _ & Hpt & _).
    unfold wantedb. rewrite Hpt, andb_false_r. exact IH.
Qed.

Lemma left_app a b : left_socket (a ++ b) = left_socket a ++ left_socket b.
Proof. unfold left_socket. rewrite filter_app, map_app. reflexivity. Qed.

Lemma run_sounds xs : forall s o s1 ps o1, live s = true -> wf_sess s -> Forall legal xs -> Forall plain xs ->
  run_ops s xs o = (s1, ps, o1) ->
  Forall2 (fun y q => sounds y (sound_of q)) (voiced s xs o) (filter wantedb (left_socket ps)).
Proof.
  induction xs as [|x xs IH]; intros s o s1 ps o1 Hl Hw Hx Hp E; cbn [run_ops] in E.
  - injection E as <- <- <-. constructor.
  - destruct (do_op s x o) as [[[s2 ps2] o2] e] eqn:E1.
    destruct (run_ops s2 xs o2) as [[s3 ps3] o3] eqn:E2. injection E as <- <- <-.
    assert (Wx : wf_op x).
    { apply Forall_inv in Hx. destruct x; cbn in *; auto. }
    destruct (do_op_facts _ _ _ _ _ _ _ Hl Hw Wx E1) as (L2 & W2 & _).
    pose proof (op_sounds _ _ _ _ _ _ _ Hl Hw Wx (Forall_inv Hx) (Forall_inv Hp) E1) as A.
    pose proof (IH _ _ _ _ _ L2 W2 (Forall_inv_tail Hx) (Forall_inv_tail Hp) E2) as C.
    rewrite left_app, filter_app. unfold voiced. cbn [results]. rewrite E1. cbn [filter fst snd].
    destruct (audible x && _); [|].
    + cbn [map fst]. change (x :: map fst ?l) with ([x] ++ map fst l). apply Forall2_app; assumption.
    + apply Forall2_app with (l1 := []); assumption.
Qed.

Lemma loses_filter {A} f (l k : list A) : loses l k -> loses (filter f l) (filter f k).
Proof.
  induction 1; cbn [filter]; [constructor| |]; destruct (f x); try constructor; assumption.
Qed.

Lemma loses_forall2 {A C} (R : A -> C -> Prop) l : forall q q', Forall2 R l q -> loses q q' ->
  exists l', loses l l' /\ Forall2 R l' q'.
Proof.
  intros q q' F S. revert l F. induction S as [|x q q' _ IH|x q q' _ IH]; intros l F; inversion F; subst.
  - exists []. split; constructor.
  - destruct (IH _ H3) as (l' & Hl & Hf). eexists (_ :: l'). split; constructor; eassumption.
  - destruct (IH _ H3) as (l' & Hl & Hf). exists l'. split; [constructor; exact Hl|exact Hf].
Qed.

(** ** C80 *)
(** If the network keeps what left the socket, the application on the other side is given
    one frame for each audible call that returned nil, in the order of the calls, and none
    besides; each is what that call sounds like. *)
Theorem audio_arrives : forall ssrc xs o buf,
  0 <= ssrc < 2 ^ 32 -> Forall legal xs -> Forall plain xs -> length buf = 2048%nat ->
  exists frames,
    recv_stream buf (left_socket (datagrams ssrc xs o)) = Ok frames /\
    Forall2 sounds (voiced (new_session ssrc) xs o) frames.
Proof.
  intros ssrc xs o buf Hs Hx Hp Hb. unfold datagrams.
  destruct (run_ops (new_session ssrc) xs o) as [[s ps] o'] eqn:E.
  pose proof (run_sounds xs (new_session ssrc) _ _ _ _ eq_refl (new_session_wf ssrc Hs) Hx Hp E) as F.
  eexists. split; [apply rtp_receive_exact, Hb|].
  change (fun p => map _ (f_payload p)) with sound_of. clear -F.
  induction F; cbn [map]; constructor; assumption.
Qed.

(** If it loses some, the frames given are those of the remaining calls, still in order. *)
Theorem audio_survives_loss : forall ssrc xs o buf arrived,
  0 <= ssrc < 2 ^ 32 -> Forall legal xs -> Forall plain xs -> length buf = 2048%nat ->
  loses (left_socket (datagrams ssrc xs o)) arrived ->
  exists frames heard,
    recv_stream buf arrived = Ok frames /\
    loses (voiced (new_session ssrc) xs o) heard /\ Forall2 sounds heard frames.
Proof.
  intros ssrc xs o buf arrived Hs Hx Hp Hb. unfold datagrams.
  destruct (run_ops (new_session ssrc) xs o) as [[s ps] o'] eqn:E. intros HL.
  pose proof (run_sounds xs (new_session ssrc) _ _ _ _ eq_refl (new_session_wf ssrc Hs) Hx Hp E) as F.
  destruct (loses_forall2 _ _ _ _ F (loses_filter wantedb _ _ HL)) as (heard & Hh & F').
  eexists. exists heard. split; [apply rtp_receive_exact, Hb|]. split; [exact Hh|].
  change (fun p => map _ (f_payload p)) with sound_of. clear -F'.
  induction F'; cbn [map]; constructor; assumption.
Qed.

(** If it also reorders and repeats them, or mixes in datagrams of others that are not G.711
    frames, every frame given is still that of an audible call that returned nil. *)
Theorem audio_only_what_was_said : forall ssrc xs o buf arrived frames,
  0 <= ssrc < 2 ^ 32 -> Forall legal xs -> Forall plain xs -> length buf = 2048%nat ->
  (forall p, In p arrived -> In p (left_socket (datagrams ssrc xs o)) \/ ~ wanted p) ->
  recv_stream buf arrived = Ok frames ->
  Forall (fun g => exists x, In x (voiced (new_session ssrc) xs o) /\ sounds x g) frames.
Proof.
  intros ssrc xs o buf arrived frames Hs Hx Hp Hb. unfold datagrams.
  destruct (run_ops (new_session ssrc) xs o) as [[s ps] o'] eqn:E. intros HL ER.
  pose proof (run_sounds xs (new_session ssrc) _ _ _ _ eq_refl (new_session_wf ssrc Hs) Hx Hp E) as F.
  rewrite rtp_receive_exact in ER by exact Hb. injection ER as <-.
  apply Forall_forall. intros g Hg. apply in_map_iff in Hg. destruct Hg as (p & <- & Hin).
  apply filter_In in Hin. destruct Hin as [Hin Hwt]. destruct (HL p Hin) as [Hl|Hn].
  - assert (Hi : In p (filter wantedb (left_socket ps))) by (apply filter_In; auto).
    clear -F Hi. induction F as [|x q l k Hq F IH]; [destruct Hi|].
    destruct Hi as [->|Hi]; [exists x; split; [left; reflexivity|exact Hq]|].
    destruct (IH Hi) as (y & Hy & Hz). exists y. split; [right; exact Hy|exact Hz].
  - exfalso. apply Hn, wantedb_spec, Hwt.
Qed.

(** Two sockets later nothing has been added: a frame heard and sent on sounds the same. *)
Theorem audio_relayed_unchanged : forall p, wanted p ->
  map (fun x => g711_decode (bz (encode_sample x))) (sound_of p) = sound_of p.
Proof.
  intros p _. unfold sound_of. rewrite map_map. apply map_ext. intros b.
  pose proof (bz_range b) as Hr. destruct (ulaw_encode_decode (bz b) Hr) as (x & Hx & Hs & He).
  rewrite (ulaw_decode_is_g711 _ Hr) in Hx. injection Hx as <-.
  unfold encode_sample. rewrite He. destruct (bz b =? 127) eqn:E7.
  - apply Z.eqb_eq in E7. rewrite E7. reflexivity.
  - rewrite bz_zb, Z.mod_small by exact Hr. reflexivity.
Qed.

(** ** A history with a digit, a lost frame and a raw frame *)
Example audio_history :
  let xs := [OpSend (repeat 1000 160); OpDTMF "5"; OpSend (repeat (-20) 160); OpRaw 0 (repeat x7f 160) 160;
             OpRaw 8 (repeat x00 160) 160; OpSend (repeat 32767 160)] in
  let o := [true; true; true; true; true; true; true; true; false] in
  Forall legal xs /\ Forall plain xs /\
  voiced (new_session 7) xs o = [OpSend (repeat 1000 160); OpRaw 0 (repeat x7f 160) 160; OpSend (repeat 32767 160)] /\
  recv_stream (repeat x00 2048) (left_socket (datagrams 7 xs o)) =
    Ok [repeat 988 160; repeat 0 160; repeat 32124 160].
Proof.
  split; [repeat constructor; cbn; lia|]. split.
  - assert (K : forall v n, is_sample v -> Forall is_sample (repeat v n)).
    { intros v n H. apply Forall_forall. intros y Hy. apply repeat_spec in Hy. rewrite Hy. exact H. }
    constructor; [apply K; unfold is_sample; lia|]. constructor; [exact Logic.I|].
    constructor; [apply K; unfold is_sample; lia|]. constructor; [exact Logic.I|].
    constructor; [exact Logic.I|]. constructor; [apply K; unfold is_sample; lia|constructor].
  - split; vm_compute; reflexivity.
Qed.
Print Assumptions audio_arrives.
Print Assumptions audio_survives_loss.
Print Assumptions audio_only_what_was_said.
Print Assumptions audio_relayed_unchanged.
