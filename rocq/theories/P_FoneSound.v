(** C104: what the telephone says and what it plays. *)
From Verif Require Import Bytes BytesLemmas Asm DspModel DspProofs P_Dsp RtpModel RtpSpec RtpProofs P_Rtp P_Audio FoneSoundModel.
Local Open Scope Z_scope.

(** ** Specification *)
(** what the telephone was asked to say while it knew its peer and its socket worked *)
Definition asked (mute : bool) (e : sevent) : list op :=
  match e with
  | STick mic noise => if mute then [OpSend noise] else match mic with Some f => [OpSend f] | None => [] end
  | SKey k => [OpDTMF k]
  | _ => []
  end.
Fixpoint spoken (mute known : bool) (l : list sevent) : list op :=
  match l with
  | [] => []
  | SFail :: _ => []
  | SPeer _ :: l => spoken mute true l
  | e :: l => (if known then asked mute e else []) ++ spoken mute known l
  end.
(** the datagrams that arrived while its socket worked *)
Fixpoint arrived (l : list sevent) : list bytes :=
  match l with [] => [] | SFail :: _ => [] | SPacket _ p :: l => p :: arrived l | _ :: l => arrived l end.
Definition outs (l : list seffect) : list attempt := flat_map (fun x => match x with SOut _ p ok => [(ok, p)] | _ => [] end) l.
Definition plays (l : list seffect) : list (list Z) := flat_map (fun x => match x with SPlay f => [f] | _ => [] end) l.
(** the peer that was named last *)
Definition last_peer (l : list sevent) : option (bytes * Z) := fold_left (fun a e => match e with SPeer b => Some b | _ => a end) l None.
(** the same but for what the microphone hears *)
Definition same_but_mic (e e' : sevent) : Prop := match e, e' with STick _ n, STick _ n' => n = n' | _, _ => e = e' end.
Definition same_but_source (e e' : sevent) : Prop := match e, e' with SPacket _ p, SPacket _ p' => p = p' | _, _ => e = e' end.

(** ** One step *)
Lemma outs_app a b : outs (a ++ b) = outs a ++ outs b. Proof. apply flat_map_app. Qed.
Lemma plays_app a b : plays (a ++ b) = plays a ++ plays b. Proof. apply flat_map_app. Qed.
Lemma outs_of a l : outs (map (fun t : attempt => SOut a (snd t) (fst t)) l) = l.
Proof. induction l as [|[ok p] l IH]; [reflexivity|]. cbn. f_equal. exact IH. Qed.
Lemma plays_of a l : plays (map (fun t : attempt => SOut a (snd t) (fst t)) l) = [].
Proof. induction l as [|[ok p] l IH]; [reflexivity|]. exact IH. Qed.
Lemma deaf_call x h o : exists e, do_op (mksess false h) x o = (mksess false h, [], o, e).
Proof. destruct x as [f|pt d n|k]; [eexists; reflexivity|eexists; reflexivity|]. unfold do_op, SendDTMF. cbv zeta. destruct ((dtmfCodes k =? 0) && negb (beq k "0")); eexists; reflexivity. Qed.
Lemma receive_one buf p : length buf = 2048%nat -> let '(b, n) := recv_into buf p in length b = 2048%nat /\ recv_packet b n = Ok (if wantedb p then Some (sound_of p) else None).
Proof.
  intros L. pose proof (rtp_receive_exact buf [p] L) as R. cbn [recv_stream] in R. destruct (recv_into buf p) as [b n] eqn:E. split.
  - unfold recv_into in E. apply (f_equal fst) in E. cbn [fst] in E. rewrite <- E, app_length, skipn_length, L. pose proof (firstn_le_length 2048 p) as F. revert F. generalize (length (firstn 2048 p)). intros k F. rewrite Nat.add_comm. apply Nat.sub_add. exact F.
  - destruct (recv_packet b n) as [f|]; [|discriminate R]. cbn [rbind] in R. cbn [filter] in R. destruct (wantedb p); cbn [map] in R; destruct f as [f|]; try discriminate R; [|reflexivity]. injection R as ->. reflexivity.
Qed.

Lemma do_op_live h x o : live (fst (fst (fst (do_op (mksess true h) x o)))) = true.
Proof.
  destruct x as [f|pt d n|k]; [reflexivity|reflexivity|]. unfold do_op, SendDTMF. cbv zeta. destruct ((dtmfCodes k =? 0) && negb (beq k "0")); [reflexivity|]. change (negb (live (mksess true h))) with false. cbv iota.
  destruct (dtmf_progress 5 _ _ 1 o) as [[[h1 ps1] o1] ok1]. destruct (negb ok1); [reflexivity|]. destruct (dtmf_end 3 h1 _ o1) as [[[h2 ps2] o2] ok2]. reflexivity.
Qed.
(** a call makes the session say what was asked, if it knows its peer and its socket works, and says nothing otherwise *)
Lemma call_says x s : let '(s', l) := call x s in
  sn_peer s' = sn_peer s /\ sn_open s' = sn_open s /\ sn_buf s' = sn_buf s /\ plays l = [] /\ (forall dst p ok, In (SOut dst p ok) l -> sn_peer s = Some dst) /\
  match sn_peer s, sn_open s with
  | Some _, true => exists e, do_op (mksess true (sn_header s)) x (sn_oks s) = (mksess true (sn_header s'), outs l, sn_oks s', e)
  | _, _ => outs l = [] /\ sn_header s' = sn_header s /\ sn_oks s' = sn_oks s
  end.
Proof.
  unfold call. destruct s as [p o h ok b]. cbn [sn_peer sn_open sn_header sn_oks sn_buf]. destruct p as [a|].
  - destruct o.
    + destruct (do_op (mksess true h) x ok) as [[[r l] o'] e] eqn:E. cbn [sn_peer sn_open sn_header sn_oks sn_buf]. rewrite plays_of, outs_of. repeat (split; [reflexivity|]). split.
      * intros dst q k H. apply in_map_iff in H. destruct H as ([? ?] & H & _). injection H as <- _ _. reflexivity.
      * exists e. assert (L : live r = true).
        { pose proof (do_op_live h x ok) as L. rewrite E in L. exact L. }
        destruct r as [rl rh]. cbn in L. subst rl. reflexivity.
    + destruct (deaf_call x h ok) as [e ->]. cbn. repeat split; intros ? ? ? [].
  - destruct (deaf_call x h ok) as [e ->]. cbn. repeat split; intros ? ? ? [].
Qed.
(** ** C104 *)
Lemma run_says mute l : forall s t, length (sn_buf s) = 2048%nat -> srun mute l s = Ok t ->
  outs t = (if sn_open s then snd (fst (run_ops (mksess true (sn_header s)) (spoken mute (match sn_peer s with Some _ => true | None => false end) l) (sn_oks s))) else []) /\
  plays t = (if sn_open s then map sound_of (filter wantedb (arrived l)) else []).
Proof.
  induction l as [|e l IH]; intros s t BL E; [injection E as <-; destruct (sn_open s); split; reflexivity|]. cbn [srun] in E. destruct (sstep mute e s) as [[s1 l1]|] eqn:ES; [|discriminate E]. cbn [rbind fst snd] in E.
  destruct (srun mute l s1) as [t1|] eqn:ER; [|discriminate E]. injection E as <-. rewrite outs_app, plays_app.
  assert (SAY : forall x, call x s = (s1, l1) -> asked mute e = [x] -> (forall known, spoken mute known (e :: l) = (if known then asked mute e else []) ++ spoken mute known l) -> arrived (e :: l) = arrived l ->
    outs l1 ++ outs t1 = (if sn_open s then snd (fst (run_ops (mksess true (sn_header s)) (spoken mute (match sn_peer s with Some _ => true | None => false end) (e :: l)) (sn_oks s))) else []) /\
    plays l1 ++ plays t1 = (if sn_open s then map sound_of (filter wantedb (arrived (e :: l))) else [])).
  { intros x EC EA EP EV. rewrite EP, EV. pose proof (call_says x s) as C. rewrite EC in C. destruct C as (P1 & P2 & P3 & P4 & _ & P5). rewrite P4. cbn [app].
    destruct (IH s1 t1) as [I1 I2]; [rewrite P3; exact BL|exact ER|]. rewrite P2 in I1, I2. rewrite P1 in I1. destruct (sn_open s); [|destruct (sn_peer s); destruct P5 as (-> & _); rewrite I1; split; [reflexivity|exact I2|reflexivity|exact I2]].
    split; [|exact I2]. destruct (sn_peer s) as [a|].
    - rewrite EA. destruct P5 as [er P5]. cbn [app run_ops]. rewrite P5. rewrite I1. destruct (run_ops (mksess true (sn_header s1)) (spoken mute true l) (sn_oks s1)) as [[? ?] ?]. reflexivity.
    - destruct P5 as (-> & -> & ->) in I1 |- *. cbn [app]. exact I1. }
  destruct e as [mic noise|k|src p|a|]; cbn [sstep] in ES.
  - destruct mute; [injection ES as ES; apply (SAY (OpSend noise)); [exact ES|reflexivity|reflexivity|reflexivity]|]. destruct mic as [f|]; [injection ES as ES; apply (SAY (OpSend f)); [exact ES|reflexivity|reflexivity|reflexivity]|].
    injection ES as <- <-. cbn [app outs plays flat_map]. destruct (IH s t1 BL ER) as [I1 I2]. split; [|exact I2]. rewrite I1. cbn [spoken asked]. destruct (sn_peer s); reflexivity.
  - injection ES as ES. apply (SAY (OpDTMF k)); [exact ES|reflexivity|reflexivity|reflexivity].
  - cbn [spoken asked arrived]. replace (if match sn_peer s with Some _ => true | None => false end then [] else []) with (@nil op) by (destruct (sn_peer s); reflexivity). cbn [app].
    destruct (sn_open s) eqn:O.
    + pose proof (receive_one (sn_buf s) p BL) as R. destruct (recv_into (sn_buf s) p) as [b n]. destruct R as [R1 R2]. rewrite R2 in ES. cbn [rbind] in ES. injection ES as <- <-.
      destruct (IH (mksound (sn_peer s) true (sn_header s) (sn_oks s) b) t1 R1 ER) as [I1 I2]. cbn [sn_open sn_header sn_oks sn_peer] in I1, I2. rewrite I1, I2. cbn [filter]. destruct (wantedb p); split; reflexivity.
    + injection ES as <- <-. destruct (IH s t1 BL ER) as [I1 I2]. rewrite O in I1, I2. rewrite I1, I2. split; reflexivity.
  - injection ES as <- <-. destruct (IH (mksound (Some a) (sn_open s) (sn_header s) (sn_oks s) (sn_buf s)) t1 BL ER) as [I1 I2]. cbn [sn_open sn_header sn_oks sn_peer] in I1, I2. cbn [app outs plays flat_map]. split; [exact I1|exact I2].
  - injection ES as <- <-. destruct (IH (mksound (sn_peer s) false (sn_header s) (sn_oks s) (sn_buf s)) t1 BL ER) as [I1 I2]. cbn [sn_open] in I1, I2. cbn [app outs plays flat_map spoken arrived]. rewrite I1, I2. destruct (sn_open s); split; reflexivity.
Qed.

Lemma run_total mute l : forall s, length (sn_buf s) = 2048%nat -> exists t, srun mute l s = Ok t.
Proof.
  induction l as [|e l IH]; intros s BL; [eexists; reflexivity|]. cbn [srun].
  assert (X : exists s1 l1, sstep mute e s = Ok (s1, l1) /\ length (sn_buf s1) = 2048%nat).
  { assert (CL : forall x, exists s1 l1, @Ok (sound * list seffect) (call x s) = Ok (s1, l1) /\ length (sn_buf s1) = 2048%nat).
    { intros x. pose proof (call_says x s) as C. destruct (call x s) as [s1 l1]. destruct C as (_ & _ & C & _). exists s1, l1. split; [reflexivity|rewrite C; exact BL]. }
    destruct e as [mic noise|k|src p|a|]; cbn [sstep].
    - destruct mute; [apply CL|]. destruct mic; [apply CL|]. exists s, []. auto.
    - apply CL.
    - destruct (sn_open s); [|exists s, []; auto]. pose proof (receive_one (sn_buf s) p BL) as R. destruct (recv_into (sn_buf s) p) as [b n]. destruct R as [R1 R2]. rewrite R2. cbn [rbind]. do 2 eexists. split; [reflexivity|exact R1].
    - do 2 eexists. split; [reflexivity|exact BL].
    - do 2 eexists. split; [reflexivity|exact BL]. }
  destruct X as (s1 & l1 & -> & B1). cbn [rbind fst snd]. destruct (IH s1 B1) as [t ->]. eexists. reflexivity.
Qed.
(** The telephone never fails over its sound. The datagrams it sends are those of an RTP session that is asked to say, in this order, every
    frame the microphone gives (the noise, if it is muted) and every key that is pressed, from the moment the peer is known until the socket
    fails, and nothing else; what it plays are the frames of sound that arrive, in the order they arrive. *)
Theorem telephone_says_and_plays : forall mute ssrc oks l, exists t, srun mute l (sound_start ssrc oks) = Ok t /\
  outs t = datagrams ssrc (spoken mute false l) oks /\ plays t = map sound_of (filter wantedb (arrived l)).
Proof.
  intros mute ssrc oks l. assert (BL : length (sn_buf (sound_start ssrc oks)) = 2048%nat) by apply repeat_length. destruct (run_total mute l _ BL) as [t T]. exists t. split; [exact T|].
  destruct (run_says mute l _ _ BL T) as [R1 R2]. split; [|exact R2]. rewrite R1. unfold datagrams, sound_start. cbn [sn_open sn_header sn_oks sn_peer].
  change (mksess true (hdr (new_session ssrc))) with (new_session ssrc). destruct (run_ops _ _ _) as [[? ?] ?]. reflexivity.
Qed.
(** Every datagram that an event causes goes to the peer that was named last before it; if none was named there is no datagram. *)
Lemma run_snoc mute l e : forall s t, length (sn_buf s) = 2048%nat -> srun mute (l ++ [e]) s = Ok t ->
  exists t1 s1 t2, srun mute l s = Ok t1 /\ t = t1 ++ t2 /\ (forall pre, sn_peer s = last_peer pre -> sn_peer s1 = last_peer (pre ++ l)) /\ (exists s2, sstep mute e s1 = Ok (s2, t2)) /\ length (sn_buf s1) = 2048%nat.
Proof.
  induction l as [|x l IH]; intros s t BL E.
  - cbn [app srun] in E. destruct (sstep mute e s) as [[s2 t2]|] eqn:ES; [|discriminate E]. cbn [rbind fst snd] in E. injection E as <-. exists [], s, t2.
    split; [reflexivity|]. split; [apply app_nil_r|]. split; [intros pre P; rewrite app_nil_r; exact P|]. split; [exists s2; exact ES|exact BL].
  - cbn [app srun] in E |- *. destruct (sstep mute x s) as [[s2 t2]|] eqn:ES; [|discriminate E]. cbn [rbind fst snd] in E |- *. destruct (srun mute (l ++ [e]) s2) as [t3|] eqn:ER; [|discriminate E]. injection E as <-.
    assert (X : length (sn_buf s2) = 2048%nat /\ sn_peer s2 = match x with SPeer b => Some b | _ => sn_peer s end).
    { assert (CL : forall y, call y s = (s2, t2) -> length (sn_buf s2) = 2048%nat /\ sn_peer s2 = sn_peer s).
      { intros y EC. pose proof (call_says y s) as C. rewrite EC in C. destruct C as (C1 & _ & C2 & _). split; [rewrite C2; exact BL|exact C1]. }
      destruct x as [mic noise|k|src q|a|]; cbn [sstep] in ES.
      - destruct mute; [injection ES as ES; apply (CL _ ES)|]. destruct mic; [injection ES as ES; apply (CL _ ES)|]. injection ES as <- <-. split; [exact BL|reflexivity].
      - injection ES as ES. apply (CL _ ES).
      - destruct (sn_open s); [|injection ES as <- <-; split; [exact BL|reflexivity]]. pose proof (receive_one (sn_buf s) q BL) as R. destruct (recv_into (sn_buf s) q) as [b n]. destruct R as [R1 R2]. rewrite R2 in ES. cbn [rbind] in ES.
        injection ES as <- <-. split; [exact R1|reflexivity].
      - injection ES as <- <-. split; [exact BL|reflexivity].
      - injection ES as <- <-. split; [exact BL|reflexivity]. }
    destruct X as [B2 P2]. destruct (IH s2 t3 B2 ER) as (t1 & s1 & t4 & R1 & -> & PP & St & B1). exists (t2 ++ t1), s1, t4. rewrite R1. cbn [rbind]. split; [reflexivity|]. split; [apply app_assoc|].
    split; [|split; assumption]. intros pre P. specialize (PP (pre ++ [x])). rewrite <- app_assoc in PP. apply PP. unfold last_peer in *. rewrite fold_left_app. cbn [fold_left]. rewrite <- P. exact P2.
Qed.
Theorem said_to_peer : forall mute ssrc oks l e t, srun mute (l ++ [e]) (sound_start ssrc oks) = Ok t ->
  exists t1 t2, srun mute l (sound_start ssrc oks) = Ok t1 /\ t = t1 ++ t2 /\ forall dst p ok, In (SOut dst p ok) t2 -> last_peer l = Some dst.
Proof.
  intros mute ssrc oks l e t E. assert (BL : length (sn_buf (sound_start ssrc oks)) = 2048%nat) by apply repeat_length. destruct (run_snoc mute l e _ t BL E) as (t1 & s1 & t2 & R1 & T & PP & (s2 & St) & B1). exists t1, t2. split; [exact R1|]. split; [exact T|].
  specialize (PP [] eq_refl). cbn [app] in PP. rewrite <- PP. intros dst p ok H.
  assert (CL : forall y, call y s1 = (s2, t2) -> sn_peer s1 = Some dst).
  { intros y EC. pose proof (call_says y s1) as C. rewrite EC in C. destruct C as (_ & _ & _ & _ & C & _). apply (C dst p ok H). }
  destruct e as [mic noise|k|src q|a|]; cbn [sstep] in St.
  - destruct mute; [injection St as St; apply (CL _ St)|]. destruct mic; [injection St as St; apply (CL _ St)|]. injection St as <- <-. destruct H.
  - injection St as St. apply (CL _ St).
  - destruct (sn_open s1); [|injection St as <- <-; destruct H]. pose proof (receive_one (sn_buf s1) q B1) as R. destruct (recv_into (sn_buf s1) q) as [b n]. destruct R as [R1' R2]. rewrite R2 in St. cbn [rbind] in St.
    injection St as <- <-. destruct (wantedb q); [destruct H as [X|[]]; discriminate X|destruct H].
  - injection St as <- <-. destruct H.
  - injection St as <- <-. destruct H.
Qed.
(** A muted telephone does the same whatever its microphone hears. *)
Theorem muted_says_nothing : forall l l' s, Forall2 same_but_mic l l' -> srun true l s = srun true l' s.
Proof.
  intros l l' s F. revert s. induction F as [|e e' l l' H F IH]; intros s; [reflexivity|]. cbn [srun].
  assert (X : sstep true e s = sstep true e' s) by (destruct e, e'; cbn in H; try discriminate H; try (injection H; intros; subst; reflexivity); [subst; reflexivity|reflexivity]).
  rewrite X. destruct (sstep true e' s) as [r|]; [|reflexivity]. cbn [rbind]. rewrite IH. reflexivity.
Qed.
(** Two telephones: what one plays, of what the network brings from the other in order, are frames the other's microphone gave and the system
    took, in order, each close to what was heard. *)
Definition frames_ok (l : list sevent) : Prop := Forall (fun e => match e with STick mic noise => (forall f, mic = Some f -> length f = 160%nat /\ Forall is_sample f) /\ length noise = 160%nat /\ Forall is_sample noise | _ => True end) l.
Lemma spoken_ok mute l : frames_ok l -> forall known, Forall legal (spoken mute known l) /\ Forall plain (spoken mute known l) /\ Forall (fun x => match x with OpRaw _ _ _ => False | _ => True end) (spoken mute known l).
Proof.
  induction l as [|e l IH]; intros F known; [repeat split; constructor|]. inversion F as [|? ? FE FL]; subst. specialize (IH FL).
  assert (X : forall k, Forall legal (spoken mute k l) /\ Forall plain (spoken mute k l) /\ Forall (fun x => match x with OpRaw _ _ _ => False | _ => True end) (spoken mute k l)) by exact IH.
  destruct e as [mic noise|k|src p|a|]; cbn [spoken asked].
  - destruct FE as (F1 & F2 & F3). destruct known; [|apply X]. destruct mute; [destruct (X true) as (A & B & C); cbn [app]; repeat split; constructor; auto|]. destruct mic as [f|]; [|apply X]. destruct (F1 f eq_refl) as [G1 G2]. destruct (X true) as (A & B & C). cbn [app]. repeat split; constructor; auto.
  - destruct known; [|apply X]. destruct (X true) as (A & B & C). cbn [app]. repeat split; constructor; auto; exact I.
  - destruct known; apply X.
  - apply X.
  - repeat split; constructor.
Qed.
Theorem said_is_heard : forall muteA muteB ssrcA ssrcB oksA oksB lA lB tA tB, 0 <= ssrcA < 2 ^ 32 -> frames_ok lA ->
  srun muteA lA (sound_start ssrcA oksA) = Ok tA -> srun muteB lB (sound_start ssrcB oksB) = Ok tB ->
  loses (left_socket (outs tA)) (arrived lB) ->
  exists heard, loses (voiced (new_session ssrcA) (spoken muteA false lA) oksA) heard /\ Forall2 sounds heard (plays tB).
Proof.
  intros muteA muteB ssrcA ssrcB oksA oksB lA lB tA tB S F EA EB HL. destruct (telephone_says_and_plays muteA ssrcA oksA lA) as (t1 & E1 & O1 & _). rewrite EA in E1. injection E1 as <-.
  destruct (telephone_says_and_plays muteB ssrcB oksB lB) as (t2 & E2 & _ & P2). rewrite EB in E2. injection E2 as <-. rewrite O1 in HL. destruct (spoken_ok muteA lA F false) as (L & P & _).
  destruct (audio_survives_loss ssrcA _ oksA (repeat x00 2048) _ S L P (repeat_length _ _) HL) as (frames & heard & R & H1 & H2). exists heard. split; [exact H1|].
  rewrite rtp_receive_exact in R by apply repeat_length. injection R as <-. rewrite P2. exact H2.
Qed.
(** It does not look where sound comes from: whoever sends a frame to its port is heard, also before the peer is known, and a frame that
    arrives twice is played twice. *)
Theorem anyone_is_heard_refuted : (forall mute l l' s, Forall2 same_but_source l l' -> srun mute l s = srun mute l' s) /\
  exists p, forall me other, me <> other -> forall mute ssrc oks, exists t,
    srun mute [SPacket other p; SPeer me; SPacket other p; SPacket other p] (sound_start ssrc oks) = Ok t /\ length (plays t) = 3%nat.
Proof.
  split.
  - intros mute l l' s F. revert s. induction F as [|e e' l l' H F IH]; intros s; [reflexivity|]. cbn [srun].
    assert (X : sstep mute e s = sstep mute e' s) by (destruct e, e'; cbn in H; try discriminate H; try (injection H; intros; subst; reflexivity); [subst; reflexivity|reflexivity]).
    rewrite X. destruct (sstep mute e' s) as [r|]; [|reflexivity]. cbn [rbind]. rewrite IH. reflexivity.
  - exists (x80 :: repeat x00 171). intros me other _ mute ssrc oks. destruct (telephone_says_and_plays mute ssrc oks [SPacket other (x80 :: repeat x00 171); SPeer me; SPacket other (x80 :: repeat x00 171); SPacket other (x80 :: repeat x00 171)]) as (t & E & _ & P).
    exists t. split; [exact E|]. rewrite P, map_length. vm_compute. reflexivity.
Qed.
(** A call in which everything happens. *)
Example sound_example : let me := (B "10.0.0.2", 4000) in let frame := repeat 100 160 in let quiet := repeat 0 160 in
  let l := [STick (Some frame) quiet; SPeer me; STick (Some frame) quiet; STick None quiet; SKey "5"; SKey "x"; STick (Some frame) quiet; SFail; STick (Some frame) quiet] in
  frames_ok l /\ spoken false false l = [OpSend frame; OpDTMF "5"; OpDTMF "x"; OpSend frame] /\ spoken true false l = [OpSend quiet; OpSend quiet; OpDTMF "5"; OpDTMF "x"; OpSend quiet] /\
  exists t, srun false l (sound_start 7 []) = Ok t /\ length (outs t) = 9%nat.
Proof.
  cbv zeta. split; [|split; [reflexivity|split; [reflexivity|]]].
  - assert (Q : forall x, is_sample x -> length (repeat x 160) = 160%nat /\ Forall is_sample (repeat x 160)) by (intros x S; split; [apply repeat_length|apply Forall_forall; intros y Y; apply repeat_spec in Y; subst; exact S]).
    assert (S1 : is_sample 100) by (unfold is_sample; lia). assert (S0 : is_sample 0) by (unfold is_sample; lia). destruct (Q 100 S1), (Q 0 S0).
    repeat constructor; auto; intros; try discriminate; try (match goal with E : Some _ = Some _ |- _ => injection E as <-; assumption end).
  - destruct (telephone_says_and_plays false 7 [] [STick (Some (repeat 100 160)) (repeat 0 160); SPeer (B "10.0.0.2", 4000); STick (Some (repeat 100 160)) (repeat 0 160); STick None (repeat 0 160); SKey "5"; SKey "x"; STick (Some (repeat 100 160)) (repeat 0 160); SFail; STick (Some (repeat 100 160)) (repeat 0 160)]) as (t & E & O & _).
    exists t. split; [exact E|]. rewrite O. vm_compute. reflexivity.
Qed.
Print Assumptions telephone_says_and_plays. Print Assumptions said_to_peer. Print Assumptions muted_says_nothing. Print Assumptions said_is_heard. Print Assumptions anyone_is_heard_refuted.
