(** Theorems about ParseMsg which hold for every packet (C13, C14, C15, C22). *)
From Verif Require Import Bytes BytesLemmas GoLib Auto SdpModel SipText SipTypes SipAppend UriTable UriModel MsgTable MsgModel MsgSafe P_Uri UriSpec.
Local Open Scope Z_scope.

(** * C13: for every packet ParseMsg returns a message or an error value *)
Theorem msg_parse_no_panic : forall data, parse_msg data <> MPanics.
Proof. intros data E. pose proof (parse_msg_sound data) as H. rewrite E in H. exact H. Qed.

(** * C14: and it stops. The model runs machine after machine; [msg_fuel] bounds the number of machines entered and is never used up. *)
Theorem msg_parse_stops : forall data, parse_msg data <> MFuel.
Proof. intros data E. pose proof (parse_msg_sound data) as H. rewrite E in H. exact H. Qed.
Corollary msg_parse_total : forall data, (exists m, parse_msg data = MOk m) \/ (exists e, parse_msg data = MErr e).
Proof.
  intros data. destruct (parse_msg data) as [m|e| |] eqn:E; eauto; [destruct (msg_parse_no_panic _ E)|destruct (msg_parse_stops _ E)].
Qed.
(** The number of bytes the automaton looks at, counting a byte once for every state that switches on it. *)
Fixpoint run_reads (cap : nat) (rest : bytes) (s : mst) (n : positive) : nat :=
  match rest with
  | [] => 0
  | _ :: rest' =>
    match msg_look rest with
    | None => 0
    | Some c =>
      match find_row (msg_row n) c with
      | None => 1
      | Some (o, nx) =>
        match acts (msg_act cap) o rest s with
        | inr e => 1
        | inl s' => match nx with Adv m => S (run_reads cap rest' s' m) | Jump j => 1 end
        end
      end
    end
  end%nat.
Fixpoint drive_reads (cap fuel : nat) (rest : bytes) (s : mst) (n : positive) : nat :=
  match fuel with
  | O => O
  | S f =>
    run_reads cap rest s n +
    match run (msg_act cap) msg_look msg_row rest s n with
    | OExit (Go m) r s' => drive_reads cap f (tl r) s' m
    | OExit (Hold m) r s' => drive_reads cap f r s' m
    | OExit (Back m) r s' => drive_reads cap f (m_mark s') s' m
    | _ => O
    end
  end%nat.
Definition msg_reads (data : bytes) : nat := drive_reads (length data) (msg_fuel data) data (mst0 data) msg_en_main.
Lemma run_reads_le cap rest : forall s n, (run_reads cap rest s n <= length rest)%nat.
Proof.
  induction rest as [|c rest IH]; intros s n; cbn [run_reads length]; [lia|]. destruct (msg_look (c :: rest)); [|lia].
  destruct (find_row _ _) as [[o nx]|]; [|lia]. destruct (acts _ _ _ _); [|lia]. destruct nx; [|lia]. specialize (IH m n1). lia.
Qed.
Lemma drive_reads_le D fuel : forall rest s n, home n = n -> at_state D (length rest) n rest s ->
  (drive_reads D fuel rest s n <= fuel * D)%nat.
Proof.
  induction fuel as [|fuel IH]; intros rest s n HM AT; cbn [drive_reads]; [lia|].
  assert (LD : (length rest <= D)%nat) by (apply AT). pose proof (run_reads_le D rest s n) as RR.
  pose proof (run_sound D (length rest) rest s n n (le_n _) HM AT) as R.
  destruct (run (msg_act D) msg_look msg_row rest s n) as [m s'|m r s'|[m|m|m|] r s'|e]; cbn [run_ok] in R; try lia.
  - destruct R as (N & LL & H1 & H2). specialize (IH (tl r) s' m H1 (H2 _)). lia.
  - destruct R as (H1 & _ & H2). specialize (IH r s' m H1 (H2 _)). lia.
  - destruct R as (H1 & _ & _ & H2). specialize (IH (m_mark s') s' m H1 (H2 _)). lia.
Qed.
(** the number of automaton steps is bounded by a function of the length of the packet *)
Theorem msg_parse_steps : forall data, (msg_reads data <= 4 * (length data + 1) * length data)%nat.
Proof.
  intros data. unfold msg_reads. eapply Nat.le_trans; [apply drive_reads_le; [reflexivity|apply start_at; lia]|]. unfold msg_fuel. lia.
Qed.

(** * C15: accepted messages are structurally complete *)
Definition complete_via (v : via) : Prop := v_protocol v <> [] /\ v_version v <> [] /\ v_transport v <> [] /\ v_host v <> [] /\ 0 <= v_port v < 65536.
Definition is_request (m : msg) : Prop := method m <> [] /\ (exists u, request m = Some u) /\ status m = 0.
Definition is_response (m : msg) : Prop := method m = [] /\ request m = None /\ 0 <= status m <= 999.
Lemma finish_same rest s m : msg_finish rest s = MOk m -> exists p, m = set_pay p (m_msg s) \/ m = m_msg s.
Proof.
  unfold msg_finish. destruct (0 <? m_clen s); [|intros [= <-]; exists None; auto]. destruct (negb _); [discriminate|]. destruct (bseq _ _).
  - destruct (sdp_parse rest) as [[p|e]|]; try discriminate. intros [= <-]. eauto.
  - intros [= <-]. eauto.
Qed.
Lemma parsed_wf u : parsed u -> wf_uri u.
Proof. intros (b & H). exact (uri_parsed_is_wf b u H). Qed.
(** The full property wants a status from 100 to 999; what is proved is 0 to 999, see [msg_status_zero_refuted]. *)
Theorem msg_complete_partial : forall data m, parse_msg data = MOk m ->
  (is_request m \/ is_response m) /\
  (forall f a, In a (addrs m f) -> exists u, a_uri a = Some u /\ wf_uri u) /\
  (forall v, In v (vias m) -> complete_via v) /\
  (forall u, request m = Some u -> wf_uri u).
Proof.
  intros data m E. pose proof (parse_msg_sound data) as H. rewrite E in H. destruct H as (rest & s & _ & AL & G & F).
  destruct AL as (_ & _ & (M1 & M2 & _ & _ & _ & _ & _ & M8) & _).
  assert (X : vias m = vias (m_msg s) /\ addrs m = addrs (m_msg s) /\ request m = request (m_msg s) /\ method m = method (m_msg s) /\ status m = status (m_msg s)).
  { destruct (finish_same _ _ _ F) as (p & [->| ->]); cbn; auto. }
  destruct X as (X1 & X2 & X3 & X4 & X5). unfold is_request, is_response. rewrite X1, X2, X3, X4, X5. split; [exact G|]. split; [|split].
  - intros f a I. specialize (M2 f). rewrite Forall_forall in M2. destruct (M2 a I) as (N & _ & _ & P). destruct (a_uri a) as [u|]; [|congruence]. exists u. split; [reflexivity|]. apply parsed_wf. auto.
  - intros v I. rewrite Forall_forall in M1. destruct (M1 v I) as (V1 & V2 & V3 & V4 & V5). repeat split; auto; apply V5.
  - intros u U. apply parsed_wf. auto.
Qed.
Definition nl : bytes := [CR; LF].
Example msg_complete_example : exists m,
  parse_msg (B "INVITE sip:bob@example.com SIP/2.0" ++ nl ++ B "Via: SIP/2.0/UDP 1.2.3.4;branch=z9" ++ nl ++ B "From: Kitty <sip:k@h>;tag=a" ++ nl ++ B "l: 2" ++ nl ++ nl ++ B "hi") = MOk m /\
  is_request m /\ length (vias m) = 1%nat /\ length (addrs m From) = 1%nat /\ pay m = Some (Misc [] (B "hi")).
Proof. eexists. split; [vm_compute; reflexivity|]. split; [repeat split; try discriminate; eexists; reflexivity|]. repeat split; reflexivity. Qed.
(** A response line with status 000 gives a message which is neither: no request URI, and IsResponse (msg.go:100) is Status > 0. *)
Theorem msg_status_zero_refuted : exists data m, parse_msg data = MOk m /\ request m = None /\ (0 <? status m) = false.
Proof. exists (B "SIP/2.0 000 ok" ++ nl ++ nl). eexists. split; [vm_compute; reflexivity|]. auto. Qed.

(** * C22: no line break in stored text, except folded ones *)
(** what [folded] says: after a CR comes LF, and after a LF comes a space or a tab *)
Theorem folded_spec : forall w, folded w = true <->
  (forall a b, w = a ++ CR :: b -> exists b', b = LF :: b') /\ (forall a b, w = a ++ LF :: b -> exists c b', b = c :: b' /\ (c = " "%byte \/ c = x09)).
Proof.
  induction w as [|c w IH]; [split; [|reflexivity]|].
  - intros _. split; intros [|x a] b H; discriminate.
  - cbn [folded]. rewrite andb_true_iff, IH. clear IH. split.
    + intros (H1 & H2 & H3). split; intros [|x a] b E; cbn [app] in E; injection E as -> ->; eauto.
      * cbn in H1. destruct b as [|d b0]; [discriminate|]. apply beq_spec in H1. subst. eauto.
      * cbn in H1. destruct b as [|d b0]; [discriminate|]. unfold wsp in H1. apply orb_prop in H1. destruct H1 as [H1|H1]; apply beq_spec in H1; subst; eauto.
    + intros (H1 & H2). split; [|split].
      * destruct (beq_reflect c LF) as [->|N1].
        -- destruct (H2 [] w eq_refl) as (d & b & -> & [->| ->]); reflexivity.
        -- destruct (beq_reflect c CR) as [->|N2]; [|reflexivity]. destruct (H1 [] w eq_refl) as (b & ->). reflexivity.
      * intros a b E. subst w. exact (H1 (c :: a) b eq_refl).
      * intros a b E. subst w. exact (H2 (c :: a) b eq_refl).
Qed.
(** Every piece of text an accepted message holds outside URIs, other than the reason phrase. *)
Definition texts (m : msg) (t : bytes) : Prop :=
  t = method m \/ t = callid m \/ t = cseqmethod m \/ (exists f, t = strs m f) \/
  (exists n v, In (n, v) (xheader m) /\ (t = n \/ t = v)) \/
  (exists v, In v (vias m) /\ (t = v_protocol v \/ t = v_version v \/ t = v_transport v \/ t = v_host v \/ exists n x, In (n, x) (v_param v) /\ (t = n \/ t = x))) \/
  (exists f a, In a (addrs m f) /\ (t = a_display a \/ exists n x, In (n, x) (a_param a) /\ (t = n \/ t = x))).
Lemma pairs_in l n x t : pairs_folded l -> In (n, x) l -> t = n \/ t = x -> folded t = true.
Proof. intros P I H. unfold pairs_folded in P. rewrite Forall_forall in P. destruct (P _ I) as [P1 P2]. destruct H as [->| ->]; assumption. Qed.
Theorem msg_no_injection_partial : forall data m t, parse_msg data = MOk m -> texts m t -> folded t = true.
Proof.
  intros data m t E T. pose proof (parse_msg_sound data) as H. rewrite E in H. destruct H as (rest & s & _ & AL & _ & F).
  destruct AL as (_ & _ & (M1 & M2 & M3 & M4 & M5 & M6 & M7 & _) & _).
  assert (X : vias m = vias (m_msg s) /\ addrs m = addrs (m_msg s) /\ strs m = strs (m_msg s) /\ method m = method (m_msg s) /\ xheader m = xheader (m_msg s) /\ callid m = callid (m_msg s) /\ cseqmethod m = cseqmethod (m_msg s)).
  { destruct (finish_same _ _ _ F) as (p & [->| ->]); cbn; repeat split. }
  destruct X as (X1 & X2 & X3 & X4 & X5 & X6 & X7). unfold texts in T. rewrite X1, X2, X3, X4, X5, X6, X7 in T.
  destruct T as [->|[->|[->|[(f & ->)|[(n & v & I & T)|[(v & I & T)|(f & a & I & T)]]]]]]; auto.
  - exact (pairs_in _ _ _ _ M4 I T).
  - rewrite Forall_forall in M1. destruct (M1 v I) as (_ & _ & _ & _ & V1 & V2 & V3 & V4 & V5 & _).
    destruct T as [->|[->|[->|[->|(n & x & I2 & T)]]]]; auto. exact (pairs_in _ _ _ _ V5 I2 T).
  - specialize (M2 f). rewrite Forall_forall in M2. destruct (M2 a I) as (_ & A1 & A2 & _). destruct T as [->|(n & x & I2 & T)]; auto. exact (pairs_in _ _ _ _ A2 I2 T).
Qed.
(** The reason phrase is percent-decoded and written back raw (msg.go:155-157): a response can carry a header which is not in the packet. *)
Definition forged : bytes := B "SIP/2.0 200 OK%0D%0AContact:%20sip:evil" ++ nl ++ nl.
Theorem msg_phrase_injection_refuted : exists m, parse_msg forged = MOk m /\ addrs m Contact = [] /\ folded (phrase m) = false /\
  start_line m = B "SIP/2.0 200 OK" ++ nl ++ B "Contact: sip:evil" ++ nl.
Proof. eexists. split; [vm_compute; reflexivity|]. repeat split; vm_compute; reflexivity. Qed.
Example msg_no_injection_example : exists m,
  parse_msg (B "INVITE sip:bob@example.com SIP/2.0" ++ nl ++ B "Subject: one" ++ nl ++ B " two" ++ nl ++ nl) = MOk m /\ texts m (B "one" ++ nl ++ B " two").
Proof. eexists. split; [vm_compute; reflexivity|]. right. right. right. left. exists Subject. reflexivity. Qed.

Print Assumptions msg_parse_total.
Print Assumptions msg_parse_steps.
Print Assumptions msg_complete_partial.
Print Assumptions msg_no_injection_partial.
