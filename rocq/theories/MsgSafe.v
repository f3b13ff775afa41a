(** Facts which hold in each state of the message automaton, checked row by row against the table, and what they give:
    no action panics, no run is endless, and accepted messages are complete. *)
From Coq Require Import FMapPositive.
From Verif Require P_Sdp.
From Verif Require Import Bytes BytesLemmas GoLib GoLibLemmas Auto AutoRe SdpModel SipText SipTypes UriTable UriModel UriProofs MsgTable MsgModel.
Local Open Scope Z_scope.

(** ** Text without line breaks other than folded ones *)
(** every CR is followed by LF and every LF by white space *)
Definition wsp (c : byte) : bool := beq c " " || beq c x09.
Fixpoint folded (w : bytes) : bool :=
  match w with
  | [] => true
  | c :: t =>
    (if beq c LF then match t with d :: _ => wsp d | [] => false end
     else if beq c CR then match t with d :: _ => beq d LF | [] => false end else true) && folded t
  end.
Definition plain_byte (c : byte) : bool := negb (beq c CR || beq c LF).
Lemma folded_app a : forall b, folded a = true -> folded b = true -> folded (a ++ b) = true.
Proof.
  induction a as [|c a IH]; intros b Ha Hb; [exact Hb|]. cbn [folded app] in *. apply andb_prop in Ha. destruct Ha as [H1 H2].
  rewrite (IH b H2 Hb), andb_true_r. destruct a as [|d a]; cbn [app] in *; [|exact H1]. destruct (beq c LF), (beq c CR); try discriminate; reflexivity.
Qed.
Lemma folded_plain w : forallb plain_byte w = true -> folded w = true.
Proof.
  induction w as [|c w IH]; [reflexivity|]. cbn [forallb folded]. intros H. apply andb_prop in H. destruct H as [H1 H2]. rewrite (IH H2), andb_true_r.
  unfold plain_byte in H1. destruct (beq c CR), (beq c LF); try discriminate. reflexivity.
Qed.
Lemma folded_cont w c : folded w = true -> wsp c = true -> folded (w ++ [CR; LF; c]) = true.
Proof.
  intros H1 H2. apply folded_app; [exact H1|]. unfold wsp in H2. apply orb_prop in H2. destruct H2 as [H2|H2]; apply beq_spec in H2; subst c; reflexivity.
Qed.
Lemma folded_pre a : forall c b, folded (a ++ c :: b) = true -> whitespacec c = false -> folded (a ++ [c]) = true.
Proof.
  induction a as [|d a IH]; intros c b H N; cbn [app folded] in *.
  - unfold whitespacec in N. destruct (beq c LF) eqn:E1.
    + unfold LF in E1. rewrite E1, !orb_true_r in N. discriminate.
    + destruct (beq c CR) eqn:E2; [|reflexivity]. unfold CR in E2. rewrite E2, !orb_true_r in N. discriminate.
  - apply andb_prop in H. destruct H as [H1 H2]. rewrite (IH c b H2 N), andb_true_r. destruct a as [|e a]; cbn [app] in *; exact H1.
Qed.
Lemma trim_end_spec l : exists t, l = trim_end l ++ t /\ forallb whitespacec t = true /\ (trim_end l = [] \/ exists a c, trim_end l = a ++ [c] /\ whitespacec c = false).
Proof.
  induction l as [|c l (t & E1 & E2 & E3)]; cbn [trim_end].
  - exists []. auto.
  - destruct (trim_end l) as [|x t1] eqn:E.
    + destruct (whitespacec c) eqn:W.
      * exists (c :: t). cbn [app forallb]. rewrite W, E2. split; [|auto]. cbn in E1. congruence.
      * exists t. split; [cbn in *; congruence|]. split; [assumption|]. right. exists [], c. auto.
    + exists t. split; [cbn [app] in *; congruence|]. split; [assumption|]. right. destruct E3 as [E3|(a & d & E3 & W)]; [discriminate|].
      exists (c :: a), d. cbn. rewrite E3. auto.
Qed.
Lemma trim_end_folded l : folded l = true -> folded (trim_end l) = true.
Proof.
  intros H. destruct (trim_end_spec l) as (t & E1 & _ & [->|(a & c & E2 & W)]); [reflexivity|].
  rewrite E2 in *. apply (folded_pre a c t); [|assumption]. rewrite <- app_assoc in E1. cbn [app] in E1. rewrite <- E1. exact H.
Qed.

(** ** What is true of everything stored so far *)
Definition parsed (u : uri) : Prop := exists b, parse_uri b = POk u.
Definition pairs_folded (l : list (bytes * bytes)) : Prop := Forall (fun p => folded (fst p) = true /\ folded (snd p) = true) l.
Definition via_clean (v : via) : Prop :=
  folded (v_protocol v) = true /\ folded (v_version v) = true /\ folded (v_transport v) = true /\ folded (v_host v) = true /\
  pairs_folded (v_param v) /\ 0 <= v_port v < 65536.
Definition via_full (v : via) : Prop :=
  v_protocol v <> [] /\ v_version v <> [] /\ v_transport v <> [] /\ v_host v <> [] /\ via_clean v.
Definition addr_clean (a : addr) : Prop := folded (a_display a) = true /\ pairs_folded (a_param a) /\ (forall u, a_uri a = Some u -> parsed u).
Definition addr_full (a : addr) : Prop := a_uri a <> None /\ addr_clean a.
Definition msg_clean (m : msg) : Prop :=
  Forall via_full (vias m) /\ (forall f, Forall addr_full (addrs m f)) /\
  (forall f, folded (strs m f) = true) /\ pairs_folded (xheader m) /\
  folded (method m) = true /\ folded (callid m) = true /\ folded (cseqmethod m) = true /\
  (forall u, request m = Some u -> parsed u).

Section Facts.
Variable D : nat.   (* the length of the packet *)

Definition always (rest : bytes) (s : mst) : Prop :=
  (length rest <= D)%nat /\ (length (m_mark s) <= D)%nat /\ msg_clean (m_msg s) /\
  (forall v, m_via s = Some v -> via_clean v) /\ (forall a, m_addr s = Some a -> addr_clean a) /\ folded (m_ctype s) = true /\ folded (m_name s) = true.

(** ** What is true in particular states. [L] is how much was left where the present machine started. *)
Inductive fact :=
| FVia | FVP | FVV | FVT | FVH | FAddr | FAUri | FAddrp
| FMk | FMk1 | FK0 | FK1 | FK2
| FBR | FBR1 | FBM | FB0 | FB1 | FB2
| FML | FPr
| FMeth | FReq | FNoReq | FS0 | FS1 | FS2 | FS3 | FGood.

Definition good_start (m : msg) : Prop :=
  (method m <> [] /\ (exists u, request m = Some u) /\ status m = 0) \/ (method m = [] /\ request m = None /\ 0 <= status m <= 999).
Variable L : nat.
Definition means_fact (x : fact) (rest : bytes) (s : mst) : Prop :=
  let m := m_msg s in
  match x with
  | FVia => exists v, m_via s = Some v
  | FVP => exists v, m_via s = Some v /\ v_protocol v <> []
  | FVV => exists v, m_via s = Some v /\ v_version v <> []
  | FVT => exists v, m_via s = Some v /\ v_transport v <> []
  | FVH => exists v, m_via s = Some v /\ v_host v <> []
  | FAddr => exists a, m_addr s = Some a
  | FAUri => exists a, m_addr s = Some a /\ a_uri a <> None
  | FAddrp => exists f, m_addrp s = Some f
  | FMk => exists w, m_mark s = w ++ rest
  | FMk1 => exists w, m_mark s = w ++ rest /\ w <> []
  | FK0 => exists w, m_mark s = w ++ rest /\ folded w = true
  | FK1 => exists w, m_mark s = w ++ CR :: rest /\ folded w = true
  | FK2 => exists w, m_mark s = w ++ CR :: LF :: rest /\ folded w = true
  | FBR => (length (m_buf s) + length rest <= D)%nat
  | FBR1 => (length (m_buf s) + length rest <= D + 1)%nat
  | FBM => (length (m_buf s) + length (m_mark s) <= D)%nat
  | FB0 => folded (m_buf s) = true
  | FB1 => exists w, m_buf s = w ++ [CR] /\ folded w = true
  | FB2 => exists w, m_buf s = w ++ [CR; LF] /\ folded w = true
  | FML => (length (m_mark s) <= L)%nat
  | FPr => (length rest < L)%nat
  | FMeth => method m <> []
  | FReq => exists u, request m = Some u
  | FNoReq => method m = [] /\ request m = None
  | FS0 => status m = 0
  | FS1 => 0 <= status m <= 9
  | FS2 => 0 <= status m <= 99
  | FS3 => 0 <= status m <= 999
  | FGood => good_start m
  end.

Definition fid (x : fact) : N :=
  match x with
  | FVia => 0 | FVP => 1 | FVV => 2 | FVT => 3 | FVH => 4 | FAddr => 5 | FAUri => 6 | FAddrp => 7
  | FMk => 8 | FMk1 => 9 | FK0 => 10 | FK1 => 11 | FK2 => 12
  | FBR => 13 | FBR1 => 14 | FBM => 15 | FB0 => 16 | FB1 => 17 | FB2 => 18
  | FML => 20 | FPr => 21
  | FMeth => 22 | FReq => 23 | FNoReq => 24 | FS0 => 25 | FS1 => 26 | FS2 => 27 | FS3 => 28 | FGood => 29
  end.
Definition all_facts : list fact :=
  [FVia; FVP; FVV; FVT; FVH; FAddr; FAUri; FAddrp; FMk; FMk1; FK0; FK1; FK2; FBR; FBR1; FBM; FB0; FB1; FB2; FML; FPr;
   FMeth; FReq; FNoReq; FS0; FS1; FS2; FS3; FGood].
Definition has (f : N) (x : fact) : bool := N.testbit f (fid x).
Definition build (p : fact -> bool) : N := fold_right (fun x acc => if p x then N.setbit acc (fid x) else acc) 0%N all_facts.
Lemma fid_inj x y : fid x = fid y -> x = y.
Proof. destruct x, y; intros H; try reflexivity; discriminate. Qed.
Lemma build_gen (p : fact -> bool) l i : N.testbit (fold_right (fun x acc => if p x then N.setbit acc (fid x) else acc) 0%N l) i = existsb (fun x => p x && N.eqb (fid x) i) l.
Proof.
  induction l as [|x l IH]; [apply N.bits_0|]. cbn [fold_right existsb]. destruct (p x); cbn [andb orb].
  - destruct (N.eqb_spec (fid x) i) as [<-|N0]; [apply N.setbit_eq|]. rewrite N.setbit_neq by congruence. exact IH.
  - exact IH.
Qed.
Lemma build_has (p : fact -> bool) x : has (build p) x = p x.
Proof.
  unfold has, build. rewrite build_gen. destruct (p x) eqn:P.
  - apply existsb_exists. exists x. rewrite P, N.eqb_refl. split; [destruct x; cbn; tauto|reflexivity].
  - destruct (existsb _ all_facts) eqn:K; [|reflexivity]. apply existsb_exists in K. destruct K as (y & _ & K). apply andb_prop in K. destruct K as [K1 K2].
    apply N.eqb_eq in K2. apply fid_inj in K2. congruence.
Qed.
Definition holds (f : N) (rest : bytes) (s : mst) : Prop := forall x, has f x = true -> means_fact x rest s.

(** ** What an action needs and what is true after it, given the facts [f] and the set [k] of symbols it is executed on *)
Definition in_mask (k : ranges) (m : N) : bool := within m (mask k).
Definition off_mask (k : ranges) (m : N) : bool := negb (meets m (mask k)).
Definition only_cr := in_mask [(13, 13); (256, 256)]%N.
Definition only_lf := in_mask [(10, 10)]%N.
Definition only_wsp := in_mask [(9, 9); (32, 32)]%N.
Definition only_plain := off_mask [(10, 10); (13, 13); (256, 256)]%N.
Definition only_digit := in_mask [(48, 57)]%N.

Definition needs (a : mact) (f : N) : bool :=
  match a with
  | MAppend | MHexLo => has f FBR
  | MMethod | MCallID | MCtype | MCSeqMethod | MName => has f FK0
  | MRequest => has f FMk
  | MVia => has f FVP && has f FVV && has f FVT && has f FVH
  | MViaProtocol | MViaVersion | MViaTransport | MViaHost => has f FVia && has f FK0
  | MViaPort => has f FVia
  | MViaParam => has f FVia && has f FB0
  | MValue => has f FK1
  | MDisplayQ | MAddrParam => has f FAddr && has f FB0
  | MDisplayU => has f FAddr && has f FK0
  | MAddrUri => has f FAddr && has f FMk
  | MAddr => has f FAUri && has f FAddrp
  | _ => true
  end.
Definition post (a : mact) (k : N) (f : N) (x : fact) : bool :=
  match a, x with
  | MMark, (FMk | FK0 | FML) => true
  | MMark, (FMk1 | FK1 | FK2) => false
  | MMark, FBM => has f FBR
  | MStart, (FBR | FBR1 | FBM | FB0) => true
  | MStart, (FB1 | FB2) => false
  | (MAppend | MHexLo), (FBR | FBM) => false
  | (MAppend | MHexLo), FBR1 => true
  | MAppend, FB0 => has f FB0 && only_plain k || has f FB2 && only_wsp k
  | MAppend, FB1 => has f FB0 && only_cr k
  | MAppend, FB2 => has f FB1 && only_lf k
  | MHexLo, (FB0 | FB1 | FB2) => false
  | MMethod, FMeth => has f FMk1
  | MRequest, FReq => true
  | (MMethod | MRequest), (FNoReq | FGood) => false
  | MStatus, FS1 => has f FS0 && only_digit k
  | MStatus, FS2 => has f FS1 && only_digit k
  | MStatus, FS3 => has f FS2 && only_digit k
  | MStatus, (FS0 | FGood) => false
  | MViaNew, FVia => true
  | MViaNew, (FVP | FVV | FVT | FVH) => false
  | MVia, (FVia | FVP | FVV | FVT | FVH) => false
  | MViaProtocol, FVP => has f FMk1
  | MViaVersion, FVV => has f FMk1
  | MViaTransport, FVT => has f FMk1
  | MViaHost, FVH => has f FMk1
  | MAddrNew, FAddr => true
  | MAddrNew, FAUri => false
  | MAddrUri, FAUri => true
  | MAddr, (FAddr | FAUri) => false
  | MAddrp _, FAddrp => true
  | _, _ => has f x
  end.
(** after the start line one of two things is known *)
Definition close (f : N) (x : fact) : bool :=
  match x with
  | FGood => has f FGood || has f FMeth && has f FReq && has f FS0 || has f FNoReq && has f FS3
  | _ => has f x
  end.
Definition adv (k : N) (f : N) (x : fact) : bool :=
  match x with
  | FMk1 => has f FMk
  | FK0 => has f FK0 && only_plain k || has f FK2 && only_wsp k
  | FK1 => has f FK0 && only_cr k
  | FK2 => has f FK1 && only_lf k
  | FBR => has f FBR1
  | FPr => true
  | _ => has f x
  end.
Definition rebase (f : N) (x : fact) : bool := match x with FML | FPr => false | _ => has f x end.
Definition back (f : N) (x : fact) : bool :=
  match x with
  | FMk | FK0 => true
  | FMk1 | FK1 | FK2 | FML | FPr => false
  | FBR | FBR1 => has f FBM
  | _ => has f x
  end.
Fixpoint xfer (o : list mact) (k : N) (f : N) : option N :=
  match o with
  | [] => Some (build (close f))
  | a :: o' => if needs a f then xfer o' k (build (post a k f)) else None
  end.

Lemma look_in_mask k m c r n : in_mask k m = true -> msg_look (c :: r) = Some n -> N.testbit m n = true -> in_ranges k n = true.
Proof. intros H _ T. unfold in_mask in H. apply (within_spec _ _ n H) in T. rewrite mask_spec in T. exact T. Qed.
Lemma look_off_mask k m n : off_mask k m = true -> N.testbit m n = true -> in_ranges k n = false.
Proof.
  intros H T. unfold off_mask in H. destruct (in_ranges k n) eqn:K; [|reflexivity]. rewrite <- mask_spec in K. rewrite (meets_spec _ _ n T K) in H. discriminate.
Qed.
Lemma look_byte c r n : msg_look (c :: r) = Some n -> n = to_N c \/ (n = 256%N /\ c = CR).
Proof.
  unfold msg_look. destruct (beq c CR && lookAheadWSP (c :: r)) eqn:E; intros H; injection H as <-; [right|left; reflexivity].
  apply andb_prop in E. destruct E as [E _]. apply beq_spec in E. auto.
Qed.
Lemma sym_plain m c r n : msg_look (c :: r) = Some n -> N.testbit m n = true -> only_plain m = true -> plain_byte c = true.
Proof.
  intros H T O. pose proof (look_off_mask _ _ _ O T) as K. apply look_byte in H. destruct H as [->|[-> _]]; [|discriminate].
  assert (Q : implb (negb (in_ranges [(10, 10); (13, 13); (256, 256)]%N (to_N c))) (plain_byte c) = true) by (clear; revert c; by_bytes).
  rewrite K in Q. exact Q.
Qed.
Lemma sym_cr m c r n : msg_look (c :: r) = Some n -> N.testbit m n = true -> only_cr m = true -> c = CR.
Proof.
  intros H T O. pose proof (look_in_mask _ _ _ _ _ O H T) as K. apply look_byte in H. destruct H as [->|[-> E]]; [|exact E].
  assert (Q : implb (in_ranges [(13, 13); (256, 256)]%N (to_N c)) (beq c CR) = true) by (clear; revert c; by_bytes).
  rewrite K in Q. apply beq_spec. exact Q.
Qed.
Lemma sym_lf m c r n : msg_look (c :: r) = Some n -> N.testbit m n = true -> only_lf m = true -> c = LF.
Proof.
  intros H T O. pose proof (look_in_mask _ _ _ _ _ O H T) as K. apply look_byte in H. destruct H as [->|[-> E]]; [|discriminate].
  assert (Q : implb (in_ranges [(10, 10)]%N (to_N c)) (beq c LF) = true) by (clear; revert c; by_bytes).
  rewrite K in Q. apply beq_spec. exact Q.
Qed.
Lemma sym_wsp m c r n : msg_look (c :: r) = Some n -> N.testbit m n = true -> only_wsp m = true -> wsp c = true.
Proof.
  intros H T O. pose proof (look_in_mask _ _ _ _ _ O H T) as K. apply look_byte in H. destruct H as [->|[-> E]]; [|discriminate].
  assert (Q : implb (in_ranges [(9, 9); (32, 32)]%N (to_N c)) (wsp c) = true) by (clear; revert c; by_bytes).
  rewrite K in Q. exact Q.
Qed.
Lemma sym_digit m c r n : msg_look (c :: r) = Some n -> N.testbit m n = true -> only_digit m = true -> 48 <= bz c <= 57.
Proof.
  intros H T O. pose proof (look_in_mask _ _ _ _ _ O H T) as K. apply look_byte in H. destruct H as [->|[-> E]]; [|discriminate].
  assert (Q : implb (in_ranges [(48, 57)]%N (to_N c)) ((48 <=? bz c) && (bz c <=? 57)) = true) by (clear; revert c; by_bytes).
  rewrite K in Q. cbn [implb] in Q. lia.
Qed.

Lemma slice_at d rest s w k : m_mark s = w ++ rest -> d = O -> mslice d rest s k = k w.
Proof.
  intros E ->. unfold mslice. rewrite E, app_length. destruct (Nat.leb_spec (length rest + 0) (length w + length rest)); [|lia].
  replace (length w + length rest - (length rest + 0))%nat with (length w) by lia. rewrite firstn_app, Nat.sub_diag, firstn_all. cbn. rewrite app_nil_r. reflexivity.
Qed.
Lemma slice_at1 rest s w c k : m_mark s = w ++ c :: rest -> mslice 1 rest s k = k w.
Proof.
  intros E. unfold mslice. rewrite E, app_length. cbn [length]. destruct (Nat.leb_spec (length rest + 1) (length w + S (length rest))); [|lia].
  replace (length w + S (length rest) - (length rest + 1))%nat with (length w) by lia. rewrite firstn_app, Nat.sub_diag, firstn_all. cbn. rewrite app_nil_r. reflexivity.
Qed.

Ltac keep H := let x := fresh "x" in let Hx := fresh "Hx" in intros x Hx; rewrite build_has in Hx; destruct x; cbn [post] in Hx; try discriminate; try exact (H _ Hx).
(** actions on the Via or address being built: the other fields of it stay *)
Ltac vkeep H E0 w E :=
  keep H; try (eexists; reflexivity);
  match goal with
  | Hx : has _ FMk1 = true |- _ =>
      let w' := fresh in let E' := fresh in let N' := fresh in destruct (H FMk1 Hx) as (w' & E' & N'); cbn in E, E'; rewrite E in E'; apply app_inv_tail in E'; subst w'; eexists; split; [reflexivity|exact N']
  | Hx : has _ ?x = true |- _ =>
      let v' := fresh in let E' := fresh in let N' := fresh in destruct (H x Hx) as (v' & E' & N'); cbn in E'; rewrite E0 in E'; injection E' as <-; eexists; split; [reflexivity|exact N']
  end.
Ltac akeep H E0 :=
  keep H; try (eexists; reflexivity);
  match goal with
  | Hx : has _ ?x = true |- _ =>
      let v' := fresh in let E' := fresh in let N' := fresh in destruct (H x Hx) as (v' & E' & N'); cbn in E'; rewrite E0 in E'; injection E' as <-; eexists; split; [reflexivity|exact N']
  end.
Lemma acc_digit k c r n z : msg_look (c :: r) = Some n -> N.testbit k n = true -> 0 <= z <= 99 -> only_digit k = true -> 0 <= acc_int z c <= z * 10 + 9.
Proof. intros LK T Hz Hk. pose proof (sym_digit _ _ _ _ LK T Hk) as H. clear -H Hz. unfold acc_int. rewrite i64_id; lia. Qed.
Lemma act_sound a k f c r n s :
  msg_look (c :: r) = Some n -> N.testbit k n = true -> (length (c :: r) <= L)%nat -> always (c :: r) s -> holds f (c :: r) s -> needs a f = true ->
  (exists s', msg_act D a (c :: r) s = inl s' /\ always (c :: r) s' /\ holds (build (post a k f)) (c :: r) s') \/ (exists e, msg_act D a (c :: r) s = inr (MReturn e)).
Proof.
  intros LK T LL AL H ND. pose proof AL as (A1 & A2 & A3 & A4 & A5 & A6 & A7). pose proof A3 as (M1 & M2 & M3 & M4 & M5 & M6 & M7 & M8).
  pose proof (fun z => acc_digit k c r n z LK T) as AC.
  pose proof (conj A4 (conj A5 (conj A6 A7))) as A47.
  destruct a; cbn [msg_act mfc needs] in *.
  - (* MMark *) left. eexists; split; [reflexivity|]. split; [exact (conj A1 (conj A1 (conj A3 A47)))|]. keep H.
    + exists []. reflexivity.
    + exists []. auto.
    + exact LL.
  - (* MStart *) left. eexists; split; [reflexivity|]. split; [exact AL|]. keep H; cbn [means_fact put_buf m_buf m_mark].
    + exact A1.
    + cbn [length] in *. clear -A1. lia.
    + exact A2.
    + reflexivity.
  - (* MAppend *) pose proof (H FBR ND) as HB. cbn in HB. unfold mput. destruct (Nat.ltb_spec (length (m_buf s)) D) as [HL|HL]; [|cbn [length] in HB; clear -HB HL; lia].
    left. eexists; split; [reflexivity|]. split; [exact AL|]. keep H; cbn [means_fact put_buf m_buf m_mark].
    + rewrite app_length. cbn [length] in *. clear -HB. lia.
    + apply orb_prop in Hx. destruct Hx as [Hx|Hx]; apply andb_prop in Hx; destruct Hx as [H1 H2].
      * apply folded_app; [exact (H FB0 H1)|]. apply folded_plain. cbn. rewrite (sym_plain _ _ _ _ LK T H2). reflexivity.
      * destruct (H FB2 H1) as (w & E & F). cbn in E. rewrite E, <- app_assoc. cbn [app]. apply folded_cont; [exact F|]. apply (sym_wsp _ _ _ _ LK T H2).
    + apply andb_prop in Hx. destruct Hx as [H1 H2]. exists (m_buf s). rewrite (sym_cr _ _ _ _ LK T H2). split; [reflexivity|exact (H FB0 H1)].
    + apply andb_prop in Hx. destruct Hx as [H1 H2]. destruct (H FB1 H1) as (w & E & F). exists w. cbn in E. rewrite E, (sym_lf _ _ _ _ LK T H2), <- app_assoc. auto.
  - (* MHexHi *) left. eexists; split; [reflexivity|]. split; [exact AL|]. keep H.
  - (* MHexLo *) pose proof (H FBR ND) as HB. cbn in HB. unfold mput. cbn [put_hex m_buf]. destruct (Nat.ltb_spec (length (m_buf s)) D) as [HL|HL]; [|cbn [length] in HB; clear -HB HL; lia].
    left. eexists; split; [reflexivity|]. split; [exact AL|]. keep H; cbn [means_fact put_buf put_hex m_buf m_mark]. rewrite app_length. cbn [length] in *. clear -HB. lia.
  - (* MMethod *) destruct (H FK0 ND) as (w & E & F). rewrite (slice_at _ _ _ w _ E eq_refl). left. eexists; split; [reflexivity|].
    split; [exact (conj A1 (conj A2 (conj (conj M1 (conj M2 (conj M3 (conj M4 (conj F (conj M6 (conj M7 M8))))))) A47)))|]. keep H.
    destruct (H FMk1 Hx) as (w' & E' & N'). cbn in E, E'. rewrite E in E'. apply app_inv_tail in E'. subst w'. exact N'.
  - (* MMajor *) left. eexists; split; [reflexivity|]. split; [exact AL|]. keep H.
  - left. eexists; split; [reflexivity|]. split; [exact AL|]. keep H.
  - (* MRequest *) destruct (H FMk ND) as (w & E). rewrite (slice_at _ _ _ w _ E eq_refl). unfold call_uri. destruct (parse_uri w) as [u|e|] eqn:P.
    + left. eexists; split; [reflexivity|]. split.
      * refine (conj A1 (conj A2 (conj (conj M1 (conj M2 (conj M3 (conj M4 (conj M5 (conj M6 (conj M7 _))))))) A47))). cbn. intros u' [= <-]. exists w. exact P.
      * keep H. exists u. reflexivity.
    + right. eauto.
    + destruct (parse_total w) as [(u & Q)|(e & Q)]; congruence.
  - (* MStatus *) left. eexists; split; [reflexivity|]. split; [exact AL|]. keep H; apply andb_prop in Hx; destruct Hx as [H1 H2].
    + pose proof (H FS0 H1) as Z0. cbn in Z0. specialize (AC (status (m_msg s))). rewrite Z0 in *. specialize (AC ltac:(clear; lia) H2). exact AC.
    + pose proof (H FS1 H1) as Z0. cbn in Z0. specialize (AC (status (m_msg s)) ltac:(clear -Z0; lia) H2). cbn. clear -AC Z0. lia.
    + pose proof (H FS2 H1) as Z0. cbn in Z0. specialize (AC (status (m_msg s)) ltac:(clear -Z0; lia) H2). cbn. clear -AC Z0. lia.
  - (* MPhrase *) left. eexists; split; [reflexivity|]. split; [exact AL|]. keep H.
  - (* MViaNew *) left. eexists; split; [reflexivity|]. split.
    + refine (conj A1 (conj A2 (conj A3 (conj _ (conj A5 (conj A6 A7)))))). cbn. intros v [= <-]. repeat split; try constructor; cbn; clear; lia.
    + keep H. eexists. reflexivity.
  - (* MVia *) rewrite !andb_true_iff in ND. destruct ND as [[[N1 N2] N3] N4]. destruct (H FVP N1) as (v & E & V1). destruct (H FVV N2) as (v2 & E2 & V2). destruct (H FVT N3) as (v3 & E3 & V3). destruct (H FVH N4) as (v4 & E4 & V4).
    cbn in E, E2, E3, E4. assert (v2 = v) by congruence. assert (v3 = v) by congruence. assert (v4 = v) by congruence. subst v2 v3 v4.
    unfold on_via. rewrite E. left. eexists; split; [reflexivity|]. split.
    + refine (conj A1 (conj A2 (conj (conj _ (conj M2 (conj M3 (conj M4 (conj M5 (conj M6 (conj M7 M8))))))) (conj _ (conj A5 (conj A6 A7)))))); cbn; [|discriminate].
      apply Forall_app. split; [assumption|]. constructor; [|constructor]. exact (conj V1 (conj V2 (conj V3 (conj V4 (A4 v E))))).
    + keep H.
  - (* MViaProtocol *) apply andb_prop in ND. destruct ND as [N1 N2]. destruct (H FVia N1) as (v & E0). destruct (H FK0 N2) as (w & E & F). rewrite (slice_at _ _ _ w _ E eq_refl). cbn in E0.
    unfold on_via. rewrite E0. left. eexists; split; [reflexivity|]. destruct (A4 v E0) as (V1 & V2 & V3 & V4 & V5). split.
    + refine (conj A1 (conj A2 (conj A3 (conj _ (conj A5 (conj A6 A7)))))). cbn. intros v' [= <-]. exact (conj F (conj V2 (conj V3 (conj V4 V5)))).
    + vkeep H E0 w E.
  - apply andb_prop in ND. destruct ND as [N1 N2]. destruct (H FVia N1) as (v & E0). destruct (H FK0 N2) as (w & E & F). rewrite (slice_at _ _ _ w _ E eq_refl). cbn in E0.
    unfold on_via. rewrite E0. left. eexists; split; [reflexivity|]. destruct (A4 v E0) as (V1 & V2 & V3 & V4 & V5). split.
    + refine (conj A1 (conj A2 (conj A3 (conj _ (conj A5 (conj A6 A7)))))). cbn. intros v' [= <-]. exact (conj V1 (conj F (conj V3 (conj V4 V5)))).
    + vkeep H E0 w E.
  - apply andb_prop in ND. destruct ND as [N1 N2]. destruct (H FVia N1) as (v & E0). destruct (H FK0 N2) as (w & E & F). rewrite (slice_at _ _ _ w _ E eq_refl). cbn in E0.
    unfold on_via. rewrite E0. left. eexists; split; [reflexivity|]. destruct (A4 v E0) as (V1 & V2 & V3 & V4 & V5). split.
    + refine (conj A1 (conj A2 (conj A3 (conj _ (conj A5 (conj A6 A7)))))). cbn. intros v' [= <-]. exact (conj V1 (conj V2 (conj F (conj V4 V5)))).
    + vkeep H E0 w E.
  - apply andb_prop in ND. destruct ND as [N1 N2]. destruct (H FVia N1) as (v & E0). destruct (H FK0 N2) as (w & E & F). rewrite (slice_at _ _ _ w _ E eq_refl). cbn in E0.
    unfold on_via. rewrite E0. left. eexists; split; [reflexivity|]. destruct (A4 v E0) as (V1 & V2 & V3 & V4 & V5). split.
    + refine (conj A1 (conj A2 (conj A3 (conj _ (conj A5 (conj A6 A7)))))). cbn. intros v' [= <-]. exact (conj V1 (conj V2 (conj V3 (conj F V5)))).
    + vkeep H E0 w E.
  - (* MViaPort *) destruct (H FVia ND) as (v & E0). cbn in E0. unfold on_via. rewrite E0. left. eexists; split; [reflexivity|]. destruct (A4 v E0) as (V1 & V2 & V3 & V4 & V5 & V6). split.
    + refine (conj A1 (conj A2 (conj A3 (conj _ (conj A5 (conj A6 A7)))))). cbn. intros v' [= <-].
      refine (conj V1 (conj V2 (conj V3 (conj V4 (conj V5 _))))). cbn [v_port]. unfold u16. clear. apply Z.mod_pos_bound. lia.
    + vkeep H E0 (@nil byte) E0.
  - (* MViaParam *) apply andb_prop in ND. destruct ND as [N1 N2]. destruct (H FVia N1) as (v & E0). cbn in E0. unfold on_via. rewrite E0. left. eexists; split; [reflexivity|]. destruct (A4 v E0) as (V1 & V2 & V3 & V4 & V5 & V6). split.
    + refine (conj A1 (conj A2 (conj A3 (conj _ (conj A5 (conj A6 A7)))))). cbn. intros v' [= <-].
      refine (conj V1 (conj V2 (conj V3 (conj V4 (conj _ V6))))). cbn [v_param]. constructor; [|exact V5]. exact (conj A7 (H FB0 N2)).
    + vkeep H E0 (@nil byte) E0.
  - (* MName *) destruct (H FK0 ND) as (w & E & F). rewrite (slice_at _ _ _ w _ E eq_refl). left. eexists; split; [reflexivity|].
    split; [exact (conj A1 (conj A2 (conj A3 (conj A4 (conj A5 (conj A6 F))))))|]. keep H.
  - (* MValue *) destruct (H FK1 ND) as (w & E & F). rewrite (slice_at1 _ _ w _ _ E). left. destruct (m_val s) as [g|]; (eexists; split; [reflexivity|]; split; [|keep H]).
    + refine (conj A1 (conj A2 (conj (conj M1 (conj M2 (conj _ (conj M4 (conj M5 (conj M6 (conj M7 M8))))))) A47))). cbn. intros h. destruct (sfield_eqb g h); [exact F|apply M3].
    + refine (conj A1 (conj A2 (conj (conj M1 (conj M2 (conj M3 (conj _ (conj M5 (conj M6 (conj M7 M8))))))) A47))). cbn. constructor; [|exact M4]. exact (conj A7 F).
  - (* MAddrNew *) left. eexists; split; [reflexivity|]. split.
    + refine (conj A1 (conj A2 (conj A3 (conj A4 (conj _ (conj A6 A7)))))). cbn. intros v [= <-]. split; [reflexivity|]. split; [constructor|discriminate].
    + keep H. eexists. reflexivity.
  - (* MDisplayQ *) apply andb_prop in ND. destruct ND as [N1 N2]. destruct (H FAddr N1) as (v & E0). cbn in E0. unfold on_addr. rewrite E0. left. eexists; split; [reflexivity|]. destruct (A5 v E0) as (V1 & V2 & V3). split.
    + refine (conj A1 (conj A2 (conj A3 (conj A4 (conj _ (conj A6 A7)))))). cbn. intros v' [= <-]. exact (conj (H FB0 N2) (conj V2 V3)).
    + akeep H E0.
  - (* MDisplayU *) apply andb_prop in ND. destruct ND as [N1 N2]. destruct (H FAddr N1) as (v & E0). cbn in E0. destruct (H FK0 N2) as (w & E & F). rewrite (slice_at _ _ _ w _ E eq_refl).
    unfold on_addr. rewrite E0. left. eexists; split; [reflexivity|]. destruct (A5 v E0) as (V1 & V2 & V3). split.
    + refine (conj A1 (conj A2 (conj A3 (conj A4 (conj _ (conj A6 A7)))))). cbn. intros v' [= <-]. exact (conj (trim_end_folded w F) (conj V2 V3)).
    + akeep H E0.
  - (* MAddrUri *) apply andb_prop in ND. destruct ND as [N1 N2]. destruct (H FAddr N1) as (v & E0). cbn in E0. destruct (H FMk N2) as (w & E). rewrite (slice_at _ _ _ w _ E eq_refl).
    unfold call_uri. destruct (parse_uri w) as [u|e|] eqn:P; [|right; eauto|destruct (parse_total w) as [(u & Q)|(e & Q)]; congruence].
    unfold on_addr. rewrite E0. left. eexists; split; [reflexivity|]. destruct (A5 v E0) as (V1 & V2 & V3). split.
    + refine (conj A1 (conj A2 (conj A3 (conj A4 (conj _ (conj A6 A7)))))). cbn. intros v' [= <-]. refine (conj V1 (conj V2 _)). cbn. intros u' [= <-]. exists w. exact P.
    + keep H; eexists; (split; [reflexivity|discriminate]) || reflexivity.
  - (* MAddrParam *) apply andb_prop in ND. destruct ND as [N1 N2]. destruct (H FAddr N1) as (v & E0). cbn in E0. unfold on_addr. rewrite E0. left. eexists; split; [reflexivity|]. destruct (A5 v E0) as (V1 & V2 & V3). split.
    + refine (conj A1 (conj A2 (conj A3 (conj A4 (conj _ (conj A6 A7)))))). cbn. intros v' [= <-]. refine (conj V1 (conj _ V3)). cbn. constructor; [|exact V2]. exact (conj A7 (H FB0 N2)).
    + akeep H E0.
  - (* MAddr *) apply andb_prop in ND. destruct ND as [N1 N2]. destruct (H FAUri N1) as (v & E0 & N0). destruct (H FAddrp N2) as (g & E1). cbn in E0, E1. unfold on_addr. rewrite E0, E1.
    left. eexists; split; [reflexivity|]. split.
    + refine (conj A1 (conj A2 (conj (conj M1 (conj _ (conj M3 (conj M4 (conj M5 (conj M6 (conj M7 M8))))))) (conj A4 (conj _ (conj A6 A7)))))); cbn; [|discriminate].
      intros h. destruct (afield_eqb g h); [|apply M2]. apply Forall_app. split; [apply M2|]. constructor; [|constructor]. exact (conj N0 (A5 v E0)).
    + keep H.
  - (* MCallID *) destruct (H FK0 ND) as (w & E & F). rewrite (slice_at _ _ _ w _ E eq_refl). left. eexists; split; [reflexivity|].
    split; [exact (conj A1 (conj A2 (conj (conj M1 (conj M2 (conj M3 (conj M4 (conj M5 (conj F (conj M7 M8))))))) A47)))|]. keep H.
  - left. eexists; split; [reflexivity|]. split; [exact AL|]. keep H.
  - (* MCtype *) destruct (H FK0 ND) as (w & E & F). rewrite (slice_at _ _ _ w _ E eq_refl). left. eexists; split; [reflexivity|].
    split; [exact (conj A1 (conj A2 (conj A3 (conj A4 (conj A5 (conj F A7))))))|]. keep H.
  - left. eexists; split; [reflexivity|]. split; [exact AL|]. keep H.
  - (* MCSeqMethod *) destruct (H FK0 ND) as (w & E & F). rewrite (slice_at _ _ _ w _ E eq_refl). left. eexists; split; [reflexivity|].
    split; [exact (conj A1 (conj A2 (conj (conj M1 (conj M2 (conj M3 (conj M4 (conj M5 (conj M6 (conj F M8))))))) A47)))|]. keep H.
  - left. eexists; split; [reflexivity|]. split; [exact AL|]. keep H.
  - left. eexists; split; [reflexivity|]. split; [exact AL|]. keep H.
  - left. eexists; split; [reflexivity|]. split; [exact AL|]. keep H.
  - left. eexists; split; [reflexivity|]. split; [exact AL|]. keep H.
  - left. eexists; split; [reflexivity|]. split; [exact AL|]. keep H.
  - left. eexists; split; [reflexivity|]. split; [exact AL|]. keep H.
  - left. eexists; split; [reflexivity|]. split; [exact AL|]. keep H.
  - left. eexists; split; [reflexivity|]. split; [exact AL|]. keep H.
  - left. eexists; split; [reflexivity|]. split; [exact AL|]. keep H. eexists; reflexivity.
  - left. eexists; split; [reflexivity|]. split; [exact AL|]. keep H.
Qed.

Lemma close_sound f rest s : holds f rest s -> holds (build (close f)) rest s.
Proof.
  intros H x Hx. rewrite build_has in Hx. destruct x; cbn [close] in Hx; try exact (H _ Hx).
  apply orb_prop in Hx. destruct Hx as [Hx|Hx]; [apply orb_prop in Hx; destruct Hx as [Hx|Hx]|].
  - exact (H FGood Hx).
  - rewrite !andb_true_iff in Hx. destruct Hx as [[H1 H2] H3]. left. exact (conj (H FMeth H1) (conj (H FReq H2) (H FS0 H3))).
  - apply andb_prop in Hx. destruct Hx as [H1 H2]. destruct (H FNoReq H1) as [E1 E2]. right. exact (conj E1 (conj E2 (H FS3 H2))).
Qed.
Lemma acts_sound o k c r n : forall f f' s,
  msg_look (c :: r) = Some n -> N.testbit k n = true -> (length (c :: r) <= L)%nat -> always (c :: r) s -> holds f (c :: r) s -> xfer o k f = Some f' ->
  (exists s', acts (msg_act D) o (c :: r) s = inl s' /\ always (c :: r) s' /\ holds f' (c :: r) s') \/ (exists e, acts (msg_act D) o (c :: r) s = inr (MReturn e)).
Proof.
  induction o as [|a o IH]; intros f f' s LK T LL AL H X; cbn [acts xfer] in *.
  - injection X as <-. left. exists s. split; [reflexivity|]. split; [exact AL|]. apply close_sound. exact H.
  - destruct (needs a f) eqn:ND; [|discriminate]. destruct (act_sound a k f c r n s LK T LL AL H ND) as [(s1 & -> & AL1 & H1)|(e & ->)]; [|right; eauto].
    exact (IH _ _ s1 LK T LL AL1 H1 X).
Qed.
Lemma adv_sound k f c r n s : msg_look (c :: r) = Some n -> N.testbit k n = true -> (length (c :: r) <= L)%nat -> holds f (c :: r) s -> holds (build (adv k f)) r s.
Proof.
  intros LK T LL H x Hx. rewrite build_has in Hx. destruct x; cbn [adv] in Hx; try exact (H _ Hx).
  - destruct (H FMk Hx) as (w & E). exists (w ++ [c]). rewrite <- app_assoc. exact E.
  - destruct (H FMk Hx) as (w & E). exists (w ++ [c]). rewrite <- app_assoc. split; [exact E|]. destruct w; discriminate.
  - apply orb_prop in Hx. destruct Hx as [Hx|Hx]; apply andb_prop in Hx; destruct Hx as [H1 H2].
    + destruct (H FK0 H1) as (w & E & F). exists (w ++ [c]). rewrite <- app_assoc. split; [exact E|]. apply folded_app; [exact F|].
      apply folded_plain. cbn. rewrite (sym_plain _ _ _ _ LK T H2). reflexivity.
    + destruct (H FK2 H1) as (w & E & F). exists (w ++ [CR; LF; c]). rewrite <- app_assoc. split; [exact E|]. apply folded_cont; [exact F|]. exact (sym_wsp _ _ _ _ LK T H2).
  - apply andb_prop in Hx. destruct Hx as [H1 H2]. destruct (H FK0 H1) as (w & E & F). exists w. rewrite (sym_cr _ _ _ _ LK T H2) in E. split; assumption.
  - apply andb_prop in Hx. destruct Hx as [H1 H2]. destruct (H FK1 H1) as (w & E & F). exists w. rewrite (sym_lf _ _ _ _ LK T H2) in E. split; assumption.
  - pose proof (H FBR1 Hx) as B. cbn in *. lia.
  - pose proof (H FBR1 Hx) as B. cbn in *. lia.
  - cbn in *. lia.
Qed.
Lemma sub_sound f f' rest s : within f f' = true -> holds f' rest s -> holds f rest s.
Proof. intros W H x Hx. apply H. unfold has in *. exact (within_spec _ _ _ W Hx). Qed.
Lemma always_adv c r s : always (c :: r) s -> always r s.
Proof. intros (A1 & A2). refine (conj _ A2). cbn in A1. lia. Qed.
End Facts.

Lemma rebase_sound D L L' f rest s : holds D L f rest s -> holds D L' (build (rebase f)) rest s.
Proof. intros H x Hx. rewrite build_has in Hx. destruct x; cbn [rebase] in Hx; try discriminate; exact (H _ Hx). Qed.
Lemma back_sound D L L' f rest s : holds D L f rest s -> holds D L' (build (back f)) (m_mark s) s.
Proof.
  intros H x Hx. rewrite build_has in Hx. destruct x; cbn [back] in Hx; try discriminate; try exact (H _ Hx).
  - exists []. reflexivity.
  - exists []. auto.
  - pose proof (H FBM Hx) as B. cbn in *. lia.
Qed.

(** ** The checker *)
Definition between (a b n : positive) : bool := (a <=? n)%positive && (n <=? b)%positive.
(** the machine a state belongs to: the states of a machine have consecutive numbers *)
Definition home (n : positive) : positive :=
  if (n <? 34)%positive then 1 else if (n <? 68)%positive then 34 else if (n <? 103)%positive then 68 else if (n <? 153)%positive then 103
  else if (n <? 188)%positive then 153 else if (n <? 229)%positive then 188 else if (n <? 256)%positive then 229 else if (n <? 263)%positive then 256
  else if (n <? 273)%positive then 263 else if (n <? 280)%positive then 273 else if (n =? 280)%positive then 280 else if (n =? 764)%positive then 280 else 281.
(** machines which may be left without having read anything *)
Definition rank (n : positive) : nat := match n with 280%positive => 3 | 281%positive => 2 | 273%positive => 1 | 256%positive => 1 | _ => 0 end%nat.
Definition fmap := PositiveMap.t N.
Definition inv_at (i : fmap) (n : positive) (f : N) : bool := match PositiveMap.find n i with Some g => within g f | None => false end.
Definition ok_entry (i : fmap) (n : positive) (f : N) (e : ranges * list mact * next mjump) : bool :=
  let '(k, o, nx) := e in
  let m := mask k in
  match xfer o m f with
  | None => false
  | Some f' =>
    match nx with
    | Adv n' => Pos.eqb (home n') (home n) && inv_at i n' (build (adv m f'))
    | Jump (Go n') => Pos.eqb (home n') n' && inv_at i n' (build (rebase (build (adv m f'))))
    | Jump (Hold n') => Pos.eqb (home n') n' && inv_at i n' (build (rebase f')) && (has f' FPr || Nat.ltb (rank n') (rank (home n)))
    | Jump (Back n') => Pos.eqb (home n') n' && inv_at i n' (build (back f')) && has f' FML && Nat.ltb (rank n') (rank (home n))
    | Jump Done => has f' FGood
    end
  end.
Definition ok_state (i : fmap) (x : positive * N) : bool :=
  (fst x <? msg_first_final)%positive && forallb (ok_entry i (fst x) (snd x)) (msg_row (fst x)).
Definition ok_facts (i : fmap) : bool := forallb (ok_state i) (PositiveMap.elements i).

(** ** Finding the facts: start with every fact everywhere and remove what a transition does not support *)
Definition flow (f : N) (e : ranges * list mact * next mjump) : list (positive * N) :=
  let '(k, o, nx) := e in
  let m := mask k in
  match xfer o m f with
  | None => []
  | Some f' =>
    match nx with
    | Adv n' => [(n', build (adv m f'))]
    | Jump (Go n') => [(n', build (rebase (build (adv m f'))))]
    | Jump (Hold n') => [(n', build (rebase f'))]
    | Jump (Back n') => [(n', build (back f'))]
    | Jump Done => []
    end
  end.
Fixpoint solve (fuel : nat) (todo : list (positive * N)) (i : fmap) : fmap :=
  match fuel, todo with
  | S fuel', (n, f) :: todo' =>
    let old := PositiveMap.find n i in
    let g := match old with Some g => N.land g f | None => f end in
    if match old with Some g0 => N.eqb g0 g | None => false end then solve fuel' todo' i
    else solve fuel' (flat_map (flow g) (msg_row n) ++ todo') (PositiveMap.add n g i)
  | _, _ => i
  end.
Definition start_facts : N := build (fun x => match x with FMk | FK0 | FBR | FBR1 | FBM | FB0 | FNoReq | FS0 | FS1 | FS2 | FS3 | FML => true | _ => false end).
Definition msg_facts : fmap := Eval vm_compute in solve (200 * 1000) [(msg_en_main, start_facts)] (PositiveMap.empty N).
Lemma msg_facts_ok : ok_facts msg_facts = true.
Proof. vm_compute. reflexivity. Qed.

(** ** Runs *)
Lemma find_ok i n f : ok_facts i = true -> PositiveMap.find n i = Some f -> (n <? msg_first_final)%positive = true /\ forallb (ok_entry i n f) (msg_row n) = true.
Proof.
  intros O F. unfold ok_facts in O. rewrite forallb_forall in O. specialize (O (n, f) (PositiveMap.elements_correct _ _ F)).
  unfold ok_state in O. cbn [fst snd] in O. apply andb_prop in O. exact O.
Qed.
Definition find_facts n f := find_ok msg_facts n f msg_facts_ok.
Lemma find_row_in {A J} (r : row A J) c o nx : find_row r c = Some (o, nx) -> exists k, In (k, o, nx) r /\ in_ranges k c = true.
Proof.
  induction r as [|[[k o1] n1] r IH]; cbn [find_row]; [discriminate|]. destruct (in_ranges k c) eqn:K.
  - intros [= -> ->]. exists k. cbn. auto.
  - intros H. destruct (IH H) as (k' & I & K'). exists k'. cbn. auto.
Qed.
Definition at_state (D L : nat) (n : positive) (rest : bytes) (s : mst) : Prop :=
  always D rest s /\ exists f, PositiveMap.find n msg_facts = Some f /\ holds D L f rest s.
(** what a run of a machine entered with [L] bytes left ends in *)
Definition run_ok (D L : nat) (e : positive) (o : outcome mjump mst merr) : Prop :=
  match o with
  | OEof m _ => (m <? msg_first_final)%positive = true
  | OBad _ r _ => r <> [] /\ (length r <= D)%nat
  | OErr MPanic => False
  | OErr (MReturn _) => True
  | OExit Done r s => r <> [] /\ always D r s /\ good_start (m_msg s)
  | OExit (Go n) r s => r <> [] /\ (length r <= L)%nat /\ home n = n /\ forall L', at_state D L' n (tl r) s
  | OExit (Hold n) r s => home n = n /\ ((length r < L)%nat \/ (length r <= L)%nat /\ (rank n < rank e)%nat) /\ forall L', at_state D L' n r s
  | OExit (Back n) r s => home n = n /\ (length (m_mark s) <= L)%nat /\ (rank n < rank e)%nat /\ forall L', at_state D L' n (m_mark s) s
  end.
Lemma inv_at_find i n f : inv_at i n f = true -> exists g, PositiveMap.find n i = Some g /\ within g f = true.
Proof. unfold inv_at. destruct (PositiveMap.find n i) as [g|]; [eauto|discriminate]. Qed.

Lemma run_sound D L rest : forall s n e, (length rest <= L)%nat -> home n = e -> at_state D L n rest s ->
  run_ok D L e (run (msg_act D) msg_look msg_row rest s n).
Proof.
  induction rest as [|c rest IH]; intros s n e LL HM (AL & f & F & H); destruct (find_facts n f F) as [FF OK]; cbn [run].
  - exact FF.
  - destruct (msg_look (c :: rest)) as [k|] eqn:LK; [|discriminate]. destruct (find_row (msg_row n) k) as [[o nx]|] eqn:FR.
    + apply find_row_in in FR. destruct FR as (ks & I & K). rewrite forallb_forall in OK. specialize (OK _ I). unfold ok_entry in OK.
      rewrite <- mask_spec in K. destruct (xfer o (mask ks) f) as [f'|] eqn:X; [|discriminate].
      destruct (acts_sound D L o (mask ks) c rest k f f' s LK K LL AL H X) as [(s' & -> & AL' & H')|(er & ->)]; [|exact Logic.I].
      destruct nx as [n'|[n'|n'|n'|]].
      * apply andb_prop in OK. destruct OK as [O1 O2]. apply Pos.eqb_eq in O1. apply inv_at_find in O2. destruct O2 as (g & G & W).
        apply IH; [cbn in LL; lia|congruence|]. split; [exact (always_adv _ _ _ _ AL')|]. exists g. split; [exact G|]. eapply sub_sound; [exact W|]. eapply adv_sound; eauto.
      * cbn [run_ok tl]. apply andb_prop in OK. destruct OK as [O1 O2]. apply Pos.eqb_eq in O1. apply inv_at_find in O2. destruct O2 as (g & G & W).
        split; [discriminate|]. split; [exact LL|]. split; [exact O1|]. intros L'. split; [exact (always_adv _ _ _ _ AL')|]. exists g. split; [exact G|]. eapply sub_sound; [exact W|].
        eapply rebase_sound. eapply adv_sound; eauto.
      * cbn [run_ok]. apply andb_prop in OK. destruct OK as [OK O3]. apply andb_prop in OK. destruct OK as [O1 O2]. apply Pos.eqb_eq in O1. apply inv_at_find in O2. destruct O2 as (g & G & W).
        split; [exact O1|]. split.
        -- apply orb_prop in O3. destruct O3 as [O3|O3]; [left; exact (H' FPr O3)|right]. apply Nat.ltb_lt in O3. rewrite HM in O3. auto.
        -- intros L'. split; [exact AL'|]. exists g. split; [exact G|]. eapply sub_sound; [exact W|]. eapply rebase_sound. exact H'.
      * cbn [run_ok]. apply andb_prop in OK. destruct OK as [OK O4]. apply andb_prop in OK. destruct OK as [OK O3]. apply andb_prop in OK. destruct OK as [O1 O2]. apply Pos.eqb_eq in O1. apply inv_at_find in O2. destruct O2 as (g & G & W).
        split; [exact O1|]. split; [exact (H' FML O3)|]. split; [apply Nat.ltb_lt in O4; rewrite HM in O4; exact O4|].
        intros L'. split; [destruct AL' as (A1 & A2 & A3); exact (conj A2 (conj A2 A3))|]. exists g. split; [exact G|]. eapply sub_sound; [exact W|]. eapply back_sound. exact H'.
      * cbn [run_ok]. split; [discriminate|]. split; [exact AL'|]. exact (H' FGood OK).
    + cbn [run_ok]. split; [discriminate|]. apply AL.
Qed.

(** ** The whole parse *)
Lemma drive_sound D fuel : forall rest s n, home n = n -> at_state D (length rest) n rest s -> (4 * length rest + rank n < fuel)%nat ->
  match msg_drive D fuel rest s n with
  | MOk m => exists rest' s', (length rest' < D)%nat /\ always D rest' s' /\ good_start (m_msg s') /\ msg_finish rest' s' = MOk m
  | MErr _ => True
  | MPanics => False
  | MFuel => False
  end.
Proof.
  induction fuel as [|fuel IH]; intros rest s n HM AT FU; [lia|]. cbn [msg_drive].
  pose proof (run_sound D (length rest) rest s n n (le_n _) HM AT) as R.
  assert (RK : forall m, (rank m <= 3)%nat) by (intros m; unfold rank; repeat (destruct m as [m|m|]; try lia)).
  destruct (run (msg_act D) msg_look msg_row rest s n) as [m s'|m r s'|[m|m|m|] r s'|[|e]]; cbn [run_ok] in R; auto.
  - rewrite R. auto.
  - destruct R as (N & LL & H1 & H2). apply IH; auto. pose proof (RK m). destruct r; [congruence|]. cbn [length tl] in *. lia.
  - destruct R as (H1 & H2 & H3). apply IH; auto. pose proof (RK m). lia.
  - destruct R as (H1 & H2 & H3 & H4). apply IH; auto. lia.
  - destruct R as (N & AL & G). destruct r as [|c r]; [congruence|]. cbn [tl].
    assert (AL' : always D r s') by (exact (always_adv _ _ _ _ AL)). destruct (msg_finish r s') as [m|e| |] eqn:E; auto.
    + exists r, s'. split; [destruct AL as [A1 _]; cbn in A1; lia|]. auto.
    + unfold msg_finish in E. destruct (0 <? m_clen s'); [|discriminate]. destruct (negb _); [discriminate|]. destruct (bseq _ _); [|discriminate].
      destruct (sdp_parse r) as [[p|e]|] eqn:P; try discriminate. exact (P_Sdp.sdp_parse_total _ P).
    + unfold msg_finish in E. destruct (0 <? m_clen s'); [|discriminate]. destruct (negb _); [discriminate|]. destruct (bseq _ _); [|discriminate].
      destruct (sdp_parse r) as [[p|e]|] eqn:P; discriminate.
Qed.
Lemma start_at data L : (length data <= L)%nat -> at_state (length data) L msg_en_main data (mst0 data).
Proof.
  intros LL. split.
  - repeat split; cbn; auto; try constructor; discriminate.
  - eexists. split; [vm_compute; reflexivity|]. apply (sub_sound _ _ _ start_facts); [vm_compute; reflexivity|].
    intros x Hx. unfold start_facts in Hx. rewrite build_has in Hx. destruct x; try discriminate; cbn; try lia; auto; exists []; auto.
Qed.
Theorem parse_msg_sound data :
  match parse_msg data with
  | MOk m => exists rest s, (length rest < length data)%nat /\ always (length data) rest s /\ good_start (m_msg s) /\ msg_finish rest s = MOk m
  | MErr _ => True
  | MPanics => False
  | MFuel => False
  end.
Proof.
  unfold parse_msg. apply drive_sound; [reflexivity| |].
  - apply start_at. lia.
  - change (rank msg_en_main) with 0%nat. unfold msg_fuel. lia.
Qed.
