(** Address headers: what the machines addr, addr_angled, addr_uri and addr_param read and store. *)
From Verif Require Import Bytes BytesLemmas GoLib GoLibLemmas Auto AutoRe SdpModel SipText SipTypes UriTable UriModel UriProofs MsgTable MsgModel MsgSafe P_Text UriSpec UriMeaning P_Uri MsgSpec MsgGrammar MsgReach MsgBlocks MsgVia.
Local Open Scope Z_scope.
Local Notation "a ;; b" := (Seq a b) (at level 61, right associativity).

(** ** The bytes of a URI text *)
Definition uric_class (c : byte) : bool := unreserved c || one_of (B ";/?:@&=+$,[]%") c.
Definition uric1_class (c : byte) : bool := unreserved c || one_of (B "/?:@&=+$[]%") c.
Lemma kc_uric : forall c, kc k_uric c = uric_class c. Proof. classes. Qed.
Lemma kc_uric1 : forall c, kc k_uric1 c = uric1_class c. Proof. classes. Qed.
Lemma kc_alph : forall c, kc k_alph c = alpha_class c. Proof. classes. Qed.
Lemma kc_schm : forall c, kc k_schm c = scheme_class c. Proof. classes. Qed.
Definition plainc (c : byte) : bool := negb (beq c "," || beq c ";").
Lemma uric1_spec c : uric1_class c = uric_class c && plainc c.
Proof. assert (K : Bool.eqb (uric1_class c) (uric_class c && plainc c) = true) by (revert c; by_bytes). apply eqb_prop in K. exact K. Qed.
Lemma class_sub (f g : byte -> bool) w : (forall c, implb (f c) (g c) = true) -> forallb f w = true -> forallb g w = true.
Proof. intros I. rewrite !forallb_forall. intros H c C. specialize (I c). rewrite (H c C) in I. exact I. Qed.
Lemma legal_sub cls g w : (forall c, implb (cls c) (g c) = true) -> g "%"%byte = true -> (forall c, implb (hex_class c) (g c) = true) -> legal_text cls w = true -> forallb g w = true.
Proof.
  intros I P H. assert (K : forall n w, (length w <= n)%nat -> legal_text cls w = true -> forallb g w = true).
  { clear w. induction n as [|n IH]; intros [|c w] L E; try reflexivity; [cbn in L; lia|]. cbn [legal_text] in E. cbn [forallb]. destruct (beq_reflect c "%") as [->|N].
    - rewrite P. destruct w as [|h [|l w]]; try discriminate. apply andb_prop in E. destruct E as [E E3]. apply andb_prop in E. destruct E as [E1 E2].
      cbn [forallb]. pose proof (H h) as H1. pose proof (H l) as H2. rewrite E1 in H1. rewrite E2 in H2. cbn in H1, H2. rewrite H1, H2. cbn in L. rewrite IH; [reflexivity|lia|assumption].
    - apply andb_prop in E. destruct E as [E1 E2]. pose proof (I c) as I1. rewrite E1 in I1. cbn in I1. rewrite I1. cbn in L. rewrite IH; [reflexivity|lia|assumption]. }
  exact (K _ w (le_n _)).
Qed.
Lemma slot_sub cls g v w : (forall c, implb (cls c) (g c) = true) -> g "%"%byte = true -> (forall c, implb (hex_class c) (g c) = true) -> slot cls v w -> forallb g w = true.
Proof. intros I P H [L _]. exact (legal_sub cls g w I P H L). Qed.

(** the last byte is neither "," nor ";" *)
Definition ends_plain (w : bytes) : Prop := w = [] \/ exists a c, w = a ++ [c] /\ plainc c = true.
Lemma ep_app a b : ends_plain a -> ends_plain b -> ends_plain (a ++ b).
Proof. intros A [->|(x & c & -> & P)]; [rewrite app_nil_r; exact A|]. right. exists (a ++ x), c. rewrite app_assoc. auto. Qed.
Lemma ep_all w : forallb plainc w = true -> ends_plain w.
Proof.
  intros H. destruct w as [|c w] using rev_ind; [left; reflexivity|]. right. exists w, c. split; [reflexivity|]. rewrite forallb_app in H. apply andb_prop in H. destruct H as [_ H].
  cbn in H. rewrite andb_true_r in H. exact H.
Qed.
Lemma ep_pre c w : w <> [] -> ends_plain w -> ends_plain (c ++ w).
Proof. intros N [->|(x & d & -> & P)]; [congruence|]. right. exists (c ++ x), d. rewrite app_assoc. auto. Qed.
Lemma item_chars cls p t : (forall c, implb (cls c) (uric_class c) = true) -> (forall c, implb (cls c) (plainc c) = true) -> item_text cls p t ->
  forallb uric_class t = true /\ forallb plainc t = true /\ t <> [].
Proof.
  intros I1 I2 (tn & tv & -> & N & S & V).
  assert (H1 : forall c, implb (hex_class c) (uric_class c) = true) by by_bytes. assert (H2 : forall c, implb (hex_class c) (plainc c) = true) by by_bytes.
  assert (V1 : forallb uric_class tv = true /\ forallb plainc tv = true).
  { destruct V as [[-> _]|(x & -> & _ & Sx)]; [split; reflexivity|]. cbn [app forallb].
    split; [apply (slot_sub _ uric_class _ _ I1 eq_refl H1 Sx)|apply (slot_sub _ plainc _ _ I2 eq_refl H2 Sx)]. }
  destruct V1 as [V1 V2]. rewrite !forallb_app, V1, V2, (slot_sub _ uric_class _ _ I1 eq_refl H1 S), (slot_sub _ plainc _ _ I2 eq_refl H2 S).
  split; [reflexivity|]. split; [reflexivity|]. destruct tn; [congruence|discriminate].
Qed.
Lemma items_chars cls sp ps ts : (forall c, implb (cls c) (uric_class c) = true) -> (forall c, implb (cls c) (plainc c) = true) -> uric_class sp = true ->
  Forall2 (item_text cls) ps ts -> forallb uric_class (concat (map (fun x => [sp] ++ x) ts)) = true /\ ends_plain (concat (map (fun x => [sp] ++ x) ts)).
Proof.
  intros I1 I2 Hs F. induction F as [|p t ps ts H F [IH1 IH2]]; [split; [reflexivity|left; reflexivity]|]. destruct (item_chars cls p t I1 I2 H) as (C1 & C2 & C3).
  cbn [map concat]. rewrite forallb_app, IH1. split; [cbn; rewrite Hs, C1; reflexivity|]. apply ep_app; [|exact IH2]. apply ep_pre; [exact C3|]. apply ep_all. exact C2.
Qed.
Lemma uri_chars x u : uri_text x u -> exists c sch r, x = (c :: sch) ++ B ":" ++ r /\ alpha_class c = true /\ forallb scheme_class sch = true /\ r <> [] /\ forallb uric_class r = true /\ ends_plain x.
Proof.
  intros (sch & inf & hst & prt & par & hdr & -> & (c & s & -> & A & S & _) & UI & HT & PT & PR & HD).
  assert (H1 : forall c, implb (hex_class c) (uric_class c) = true) by by_bytes.
  assert (U1 : forallb uric_class inf = true).
  { destruct UI as [(-> & _)|(tu & tp & -> & _ & Su & P)]; [reflexivity|].
    rewrite !forallb_app. rewrite (slot_sub user_class uric_class _ _ ltac:(by_bytes) eq_refl H1 Su). destruct P as [[-> _]|(y & -> & _ & Sp)]; [reflexivity|].
    rewrite forallb_app, (slot_sub pass_class uric_class _ _ ltac:(by_bytes) eq_refl H1 Sp). reflexivity. }
  assert (U2 : forallb uric_class hst = true /\ forallb plainc hst = true /\ hst <> []).
  { destruct HT as (y & N & _ & [[-> F]|[-> F]]).
    - split; [apply (class_sub host_class); [by_bytes|exact F]|]. split; [apply (class_sub host_class); [by_bytes|exact F]|exact N].
    - rewrite !forallb_app. rewrite (class_sub ip6_class uric_class y), (class_sub ip6_class plainc y) by (assumption || by_bytes). split; [reflexivity|]. split; [reflexivity|discriminate]. }
  assert (U3 : forallb uric_class prt = true /\ forallb plainc prt = true).
  { destruct PT as [[-> _]|(d & n & -> & D & _)]; [split; reflexivity|]. apply digits_value_digits in D. rewrite !forallb_app.
    rewrite (class_sub is_digit uric_class d), (class_sub is_digit plainc d) by (assumption || by_bytes). split; reflexivity. }
  assert (U4 : forallb uric_class par = true /\ ends_plain par).
  { destruct PR as (ts & F & ->). apply (items_chars param_class ";" (rev (u_param u)) ts); [by_bytes|by_bytes|reflexivity|exact F]. }
  assert (U5 : forallb uric_class hdr = true /\ ends_plain hdr).
  { destruct HD as [[-> _]|(y & ts & F & ->)]; [split; [reflexivity|left; reflexivity]|]. inversion F as [|p t ps ts' F1 F2]; subst.
    destruct (item_chars header_class p y ltac:(by_bytes) ltac:(by_bytes) F1) as (C1 & C2 & C3).
    destruct (items_chars header_class "&" ps ts ltac:(by_bytes) ltac:(by_bytes) eq_refl F2) as (C4 & C5).
    split; [rewrite !forallb_app, C1; cbn [forallb]; exact C4|]. rewrite app_assoc. apply ep_app; [|exact C5]. apply ep_pre; [exact C3|apply ep_all; exact C2]. }
  destruct U2 as (U2 & U2' & N). destruct U3 as (U3 & U3'). destruct U4 as (U4 & U4'). destruct U5 as (U5 & U5').
  exists c, s, (inf ++ hst ++ prt ++ par ++ hdr). split; [reflexivity|]. split; [assumption|]. split; [assumption|]. split; [destruct inf; [destruct hst; [congruence|discriminate]|discriminate]|].
  rewrite !forallb_app, U1, U2, U3, U4, U5. split; [reflexivity|]. apply ep_pre; [discriminate|]. apply (ep_pre (B ":")); [destruct inf; [destruct hst; [congruence|discriminate]|discriminate]|].
  assert (E : ends_plain (hst ++ prt ++ par ++ hdr)) by (repeat apply ep_app; auto using ep_all).
  apply ep_pre; [destruct hst; [congruence|discriminate]|exact E].
Qed.
Lemma uri_not_ending x c u : c = ","%byte \/ c = ";"%byte -> ~ uri_text (x ++ [c]) u.
Proof.
  intros C H. destruct (uri_chars _ _ H) as (_ & _ & _ & _ & _ & _ & _ & _ & [E|(a & d & E & P)]); [destruct x; discriminate|].
  apply app_inj_tail in E. destruct E as [_ <-]. destruct C as [->| ->]; discriminate.
Qed.

(** ** What may follow the head of an address *)
Definition aadd (ps : list param) (a : addr) : addr := mkaddr (a_uri a) (a_display a) (ps ++ a_param a).
Lemma aadd_nil a : aadd [] a = a. Proof. destruct a; reflexivity. Qed.
Lemma aadd_aadd p q a : aadd p (aadd q a) = aadd (p ++ q) a. Proof. unfold aadd. cbn. rewrite app_assoc. reflexivity. Qed.
Definition more_addrs (bare : bool) (t : bytes) (l : list addr) : Prop := (t = [] /\ l = []) \/ exists e t', t = e ++ t' /\ addr_sep bare "," e /\ addr_list t' l.
Definition addr_rest (bare : bool) (t : bytes) (a : addr) (l : list addr) : Prop :=
  exists ps qs bare' t2 l', t = ps ++ t2 /\ addr_params bare ps qs bare' /\ more_addrs bare' t2 l' /\ l = aadd (rev qs) a :: l'.
Definition apar_rest (t : bytes) (a : addr) (l : list addr) : Prop := exists x p t', t = x ++ t' /\ param_text x p /\ addr_rest false t' (aadd [p] a) l.
Lemma ar_fin bare a : addr_rest bare [] a [a].
Proof. exists [], [], bare, [], []. split; [reflexivity|]. split; [left; auto|]. split; [left; auto|]. rewrite aadd_nil. reflexivity. Qed.
Lemma ar_comma bare e t a l : addr_sep bare "," e -> addr_list t l -> addr_rest bare (e ++ t) a (a :: l).
Proof. intros E H. exists [], [], bare, (e ++ t), l. split; [reflexivity|]. split; [left; auto|]. split; [right; eauto|]. rewrite aadd_nil. reflexivity. Qed.
Lemma ar_semi bare e t a l : addr_sep bare ";" e -> apar_rest t a l -> addr_rest bare (e ++ t) a l.
Proof.
  intros E (x & p & t' & -> & P & ps & qs & b' & t2 & l' & -> & AP & M & ->). destruct AP as [(-> & -> & ->)|(e2 & x2 & p2 & more & qs' & -> & -> & E2 & P2 & C & ->)].
  - exists (e ++ x), [p], false, t2, l'. rewrite <- !app_assoc. split; [reflexivity|]. split; [right; exists e, x, p, [], []; rewrite app_nil_r; split; [reflexivity|]; split; [reflexivity|]; split; [assumption|]; split; [assumption|]; split; [constructor|reflexivity]|].
    split; [assumption|]. rewrite aadd_aadd. reflexivity.
  - exists (e ++ x ++ (e2 ++ x2) ++ more), (p :: p2 :: qs'), false, t2, l'. rewrite <- !app_assoc. split; [reflexivity|]. split.
    + right. exists e, x, p, ((e2 ++ x2) ++ more), (p2 :: qs'). rewrite <- !app_assoc. split; [reflexivity|]. split; [reflexivity|]. split; [assumption|]. split; [assumption|].
      split; [rewrite app_assoc; constructor; [exists e2, x2; auto|assumption]|reflexivity].
    + split; [assumption|]. rewrite aadd_aadd. reflexivity.
Qed.
Lemma ar_cases bare t a l : addr_rest bare t a l -> (t = [] /\ l = [a]) \/ (exists e t', t = e ++ t' /\ addr_sep bare ";" e /\ apar_rest t' a l) \/
  (exists e t' l', t = e ++ t' /\ addr_sep bare "," e /\ addr_list t' l' /\ l = a :: l').
Proof.
  intros (ps & qs & b' & t2 & l' & -> & AP & M & ->). destruct AP as [(-> & -> & ->)|(e & x & p & more & qs' & -> & -> & E & P & C & ->)].
  - rewrite aadd_nil. destruct M as [[-> ->]|(e & t' & -> & E & A)]; [left; auto|right; right; exists e, t', l'; auto].
  - right. left. exists e, (x ++ more ++ t2). rewrite <- !app_assoc. split; [reflexivity|]. split; [assumption|]. exists x, p, (more ++ t2). split; [reflexivity|]. split; [assumption|].
    exists more, qs', false, t2, l'. split; [reflexivity|]. split.
    + destruct C as [|y p2 more qs2 (e2 & x2 & -> & E2 & P2) C]; [left; auto|]. right. exists e2, x2, p2, more, qs2. rewrite <- app_assoc. split; [reflexivity|]. split; [reflexivity|].
      split; [exact E2|]. auto.
    + split; [assumption|]. rewrite aadd_aadd. reflexivity.
Qed.
Definition a0 (u : uri) (d : bytes) : addr := mkaddr (Some u) d [].
Lemma addr_list_rest t l : addr_list t l <-> exists bare h u d t', t = h ++ t' /\ addr_head bare h u d /\ addr_rest bare t' (a0 u d) l.
Proof.
  split.
  - intros H. assert (K : exists t1 a b t2 l', t = t1 ++ t2 /\ l = a :: l' /\ addr_text t1 a b /\ more_addrs b t2 l').
    { destruct H as [t a b H|t a b e t' l H E A]; [exists t, a, b, [], []; rewrite app_nil_r|exists t, a, b, (e ++ t'), l]; (split; [reflexivity|]; split; [reflexivity|]; split; [assumption|]);
        [left; auto|right; eauto]. }
    clear H. destruct K as (t1 & a & b & t2 & l' & -> & -> & (bare & h & ps & u & -> & U & HD & AP) & M). exists bare, h, u, (a_display a), (ps ++ t2). rewrite <- app_assoc.
    split; [reflexivity|]. split; [assumption|]. exists ps, (rev (a_param a)), b, t2, l'. split; [reflexivity|]. split; [assumption|]. split; [assumption|].
    rewrite rev_involutive. destruct a. cbn in *. subst. unfold aadd, a0. cbn. rewrite app_nil_r. reflexivity.
  - intros (bare & h & u & d & t' & -> & HD & ps & qs & b' & t2 & l' & -> & AP & M & ->).
    assert (A : addr_text (h ++ ps) (aadd (rev qs) (a0 u d)) b').
    { exists bare, h, ps, u. cbn. rewrite app_nil_r, rev_involutive. auto. }
    destruct M as [[-> ->]|(e & t' & -> & E & L)]; [rewrite app_nil_r; econstructor; exact A|]. rewrite app_assoc. econstructor; eassumption.
Qed.
Definition addr_start (c : byte) : bool := token_class c || beq c DQ || beq c "<".
Definition at_addr (r : bytes) : Prop := exists c t, r = c :: t /\ addr_start c = true.
Lemma token_at x r : token x -> at_addr (x ++ r).
Proof. intros [N F]. destruct x as [|c x]; [congruence|]. exists c, (x ++ r). split; [reflexivity|]. cbn in F. apply andb_prop in F. unfold addr_start. destruct F as [-> _]. reflexivity. Qed.
Lemma words_at d r : words d -> at_addr (d ++ r).
Proof. intros [w T|w l t T L W]; [apply token_at; assumption|]. rewrite <- app_assoc. apply token_at. assumption. Qed.
Lemma bare_at x u r : bare_uri x u -> at_addr (x ++ r).
Proof.
  intros [U _]. destruct (uri_chars _ _ U) as (c & sch & y & -> & A & _). exists c. eexists. split; [reflexivity|]. unfold addr_start.
  assert (K : implb (alpha_class c) (token_class c) = true) by (clear; revert c; by_bytes). rewrite A in K. cbn in K. rewrite K. reflexivity.
Qed.
Lemma head_at bare h u d r : addr_head bare h u d -> at_addr (h ++ r).
Proof.
  destruct bare; cbn [addr_head]; [intros [H _]; eapply bare_at; exact H|]. intros (dt & x & w & -> & D & _). rewrite <- !app_assoc.
  destruct D as [[-> _]|[(q & w' & -> & _)|(l & -> & W & _)]]; [eexists _, _; split; [reflexivity|reflexivity]|eexists _, _; split; [reflexivity|reflexivity]|].
  rewrite <- app_assoc. apply words_at. exact W.
Qed.
Lemma list_at t l r : addr_list t l -> at_addr (t ++ r).
Proof. intros H. apply addr_list_rest in H. destruct H as (bare & h & u & d & t' & -> & HD & _). rewrite <- app_assoc. eapply head_at. exact HD. Qed.
Lemma apar_at t a l r : apar_rest t a l -> at_addr (t ++ r).
Proof. intros (x & p & t' & -> & (tv & -> & T & _) & _). rewrite <- !app_assoc. apply token_at. exact T. Qed.
Lemma at_stops b r : sws b -> at_addr r -> stops b r.
Proof.
  intros W (c & t & -> & A). apply (stops_at b [c] t W); [discriminate|]. cbn [forallb]. rewrite andb_true_r.
  assert (K : implb (addr_start c) (negb (blank c) && negb (beq c CR)) = true) by (clear; revert c; by_bytes). rewrite A in K. exact K.
Qed.
Lemma sws_app a b : sws a -> sws b -> lws a \/ a = [].
Proof. intros A _. destruct a; [right; reflexivity|left; split; [assumption|discriminate]]. Qed.

Section Cap.
Variable cap : nat.
Notation ms := (@sem mact mjump _ _ (msg_act cap) msg_look).
Notation run_acts := (acts (msg_act cap)).
Notation reach := (reach cap).
Notation after := (after cap).
Notation line_end := (line_end cap).
Notation leads_to := (leads_to cap).

Definition add_addrs (f : afield) (l : list addr) (d : draft) : draft := with_msg (fun m => fold_left (add_addr f) l m) d.
(** the ways an address can end: end of line, another address, a parameter *)
Definition goes (bare : bool) (pl : list mact) (r : bytes) (s1 : mst) (r' : bytes) (s' : mst) (y : option mjump) : Prop :=
  ms (eol (pl ++ [MAddr])) r s1 r' s' y \/
  exists e, (r = e ++ r' /\ addr_sep bare "," e /\ y = Some (Hold 256) /\ run_acts (pl ++ [MAddr]) r' s1 = inl s') \/
            (r = e ++ r' /\ addr_sep bare ";" e /\ y = Some (Hold 153) /\ run_acts pl r' s1 = inl s').
Definition addr_fwd (N : nat) : Prop := forall r f, (length r < N)%nat ->
  (forall s m, m_addrp s = Some f -> reach 256 r s m -> line_end (fun t d => exists l, addr_list t l /\ d = add_addrs f l (core s)) r m) /\
  (forall s a m, m_addrp s = Some f -> m_addr s = Some a -> reach 153 r s m -> line_end (fun t d => exists l, apar_rest t a l /\ d = add_addrs f l (core s)) r m).
Definition addr_bwd (N : nat) : Prop := forall t r2 f, (length t < N)%nat -> (length (t ++ CRLF ++ r2) <= cap)%nat -> starts_blank r2 = false ->
  (forall s l, m_addrp s = Some f -> addr_list t l -> leads_to (add_addrs f l (core s)) r2 (reach 256 (t ++ CRLF ++ r2) s)) /\
  (forall s a l, m_addrp s = Some f -> m_addr s = Some a -> apar_rest t a l -> leads_to (add_addrs f l (core s)) r2 (reach 153 (t ++ CRLF ++ r2) s)).
Lemma add_addrs_app f a l d : add_addrs f l (add_addrs f [a] d) = add_addrs f (a :: l) d.
Proof. reflexivity. Qed.
Lemma maddr_act r s a f : m_addr s = Some a -> m_addrp s = Some f -> exists s', run_acts [MAddr] r s = inl s' /\ core s' = add_addrs f [a] (core s) /\ m_addrp s' = Some f.
Proof. intros E F. cbn [acts msg_act]. unfold on_addr. rewrite E, F. eexists. split; [reflexivity|]. split; [reflexivity|exact F]. Qed.
Lemma sep_length c e bare : addr_sep bare c e -> (1 <= length e)%nat.
Proof. destruct bare; cbn [addr_sep]; [intros [->|(a & b & -> & _)]|intros (a & b & -> & _)]; rewrite ?app_length; cbn; lia. Qed.
Lemma addr_tail_fwd N bare pl r s1 s2 a f r' s' j m : addr_fwd N -> (length r <= N)%nat -> (forall x, run_acts pl x s1 = inl s2) -> m_addr s2 = Some a -> m_addrp s2 = Some f ->
  goes bare pl r s1 r' s' (Some j) -> after j r' s' m -> line_end (fun t d => exists l, addr_rest bare t a l /\ d = add_addrs f l (core s2)) r m.
Proof.
  intros IH L A V F [H|(e & [(-> & E & J & A2)|(-> & E & J & A2)])] K.
  - apply b_eol in H. destruct H as ([= ->] & r1 & -> & SB & -> & A2). rewrite acts_app, A in A2. destruct (maddr_act (LF :: r1) s2 a f V F) as (s3 & A3 & C & _).
    rewrite A3 in A2. injection A2 as <-. exists [], r1, s3. split; [reflexivity|]. split; [exists [a]; split; [apply ar_fin|exact C]|]. split; [assumption|exact K].
  - injection J as ->. rewrite acts_app, A in A2. destruct (maddr_act r' s2 a f V F) as (s3 & A3 & C & F3). rewrite A3 in A2. injection A2 as <-.
    unfold after in K. cbn [jump] in K. rewrite app_length in L. pose proof (sep_length _ _ _ E) as LE. destruct (IH r' f ltac:(lia)) as [G _].
    destruct (G s3 m F3 K) as (t & r2 & s4 & -> & (l & AL & D) & SB & R).
    exists (e ++ t), r2, s4. split; [rewrite <- !app_assoc; reflexivity|]. split; [|auto]. exists (a :: l). split; [apply ar_comma; assumption|]. rewrite D, C. apply add_addrs_app.
  - injection J as ->. rewrite A in A2. injection A2 as <-.
    unfold after in K. cbn [jump] in K. rewrite app_length in L. pose proof (sep_length _ _ _ E) as LE. destruct (IH r' f ltac:(lia)) as [_ G].
    destruct (G s2 a m F V K) as (t & r2 & s4 & -> & (l & AL & D) & SB & R).
    exists (e ++ t), r2, s4. split; [rewrite <- !app_assoc; reflexivity|]. split; [|auto]. exists l. split; [apply ar_semi; assumption|exact D].
Qed.
Lemma addr_tail_bwd N bare pl t r2 s1 s2 a f l : addr_bwd N -> (length t <= N)%nat -> (length (t ++ CRLF ++ r2) <= cap)%nat -> starts_blank r2 = false ->
  (forall x, run_acts pl x s1 = inl s2) -> m_addr s2 = Some a -> m_addrp s2 = Some f -> addr_rest bare t a l ->
  leads_to (add_addrs f l (core s2)) r2 (fun m => exists j r' s', goes bare pl (t ++ CRLF ++ r2) s1 r' s' (Some j) /\ (j = Go 280 \/ at_addr r') /\ after j r' s' m).
Proof.
  intros IH L LC SB A V F H. apply ar_cases in H. destruct H as [[-> ->]|[(e & t' & -> & E & P)|(e & t' & l' & -> & E & P & ->)]].
  - destruct (maddr_act (LF :: r2) s2 a f V F) as (s3 & A3 & C & _). exists s3. split; [assumption|]. intros m R. exists (Go 280), (LF :: r2), s3. split; [|split; [left; reflexivity|exact R]].
    left. apply b_eol. split; [reflexivity|]. exists r2. rewrite acts_app, A. auto.
  - pose proof (sep_length _ _ _ E) as LE. rewrite !app_length in L. rewrite !app_length in LC. destruct (IH t' r2 f ltac:(lia) ltac:(rewrite !app_length; lia) SB) as [_ G].
    destruct (G s2 a l F V P) as (s3 & C & R3). exists s3. split; [exact C|]. intros m R. apply R3 in R. exists (Hold 153), (t' ++ CRLF ++ r2), s2.
    split; [|split; [right; eapply apar_at; exact P|exact R]]. right. exists e. right. rewrite <- !app_assoc. auto.
  - pose proof (sep_length _ _ _ E) as LE. rewrite !app_length in L. rewrite !app_length in LC. destruct (IH t' r2 f ltac:(lia) ltac:(rewrite !app_length; lia) SB) as [G _].
    destruct (maddr_act (t' ++ CRLF ++ r2) s2 a f V F) as (s4 & A4 & C4 & F4).
    destruct (G s4 l' F4 P) as (s3 & C & R3). exists s3. split; [rewrite C, C4; apply add_addrs_app|]. intros m R. apply R3 in R. exists (Hold 256), (t' ++ CRLF ++ r2), s4.
    split; [|split; [right; eapply list_at; exact P|exact R]]. right. exists e. left. rewrite <- !app_assoc, acts_app, A. auto.
Qed.
(** ** with white space allowed around the separator *)
Definition afin (pl : list mact) : mre := eol (pl ++ [MAddr]).
Definition asep (pl : list mact) : mre := param_sep (pl ++ [MAddr]) pl 256 153.
Lemma goes_sep pl r s r' s' y : ms (afin pl) r s r' s' y \/ ms (m_sws (asep pl)) r s r' s' y -> goes false pl r s r' s' y.
Proof.
  intros [H|H]; [left; exact H|right]. apply b_psep in H. destruct H as (a & b & [(-> & Wa & Sb & -> & A)|(-> & Wa & Sb & -> & A)]); apply stops_sws in Sb.
  - exists (a ++ B "," ++ b). left. rewrite <- !app_assoc. split; [reflexivity|]. split; [exists a, b; auto|auto].
  - exists (a ++ B ";" ++ b). right. rewrite <- !app_assoc. split; [reflexivity|]. split; [exists a, b; auto|auto].
Qed.
Lemma sep_goes pl r s r' s' j : goes false pl r s r' s' (Some j) -> j = Go 280 \/ at_addr r' -> ms (afin pl) r s r' s' (Some j) \/ ms (m_sws (asep pl)) r s r' s' (Some j).
Proof.
  intros [H|(e & [(-> & (a & b & -> & Wa & Wb) & J & A)|(-> & (a & b & -> & Wa & Wb) & J & A)])] G; [left; exact H| |]; right; injection J as ->; destruct G as [G|G]; try discriminate;
    apply b_psep; exists a, b; rewrite <- !app_assoc; [left|right]; (split; [reflexivity|]; split; [assumption|]; split; [apply at_stops; assumption|]; auto).
Qed.
Lemma addr_param_is : r_addr_param = m_param (afin [MAddrParam]) (asep [MAddrParam]). Proof. reflexivity. Qed.
Definition aparam_done (p : param) (r : bytes) (h : Z) (s : mst) (a : addr) : mst := put_addr (Some (aadd [p] a)) (got_param p r h s).
Lemma addr_param_act p r h s a x : m_addr s = Some a -> run_acts [MAddrParam] x (got_param p r h s) = inl (aparam_done p r h s a).
Proof. intros E. cbn [acts msg_act]. unfold on_addr. cbn. rewrite E. destruct p. reflexivity. Qed.
Lemma apar_fwd N r f s a m : addr_fwd N -> (length r <= N)%nat -> m_addrp s = Some f -> m_addr s = Some a -> reach 153 r s m ->
  line_end (fun t d => exists l, apar_rest t a l /\ d = add_addrs f l (core s)) r m.
Proof.
  intros IH L F V H. apply (reach_at cap 153 r_addr_param) in H; [|exact in_addr_param]. destruct H as (j & r1 & s1 & H & K). rewrite addr_param_is in H.
  apply param_fwd in H. destruct H as (x & p & t & h & -> & P & H). apply goes_sep in H.
  assert (LT : (length t <= N)%nat) by (rewrite !app_length in L; lia).
  destruct (addr_tail_fwd N false [MAddrParam] t (got_param p (x ++ t) h s) (aparam_done p (x ++ t) h s a) (aadd [p] a) f r1 s1 j m IH LT (fun y => addr_param_act _ _ _ _ _ y V) eq_refl F H K)
    as (t' & r2 & s3 & -> & (l & VR & D) & SB & R).
  exists (x ++ t'), r2, s3. rewrite <- !app_assoc. split; [reflexivity|]. split; [|auto]. exists l. split; [exists x, p, t'; auto|exact D].
Qed.
Lemma apar_bwd N t r2 f s a l : addr_bwd N -> (length t <= N)%nat -> (length (t ++ CRLF ++ r2) <= cap)%nat -> starts_blank r2 = false ->
  m_addrp s = Some f -> m_addr s = Some a -> apar_rest t a l -> leads_to (add_addrs f l (core s)) r2 (reach 153 (t ++ CRLF ++ r2) s).
Proof.
  intros IH L LC SB F V (x & p & t' & -> & P & VR). assert (LV : (length (snd p) <= cap)%nat) by (apply param_len in P; rewrite !app_length in LC; lia).
  destruct (param_bwd cap x p s (t' ++ CRLF ++ r2) P LV) as (h & K1).
  edestruct (addr_tail_bwd N false [MAddrParam] t' r2 (got_param p (x ++ t' ++ CRLF ++ r2) h s) (aparam_done p (x ++ t' ++ CRLF ++ r2) h s a) (aadd [p] a) f l IH) as (s2 & C2 & K2);
    try eassumption; try reflexivity.
  { rewrite !app_length in L. lia. } { rewrite !app_length in LC. rewrite !app_length. lia. } { intros y. apply addr_param_act. exact V. }
  exists s2. split; [exact C2|]. intros m R. apply K2 in R. destruct R as (j & r3 & s3 & G & AT & A). apply (reach_at cap 153 r_addr_param); [exact in_addr_param|]. exists j, r3, s3.
  split; [|exact A]. rewrite <- !app_assoc. rewrite addr_param_is. apply K1. apply sep_goes; assumption.
Qed.
(** ** the URI *)
Definition auri (u : uri) (a : addr) : addr := mkaddr (Some u) (a_display a) (a_param a).
Lemma maddruri_act x r s a s1 : m_mark s = x ++ r -> m_addr s = Some a ->
  (msg_act cap MAddrUri r s = inl s1 <-> exists u, uri_text x u /\ s1 = put_addr (Some (auri u a)) s).
Proof.
  intros M A. cbn [msg_act]. rewrite (slice_at 0 r s x) by (assumption || reflexivity). unfold call_uri, on_addr. rewrite A. split.
  - intros H. destruct (parse_uri x) as [u|e|] eqn:P; try discriminate. injection H as <-. exists u. split; [apply uri_parse_exact; exact P|reflexivity].
  - intros (u & U & ->). apply uri_parse_exact in U. rewrite U. reflexivity.
Qed.
Lemma again_fwd c other stop blk nofold l n x r s r' s' y a : c = ","%byte \/ c = ";"%byte -> m_mark s = x ++ r -> m_addr s = Some a ->
  ms (m_again c other stop blk nofold l n) r s r' s' y -> y = Some (Hold n) /\ r = [c] ++ r' /\ run_acts l r' s = inl s'.
Proof.
  intros C M V H. assert (NC : c <> CR) by (destruct C as [->| ->]; discriminate). unfold m_again in H. apply b_chx in H; [|assumption]. destruct H as (r1 & -> & H).
  assert (DEAD : forall s1, msg_act cap MAddrUri r1 s <> inl s1).
  { intros s1 A. apply (maddruri_act (x ++ [c]) r1 s a) in A; [|rewrite <- app_assoc; exact M|exact V]. destruct A as (u & U & _). exact (uri_not_ending x c u C U). }
  rewrite b_seq in H by reflexivity. destruct H as (r2 & s2 & H & K). apply b_star in H; [|reflexivity]. destruct H as [_ H]. inversion H as [|? ? r3 s3 ? ? H1 H2]; subst.
  - apply b_alt in K. destruct K as [K|K].
    + apply b_acts in K. destruct K as (s1 & A & K). apply b_jmp in K. destruct K as (-> & -> & -> & _). auto.
    + apply b_do in K. destruct K as (s1 & A & _). destruct (DEAD _ A).
  - apply b_do in H1. destruct H1 as (s1 & A & _). destruct (DEAD _ A).
Qed.
Lemma again_bwd c other stop blk nofold l n r' s s' : c = ","%byte \/ c = ";"%byte -> at_addr r' -> (forall d, implb (addr_start d) (kc other d) = true) -> run_acts l r' s = inl s' ->
  ms (m_again c other stop blk nofold l n) ([c] ++ r') s r' s' (Some (Hold n)).
Proof.
  intros C (d & t & -> & D) I A. assert (NC : c <> CR) by (destruct C as [->| ->]; discriminate). unfold m_again. apply b_chx; [assumption|]. eexists. split; [reflexivity|].
  rewrite b_seq by reflexivity. exists (d :: t), s. split; [apply b_star; [reflexivity|]; split; [reflexivity|constructor]|]. apply b_alt. left. apply b_acts. exists s'. split; [assumption|].
  apply b_jmp. split; [reflexivity|]. split; [reflexivity|]. split; [reflexivity|]. exists (Byte.to_N d). split.
  - apply look_plain. intros ->. discriminate.
  - specialize (I d). rewrite D in I. exact I.
Qed.
Lemma uri_end_fwd x r s r' s' y a : m_mark s = x ++ r -> m_addr s = Some a -> ms m_uri_end r s r' s' y ->
  exists u, uri_text x u /\ goes true [] r (put_addr (Some (auri u a)) s) r' s' y.
Proof.
  intros M V H. unfold m_uri_end in H. assert (GO : exists s1, msg_act cap MAddrUri r s = inl s1 /\
    (ms (eol [MAddr]) r s1 r' s' y \/ ms (m_lws (param_sep [MAddr] [] 256 153)) r s1 r' s' y \/
     (exists o1 o2 o3 o4, ms (m_again "," o1 o2 o3 o4 [MAddr] 256) r s1 r' s' y) \/ (exists o1 o2 o3 o4, ms (m_again ";" o1 o2 o3 o4 [] 153) r s1 r' s' y))).
  { apply b_alt in H. destruct H as [H|H]; [|apply b_alt in H; destruct H as [H|H]; [|apply b_alt in H; destruct H as [H|H]]]; apply b_do in H; destruct H as (s1 & A & H); exists s1;
      (split; [exact A|]); eauto 9. }
  destruct GO as (s1 & A & GO). apply (maddruri_act x r s a) in A; [|assumption|assumption]. destruct A as (u & U & ->). exists u. split; [assumption|].
  destruct GO as [GO|[GO|[(o1 & o2 & o3 & o4 & GO)|(o1 & o2 & o3 & o4 & GO)]]].
  - left. exact GO.
  - right. apply b_lws in GO. destruct GO as (w & r1 & -> & W & K). apply b_alt in K. destruct K as [K|K]; (apply b_chx in K; [|discriminate]); destruct K as (r2 & -> & K); apply b_goto in K;
      destruct K as (-> & b & -> & S & A); apply stops_sws in S.
    + exists (w ++ B "," ++ b). left. rewrite <- !app_assoc. split; [reflexivity|]. split; [right; exists w, b; auto|auto].
    + exists (w ++ B ";" ++ b). right. rewrite <- !app_assoc. split; [reflexivity|]. split; [right; exists w, b; auto|auto].
  - apply (again_fwd "," o1 o2 o3 o4 [MAddr] 256 x r _ r' s' y (auri u a)) in GO; [|auto|exact M|reflexivity]. destruct GO as (-> & -> & A). right. exists (B ","). left.
    split; [reflexivity|]. split; [left; reflexivity|]. auto.
  - apply (again_fwd ";" o1 o2 o3 o4 [] 153 x r _ r' s' y (auri u a)) in GO; [|auto|exact M|reflexivity]. destruct GO as (-> & -> & A). right. exists (B ";"). right.
    split; [reflexivity|]. split; [left; reflexivity|]. auto.
Qed.
Lemma uri_end_bwd x r s r' s' j a u : m_mark s = x ++ r -> m_addr s = Some a -> uri_text x u -> goes true [] r (put_addr (Some (auri u a)) s) r' s' (Some j) -> j = Go 280 \/ at_addr r' ->
  ms m_uri_end r s r' s' (Some j).
Proof.
  intros M V U G AT. assert (A : msg_act cap MAddrUri r s = inl (put_addr (Some (auri u a)) s)) by (apply (maddruri_act x r s a); eauto). unfold m_uri_end.
  destruct G as [G|(e & [(-> & E & J & A2)|(-> & E & J & A2)])].
  - apply b_alt. left. apply b_do. eauto.
  - injection J as ->. destruct AT as [AT|AT]; [discriminate|]. apply b_alt. right. destruct E as [->|(p & q & -> & P & Q)].
    + apply b_alt. right. apply b_alt. left. apply b_do. eexists. split; [exact A|]. apply (again_bwd ","); [auto|assumption|by_bytes|exact A2].
    + apply b_alt. left. apply b_do. eexists. split; [exact A|]. rewrite <- !app_assoc. apply b_lws. exists p. eexists. split; [reflexivity|]. split; [assumption|].
      apply b_alt. left. apply b_chx; [discriminate|]. eexists. split; [reflexivity|]. apply b_goto. split; [reflexivity|]. exists q. split; [reflexivity|]. split; [apply at_stops; assumption|exact A2].
  - injection J as ->. destruct AT as [AT|AT]; [discriminate|]. apply b_alt. right. destruct E as [->|(p & q & -> & P & Q)].
    + apply b_alt. right. apply b_alt. right. apply b_do. eexists. split; [exact A|]. apply (again_bwd ";"); [auto|assumption|by_bytes|exact A2].
    + apply b_alt. left. apply b_do. eexists. split; [exact A|]. rewrite <- !app_assoc. apply b_lws. exists p. eexists. split; [reflexivity|]. split; [assumption|].
      apply b_alt. right. apply b_chx; [discriminate|]. eexists. split; [reflexivity|]. apply b_goto. split; [reflexivity|]. exists q. split; [reflexivity|]. split; [apply at_stops; assumption|exact A2].
Qed.
Lemma alpha_scheme c : alpha_class c = true -> scheme_class c = true.
Proof. intros H. assert (K : implb (alpha_class c) (scheme_class c) = true) by (clear; revert c; by_bytes). rewrite H in K. exact K. Qed.
(** from a URI outside angle brackets on (machine 229) *)
Lemma bare_fwd r s r' s' y a : m_mark s = r -> m_addr s = Some a -> ms r_addr_uri r s r' s' y ->
  exists x u r1, r = x ++ r1 /\ bare_uri x u /\ goes true [] r1 (put_addr (Some (auri u a)) s) r' s' y.
Proof.
  intros M V H. unfold r_addr_uri in H. apply (b_clsx cap k_alph alpha_class) in H; [|reflexivity|exact kc_alph]. destruct H as (c & r1 & -> & C & H).
  apply (b_runx cap k_schm scheme_class) in H; [|reflexivity|exact kc_schm]. destruct H as (sch & r2 & -> & S & H). apply b_chx in H; [|discriminate]. destruct H as (r3 & -> & H).
  apply (b_clsx cap k_uric uric_class) in H; [|reflexivity|exact kc_uric]. destruct H as (d & r4 & -> & D & H).
  apply (b_runx cap k_uric1 uric1_class) in H; [|reflexivity|exact kc_uric1]. destruct H as (w & r5 & -> & W & H).
  set (x := (c :: sch) ++ B ":" ++ d :: w). assert (E : c :: sch ++ B ":" ++ d :: w ++ r5 = x ++ r5) by (unfold x; cbn [app]; rewrite <- !app_assoc; reflexivity).
  change (c :: sch ++ ":"%byte :: d :: w ++ r5) with (c :: sch ++ B ":" ++ d :: w ++ r5) in *. rewrite E in *. apply (uri_end_fwd x r5 s r' s' y a) in H; [|exact M|exact V].
  destruct H as (u & U & G). exists x, u, r5. split; [reflexivity|]. split; [|assumption]. split; [assumption|]. exists (c :: sch), d, w. split; [reflexivity|].
  split; [cbn [forallb]; rewrite S, (alpha_scheme c C); reflexivity|]. apply (class_sub uric1_class); [by_bytes|exact W].
Qed.
Lemma scheme_split s1 s2 a b : forallb scheme_class s1 = true -> forallb scheme_class s2 = true -> s1 ++ B ":" ++ a = s2 ++ B ":" ++ b -> s1 = s2 /\ a = b.
Proof.
  revert s2. induction s1 as [|c s1 IH]; intros [|d s2] F1 F2 E.
  - injection E as ->. auto.
  - exfalso. injection E as <- _. cbn in F2. discriminate.
  - exfalso. injection E as -> _. cbn in F1. discriminate.
  - cbn [app] in E. injection E as -> E. cbn [forallb] in F1, F2. apply andb_prop in F1. apply andb_prop in F2. destruct F1 as [_ F1], F2 as [_ F2].
    destruct (IH s2 F1 F2 E) as [-> ->]. auto.
Qed.
Lemma bare_parts x u : bare_uri x u -> exists c sch d w, x = c :: sch ++ B ":" ++ d :: w /\ alpha_class c = true /\ forallb scheme_class sch = true /\ uric_class d = true /\ forallb uric1_class w = true.
Proof.
  intros [U (s & d & w & E & S & P)]. destruct (uri_chars _ _ U) as (c & sch & r & -> & A & SC & N & F & _).
  assert (K : c :: sch = s /\ r = d :: w). { apply scheme_split; [cbn [forallb]; rewrite SC, (alpha_scheme c A); reflexivity|assumption|exact E]. }
  destruct K as [_ ->]. exists c, sch, d, w. split; [reflexivity|]. split; [assumption|]. split; [assumption|]. cbn [forallb] in F. apply andb_prop in F. destruct F as [F1 F2].
  split; [assumption|]. rewrite forallb_forall in *. intros z Z. rewrite uric1_spec, (F2 z Z). exact (P z Z).
Qed.
Lemma bare_bwd x u r1 s a r' s' j : m_mark s = x ++ r1 -> m_addr s = Some a -> bare_uri x u -> goes true [] r1 (put_addr (Some (auri u a)) s) r' s' (Some j) -> j = Go 280 \/ at_addr r' ->
  ms r_addr_uri (x ++ r1) s r' s' (Some j).
Proof.
  intros M V BU G AT. pose proof BU as [U _]. apply bare_parts in BU. destruct BU as (c & sch & d & w & E & C & S & D & W).
  assert (K : ms m_uri_end r1 s r' s' (Some j)) by (eapply uri_end_bwd; eassumption). subst x. unfold r_addr_uri. cbn [app]. rewrite <- !app_assoc.
  apply (b_clsx cap k_alph alpha_class); [reflexivity|exact kc_alph|]. eexists _, _. split; [reflexivity|]. split; [assumption|].
  apply (b_runx cap k_schm scheme_class); [reflexivity|exact kc_schm|]. eexists _, _. split; [reflexivity|]. split; [assumption|]. apply b_chx; [discriminate|]. eexists. split; [reflexivity|].
  apply (b_clsx cap k_uric uric_class); [reflexivity|exact kc_uric|]. eexists _, _. split; [reflexivity|]. split; [assumption|].
  apply (b_runx cap k_uric1 uric1_class); [reflexivity|exact kc_uric1|]. eexists _, _. split; [reflexivity|]. split; [assumption|]. exact K.
Qed.

(** ** the URI in angle brackets *)
Lemma fold_blanks a b : fold_ws a -> blanks b -> fold_ws (a ++ b).
Proof. intros (x & y & -> & X & Y & N) H. exists x, (y ++ b). rewrite <- !app_assoc. split; [reflexivity|]. split; [assumption|]. split; [apply blanks_app; assumption|destruct y; [congruence|discriminate]]. Qed.
Lemma blanks_fold a b : blanks a -> fold_ws b -> fold_ws (a ++ b).
Proof. intros H (x & y & -> & X & Y & N). exists (a ++ x), y. rewrite <- !app_assoc. split; [reflexivity|]. split; [apply blanks_app; assumption|auto]. Qed.
Lemma angle_end r s r' s' y : ms m_angle_end r s r' s' y <-> exists w r1, r = w ++ r1 /\ sws w /\ (ms (afin []) r1 s r' s' y \/ ms (m_sws (asep [])) r1 s r' s' y).
Proof.
  unfold m_angle_end. change (eol [MAddr]) with (afin []). change (param_sep [MAddr] [] 256 153) with (asep []). rewrite b_blanks. split.
  - intros (w & r1 & -> & W & H). apply b_alt in H. destruct H as [H|H]; [exists w, r1; split; [reflexivity|]; split; [left; assumption|left; assumption]|].
    apply b_alt in H. destruct H as [H|H].
    + exists w, r1. split; [reflexivity|]. split; [left; assumption|]. right. apply b_sws. exists [], r1. split; [reflexivity|]. split; [left; reflexivity|exact H].
    + apply b_fold in H. destruct H as (w2 & r2 & -> & W2 & N2 & H). assert (FW : fold_ws (w ++ CRLF ++ w2)) by (exists w, w2; auto).
      exists (w ++ CRLF ++ w2), r2. rewrite <- !app_assoc. split; [reflexivity|]. split; [right; exact FW|]. apply b_alt in H. destruct H as [H|H]; [left; exact H|].
      apply b_alt in H. destruct H as [H|H]; right; apply b_sws.
      * exists [], r2. split; [reflexivity|]. split; [left; reflexivity|exact H].
      * apply b_fold in H. destruct H as (w3 & r3 & -> & W3 & N3 & H). exists (CRLF ++ w3), r3. rewrite <- app_assoc. split; [reflexivity|]. split; [right; exists [], w3; split; [reflexivity|]; split; [reflexivity|auto]|exact H].
  - intros (w & r1 & -> & W & [H|H]).
    + destruct W as [W|(a & b & -> & Wa & Wb & N)]; [exists w, r1; split; [reflexivity|]; split; [assumption|]; apply b_alt; left; exact H|].
      exists a. eexists. rewrite <- !app_assoc. split; [reflexivity|]. split; [assumption|]. apply b_alt. right. apply b_alt. right. apply b_fold. exists b, r1.
      split; [reflexivity|]. split; [assumption|]. split; [assumption|]. apply b_alt. left. exact H.
    + apply b_sws in H. destruct H as (w2 & r2 & -> & W2 & H). destruct W as [W|(a & b & -> & Wa & Wb & N)].
      * destruct W2 as [W2|(a2 & b2 & -> & Wa2 & Wb2 & N2)].
        -- exists (w ++ w2), r2. rewrite <- app_assoc. split; [reflexivity|]. split; [apply blanks_app; assumption|]. apply b_alt. right. apply b_alt. left. exact H.
        -- exists (w ++ a2). eexists. rewrite <- !app_assoc. split; [reflexivity|]. split; [apply blanks_app; assumption|]. apply b_alt. right. apply b_alt. right. apply b_fold.
           exists b2, r2. split; [reflexivity|]. split; [assumption|]. split; [assumption|]. apply b_alt. right. apply b_alt. left. exact H.
      * exists a. eexists. rewrite <- !app_assoc. split; [reflexivity|]. split; [assumption|]. apply b_alt. right. apply b_alt. right. apply b_fold.
        destruct W2 as [W2|(a2 & b2 & -> & Wa2 & Wb2 & N2)].
        -- exists (b ++ w2), r2. rewrite <- !app_assoc. split; [reflexivity|]. split; [apply blanks_app; assumption|]. split; [destruct b; [congruence|discriminate]|].
           apply b_alt. right. apply b_alt. left. exact H.
        -- exists (b ++ a2). eexists. rewrite <- !app_assoc. split; [reflexivity|]. split; [apply blanks_app; assumption|]. split; [destruct b; [congruence|discriminate]|].
           apply b_alt. right. apply b_alt. right. apply b_fold. exists b2, r2. split; [reflexivity|]. auto.
Qed.
Lemma angle_fwd r s r' s' y a : m_addr s = Some a -> ms m_angle r s r' s' y ->
  exists x u w r1 s1, r = B "<" ++ x ++ B ">" ++ w ++ r1 /\ uri_text x u /\ sws w /\ m_addr s1 = Some (auri u a) /\ m_addrp s1 = m_addrp s /\ core s1 = core s /\ goes false [] r1 s1 r' s' y.
Proof.
  intros V H. unfold m_angle in H. apply b_chx in H; [|discriminate]. destruct H as (r0 & -> & H). apply b_do in H. destruct H as (s0 & A & H). cbn [msg_act] in A. injection A as <-.
  apply (b_clsx cap k_alph alpha_class) in H; [|reflexivity|exact kc_alph]. destruct H as (c & r1 & -> & C & H).
  apply (b_runx cap k_schm scheme_class) in H; [|reflexivity|exact kc_schm]. destruct H as (sch & r2 & -> & S & H). apply b_chx in H; [|discriminate]. destruct H as (r3 & -> & H).
  apply (b_plusx cap k_uric uric_class) in H; [|reflexivity|exact kc_uric]. destruct H as (w & r4 & -> & N & W & H). apply b_do in H. destruct H as (s1 & A & H).
  apply (maddruri_act ((c :: sch) ++ B ":" ++ w) r4 _ a) in A; [|cbn [m_mark put_mark app]; rewrite <- !app_assoc; reflexivity|exact V]. destruct A as (u & U & ->).
  apply b_chx in H; [|discriminate]. destruct H as (r5 & -> & H). apply angle_end in H. destruct H as (w2 & r6 & -> & W2 & H). apply goes_sep in H.
  exists ((c :: sch) ++ B ":" ++ w), u, w2, r6. eexists. split; [cbn [app]; rewrite <- !app_assoc; reflexivity|]. split; [assumption|]. split; [assumption|].
  split; [|split; [|split; [|exact H]]]; reflexivity.
Qed.
Lemma angle_bwd x u w r1 s a : m_addr s = Some a -> uri_text x u -> sws w ->
  exists s1, m_addr s1 = Some (auri u a) /\ m_addrp s1 = m_addrp s /\ core s1 = core s /\ forall r' s' j, goes false [] r1 s1 r' s' (Some j) -> j = Go 280 \/ at_addr r' ->
    ms m_angle (B "<" ++ x ++ B ">" ++ w ++ r1) s r' s' (Some j).
Proof.
  intros V U W. pose proof U as U0. destruct (uri_chars _ _ U) as (c & sch & r & -> & A & SC & N & F & _).
  set (x := (c :: sch) ++ B ":" ++ r) in *. set (q := x ++ B ">" ++ w ++ r1). exists (put_addr (Some (auri u a)) (put_mark q s)). split; [reflexivity|]. split; [reflexivity|]. split; [reflexivity|].
  intros r' s' j G AT. apply sep_goes in G; [|assumption]. unfold m_angle. apply b_chx; [discriminate|]. eexists. split; [reflexivity|]. apply b_do. eexists. split; [reflexivity|]. fold q.
  assert (E : q = c :: sch ++ B ":" ++ r ++ B ">" ++ w ++ r1) by (unfold q, x; cbn [app]; rewrite <- !app_assoc; reflexivity). rewrite E at 1.
  apply (b_clsx cap k_alph alpha_class); [reflexivity|exact kc_alph|]. eexists _, _. split; [reflexivity|]. split; [assumption|].
  apply (b_runx cap k_schm scheme_class); [reflexivity|exact kc_schm|]. eexists _, _. split; [reflexivity|]. split; [assumption|]. apply b_chx; [discriminate|]. eexists. split; [reflexivity|].
  apply (b_plusx cap k_uric uric_class); [reflexivity|exact kc_uric|]. eexists _, _. split; [reflexivity|]. split; [assumption|]. split; [assumption|].
  apply b_do. exists (put_addr (Some (auri u a)) (put_mark q s)). split; [apply (maddruri_act x _ _ a); [reflexivity|exact V|eauto]|].
  apply b_chx; [discriminate|]. eexists. split; [reflexivity|]. apply angle_end. eauto.
Qed.
(** ** Display names without quotes. Every blank may store the name read so far, so these expressions change the address's display name. *)
Definition redisp (s s' : mst) : Prop := exists a d, m_addr s = Some a /\ s' = put_addr (Some (mkaddr (a_uri a) d (a_param a))) s.
Lemma redisp_refl s : m_addr s <> None -> redisp s s.
Proof. intros N. destruct (m_addr s) as [a|] eqn:E; [|congruence]. exists a, (a_display a). split; [assumption|]. destruct s; cbn in *. subst. destruct a; reflexivity. Qed.
Lemma redisp_trans s1 s2 s3 : redisp s1 s2 -> redisp s2 s3 -> redisp s1 s3.
Proof. intros (a & d & A & ->) (b & e & E & ->). cbn in E. injection E as <-. exists a, e. split; [assumption|reflexivity]. Qed.
Lemma redisp_keeps s s' : redisp s s' -> m_addr s <> None /\ m_addr s' <> None /\ m_mark s' = m_mark s /\ m_addrp s' = m_addrp s /\ core s' = core s.
Proof. intros (a & d & A & ->). rewrite A. split; [discriminate|]. split; [discriminate|]. auto. Qed.
Definition dreads (R : mre) (P : bytes -> Prop) : Prop :=
  (forall r s r' s' y p, m_addr s <> None -> m_mark s = p ++ r -> ms R r s r' s' y -> y = None /\ redisp s s' /\ exists w, r = w ++ r' /\ P w) /\
  (forall w r' s p, m_addr s <> None -> m_mark s = p ++ w ++ r' -> P w -> exists s', redisp s s' /\ ms R (w ++ r') s r' s' None).
Lemma d_reads R P : reads cap R P -> dreads R P.
Proof.
  intros H. split.
  - intros r s r' s' y p N _ K. apply H in K. destruct K as (-> & -> & w & -> & K). split; [reflexivity|]. split; [apply redisp_refl; assumption|eauto].
  - intros w r' s p N _ K. exists s. split; [apply redisp_refl; assumption|]. apply H. eauto.
Qed.
Lemma d_disp : dreads (Act MDisplayU) (fun w => w = []).
Proof.
  split.
  - intros r s r' s' y p N M H. apply b_act in H. destruct H as (-> & -> & A). split; [reflexivity|]. split; [|exists []; auto]. cbn [msg_act] in A.
    rewrite (slice_at 0 r s p) in A by (assumption || reflexivity). unfold on_addr in A. destruct (m_addr s) as [a|] eqn:E; [|congruence]. injection A as <-. exists a, (trim_end p). auto.
  - intros w r' s p N M ->. cbn [app] in *. destruct (m_addr s) as [a|] eqn:E; [|congruence]. exists (put_addr (Some (mkaddr (a_uri a) (trim_end p) (a_param a))) s).
    split; [exists a, (trim_end p); auto|]. apply b_act. split; [reflexivity|]. split; [reflexivity|]. cbn [msg_act]. rewrite (slice_at 0 r' s p) by (assumption || reflexivity).
    unfold on_addr. rewrite E. reflexivity.
Qed.
Lemma d_nojmp R P : dreads R P -> forall r s r' s' j p, m_addr s <> None -> m_mark s = p ++ r -> ~ ms R r s r' s' (Some j).
Proof. intros [H _] r s r' s' j p N M K. apply (H _ _ _ _ _ p) in K; [|assumption|assumption]. destruct K as [K _]. discriminate. Qed.
Lemma dx_fwd R P x r s r' s' y p : dreads R P -> m_addr s <> None -> m_mark s = p ++ r -> ms (R ;; x) r s r' s' y ->
  exists w r1 s1, r = w ++ r1 /\ P w /\ redisp s s1 /\ ms x r1 s1 r' s' y.
Proof.
  intros D N M H. inversion H as [| | | |a b r0 s0 r1 s1 r2 s2 y0 H1 H2|a b r0 s0 r1 s1 j H1| | | | |]; subst; [|destruct (d_nojmp _ _ D _ _ _ _ _ _ N M H1)].
  apply (proj1 D _ _ _ _ _ p) in H1; [|assumption|assumption]. destruct H1 as (_ & E & w & -> & K). exists w, r1, s1. auto.
Qed.
Lemma dx_bwd R P x w r1 s p : dreads R P -> m_addr s <> None -> m_mark s = p ++ w ++ r1 -> P w ->
  exists s1, redisp s s1 /\ forall r' s' y, ms x r1 s1 r' s' y -> ms (R ;; x) (w ++ r1) s r' s' y.
Proof. intros D N M K. destruct (proj2 D w r1 s p N M K) as (s1 & E & H). exists s1. split; [assumption|]. intros r' s' y X. econstructor; eassumption. Qed.
Lemma d_seq R Q P1 P2 : dreads R P1 -> dreads Q P2 -> dreads (R ;; Q) (fun w => exists a b, w = a ++ b /\ P1 a /\ P2 b).
Proof.
  intros D1 D2. split.
  - intros r s r' s' y p N M H. apply (dx_fwd R P1 Q r s r' s' y p D1 N M) in H. destruct H as (w & r1 & s1 & -> & K & E & H).
    destruct (redisp_keeps _ _ E) as (_ & N1 & M1 & _). apply (proj1 D2 _ _ _ _ _ (p ++ w)) in H; [|assumption|rewrite M1, M, <- app_assoc; reflexivity].
    destruct H as (-> & E2 & w2 & -> & K2). split; [reflexivity|]. split; [eapply redisp_trans; eassumption|]. exists (w ++ w2). rewrite <- app_assoc. split; [reflexivity|]. eauto.
  - intros w r' s p N M (a & b & -> & K1 & K2). rewrite <- app_assoc in M. destruct (dx_bwd R P1 Q a (b ++ r') s p D1 N M K1) as (s1 & E & H). destruct (redisp_keeps _ _ E) as (_ & N1 & M1 & _).
    destruct (proj2 D2 b r' s1 (p ++ a)) as (s2 & E2 & H2); [assumption|rewrite M1, M, <- app_assoc; reflexivity|assumption|].
    exists s2. split; [eapply redisp_trans; eassumption|]. rewrite <- app_assoc. apply H. exact H2.
Qed.
Lemma d_alt R Q P1 P2 : dreads R P1 -> dreads Q P2 -> dreads (Alt R Q) (fun w => P1 w \/ P2 w).
Proof.
  intros D1 D2. split.
  - intros r s r' s' y p N M H. apply b_alt in H. destruct H as [H|H]; [apply (proj1 D1 _ _ _ _ _ p) in H|apply (proj1 D2 _ _ _ _ _ p) in H]; try assumption;
      destruct H as (-> & E & w & -> & K); (split; [reflexivity|]; split; [assumption|]; eauto).
  - intros w r' s p N M [K|K]; [destruct (proj2 D1 w r' s p N M K) as (s1 & E & H)|destruct (proj2 D2 w r' s p N M K) as (s1 & E & H)]; exists s1; (split; [assumption|]; apply b_alt; auto).
Qed.
Lemma d_star R P : dreads R P -> dreads (Star R) (fun w => exists l : list unit, chain (fun t _ => P t) w l).
Proof.
  intros D. split.
  - intros r s r' s' y p N M H. remember (Star R) as Q eqn:EQ. revert p N M. induction H; intros p N M; try discriminate; injection EQ as ->.
    + split; [reflexivity|]. split; [apply redisp_refl; assumption|]. exists []. split; [reflexivity|]. exists []. constructor.
    + apply (proj1 D _ _ _ _ _ p) in H; [|assumption|assumption]. destruct H as (_ & E & w & -> & K). destruct (redisp_keeps _ _ E) as (_ & N1 & M1 & _).
      destruct (IHsem2 eq_refl (p ++ w) N1) as (-> & E2 & w2 & -> & l & C); [rewrite M1, M, <- app_assoc; reflexivity|].
      split; [reflexivity|]. split; [eapply redisp_trans; eassumption|]. exists (w ++ w2). rewrite <- app_assoc. split; [reflexivity|]. exists (tt :: l). constructor; assumption.
    + exfalso. eapply (d_nojmp _ _ D); eassumption.
  - intros w r' s p N M (l & C). revert s p N M. induction C as [|t u ts l K C IH]; intros s p N M.
    + exists s. split; [apply redisp_refl; assumption|]. constructor.
    + rewrite <- app_assoc in M. destruct (proj2 D t (ts ++ r') s p N M K) as (s1 & E & H). destruct (redisp_keeps _ _ E) as (_ & N1 & M1 & _).
      destruct (IH s1 (p ++ t) N1) as (s2 & E2 & H2); [rewrite M1, M, <- app_assoc; reflexivity|]. exists s2. split; [eapply redisp_trans; eassumption|]. rewrite <- app_assoc. econstructor; eassumption.
Qed.
Lemma d_ext R (P Q : bytes -> Prop) : dreads R P -> (forall w, P w <-> Q w) -> dreads R Q.
Proof.
  intros D E. split.
  - intros r s r' s' y p N M H. apply (proj1 D _ _ _ _ _ p) in H; [|assumption|assumption]. destruct H as (-> & X & w & -> & K). split; [reflexivity|]. split; [assumption|]. exists w. split; [reflexivity|]. apply E. exact K.
  - intros w r' s p N M K. apply E in K. eapply (proj2 D); eassumption.
Qed.
Lemma d_wsp : dreads m_wsp (single blank).
Proof. apply d_reads. apply (reads_cls cap k_wsp blank); [reflexivity|exact kc_wsp]. Qed.
Lemma single_chain f w : (exists l : list unit, chain (fun t _ => single f t) w l) <-> forallb f w = true.
Proof.
  split.
  - intros (l & C). induction C as [|t u ts l (c & -> & K) C IH]; [reflexivity|]. cbn [app forallb]. rewrite K, IH. reflexivity.
  - intros H. induction w as [|c w IH]; [exists []; constructor|]. cbn [forallb] in H. apply andb_prop in H. destruct H as [H1 H2]. destruct (IH H2) as (l & C). exists (tt :: l).
    change (c :: w) with ([c] ++ w). constructor; [exists c; auto|assumption].
Qed.
Lemma d_more : dreads (Star m_blank) blanks.
Proof.
  eapply d_ext; [apply d_star; unfold m_blank; apply d_seq; [exact d_disp|exact d_wsp]|]. intros w. unfold blanks. rewrite <- single_chain. split; intros (l & C); exists l.
  - induction C as [|t u ts l (a & b & -> & -> & K) C IH]; constructor; assumption.
  - induction C as [|t u ts l K C IH]; [constructor|]. constructor; [exists [], t; auto|assumption].
Qed.
Lemma d_blanks : dreads (m_wsp ;; Star m_blank) (fun w => blanks w /\ w <> []).
Proof.
  eapply d_ext; [apply d_seq; [exact d_wsp|exact d_more]|]. intros w. split.
  - intros (a & b & -> & (c & -> & K) & Bb). split; [apply (blanks_app [c]); [unfold blanks; cbn; rewrite K; reflexivity|assumption]|discriminate].
  - intros [Bw N]. destruct w as [|c w]; [congruence|]. unfold blanks in Bw. cbn [forallb] in Bw. apply andb_prop in Bw. destruct Bw as [B1 B2]. exists [c], w. split; [reflexivity|]. split; [exists c; auto|exact B2].
Qed.
(** the rest of a fold *)
Definition folded_part (w : bytes) : Prop := exists b, w = CRLF ++ b /\ blanks b /\ b <> [].
Lemma d_fold : dreads (m_crf ;; m_lf ;; m_wsp ;; Star m_blank) folded_part.
Proof.
  split.
  - intros r s r' s' y p N M H. apply b_crf in H. destruct H as (r1 & -> & _ & H). apply b_lf in H. destruct H as (r2 & -> & H).
    apply (proj1 d_blanks _ _ _ _ _ (p ++ CRLF)) in H; [|assumption|rewrite M, <- app_assoc; reflexivity]. destruct H as (-> & E & w & -> & Bw & Nw).
    split; [reflexivity|]. split; [assumption|]. exists (CRLF ++ w). split; [reflexivity|]. exists w. auto.
  - intros w r' s p N M (b & -> & Bb & Nb). destruct (proj2 d_blanks b r' s (p ++ CRLF)) as (s1 & E & H); [assumption|rewrite M, <- !app_assoc; reflexivity|auto|].
    exists s1. split; [assumption|]. apply b_crf. eexists. split; [reflexivity|]. split; [cbn [tl app]; apply blank_start; assumption|]. apply b_lf. eexists. split; [reflexivity|]. exact H.
Qed.
Lemma lws_cases w : lws w <-> (blanks w /\ w <> []) \/ folded_part w \/ (exists a b, w = a ++ b /\ (blanks a /\ a <> []) /\ folded_part b).
Proof.
  split.
  - intros [[H|(a & b & -> & A & Bb & N)] NE]; [left; auto|]. right. destruct a as [|c a]; [left; exists b; auto|]. right. exists (c :: a), (CRLF ++ b). split; [reflexivity|].
    split; [split; [assumption|discriminate]|exists b; auto].
  - intros [[Bw N]|[(b & -> & Bb & N)|(a & c & -> & [A NA] & (b & -> & Bb & N))]].
    + split; [left; assumption|assumption].
    + split; [right; exists [], b; split; [reflexivity|]; split; [reflexivity|auto]|discriminate].
    + split; [right; exists a, b; auto|destruct a; [congruence|discriminate]].
Qed.
Lemma gap0_third : dreads (m_wsp ;; Star m_blank ;; Act MDisplayU ;; m_crf ;; m_lf ;; m_wsp ;; Star m_blank) (fun w => exists a b, w = a ++ b /\ (blanks a /\ a <> []) /\ folded_part b).
Proof.
  eapply d_ext; [apply d_seq; [exact d_wsp|]; apply d_seq; [exact d_more|]; apply d_seq; [exact d_disp|exact d_fold]|]. intros w. split.
  - intros (a & b & -> & (c & -> & K) & a2 & b2 & -> & A2 & a3 & b3 & -> & -> & F). exists (c :: a2), b3. split; [reflexivity|]. split; [split; [unfold blanks; cbn [forallb]; rewrite K; exact A2|discriminate]|assumption].
  - intros (a & b & -> & [A NA] & F). destruct a as [|c a]; [congruence|]. unfold blanks in A. cbn [forallb] in A. apply andb_prop in A. destruct A as [A1 A2].
    exists [c], (a ++ b). split; [reflexivity|]. split; [exists c; auto|]. exists a, b. split; [reflexivity|]. split; [exact A2|]. exists [], b. auto.
Qed.
Lemma d_gap0 : dreads m_gap0 lws.
Proof. eapply d_ext; [unfold m_gap0; apply d_alt; [exact d_blanks|]; apply d_alt; [exact d_fold|exact gap0_third]|]. intros w. symmetry. apply lws_cases. Qed.
Lemma d_token : dreads m_token token.
Proof.
  apply d_reads. intros r s r' s' y. split.
  - intros H. assert (E : y = None) by (eapply nojmp_sem; [exact H|reflexivity]). subst y. split; [reflexivity|].
    assert (H2 : ms (m_token ;; Eps) r s r' s' None) by (rewrite b_seq by reflexivity; exists r', s'; split; [assumption|constructor]).
    apply b_token in H2. destruct H2 as (w & r1 & -> & T & H2). apply b_eps in H2. destruct H2 as (_ & -> & ->). eauto.
  - intros (-> & -> & w & -> & T). assert (H2 : ms (m_token ;; Eps) (w ++ r') s r' s None) by (apply b_token; exists w, r'; split; [reflexivity|]; split; [assumption|constructor]).
    rewrite b_seq in H2 by reflexivity. destruct H2 as (r1 & s1 & H2 & K). apply b_eps in K. destruct K as (_ & -> & ->). exact H2.
Qed.
Definition word_gap (w : bytes) : Prop := exists a b, w = a ++ b /\ token a /\ lws b.
Lemma words_chain d : words d <-> exists a b (l : list unit), d = a ++ b /\ chain (fun t _ => word_gap t) a l /\ token b.
Proof.
  split.
  - intros H. induction H as [w T|w l t T L W (a & b & k & -> & C & Tb)]; [exists [], w, []; split; [reflexivity|]; split; [constructor|assumption]|].
    exists ((w ++ l) ++ a), b, (tt :: k). rewrite <- !app_assoc. split; [reflexivity|]. split; [rewrite app_assoc; constructor; [exists w, l; auto|assumption]|assumption].
  - intros (a & b & l & -> & C & T). induction C as [|t u ts l (x & y & -> & X & Y) C IH]; [constructor; exact T|]. rewrite <- !app_assoc. constructor; assumption.
Qed.
Lemma words_last d : words d -> exists a c, d = a ++ [c] /\ whitespacec c = false.
Proof.
  intros H. apply words_chain in H. destruct H as (a & b & l & -> & _ & [N F]). destruct b as [|c b] using rev_ind; [congruence|]. exists (a ++ b), c. rewrite <- app_assoc. split; [reflexivity|].
  rewrite forallb_app in F. apply andb_prop in F. destruct F as [_ F]. cbn in F. rewrite andb_true_r in F.
  assert (K : implb (token_class c) (negb (whitespacec c)) = true) by (clear; revert c; by_bytes). rewrite F in K. cbn in K. destruct (whitespacec c); [discriminate|reflexivity].
Qed.
Lemma trim_ws g : forallb whitespacec g = true -> trim_end g = [].
Proof. induction g as [|c g IH]; intros H; [reflexivity|]. cbn [forallb] in H. apply andb_prop in H. destruct H as [H1 H2]. cbn [trim_end]. rewrite (IH H2), H1. reflexivity. Qed.
Lemma trim_words d g : words d -> forallb whitespacec g = true -> trim_end (d ++ g) = d.
Proof.
  intros W G. destruct (words_last d W) as (a & c & -> & C). clear W. induction a as [|x a IH]; cbn [app trim_end].
  - rewrite (trim_ws g G), C. reflexivity.
  - cbn [app] in IH. rewrite IH. destruct (a ++ [c]) eqn:E; [destruct a; discriminate|reflexivity].
Qed.
Lemma blanks_ws w : blanks w -> forallb whitespacec w = true.
Proof. apply class_sub. by_bytes. Qed.
Lemma folded_part_ws w : folded_part w -> forallb whitespacec w = true.
Proof. intros (b & -> & Bb & _). rewrite forallb_app, (blanks_ws b Bb). reflexivity. Qed.
Lemma lws_ws w : lws w -> forallb whitespacec w = true.
Proof.
  intros H. apply lws_cases in H. destruct H as [[H _]|[H|(a & b & -> & [A _] & H)]]; [apply blanks_ws; assumption|apply folded_part_ws; assumption|].
  rewrite forallb_app, (blanks_ws a A), (folded_part_ws b H). reflexivity.
Qed.
(** storing the name at the end *)
Lemma store_disp d g r s a s1 : m_mark s = (d ++ g) ++ r -> words d -> forallb whitespacec g = true -> m_addr s = Some a -> msg_act cap MDisplayU r s = inl s1 ->
  s1 = put_addr (Some (mkaddr (a_uri a) d (a_param a))) s.
Proof. intros M W G A H. cbn [msg_act] in H. rewrite (slice_at 0 r s (d ++ g)) in H by (assumption || reflexivity). unfold on_addr in H. rewrite A, (trim_words d g W G) in H. injection H as <-. reflexivity. Qed.
Lemma store_disp_b d g r s a : m_mark s = (d ++ g) ++ r -> words d -> forallb whitespacec g = true -> m_addr s = Some a ->
  msg_act cap MDisplayU r s = inl (put_addr (Some (mkaddr (a_uri a) d (a_param a))) s).
Proof. intros M W G A. cbn [msg_act]. rewrite (slice_at 0 r s (d ++ g)) by (assumption || reflexivity). unfold on_addr. rewrite A, (trim_words d g W G). reflexivity. Qed.
Lemma gap_fwd T F r s r' s' y p : m_addr s <> None -> m_mark s = p ++ r -> ms (m_gap T F) r s r' s' y ->
  exists w r1 s1, r = w ++ r1 /\ redisp s s1 /\ ((blanks w /\ w <> [] /\ ms T r1 s1 r' s' y) \/ (lws w /\ ms F r1 s1 r' s' y)).
Proof.
  intros N M H. unfold m_gap in H. apply b_alt in H. destruct H as [H|H].
  - apply b_seq_assoc in H; [|reflexivity|reflexivity]. apply (dx_fwd _ _ _ _ _ _ _ _ p d_blanks N M) in H. destruct H as (w & r1 & s1 & -> & [Bw Nw] & E & H). exists w, r1, s1. auto 6.
  - apply b_alt in H. destruct H as [H|H].
    + assert (H2 : ms ((m_crf ;; m_lf ;; m_wsp ;; Star m_blank) ;; F) r s r' s' y).
      { apply b_seq_assoc; [reflexivity|reflexivity|]. apply b_crf in H. destruct H as (r1 & -> & SB & H). apply b_crf. exists r1. split; [reflexivity|]. split; [assumption|].
        apply b_seq_assoc; [reflexivity|reflexivity|]. apply b_lf in H. destruct H as (r2 & -> & H). apply b_lf. exists r2. split; [reflexivity|]. apply b_seq_assoc; [reflexivity|reflexivity|]. exact H. }
      apply (dx_fwd _ _ _ _ _ _ _ _ p d_fold N M) in H2. destruct H2 as (w & r1 & s1 & -> & Fw & E & H2). exists w, r1, s1. split; [reflexivity|]. split; [assumption|]. right. split; [apply lws_cases; auto|exact H2].
    + assert (H2 : ms ((m_wsp ;; Star m_blank) ;; Act MDisplayU ;; (m_crf ;; m_lf ;; m_wsp ;; Star m_blank ;; F)) r s r' s' y) by (apply b_seq_assoc; [reflexivity|reflexivity|exact H]).
      apply (dx_fwd _ _ _ _ _ _ _ _ p d_blanks N M) in H2. destruct H2 as (w & r1 & s1 & -> & [Bw Nw] & E & H2). destruct (redisp_keeps _ _ E) as (_ & N1 & M1 & _).
      assert (M1' : m_mark s1 = (p ++ w) ++ r1) by (rewrite M1, M, <- app_assoc; reflexivity).
      apply (dx_fwd _ _ _ _ _ _ _ _ (p ++ w) d_disp N1 M1') in H2. destruct H2 as (w0 & r2 & s2 & -> & -> & E2 & H2). cbn [app] in *. destruct (redisp_keeps _ _ E2) as (_ & N2 & M2 & _).
      apply b_crf in H2. destruct H2 as (r3 & -> & SB & H2). apply b_lf in H2. destruct H2 as (r4 & -> & H2). apply b_seq_assoc in H2; [|reflexivity|reflexivity].
      apply (dx_fwd _ _ _ _ _ _ _ _ ((p ++ w) ++ CRLF) d_blanks N2) in H2; [|rewrite M2, M1', <- !app_assoc; reflexivity]. destruct H2 as (w2 & r5 & s3 & -> & [Bw2 Nw2] & E3 & H2).
      exists (w ++ CRLF ++ w2), r5, s3. rewrite <- !app_assoc. split; [reflexivity|]. split; [eapply redisp_trans; [eassumption|]; eapply redisp_trans; eassumption|]. right.
      split; [|exact H2]. apply lws_cases. right. right. exists w, (CRLF ++ w2). split; [reflexivity|]. split; [auto|exists w2; auto].
Qed.
Lemma gap_bwd T F w r1 s p : m_addr s <> None -> m_mark s = p ++ w ++ r1 -> lws w ->
  exists s1, redisp s s1 /\ forall r' s' y, (blanks w -> ms T r1 s1 r' s' y) -> (~ blanks w -> ms F r1 s1 r' s' y) -> ms (m_gap T F) (w ++ r1) s r' s' y.
Proof.
  intros N M L. destruct L as [[Bw|(a & b & -> & A & Bb & Nb)] NW].
  - destruct (dx_bwd _ _ T w r1 s p d_blanks N M (conj Bw NW)) as (s1 & E & H). exists s1. split; [assumption|]. intros r' s' y HT _. unfold m_gap. apply b_alt. left.
    apply b_seq_assoc; [reflexivity|reflexivity|]. apply H. apply HT. exact Bw.
  - assert (NB : ~ blanks (a ++ CRLF ++ b)). { unfold blanks. rewrite forallb_app. cbn [app forallb CRLF]. intros H. apply andb_prop in H. destruct H as [_ H]. discriminate. }
    destruct a as [|c a].
    + destruct (dx_bwd _ _ F b r1 s (p ++ CRLF) d_blanks N) as (s1 & E & H); [rewrite M, <- !app_assoc; reflexivity|auto|]. exists s1. split; [assumption|]. intros r' s' y _ HF. unfold m_gap.
      apply b_alt. right. apply b_alt. left. apply b_crf. eexists. split; [reflexivity|]. split; [cbn [tl app]; apply blank_start; assumption|]. apply b_lf. eexists. split; [reflexivity|].
      apply b_seq_assoc; [reflexivity|reflexivity|]. apply H. apply HF. exact NB.
    + assert (M1 : m_mark s = p ++ (c :: a) ++ CRLF ++ b ++ r1) by (rewrite M, <- !app_assoc; reflexivity).
      destruct (dx_bwd _ _ (Act MDisplayU ;; (m_crf ;; m_lf ;; m_wsp ;; Star m_blank ;; F)) (c :: a) (CRLF ++ b ++ r1) s p d_blanks N M1) as (s1 & E & H); [split; [assumption|discriminate]|].
      destruct (redisp_keeps _ _ E) as (_ & N1 & K1 & _).
      destruct (dx_bwd _ _ (m_crf ;; m_lf ;; m_wsp ;; Star m_blank ;; F) [] (CRLF ++ b ++ r1) s1 (p ++ c :: a) d_disp N1) as (s2 & E2 & H2); [rewrite K1, M1, <- app_assoc; reflexivity|reflexivity|].
      destruct (redisp_keeps _ _ E2) as (_ & N2 & K2 & _).
      destruct (dx_bwd _ _ F b r1 s2 ((p ++ c :: a) ++ CRLF) d_blanks N2) as (s3 & E3 & H3); [rewrite K2, K1, M1, <- !app_assoc; reflexivity|auto|].
      exists s3. split; [eapply redisp_trans; [eassumption|]; eapply redisp_trans; eassumption|]. intros r' s' y _ HF. unfold m_gap. apply b_alt. right. apply b_alt. right.
      apply b_seq_assoc; [reflexivity|reflexivity|]. rewrite <- !app_assoc. apply H. apply H2. cbn [app]. apply b_crf. eexists. split; [reflexivity|].
      split; [cbn [tl app]; apply blank_start; assumption|]. apply b_lf. eexists. split; [reflexivity|]. apply b_seq_assoc; [reflexivity|reflexivity|]. apply H3. apply HF. exact NB.
Qed.
Definition adisp (d : bytes) (a : addr) : addr := mkaddr (a_uri a) d (a_param a).
Lemma redisp_a s s' a : redisp s s' -> m_addr s = Some a -> exists b, m_addr s' = Some b /\ a_uri b = a_uri a /\ a_param b = a_param a.
Proof. intros (a1 & d & A & ->) E. rewrite E in A. injection A as <-. eexists. split; [reflexivity|auto]. Qed.
Lemma unquoted_fwd r s r' s' y a : m_addr s = Some a -> ms m_unquoted r s r' s' y ->
  exists d g r1 s1, r = d ++ g ++ r1 /\ words d /\ forallb whitespacec g = true /\ m_addr s1 = Some (adisp d a) /\ m_addrp s1 = m_addrp s /\ core s1 = core s /\ ms m_angle r1 s1 r' s' y.
Proof.
  intros V H. unfold m_unquoted in H. apply b_do in H. destruct H as (s0 & A & H). cbn [msg_act] in A. injection A as <-. set (s0 := put_mark r s) in *.
  assert (N0 : m_addr s0 <> None) by (cbn; congruence).
  assert (DC : dreads (Star (m_token ;; m_gap0)) (fun w => exists l : list unit, chain (fun t _ => word_gap t) w l)) by (apply d_star; apply d_seq; [exact d_token|exact d_gap0]).
  assert (M0 : m_mark s0 = r) by reflexivity. assert (P0 : m_addrp s0 = m_addrp s) by reflexivity. assert (C0 : core s0 = core s) by reflexivity. assert (V0 : m_addr s0 = Some a) by exact V. clearbody s0.
  apply (dx_fwd _ _ _ _ _ _ _ _ [] DC N0 M0) in H. destruct H as (w1 & r1 & s1 & -> & (l & C) & E1 & H). destruct (redisp_keeps _ _ E1) as (_ & N1 & M1 & _).
  apply (dx_fwd _ _ _ _ _ _ _ _ w1 d_token N1) in H; [|rewrite M1; assumption]. destruct H as (w2 & r2 & s2 & -> & T & E2 & H). destruct (redisp_keeps _ _ E2) as (_ & N2 & M2 & _).
  assert (W : words (w1 ++ w2)) by (apply words_chain; exists w1, w2, l; auto).
  assert (M2' : m_mark s2 = (w1 ++ w2) ++ r2) by (rewrite M2, M1, M0, <- app_assoc; reflexivity).
  apply (gap_fwd _ _ _ _ _ _ _ (w1 ++ w2) N2 M2') in H. destruct H as (g & r3 & s3 & -> & E3 & H). destruct (redisp_keeps _ _ E3) as (_ & N3 & M3 & _).
  assert (E : redisp s0 s3) by (eapply redisp_trans; [eassumption|]; eapply redisp_trans; eassumption). destruct (redisp_keeps _ _ E) as (_ & _ & _ & P3 & C3).
  destruct (redisp_a _ _ a E V0) as (b & A3 & U3 & Q3).
  assert (M3' : m_mark s3 = ((w1 ++ w2) ++ g) ++ r3) by (rewrite M3, M2', <- !app_assoc; reflexivity).
  destruct H as [(Bg & _ & H)|(Lg & H)].
  - apply b_do in H. destruct H as (s4 & A & H). apply (store_disp (w1 ++ w2) g r3 s3 b) in A; [|assumption|assumption|apply blanks_ws; assumption|assumption]. subst s4.
    exists (w1 ++ w2), g, r3. eexists. rewrite <- !app_assoc. split; [reflexivity|]. split; [assumption|]. split; [apply blanks_ws; assumption|].
    split; [|split; [|split; [|exact H]]]; [cbn; rewrite U3, Q3; reflexivity|cbn; congruence|rewrite <- C0, <- C3; reflexivity].
  - apply b_do in H. destruct H as (s4 & A & H). apply (store_disp (w1 ++ w2) g r3 s3 b) in A; [|assumption|assumption|apply lws_ws; assumption|assumption]. subst s4.
    apply b_alt in H. destruct H as [H|H].
    + exists (w1 ++ w2), g, r3. eexists. rewrite <- !app_assoc. split; [reflexivity|]. split; [assumption|]. split; [apply lws_ws; assumption|].
      split; [|split; [|split; [|exact H]]]; [cbn; rewrite U3, Q3; reflexivity|cbn; congruence|rewrite <- C0, <- C3; reflexivity].
    + apply b_fold in H. destruct H as (w3 & r4 & -> & B3 & NN & H).
      exists (w1 ++ w2), (g ++ CRLF ++ w3), r4. eexists. rewrite <- !app_assoc. split; [reflexivity|]. split; [assumption|].
      split; [rewrite !forallb_app, (lws_ws g Lg), (blanks_ws w3 B3); reflexivity|].
      split; [|split; [|split; [|exact H]]]; [cbn; rewrite U3, Q3; reflexivity|cbn; congruence|rewrite <- C0, <- C3; reflexivity].
Qed.
Lemma unquoted_bwd d g r1 s a : m_addr s = Some a -> words d -> lws g ->
  exists s1, m_addr s1 = Some (adisp d a) /\ m_addrp s1 = m_addrp s /\ core s1 = core s /\ forall r' s' y, ms m_angle r1 s1 r' s' y -> ms m_unquoted (d ++ g ++ r1) s r' s' y.
Proof.
  intros V W L. pose proof W as W0. apply words_chain in W. destruct W as (w1 & w2 & l & -> & C & T). set (full := (w1 ++ w2) ++ g ++ r1). set (s0 := put_mark full s).
  assert (N0 : m_addr s0 <> None) by (cbn; congruence).
  set (FT := Act MDisplayU ;; m_angle). set (FF := Act MDisplayU ;; Alt m_angle (m_crf ;; after_fold m_angle)).
  assert (DC : dreads (Star (m_token ;; m_gap0)) (fun w => exists l : list unit, chain (fun t _ => word_gap t) w l)) by (apply d_star; apply d_seq; [exact d_token|exact d_gap0]).
  destruct (dx_bwd _ _ (m_token ;; m_gap FT FF) w1 (w2 ++ g ++ r1) s0 [] DC N0) as (s1 & E1 & H1); [cbn; unfold full; rewrite <- app_assoc; reflexivity|eauto|].
  destruct (redisp_keeps _ _ E1) as (_ & N1 & M1 & _).
  destruct (dx_bwd _ _ (m_gap FT FF) w2 (g ++ r1) s1 w1 d_token N1) as (s2 & E2 & H2); [rewrite M1; cbn; unfold full; rewrite <- app_assoc; reflexivity|assumption|].
  destruct (redisp_keeps _ _ E2) as (_ & N2 & M2 & _).
  destruct (gap_bwd FT FF g r1 s2 (w1 ++ w2) N2) as (s3 & E3 & H3); [rewrite M2, M1; reflexivity|assumption|].
  assert (E : redisp s0 s3) by (eapply redisp_trans; [eassumption|]; eapply redisp_trans; eassumption). destruct (redisp_keeps _ _ E) as (_ & _ & M3 & P3 & C3).
  destruct (redisp_a _ _ a E V) as (b & A3 & U3 & Q3).
  assert (ST : msg_act cap MDisplayU r1 s3 = inl (put_addr (Some (adisp (w1 ++ w2) b)) s3)).
  { apply (store_disp_b (w1 ++ w2) g r1 s3 b); [rewrite M3; cbn; unfold full; rewrite <- !app_assoc; reflexivity|assumption|apply lws_ws; assumption|assumption]. }
  exists (put_addr (Some (adisp (w1 ++ w2) b)) s3). split; [cbn; unfold adisp; rewrite U3, Q3; reflexivity|]. split; [exact P3|]. split; [exact C3|].
  intros r' s' y H. unfold m_unquoted. apply b_do. exists s0. split; [reflexivity|]. fold FT FF. replace full with (w1 ++ w2 ++ g ++ r1) by (unfold full; rewrite <- app_assoc; reflexivity).
  apply H1. apply H2. apply H3; intros _; [unfold FT|unfold FF]; (apply b_do; eexists; split; [exact ST|]); [exact H|]. apply b_alt. left. exact H.
Qed.

(** ** The head of an address *)
(** what the machine addr has seen when it enters addr_angled *)
Definition seen (r : bytes) : Prop := (exists c t, r = c :: t /\ (c = DQ \/ c = "<"%byte)) \/ exists d l t, r = d ++ l ++ B "<" ++ t /\ words d /\ lws l.
Definition nob (c : byte) : bool := negb (beq c "<").
Lemma words_nob d : words d -> forallb nob d = true.
Proof.
  intros H. induction H as [w [_ T]|w l t [_ T] L W IH]; [apply (class_sub token_class); [by_bytes|exact T]|]. rewrite !forallb_app, IH, (class_sub token_class nob w), (class_sub whitespacec nob l);
    [reflexivity|by_bytes|apply lws_ws; assumption|by_bytes|exact T].
Qed.
Lemma ws_nob g : forallb whitespacec g = true -> forallb nob g = true. Proof. apply class_sub. by_bytes. Qed.
Lemma nob_split a b x y : forallb nob a = true -> forallb nob b = true -> a ++ B "<" ++ x = b ++ B "<" ++ y -> a = b /\ x = y.
Proof.
  revert b. induction a as [|c a IH]; intros [|d b] Fa Fb E.
  - injection E as ->. auto.
  - exfalso. injection E as <- _. discriminate.
  - exfalso. injection E as -> _. discriminate.
  - cbn [app] in E. injection E as -> E. cbn [forallb] in Fa, Fb. apply andb_prop in Fa, Fb. destruct Fa as [_ Fa], Fb as [_ Fb]. destruct (IH b Fa Fb E) as [-> ->]. auto.
Qed.
Lemma words_not_quote d r : words d -> forall c t, d ++ r = c :: t -> c <> DQ /\ c <> "<"%byte /\ whitespacec c = false.
Proof.
  intros W c t E. assert (T : exists w r2, token w /\ d = w ++ r2) by (destruct W as [w T|w l u T L W]; [exists w, []; rewrite app_nil_r; auto|eauto]). destruct T as (w & r2 & [N F] & ->).
  destruct w as [|x w]; [congruence|]. cbn [app] in E. injection E as -> _. cbn [forallb] in F. apply andb_prop in F. destruct F as [F _].
  assert (K : implb (token_class c) (negb (beq c DQ) && negb (beq c "<") && negb (whitespacec c)) = true) by (clear; revert c; by_bytes). rewrite F in K. cbn [implb] in K.
  apply andb_prop in K. destruct K as [K K3]. apply andb_prop in K. destruct K as [K1 K2]. split; [intros ->; discriminate|]. split; [intros ->; discriminate|]. destruct (whitespacec c); [discriminate|reflexivity].
Qed.
Lemma sws_ws w : sws w -> forallb whitespacec w = true.
Proof. intros W. destruct w as [|c w]; [reflexivity|]. apply lws_ws. split; [assumption|discriminate]. Qed.
Definition fresh_addr : addr := mkaddr None [] [].
Lemma angled_fwd r s r' s' y : m_addr s = Some fresh_addr -> seen r -> ms r_angled r s r' s' y ->
  exists h u d r1 s1, r = h ++ r1 /\ addr_head false h u d /\ m_addr s1 = Some (a0 u d) /\ m_addrp s1 = m_addrp s /\ core s1 = core s /\ goes false [] r1 s1 r' s' y.
Proof.
  intros V SN H. unfold r_angled in H. apply b_alt in H. destruct H as [H|H].
  - apply b_do in H. destruct H as (s0 & A & H). cbn [msg_act] in A. injection A as <-. apply quoted_fwd in H. destruct H as (q & v & r1 & hx & -> & Q & H).
    apply b_do in H. destruct H as (s1 & A & H). cbn [msg_act] in A. unfold on_addr in A. cbn [m_addr with_buf put_hex put_buf] in A. rewrite V in A. injection A as <-.
    apply b_sws in H. destruct H as (w & r2 & -> & W & H). eapply angle_fwd in H; [|reflexivity]. destruct H as (x & u & w2 & r3 & s2 & -> & U & W2 & V2 & P2 & C2 & G).
    exists (([DQ] ++ q ++ [DQ] ++ w) ++ B "<" ++ x ++ B ">" ++ w2), u, v, r3, s2. rewrite <- !app_assoc. split; [reflexivity|]. split.
    + exists ([DQ] ++ q ++ [DQ] ++ w), x, w2. rewrite <- !app_assoc. split; [reflexivity|]. split; [right; left; exists q, w; auto|auto].
    + split; [exact V2|]. split; [exact P2|]. split; [exact C2|exact G].
  - apply b_alt in H. destruct H as [H|H].
    + eapply unquoted_fwd in H; [|exact V]. destruct H as (d & g & r1 & s1 & -> & W & Gg & V1 & P1 & C1 & H). eapply angle_fwd in H; [|exact V1].
      destruct H as (x & u & w2 & r3 & s2 & -> & U & W2 & V2 & P2 & C2 & G).
      destruct SN as [(c & t & E & C)|(d2 & l & t & E & Wd2 & L)].
      { exfalso. destruct (words_not_quote d _ W c t E) as (K1 & K2 & _). destruct C; contradiction. }
      assert (K : d ++ g = d2 ++ l /\ x ++ B ">" ++ w2 ++ r3 = t).
      { apply nob_split; [rewrite forallb_app, (words_nob d W), (ws_nob g Gg); reflexivity|rewrite forallb_app, (words_nob d2 Wd2), (ws_nob l (lws_ws l L)); reflexivity|]. rewrite <- !app_assoc. exact E. }
      destruct K as [K _]. assert (K2 : d = d2) by (rewrite <- (trim_words d g W Gg), K; apply trim_words; [assumption|apply lws_ws; assumption]). subst d2. apply app_inv_head in K. subst l.
      exists ((d ++ g) ++ B "<" ++ x ++ B ">" ++ w2), u, d, r3, s2. rewrite <- !app_assoc. split; [reflexivity|]. split.
      * exists (d ++ g), x, w2. rewrite <- !app_assoc. split; [reflexivity|]. split; [right; right; exists g; auto|auto].
      * split; [exact V2|]. split; [congruence|]. split; [congruence|exact G].
    + apply b_sws in H. destruct H as (w & r1 & -> & W & H). eapply angle_fwd in H; [|exact V]. destruct H as (x & u & w2 & r3 & s2 & -> & U & W2 & V2 & P2 & C2 & G).
      assert (WN : w = []).
      { destruct w as [|c w]; [reflexivity|exfalso]. apply sws_ws in W. cbn [forallb] in W. apply andb_prop in W. destruct W as [W _].
        destruct SN as [(c' & t & E & C)|(d2 & l & t & E & Wd2 & L)].
        - injection E as <- _. destruct C as [->| ->]; discriminate.
        - symmetry in E. destruct (words_not_quote d2 _ Wd2 _ _ E) as (_ & _ & K). congruence. }
      subst w. exists (B "<" ++ x ++ B ">" ++ w2), u, [], r3, s2. rewrite <- !app_assoc. split; [reflexivity|]. split.
      * exists [], x, w2. split; [reflexivity|]. split; [left; auto|auto].
      * split; [exact V2|]. split; [exact P2|]. split; [exact C2|exact G].
Qed.
Lemma angled_bwd h u d r1 s : m_addr s = Some fresh_addr -> addr_head false h u d -> (length h <= cap)%nat ->
  exists s1, m_addr s1 = Some (a0 u d) /\ m_addrp s1 = m_addrp s /\ core s1 = core s /\ forall r' s' j, goes false [] r1 s1 r' s' (Some j) -> j = Go 280 \/ at_addr r' -> ms r_angled (h ++ r1) s r' s' (Some j).
Proof.
  intros V (dt & x & w & -> & D & U & W) LC. destruct D as [[-> ->]|[(q & w0 & -> & Q & W0)|(l & -> & Wd & L)]].
  - destruct (angle_bwd x u w r1 s fresh_addr V U W) as (s1 & V1 & P1 & C1 & H). exists s1. split; [exact V1|]. split; [assumption|]. split; [assumption|]. intros r' s' j G AT.
    unfold r_angled. apply b_alt. right. apply b_alt. right. rewrite <- !app_assoc. apply b_sws. exists []. eexists. split; [reflexivity|]. split; [left; reflexivity|]. apply H; assumption.
  - assert (LQ : (length d <= cap)%nat) by (apply quoted_len in Q; rewrite !app_length in LC; lia).
    destruct (quoted_bwd cap q d (put_buf [] s) Q LQ (w0 ++ B "<" ++ x ++ B ">" ++ w ++ r1)) as (hx & K).
    set (s0 := put_addr (Some (adisp d fresh_addr)) (with_buf d hx (put_buf [] s))).
    destruct (angle_bwd x u w r1 s0 (adisp d fresh_addr) eq_refl U W) as (s1 & V1 & P1 & C1 & H). exists s1. split; [exact V1|]. split; [exact P1|]. split; [exact C1|]. intros r' s' j G AT.
    unfold r_angled. apply b_alt. left. apply b_do. eexists. split; [reflexivity|]. replace (([DQ] ++ q ++ [DQ] ++ w0) ++ B "<" ++ x ++ B ">" ++ w) with ([DQ] ++ q ++ [DQ] ++ w0 ++ B "<" ++ x ++ B ">" ++ w) by (rewrite <- !app_assoc; reflexivity).
    rewrite <- !app_assoc. apply K. apply b_do. exists s0. split; [cbn [msg_act]; unfold on_addr; cbn [m_addr with_buf put_hex put_buf]; rewrite V; reflexivity|].
    apply b_sws. exists w0. eexists. split; [reflexivity|]. split; [assumption|]. apply H; assumption.
  - destruct (unquoted_bwd d l (B "<" ++ x ++ B ">" ++ w ++ r1) s fresh_addr V Wd L) as (s0 & V0 & P0 & C0 & K).
    destruct (angle_bwd x u w r1 s0 (adisp d fresh_addr) V0 U W) as (s1 & V1 & P1 & C1 & H). exists s1. split; [exact V1|]. split; [congruence|]. split; [congruence|]. intros r' s' j G AT.
    unfold r_angled. apply b_alt. right. apply b_alt. left. rewrite <- !app_assoc. apply K. apply H; assumption.
Qed.
(** the machine addr: which of the two forms follows *)
Lemma reads_lws0 : reads cap m_lws0 lws.
Proof.
  intros r s r' s' y. unfold m_lws0. rewrite b_alt.
  assert (PL : forall r s r' s' y, ms (m_plus m_wsp) r s r' s' y <-> y = None /\ s' = s /\ exists w, r = w ++ r' /\ blanks w /\ w <> []).
  { clear. intros r s r' s' y. split.
    - intros H. assert (E : y = None) by (eapply nojmp_sem; [exact H|reflexivity]). subst y.
      assert (H2 : ms (m_plus m_wsp ;; Eps) r s r' s' None) by (rewrite b_seq by reflexivity; exists r', s'; split; [assumption|constructor]).
      apply (b_plusx cap k_wsp blank) in H2; [|reflexivity|exact kc_wsp]. destruct H2 as (w & r1 & -> & N & F & H2). apply b_eps in H2. destruct H2 as (_ & -> & ->). eauto 7.
    - intros (-> & -> & w & -> & Bw & N). assert (H2 : ms (m_plus m_wsp ;; Eps) (w ++ r') s r' s None).
      { apply (b_plusx cap k_wsp blank); [reflexivity|exact kc_wsp|]. exists w, r'. split; [reflexivity|]. split; [assumption|]. split; [assumption|constructor]. }
      rewrite b_seq in H2 by reflexivity. destruct H2 as (r1 & s1 & H2 & K). apply b_eps in K. destruct K as (_ & -> & ->). exact H2. }
  split.
  - intros [H|H].
    + apply PL in H. destruct H as (-> & -> & w & -> & Bw & N). split; [reflexivity|]. split; [reflexivity|]. exists w. split; [reflexivity|]. split; [left; assumption|assumption].
    + apply b_blanks in H. destruct H as (a & r1 & -> & A & H). apply b_crf in H. destruct H as (r2 & -> & _ & H). apply b_lf in H. destruct H as (r3 & -> & H).
      apply PL in H. destruct H as (-> & -> & b & -> & Bb & N). split; [reflexivity|]. split; [reflexivity|]. exists (a ++ CRLF ++ b). rewrite <- !app_assoc. split; [reflexivity|].
      split; [right; exists a, b; auto|destruct a; discriminate].
  - intros (-> & -> & w & -> & [[Bw|(a & b & -> & A & Bb & Nb)] N]).
    + left. apply PL. eauto 7.
    + right. apply b_blanks. exists a. eexists. rewrite <- !app_assoc. split; [reflexivity|]. split; [assumption|]. apply b_crf. eexists. split; [reflexivity|].
      split; [cbn [tl app]; apply blank_start; assumption|]. apply b_lf. eexists. split; [reflexivity|]. apply PL. eauto 7.
Qed.
Lemma reads_token : reads cap m_token token.
Proof.
  intros r s r' s' y. split.
  - intros H. assert (E : y = None) by (eapply nojmp_sem; [exact H|reflexivity]). subst y. split; [reflexivity|].
    assert (H2 : ms (m_token ;; Eps) r s r' s' None) by (rewrite b_seq by reflexivity; exists r', s'; split; [assumption|constructor]).
    apply b_token in H2. destruct H2 as (w & r1 & -> & T & H2). apply b_eps in H2. destruct H2 as (_ & -> & ->). eauto.
  - intros (-> & -> & w & -> & T). assert (H2 : ms (m_token ;; Eps) (w ++ r') s r' s None) by (apply b_token; exists w, r'; split; [reflexivity|]; split; [assumption|constructor]).
    rewrite b_seq in H2 by reflexivity. destruct H2 as (r1 & s1 & H2 & K). apply b_eps in K. destruct K as (_ & -> & ->). exact H2.
Qed.
Lemma words_gaps w : (exists a b, w = a ++ b /\ word_gap a /\ exists l : list unit, chain (fun t _ => word_gap t) b l) <-> exists d l, w = d ++ l /\ words d /\ lws l.
Proof.
  split.
  - intros (a & b & -> & A & l & C). revert a A. induction C as [|t u ts l K C IH]; intros a (x & y & -> & X & Y).
    + exists x, y. rewrite app_nil_r. split; [reflexivity|]. split; [constructor; assumption|assumption].
    + destruct (IH t K) as (d & l2 & E & W & L). exists (x ++ y ++ d), l2. rewrite <- !app_assoc, E. split; [reflexivity|]. split; [constructor; assumption|assumption].
  - intros (d & l & -> & W & L). induction W as [w T|w l2 t T L2 W (a & b & E & A & k & C)].
    + exists (w ++ l), []. rewrite app_nil_r. split; [reflexivity|]. split; [exists w, l; auto|]. exists []. constructor.
    + exists (w ++ l2), (a ++ b). rewrite <- !app_assoc, E. split; [reflexivity|]. split; [exists w, l2; auto|]. exists (tt :: k). constructor; assumption.
Qed.
Lemma words_reads x r s r' s' y : ms (m_plus (m_token ;; m_lws0) ;; x) r s r' s' y <-> exists d l r1, r = d ++ l ++ r1 /\ words d /\ lws l /\ ms x r1 s r' s' y.
Proof.
  assert (R : reads cap (m_plus (m_token ;; m_lws0)) (fun w => exists a b, w = a ++ b /\ word_gap a /\ exists l : list unit, chain (fun t _ => word_gap t) b l)).
  { unfold m_plus. apply reads_seq; [apply reads_seq; [exact reads_token|exact reads_lws0]|]. apply reads_star. apply reads_seq; [exact reads_token|exact reads_lws0]. }
  rewrite (reads_x cap _ _ x r s r' s' y R) by reflexivity. split.
  - intros (w & r1 & -> & K & H). apply words_gaps in K. destruct K as (d & l & -> & W & L). exists d, l, r1. rewrite <- app_assoc. auto.
  - intros (d & l & r1 & -> & W & L & H). exists (d ++ l), r1. rewrite <- app_assoc. split; [reflexivity|]. split; [apply words_gaps; eauto|assumption].
Qed.
Lemma look_is c r n : msg_look r = Some n -> in_ranges (k1 c) n = true -> c <> CR -> exists t, r = c :: t.
Proof.
  intros L R N. assert (E : n = Byte.to_N c). { unfold k1, in_ranges in R. cbn [existsb fst snd] in R. rewrite orb_false_r in R. lia. } subst n.
  destruct r as [|d r]; [discriminate|]. destruct (beq_reflect d CR) as [->|ND].
  - rewrite look_cr in L. exfalso. destruct (lookAheadWSP (CR :: r)); injection L as L.
    + pose proof (Byte.to_N_bounded c). lia.
    + apply N. apply to_N_inj. rewrite <- L. reflexivity.
  - rewrite look_plain in L by assumption. injection L as L. apply to_N_inj in L. subst d. eauto.
Qed.
Lemma head_fwd r s j r1 s1 m f : m_addrp s = Some f -> ms r_addr r s r1 s1 (Some j) -> after j r1 s1 m ->
  exists bare h u d r2 s2 r3 s3 j2, r = h ++ r2 /\ addr_head bare h u d /\ m_addr s2 = Some (a0 u d) /\ m_addrp s2 = Some f /\ core s2 = core s /\ goes bare [] r2 s2 r3 s3 (Some j2) /\ after j2 r3 s3 m.
Proof.
  intros F H K.
  assert (ANG : forall s4, m_addr s4 = Some fresh_addr -> m_addrp s4 = Some f -> core s4 = core s -> seen r -> reach 188 r s4 m ->
    exists bare h u d r2 s2 r3 s3 j2, r = h ++ r2 /\ addr_head bare h u d /\ m_addr s2 = Some (a0 u d) /\ m_addrp s2 = Some f /\ core s2 = core s /\ goes bare [] r2 s2 r3 s3 (Some j2) /\ after j2 r3 s3 m).
  { intros s4 V4 F4 C4 SN R. apply (reach_at cap 188 r_angled) in R; [|exact in_angled]. destruct R as (j2 & r3 & s3 & R & A).
    apply angled_fwd in R; [|assumption|assumption]. destruct R as (h & u & d & r2 & s2 & -> & HD & V2 & P2 & C2 & G). exists false, h, u, d, r2, s2, r3, s3, j2.
    split; [reflexivity|]. split; [assumption|]. split; [assumption|]. split; [congruence|]. split; [congruence|]. auto. }
  unfold r_addr in H. apply b_alt in H. destruct H as [H|H].
  - apply b_do in H. destruct H as (s0 & A & H). cbn [msg_act] in A. injection A as <-. apply b_jmp in H. destruct H as ([= ->] & -> & -> & n & L & R). unfold after in K. cbn [jump] in K.
    eapply ANG; [| | | |exact K]; [reflexivity|exact F|reflexivity|]. left. unfold in_ranges in R. cbn [existsb fst snd] in R. apply orb_prop in R. destruct R as [R|R].
    + destruct (look_is DQ r n L) as (t & ->); [unfold k1, in_ranges; cbn [existsb fst snd]; rewrite orb_false_r; exact R|discriminate|]. eauto.
    + destruct (look_is "<" r n L) as (t & ->); [unfold k1, in_ranges; cbn [existsb fst snd]; exact R|discriminate|]. eauto.
  - apply b_alt in H. destruct H as [H|H]; apply b_do in H; destruct H as (s0 & A & H); cbn [msg_act] in A; injection A as <-.
    + apply words_reads in H. destruct H as (d & l & r2 & -> & W & L & H). apply b_do in H. destruct H as (s0 & A & H). cbn [msg_act] in A. injection A as <-.
      apply b_jmp in H. destruct H as ([= ->] & -> & -> & n & LK & R). unfold after in K. cbn [jump] in K. eapply ANG; [| | | |exact K]; [reflexivity|exact F|reflexivity|]. right.
      destruct (look_is "<" r2 n LK R) as (t & ->); [discriminate|]. exists d, l, t. auto.
    + clear ANG. apply (b_clsx cap k_alph alpha_class) in H; [|reflexivity|exact kc_alph]. destruct H as (c & r2 & -> & C & H).
      apply (b_runx cap k_schm scheme_class) in H; [|reflexivity|exact kc_schm]. destruct H as (sch & r3 & -> & S & H). apply b_do in H. destruct H as (s0 & A & H). cbn [msg_act] in A. injection A as <-.
      apply b_jmp in H. destruct H as ([= ->] & -> & -> & n & LK & R). unfold after in K. cbn [jump m_mark put_addr put_mark] in K.
      apply (reach_at cap 229 r_addr_uri) in K; [|exact in_addr_uri]. destruct K as (j2 & r4 & s4 & K & A). eapply bare_fwd in K; [|reflexivity|reflexivity].
      destruct K as (x & u & r5 & E & BU & G). exists true, x, u, [], r5. eexists. exists r4, s4, j2. split; [exact E|]. split; [split; [exact BU|reflexivity]|].
      split; [|split; [|split; [|split; [exact G|exact A]]]]; [reflexivity|exact F|reflexivity].
Qed.
Lemma head_bwd bare h u d r2 s f : m_addrp s = Some f -> addr_head bare h u d -> (length h <= cap)%nat ->
  exists s2, m_addr s2 = Some (a0 u d) /\ m_addrp s2 = Some f /\ core s2 = core s /\
    forall r3 s3 j2 m, goes bare [] r2 s2 r3 s3 (Some j2) -> j2 = Go 280 \/ at_addr r3 -> after j2 r3 s3 m -> exists j r1 s1, ms r_addr (h ++ r2) s r1 s1 (Some j) /\ after j r1 s1 m.
Proof.
  intros F H LC. destruct bare.
  - destruct H as [BU ->]. pose proof (bare_parts _ _ BU) as (c & sch & e & w & E & C & S & D & W).
    set (s0 := put_addr (Some fresh_addr) (put_mark (h ++ r2) s)). exists (put_addr (Some (auri u fresh_addr)) s0). split; [reflexivity|]. split; [exact F|]. split; [reflexivity|].
    intros r3 s3 j2 m G AT A. exists (Back 229), (B ":" ++ e :: w ++ r2), s0. split.
    + unfold r_addr. apply b_alt. right. apply b_alt. right. apply b_do. eexists. split; [reflexivity|]. rewrite E. cbn [app]. rewrite <- !app_assoc.
      apply (b_clsx cap k_alph alpha_class); [reflexivity|exact kc_alph|]. eexists _, _. split; [reflexivity|]. split; [assumption|].
      apply (b_runx cap k_schm scheme_class); [reflexivity|exact kc_schm|]. exists sch, (B ":" ++ e :: w ++ r2). split; [reflexivity|]. split; [assumption|]. apply b_do. exists s0.
      split; [unfold s0; rewrite E; cbn [app]; rewrite <- !app_assoc; reflexivity|]. apply b_jmp. split; [reflexivity|]. split; [reflexivity|]. split; [reflexivity|]. exists 58%N. split; reflexivity.
    + unfold after. cbn [jump]. change (m_mark s0) with (h ++ r2). apply (reach_at cap 229 r_addr_uri); [exact in_addr_uri|]. exists j2, r3, s3. split; [|exact A].
      eapply bare_bwd; [reflexivity|reflexivity|exact BU|exact G|exact AT].
  - pose proof H as H0. destruct H as (dt & x & w & E & D & U & W).
    assert (ANG : forall s4, m_addr s4 = Some fresh_addr -> m_addrp s4 = Some f -> core s4 = core s ->
      exists s2, m_addr s2 = Some (a0 u d) /\ m_addrp s2 = Some f /\ core s2 = core s /\ forall r3 s3 j2 m, goes false [] r2 s2 r3 s3 (Some j2) -> j2 = Go 280 \/ at_addr r3 -> after j2 r3 s3 m -> reach 188 (h ++ r2) s4 m).
    { intros s4 V4 F4 C4. destruct (angled_bwd h u d r2 s4 V4 H0 LC) as (s2 & V2 & P2 & C2 & K). exists s2. split; [assumption|]. split; [congruence|]. split; [congruence|].
      intros r3 s3 j2 m G AT A. apply (reach_at cap 188 r_angled); [exact in_angled|]. exists j2, r3, s3. auto. }
    assert (DIR : (exists c t, h ++ r2 = c :: t /\ (c = DQ \/ c = "<"%byte)) \/ exists d l t, h ++ r2 = d ++ l ++ B "<" ++ t /\ words d /\ lws l).
    { subst h. destruct D as [[-> ->]|[(q & w0 & -> & Q & W0)|(l & -> & Wd & L)]]; [left; eexists _, _; split; [reflexivity|auto]|left; eexists _, _; split; [reflexivity|auto]|].
      right. exists d, l. eexists. rewrite <- !app_assoc. split; [reflexivity|auto]. }
    destruct DIR as [(c & t & E2 & C)|(d2 & l & t & E2 & Wd & L)].
    + destruct (ANG (put_addr (Some fresh_addr) s) eq_refl F eq_refl) as (s2 & V2 & P2 & C2 & K). exists s2. split; [assumption|]. split; [assumption|]. split; [assumption|].
      intros r3 s3 j2 m G AT A. exists (Hold 188), (h ++ r2), (put_addr (Some fresh_addr) s). split; [|unfold after; cbn [jump]; eauto]. unfold r_addr. apply b_alt. left. apply b_do. eexists.
      split; [reflexivity|]. apply b_jmp. split; [reflexivity|]. split; [reflexivity|]. split; [reflexivity|]. rewrite E2. destruct C as [->| ->]; eexists; (split; [apply look_plain; discriminate|reflexivity]).
    + set (s4 := put_addr (Some fresh_addr) (put_mark (h ++ r2) s)). destruct (ANG s4 eq_refl F eq_refl) as (s2 & V2 & P2 & C2 & K).
      exists s2. split; [assumption|]. split; [assumption|]. split; [assumption|]. intros r3 s3 j2 m G AT A. exists (Back 188), (B "<" ++ t), s4. split.
      * unfold r_addr. apply b_alt. right. apply b_alt. left. apply b_do. eexists. split; [reflexivity|]. apply words_reads. exists d2, l, (B "<" ++ t). split; [exact E2|]. split; [assumption|]. split; [assumption|].
        apply b_do. exists s4. split; [reflexivity|]. apply b_jmp. split; [reflexivity|]. split; [reflexivity|]. split; [reflexivity|]. exists 60%N. split; reflexivity.
      * unfold after. cbn [jump]. change (m_mark s4) with (h ++ r2). eauto.
Qed.
Lemma addr_fwd_all N : addr_fwd N.
Proof.
  induction N as [|N IH]; intros r f L; [lia|]. assert (LN : (length r <= N)%nat) by lia. clear L. split.
  - intros s m F H. apply (reach_at cap 256 r_addr) in H; [|exact in_addr]. destruct H as (j & r1 & s1 & H & K).
    destruct (head_fwd r s j r1 s1 m f F H K) as (bare & h & u & d & r2 & s2 & r3 & s3 & j2 & -> & HD & V2 & P2 & C2 & G & A).
    assert (LT : (length r2 <= N)%nat) by (rewrite !app_length in LN; lia).
    destruct (addr_tail_fwd N bare [] r2 s2 s2 (a0 u d) f r3 s3 j2 m IH LT (fun x => eq_refl) V2 P2 G A) as (t & r4 & s4 & -> & (l & AR & D) & SB & R).
    exists (h ++ t), r4, s4. rewrite <- !app_assoc. split; [reflexivity|]. split; [|auto]. exists l. split; [|congruence]. apply addr_list_rest. exists bare, h, u, d, t. auto.
  - intros s a m F V H. eapply apar_fwd; eassumption.
Qed.
Lemma addr_bwd_all N : addr_bwd N.
Proof.
  induction N as [|N IH]; intros t r2 f L LC SB; [lia|]. assert (LN : (length t <= N)%nat) by lia. clear L. split.
  - intros s l F H. apply addr_list_rest in H. destruct H as (bare & h & u & d & t' & -> & HD & AR).
    assert (LH : (length h <= cap)%nat) by (rewrite !app_length in LC; lia).
    destruct (head_bwd bare h u d (t' ++ CRLF ++ r2) s f F HD LH) as (s1 & V1 & P1 & C1 & K1).
    edestruct (addr_tail_bwd N bare [] t' r2 s1 s1 (a0 u d) f l IH) as (s2 & C2 & K2); try eassumption; try reflexivity.
    { rewrite !app_length in LN. lia. } { rewrite !app_length in LC. rewrite !app_length. lia. }
    exists s2. split; [congruence|]. intros m R. apply K2 in R. destruct R as (j & r3 & s3 & G & AT & A). apply (reach_at cap 256 r_addr); [exact in_addr|]. rewrite <- !app_assoc. eapply K1; eassumption.
  - intros s a l F V H. eapply apar_bwd; eassumption.
Qed.
End Cap.
