(** Where ParseMsg says a packet is wrong: the position of the error depends on the packet up to there (and the two bytes the parser
    looks ahead) only. Lemmas for P_MsgError.v. *)
From Verif Require Import Bytes BytesLemmas GoLib Auto AutoRe SdpModel SipText SipTypes UriTable UriModel MsgTable MsgModel MsgSafe.
From Coq Require Import FMapPositive.
Local Open Scope nat_scope.

Notation mrun cap := (run (msg_act cap) msg_look msg_row).
Definition pos_of (o : outcome mjump mst merr) : nat :=
  match o with OBad _ r _ | OExit _ r _ => length r | _ => 0 end.
Lemma run_len cap rest : forall s n, pos_of (mrun cap rest s n) <= length rest.
Proof.
  induction rest as [|c rest IH]; intros s n; cbn [run pos_of length]; [lia|].
  destruct (msg_look (c :: rest)); cbn [pos_of]; [|lia]. destruct (find_row _ _) as [[o nx]|]; cbn [pos_of length]; [|lia].
  destruct (acts _ _ _ _); cbn [pos_of]; [|lia]. destruct nx; cbn [pos_of length]; [|lia]. specialize (IH m n1). lia.
Qed.

(** ** Going back to the mark: what was read is read again without an error *)
Definition in_back (n : positive) : bool := ((257 <=? n) && (n <=? 262))%positive.
Definition mir (n : positive) : positive :=
  match n with 257 => 213 | 258 => 214 | 259 => 215 | 260 => 216 | 261 => 217 | _ => 213 end%positive.
Definition no_act (o : list mact) : bool := match o with [] => true | _ => false end.
Definition one_mark (o : list mact) : bool := match o with [MMark] => true | _ => false end.
Definition adv_to (n : positive) (k : N) (p : list mact -> bool) (m : positive) : bool :=
  match find_row (msg_row n) k with Some (o, Adv t) => p o && Pos.eqb t m | _ => false end.
Definition back_ok (n : positive) : bool :=
  forallb (fun k => match find_row (msg_row n) k with
    | Some (o, Adv m) =>
      if in_back m then
        (Pos.eqb n 256 && one_mark o && adv_to 188 k one_mark (mir m) && (negb (Pos.eqb m 262) || adv_to 229 k no_act 230))
        || (in_back n && no_act o && adv_to (mir n) k (fun _ => true) (mir m) && (negb (Pos.eqb m 262) || (Pos.eqb n 262 && adv_to 230 k no_act 230)))
      else true
    | Some (o, Jump (Back j)) => in_back n && match o with [MAddrNew] => true | _ => false end && (Pos.eqb j 188 || (Pos.eqb j 229 && Pos.eqb n 262))
    | _ => true
    end) (map N.of_nat (seq 0 257)).
Lemma all_back_ok : forallb (fun x => back_ok (fst x)) (PositiveMap.elements msg_facts) = true.
Proof. vm_compute. reflexivity. Qed.
Lemma find_back_ok n f k : PositiveMap.find n msg_facts = Some f -> (k < 257)%N -> 
  match find_row (msg_row n) k with
  | Some (o, Adv m) => in_back m = true ->
      (n = 256%positive /\ o = [MMark] /\ find_row (msg_row 188) k = Some ([MMark], Adv (mir m)) /\ (m = 262%positive -> find_row (msg_row 229) k = Some ([], Adv 230%positive)))
      \/ (in_back n = true /\ o = [] /\ (exists o', find_row (msg_row (mir n)) k = Some (o', Adv (mir m))) /\
          (m = 262%positive -> n = 262%positive /\ find_row (msg_row 230) k = Some ([], Adv 230%positive)))
  | Some (o, Jump (Back j)) => in_back n = true /\ o = [MAddrNew] /\ (j = 188%positive \/ j = 229%positive /\ n = 262%positive)
  | _ => True
  end.
Proof.
  intros F K. pose proof all_back_ok as A. rewrite forallb_forall in A.
  apply PositiveMap.elements_correct in F. specialize (A _ F). cbn [fst] in A. unfold back_ok in A. rewrite forallb_forall in A.
  assert (I : In k (map N.of_nat (seq 0 257))).
  { apply in_map_iff. exists (N.to_nat k). split; [apply N2Nat.id|]. apply in_seq. lia. }
  specialize (A _ I). clear I F. 
  assert (ADV : forall n p m, adv_to n k p m = true -> exists o, find_row (msg_row n) k = Some (o, Adv m) /\ p o = true).
  { intros n0 p m. unfold adv_to. destruct (find_row (msg_row n0) k) as [[o [t|t]]|]; try discriminate. intros H. apply andb_prop in H.
    destruct H as [H1 H2]. apply Pos.eqb_eq in H2. subst t. eauto. }
  assert (NA : forall o, no_act o = true -> o = []) by (intros [|]; [reflexivity|discriminate]).
  assert (OM : forall o, one_mark o = true -> o = [MMark]) by (intros [|[] [|]]; try discriminate; reflexivity).
  destruct (find_row (msg_row n) k) as [[o [m|[j|j|j|]]]|]; try exact Logic.I.
  - intros B. rewrite B in A. apply orb_prop in A. destruct A as [A|A]; [left|right]; repeat (apply andb_prop in A; destruct A as [A ?]).
    + apply Pos.eqb_eq in A. apply OM in H1. apply ADV in H0. destruct H0 as (o1 & H0 & O1). apply OM in O1. subst.
      split; [reflexivity|]. split; [reflexivity|]. split; [exact H0|]. intros ->. rewrite Pos.eqb_refl in H; cbn [negb orb] in H. apply ADV in H. destruct H as (o2 & H & O2). apply NA in O2. subst. exact H.
    + apply NA in H1. apply ADV in H0. destruct H0 as (o1 & H0 & _). split; [unfold in_back; rewrite A, H2; reflexivity|]. split; [exact H1|]. split; [eauto|]. intros ->. rewrite Pos.eqb_refl in H; cbn [negb orb] in H.
      apply andb_prop in H. destruct H as [H3 H]. apply Pos.eqb_eq in H3. apply ADV in H. destruct H as (o2 & H & O2). apply NA in O2. subst. auto.
  - apply andb_prop in A. destruct A as [A H]. apply andb_prop in A. destruct A as [A H1]. split; [exact A|]. split; [destruct o as [|[] [|]]; try discriminate; reflexivity|].
    apply orb_prop in H. destruct H as [H|H]; [left; apply Pos.eqb_eq, H|right]. apply andb_prop in H. destruct H as [H3 H2]. apply Pos.eqb_eq in H3, H2. auto.
Qed.
Lemma look_small rest k : msg_look rest = Some k -> (k < 257)%N.
Proof.
  destruct rest as [|c r]; [discriminate|]. intros E. apply look_byte in E. destruct E as [->|[-> _]]; [|lia]. pose proof (Byte.to_N_bounded c). lia.
Qed.

(** in a state of the machine that decides between the two forms of an address: the states of the form chosen later, if it were
    read from the mark on *)
Definition again cap (s : mst) (j : positive) (rest : bytes) (t : positive) : Prop :=
  forall s2, (exists e, mrun cap (m_mark s) s2 j = OErr e) \/ (exists s3, mrun cap (m_mark s) s2 j = mrun cap rest s3 t).
Definition kept cap (n : positive) (rest : bytes) (s : mst) : Prop :=
  in_back n = true -> again cap s 188 rest (mir n) /\ (n = 262%positive -> again cap s 229 rest 230).
Definition far cap (o : outcome mjump mst merr) : Prop :=
  match o with OExit (Back j) r s => exists t, again cap s j r t | _ => True end.
Lemma again_step cap s j rest t c o t' k : again cap s j (c :: rest) t -> msg_look (c :: rest) = Some k -> find_row (msg_row t) k = Some (o, Adv t') -> again cap s j rest t'.
Proof.
  intros A LK FR s2. destruct (A s2) as [E|(s3 & E)]; [left; exact E|]. rewrite E. cbn [run]. rewrite LK, FR. 
  destruct (acts (msg_act cap) o (c :: rest) s3) as [s4|e]; [right; eauto|left; eauto].
Qed.
Lemma run_far D L rest : forall s n e, (length rest <= L)%nat -> home n = e -> at_state D L n rest s -> kept D n rest s -> far D (mrun D rest s n).
Proof.
  induction rest as [|c rest IH]; intros s n e LL HM (AL & f & F & H) KP; cbn [run]; [exact Logic.I|].
  destruct (msg_look (c :: rest)) as [k|] eqn:LK; [|exact Logic.I]. pose proof (find_back_ok n f k F (look_small _ _ LK)) as BK.
  destruct (find_facts n f F) as [FF OK].
  destruct (find_row (msg_row n) k) as [[o nx]|] eqn:FR; [|exact Logic.I].
  apply find_row_in in FR. destruct FR as (ks & I & K). rewrite forallb_forall in OK. specialize (OK _ I). unfold ok_entry in OK.
  rewrite <- mask_spec in K. destruct (xfer o (mask ks) f) as [f'|] eqn:X; [|discriminate].
  destruct (acts_sound D L o (mask ks) c rest k f f' s LK K LL AL H X) as [(s' & E & AL' & H')|(er & ->)]; [rewrite E|exact Logic.I].
  destruct nx as [n'|[n'|n'|n'|]]; try exact Logic.I.
  - apply andb_prop in OK. destruct OK as [O1 O2]. apply Pos.eqb_eq in O1. apply inv_at_find in O2. destruct O2 as (g & G & W).
    apply (IH s' n' e); [cbn in LL; lia|congruence| |].
    + split; [exact (always_adv _ _ _ _ AL')|]. exists g. split; [exact G|]. eapply sub_sound; [exact W|]. eapply adv_sound; eauto.
    + intros B. specialize (BK B). destruct BK as [(-> & -> & R1 & R2)|(B' & -> & (o' & R1) & R2)].
      * cbn [acts msg_act] in E. injection E as <-. split; [|intros ->; specialize (R2 eq_refl)]; intros s2; right; cbn [m_mark put_mark run]; rewrite LK.
        -- rewrite R1. cbn [acts msg_act]. eauto.
        -- rewrite R2. cbn [acts]. eauto.
      * cbn [acts] in E. injection E as <-. specialize (KP B'). destruct KP as [K1 K2]. split; [exact (again_step _ _ _ _ _ _ _ _ _ K1 LK R1)|].
        intros E'. destruct (R2 E') as [-> R3]. specialize (K2 eq_refl). exact (again_step _ _ _ _ _ _ _ _ _ K2 LK R3).
  - destruct BK as (B & -> & J). cbn [acts msg_act] in E. injection E as <-. specialize (KP B). destruct KP as [K1 K2]. cbn [far].
    destruct J as [->|[-> ->]]; [exists (mir n)|exists 230%positive].
    + exact K1.
    + exact (K2 eq_refl).
Qed.

(** ** The whole parse: the position of an error is not before what has been read *)
Definition after (cap f : nat) (o : outcome mjump mst merr) : mresult :=
  match o with
  | OEof m s' => if (m <? msg_first_final)%positive then MErr EIncomplete else msg_finish [] s'
  | OBad _ r _ => MErr (EParse (cap - length r))
  | OErr MPanic => MPanics
  | OErr (MReturn e) => MErr (EUri e)
  | OExit Done r s' => msg_finish (tl r) s'
  | OExit (Go m) r s' => msg_drive cap f (tl r) s' m
  | OExit (Hold m) r s' => msg_drive cap f r s' m
  | OExit (Back m) r s' => msg_drive cap f (m_mark s') s' m
  end.
Lemma drive_after cap f rest s n : msg_drive cap (S f) rest s n = after cap f (mrun cap rest s n).
Proof. reflexivity. Qed.
Lemma finish_no_parse rest s off : msg_finish rest s <> MErr (EParse off).
Proof.
  unfold msg_finish. destruct (0 <? m_clen s)%Z; [|discriminate]. destruct (negb _); [discriminate|]. destruct (bseq _ _); [|discriminate].
  destruct (sdp_parse rest) as [[p|e]|]; discriminate.
Qed.
Lemma home_not_back n : home n = n -> in_back n = false.
Proof. unfold home, in_back. intros E. repeat match type of E with context[(?a <? ?b)%positive] => destruct (Pos.ltb_spec a b) end;
  repeat match type of E with context[(?a =? ?b)%positive] => destruct (Pos.eqb_spec a b) end; destruct (Pos.leb_spec 257 n), (Pos.leb_spec n 262); cbn [andb]; try reflexivity; lia. Qed.
Lemma after_far D f : forall L e o off, run_ok D L e o -> far D o -> after D f o = MErr (EParse off) ->
  exists r : bytes, off = D - length r /\ r <> [] /\ length r <= D /\ length r <= pos_of o.
Proof.
  assert (DR : forall f, (forall L e o off, run_ok D L e o -> far D o -> after D f o = MErr (EParse off) -> exists r : bytes, off = D - length r /\ r <> [] /\ length r <= D /\ length r <= pos_of o) ->
    forall rest s n off, home n = n -> (forall L', at_state D L' n rest s) -> msg_drive D (S f) rest s n = MErr (EParse off) -> exists r : bytes, off = D - length r /\ r <> [] /\ length r <= D /\ length r <= pos_of (mrun D rest s n)).
  { intros f0 IH rest s n off HM AT E. rewrite drive_after in E. pose proof (run_sound D (length rest) rest s n n (le_n _) HM (AT _)) as R.
    assert (FR : far D (mrun D rest s n)). { apply (run_far D (length rest) rest s n n); auto. intros B. rewrite (home_not_back _ HM) in B. discriminate. }
    exact (IH _ _ _ _ R FR E). }
  induction f as [|f IH]; intros L e o off R FR E; destruct o as [m s'|m r s'|[m|m|m|] r s'|[|er]]; cbn [after run_ok far pos_of] in *; try discriminate E.
  all: try (destruct (m <? msg_first_final)%positive; [discriminate E|]).
  all: try (destruct (finish_no_parse _ _ _ E)).
  all: try (injection E as <-; exists r; destruct R; auto; fail).
  - destruct R as (N & LL & H1 & H2). destruct (DR f IH _ _ _ _ H1 H2 E) as (r2 & A & B & C & P). exists r2. split; [exact A|]. split; [exact B|]. split; [exact C|].
    pose proof (run_len D (tl r) s' m). destruct r; cbn [tl length] in *; [congruence|lia].
  - destruct R as (H1 & _ & H2). destruct (DR f IH _ _ _ _ H1 H2 E) as (r2 & A & B & C & P). exists r2. split; [exact A|]. split; [exact B|]. split; [exact C|].
    pose proof (run_len D r s' m). lia.
  - destruct R as (H1 & _ & _ & H2). destruct (DR f IH _ _ _ _ H1 H2 E) as (r2 & A & B & C & P). exists r2. split; [exact A|]. split; [exact B|]. split; [exact C|].
    destruct FR as (t & AG). destruct (AG s') as [(er & Er)|(s3 & Er)]; rewrite Er in P; cbn [pos_of] in P; [destruct r2; [congruence|cbn in P; lia]|].
    pose proof (run_len D r s3 t). lia.
Qed.

(** ** Two packets with the same beginning are parsed in the same way *)
Definition like (x x' : bytes) (s s' : mst) : Prop := exists w, m_mark s = w ++ x /\ s' = put_mark (w ++ x') s.
Definition like_out (x x' : bytes) (o o' : mst + merr) : Prop :=
  o' = inr MPanic \/ match o with inl s => exists s', o' = inl s' /\ like x x' s s' | inr e => o = inr MPanic \/ o' = inr e end.
Lemma like_slice d c q x x' w s k k' : m_mark s = w ++ x ->
  (forall b, like_out x x' (k b) (k' b)) -> like_out x x' (mslice d ((c :: q) ++ x) s k) (mslice d ((c :: q) ++ x') (put_mark (w ++ x') s) k').
Proof.
  intros M K. unfold mslice. cbn [m_mark put_mark]. rewrite M, !app_length.
  destruct (Nat.leb_spec (length (c :: q) + length x + d) (length w + length x)) as [H|H];
  destruct (Nat.leb_spec (length (c :: q) + length x' + d) (length w + length x')) as [H'|H']; try lia; [|left; reflexivity].
  replace (firstn (length w + length x - (length (c :: q) + length x + d)) (w ++ x)) with (firstn (length w - length (c :: q) - d) w).
  2:{ rewrite firstn_app. replace (_ - length w) with 0 by lia. cbn [firstn]. rewrite app_nil_r. f_equal. lia. }
  replace (firstn (length w + length x' - (length (c :: q) + length x' + d)) (w ++ x')) with (firstn (length w - length (c :: q) - d) w).
  2:{ rewrite firstn_app. replace (_ - length w) with 0 by lia. cbn [firstn]. rewrite app_nil_r. f_equal. lia. }
  apply K.
Qed.
Lemma like_uri x x' b k k' : (forall u, like_out x x' (k u) (k' u)) -> like_out x x' (call_uri b k) (call_uri b k').
Proof. intros K. unfold call_uri. destruct (parse_uri b); [apply K| |left; reflexivity]. right. right. reflexivity. Qed.
Lemma like_ok x x' w s : m_mark s = w ++ x -> like_out x x' (inl s) (inl (put_mark (w ++ x') s)).
Proof. intros M. right. exists (put_mark (w ++ x') s). split; [reflexivity|]. exists w. auto. Qed.
Lemma like_put cap cap' c x x' w s : m_mark s = w ++ x -> like_out x x' (mput cap c s) (mput cap' c (put_mark (w ++ x') s)).
Proof.
  intros M. unfold mput. cbn [m_buf put_mark]. destruct (Nat.ltb _ cap'); [|left; reflexivity]. destruct (Nat.ltb _ cap); [|right; left; reflexivity].
  exact (like_ok x x' w (put_buf (m_buf s ++ [c]) s) M).
Qed.
Lemma like_act cap cap' a c q x x' s s' : like x x' s s' -> like_out x x' (msg_act cap a ((c :: q) ++ x) s) (msg_act cap' a ((c :: q) ++ x') s').
Proof.
  intros (w & M & ->).
  assert (KV : forall k k', (forall v, like_out x x' (k v) (k' v)) -> like_out x x' (on_via s k) (on_via (put_mark (w ++ x') s) k')).
  { intros k k' K. unfold on_via. cbn [m_via put_mark]. destruct (m_via s); [apply K|left; reflexivity]. }
  assert (KA : forall k k', (forall v, like_out x x' (k v) (k' v)) -> like_out x x' (on_addr s k) (on_addr (put_mark (w ++ x') s) k')).
  { intros k k' K. unfold on_addr. cbn [m_addr put_mark]. destruct (m_addr s); [apply K|left; reflexivity]. }
  destruct a; cbn [msg_act m_msg m_hex m_name m_buf m_clen put_mark mfc app].
  all: repeat first [apply KV; intros | apply KA; intros | apply (like_slice _ c q x x' w s _ _ M); intros | apply like_uri; intros].
  all: unfold set_v.
  all: try match goal with |- like_out _ _ (inl ?z) (inl _) => exact (like_ok x x' w z M) end.
  - right. eexists. split; [reflexivity|]. exists (c :: q). split; reflexivity.
  - exact (like_put cap cap' _ x x' w s M).
  - exact (like_put cap cap' _ x x' w (put_hex _ s) M).
  - cbn [m_val put_mark]. destruct (m_val s); match goal with |- like_out _ _ (inl ?z) (inl _) => exact (like_ok x x' w z M) end.
  - cbn [m_addrp put_mark]. destruct (m_addrp s); [|left; reflexivity]. match goal with |- like_out _ _ (inl ?z) (inl _) => exact (like_ok x x' w z M) end.
Qed.
Lemma like_acts cap cap' o c q x x' : forall s s', like x x' s s' -> like_out x x' (acts (msg_act cap) o ((c :: q) ++ x) s) (acts (msg_act cap') o ((c :: q) ++ x') s').
Proof.
  induction o as [|a o IH]; intros s s' LK; cbn [acts].
  - destruct LK as (w & M & ->). exact (like_ok _ _ _ _ M).
  - destruct (like_act cap cap' a c q x x' s s' LK) as [->|A]; [left; reflexivity|].
    destruct (msg_act cap a ((c :: q) ++ x) s) as [s1|e].
    + destruct A as (s1' & -> & LK1). apply IH, LK1.
    + destruct A as [A| ->]; [injection A as ->; right; left; reflexivity|]. right. right. reflexivity.
Qed.
Lemma like_look q x x' : 3 <= length q -> msg_look (q ++ x) = msg_look (q ++ x').
Proof. destruct q as [|a [|b [|c q]]]; cbn [length]; try lia. reflexivity. Qed.
Definition like_ends x x' (o o' : outcome mjump mst merr) : Prop :=
  match o with
  | OBad m r s => exists q s', r = q ++ x /\ like x x' s s' /\ o' = OBad m (q ++ x') s'
  | OExit j r s => exists q s', r = q ++ x /\ like x x' s s' /\ o' = OExit j (q ++ x') s'
  | _ => True
  end.
Lemma like_run cap cap' x x' q : forall s s' n, like x x' s s' -> length x + 3 <= pos_of (mrun cap (q ++ x) s n) ->
  mrun cap' (q ++ x') s' n = OErr MPanic \/ like_ends x x' (mrun cap (q ++ x) s n) (mrun cap' (q ++ x') s' n).
Proof.
  induction q as [|c q IH]; intros s s' n LK P; [cbn [app] in *; pose proof (run_len cap x s n); lia|]. pose proof (run_len cap ((c :: q) ++ x) s n) as LN. 
  rewrite app_length in LN. assert (Q : 3 <= length (c :: q)) by lia. 
  pose proof (like_look _ x x' Q) as LO. rewrite <- !app_comm_cons in *. cbn [run] in *. rewrite <- LO.
  destruct (msg_look (c :: q ++ x)) as [k|] eqn:E; [|cbn [pos_of] in P; lia].
  destruct (find_row (msg_row n) k) as [[o nx]|].
  2:{ right. exists (c :: q), s'. auto. }
  destruct (like_acts cap cap' o c q x x' s s' LK) as [A|A]; rewrite <- !app_comm_cons in A.
  { rewrite A. left. reflexivity. }
  destruct (acts (msg_act cap) o (c :: q ++ x) s) as [s1|e]; [|cbn [pos_of] in P; lia].
  destruct A as (s1' & -> & LK1). destruct nx as [m|j]; [apply IH; auto|].
  right. exists (c :: q), s1'. auto.
Qed.
Lemma like_drive D D' x x' f : forall f' q s s' n off, home n = n -> at_state D (length (q ++ x)) n (q ++ x) s -> like x x' s s' ->
  msg_drive D f (q ++ x) s n = MErr (EParse off) -> off + length x + 3 <= D -> length x < D ->
  msg_drive D' f' (q ++ x') s' n = MPanics \/ msg_drive D' f' (q ++ x') s' n = MFuel \/
  exists q2 : bytes, off = D - (length q2 + length x) /\ length q2 + length x <= D /\ msg_drive D' f' (q ++ x') s' n = MErr (EParse (D' - (length q2 + length x'))).
Proof.
  induction f as [|f IH]; intros f' q s s' n off HM AT LK E P1 P2; [discriminate E|]. destruct f' as [|f']; [right; left; reflexivity|].
  rewrite drive_after in *. pose proof (run_sound D (length (q ++ x)) (q ++ x) s n n (le_n _) HM AT) as R.
  assert (FR : far D (mrun D (q ++ x) s n)). { apply (run_far D (length (q ++ x)) (q ++ x) s n n); auto. intros B. rewrite (home_not_back _ HM) in B. discriminate. }
  destruct (after_far _ _ _ _ _ _ R FR E) as (r & O & N & RD & RP).
  assert (P : length x + 3 <= pos_of (mrun D (q ++ x) s n)) by lia.
  destruct (like_run D D' x x' q s s' n LK P) as [EE|EE]; [rewrite EE; left; reflexivity|].
  destruct (mrun D (q ++ x) s n) as [m s1|m r1 s1|[m|m|m|] r1 s1|er]; cbn [pos_of] in P; try lia; cbn [like_ends] in EE.
  - destruct EE as (q2 & s1' & -> & _ & ->). right. right. exists q2. cbn [after] in *. injection E as <-. rewrite !app_length in *.
    split; [reflexivity|]. destruct R as [_ R]. rewrite app_length in R. split; [exact R|reflexivity].
  - destruct EE as (q2 & s1' & -> & LK1 & ->). cbn [after run_ok] in *. destruct R as (_ & _ & H1 & H2).
    destruct q2 as [|c q2]; [cbn [app] in P; lia|]. cbn [app tl] in *. exact (IH f' q2 s1 s1' m off H1 (H2 _) LK1 E P1 P2).
  - destruct EE as (q2 & s1' & -> & LK1 & ->). cbn [after run_ok] in *. destruct R as (H1 & _ & H2). exact (IH f' q2 s1 s1' m off H1 (H2 _) LK1 E P1 P2).
  - destruct EE as (q2 & s1' & -> & LK1 & ->). cbn [after run_ok] in *. destruct R as (H1 & _ & _ & H2). 
    destruct LK1 as (w & M & ->). cbn [m_mark put_mark]. rewrite M in *. apply (IH f' w s1 (put_mark (w ++ x') s1) m off H1 (H2 _)); auto. exists w. auto.
  - destruct (finish_no_parse _ _ _ E).
Qed.
Theorem parse_like p x x' off : parse_msg (p ++ x) = MErr (EParse off) -> off + 3 <= length p -> parse_msg (p ++ x') = MErr (EParse off).
Proof.
  intros E P. unfold parse_msg in E. 
  assert (LK : like x x' (mst0 (p ++ x)) (mst0 (p ++ x'))) by (exists p; split; reflexivity).
  pose proof (parse_msg_sound (p ++ x')) as S. unfold parse_msg in *.
  destruct (like_drive (length (p ++ x)) (length (p ++ x')) x x' _ (msg_fuel (p ++ x')) p _ _ msg_en_main off eq_refl (start_at _ _ (le_n _)) LK E) as [F|[F|(q2 & O & Q & F)]].
  - rewrite app_length. lia.
  - rewrite app_length. lia.
  - rewrite F in S. destruct S.
  - rewrite F in S. destruct S.
  - rewrite F. f_equal. f_equal. rewrite app_length in *. lia.
Qed.
