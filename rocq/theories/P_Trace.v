(** C103: the trace of the datagrams determines them. *)
From Verif Require Import Bytes BytesLemmas GoLib GoLibLemmas TraceModel.
Local Open Scope Z_scope.

(** ** The specification: how a trace is read, without regard to what the datagrams contain *)
Record entry : Type := mkentry { en_dir : bytes; en_network : bytes; en_address : bytes; en_packet : bytes }.
(** what is before the first [c], and what is after it *)
Definition upto (c : byte) (t : bytes) : option (bytes * bytes) := match index_byte c t with Some n => Some (firstn n t, skipn (S n) t) | None => None end.
(** [t] after the text [p] it begins with *)
Definition after (p t : bytes) : option bytes := if has_prefix t p then Some (skipn (length p) t) else None.
(** [n] bytes, and what is after them *)
Definition take (n : nat) (t : bytes) : option (bytes * bytes) := if Nat.leb n (length t) then Some (firstn n t, skipn n t) else None.
Definition dashes : bytes := B "------------------------------------------------------------------------".
Notation "'try' p <- a ; b" := (match a with Some p => b | None => None end) (at level 200, p pattern).
(** the date and the time; the direction, the size, the address; a bar; as many bytes as the size says; a line break if they do not end with one; a bar *)
Definition read_entry (t : bytes) : option (entry * bytes) :=
  try (_, t) <- take 20 t;
  try (dir, t) <- upto " " t;
  try (size, t) <- upto " " t;
  try n <- atoi size;
  try t <- after (B "bytes from ") t;
  try (network, t) <- upto "/" t;
  try (address, t) <- upto CR t;
  try t <- after [LF] t;
  try t <- after (dashes ++ CRLF) t;
  try (pkt, t) <- take (Z.to_nat n) t;
  try t <- (if beq (last pkt x00) LF then Some t else after CRLF t);
  try t <- after (dashes ++ CRLF) t;
  Some (mkentry dir network address pkt, t).

(** the address of a UDP socket, the network "udp", the directions "send" and "recv" are such; a datagram has a size *)
Definition entry_ok (e : entry) : Prop := free_of " " (en_dir e) = true /\ free_of "/" (en_network e) = true /\ free_of CR (en_address e) = true /\ Z.of_nat (length (en_packet e)) < 2 ^ 63.
Definition entry_text (e : entry) : bytes := trace (en_dir e) (en_packet e) (en_network e) (en_address e).

Lemma upto_app c a b : free_of c a = true -> upto c (a ++ c :: b) = Some (a, b).
Proof.
  intros F. unfold upto. rewrite (index_byte_app c a b F). rewrite firstn_app, firstn_all, Nat.sub_diag. cbn [firstn]. rewrite app_nil_r.
  change (a ++ c :: b) with (a ++ [c] ++ b). rewrite app_assoc. replace (S (length a)) with (length (a ++ [c])) by (rewrite app_length; cbn; lia). rewrite skipn_app, skipn_all, Nat.sub_diag. reflexivity.
Qed.
Lemma after_app p t : after p (p ++ t) = Some t.
Proof. unfold after. rewrite has_prefix_app, skipn_app, skipn_all, Nat.sub_diag. reflexivity. Qed.
Lemma take_app a b n : length a = n -> take n (a ++ b) = Some (a, b).
Proof. intros <-. unfold take. rewrite app_length. replace (Nat.leb _ _) with true by (symmetry; apply Nat.leb_le; lia). rewrite firstn_app, firstn_all, skipn_app, skipn_all, Nat.sub_diag. cbn [firstn skipn app]. rewrite app_nil_r. reflexivity. Qed.
Lemma after_lf t : after [LF] (LF :: t) = Some t.
Proof. exact (after_app [LF] t). Qed.
Lemma bar_dashes : bar = dashes. Proof. reflexivity. Qed.
Lemma utoa_no_space n : 0 <= n -> free_of " " (utoa n) = true.
Proof. intros H. pose proof (utoa_digits n H) as D. apply (forallb_byte_impl is_digit (fun c => negb (beq c " "))); [vm_compute; reflexivity|exact D]. Qed.
Lemma logged_trace stamp d p n a : logged stamp (trace d p n a) = stamp ++ trace d p n a.
Proof.
  unfold logged. assert (E : exists x, trace d p n a = x ++ [LF]).
  { unfold trace. cbv zeta. rewrite !app_assoc. match goal with |- exists x, ?y ++ CRLF = _ => exists (y ++ [CR]) end. rewrite <- (app_assoc _ [CR]). reflexivity. }
  destruct E as [x E]. rewrite E at 2. rewrite rev_app_distr. cbn [rev app]. change (beq LF LF) with true. cbv iota. rewrite app_nil_r. reflexivity.
Qed.
(** What is read from a trace is what was sent or received, whatever the datagram contains. *)
Theorem trace_read_back : forall stamp e rest, length stamp = 20%nat -> entry_ok e -> read_entry (logged stamp (entry_text e) ++ rest) = Some (e, rest).
Proof.
  intros stamp [d n a p] rest LS (F1 & F2 & F3 & SZ). cbn [en_dir en_network en_address en_packet] in *. unfold entry_text. cbn [en_dir en_network en_address en_packet]. rewrite logged_trace. unfold read_entry.
  rewrite <- app_assoc, (take_app _ _ _ LS). unfold trace. rewrite itoa_nonneg by lia. rewrite <- !app_assoc. change (B " " ++ ?x) with (" "%byte :: x). rewrite (upto_app _ _ _ F1).
  change (B " bytes from " ++ ?x) with (" "%byte :: (B "bytes from " ++ x)). rewrite upto_app by (apply utoa_no_space; lia). rewrite atoi_utoa by lia. rewrite after_app.
  change (B "/" ++ ?x) with ("/"%byte :: x). rewrite (upto_app _ _ _ F2). change (CRLF ++ ?x) with (CR :: LF :: x) at 1. rewrite (upto_app _ _ _ F3).
  rewrite after_lf. rewrite bar_dashes, (app_assoc dashes CRLF), after_app.
  rewrite take_app by (symmetry; apply Nat2Z.id).
  assert (L : (match rev p with c :: _ => if beq c LF then [] else CRLF | [] => CRLF end) = if beq (last p x00) LF then [] else CRLF).
  { destruct p as [|x p _] using rev_ind; [reflexivity|]. rewrite rev_app_distr, last_last. reflexivity. }
  rewrite L. destruct (beq (last p x00) LF); cbv iota; [cbn [app]|]; rewrite ?after_app; rewrite (app_assoc dashes CRLF), after_app; reflexivity.
Qed.
(** So two different histories have different traces: no datagram can pass for several, or for another's. *)
Fixpoint trace_of (stamps : list bytes) (l : list entry) : bytes :=
  match stamps, l with st :: sl, e :: r => logged st (entry_text e) ++ trace_of sl r | _, _ => [] end.
Theorem trace_determines : forall s1 s2 l1 l2, length s1 = length l1 -> length s2 = length l2 -> Forall (fun s => length s = 20%nat) s1 -> Forall (fun s => length s = 20%nat) s2 ->
  Forall entry_ok l1 -> Forall entry_ok l2 -> trace_of s1 l1 = trace_of s2 l2 -> l1 = l2.
Proof.
  induction s1 as [|t1 s1 IH]; intros s2 [|e1 l1] l2 N1 N2 S1 S2 O1 O2 E; try discriminate N1.
  - destruct s2 as [|t2 s2], l2 as [|e2 l2]; try discriminate N2; [reflexivity|]. cbn [trace_of] in E. inversion S2; subst. inversion O2; subst. pose proof (trace_read_back t2 e2 (trace_of s2 l2)) as R. rewrite <- E in R.
    specialize (R ltac:(assumption) ltac:(assumption)). discriminate R.
  - destruct s2 as [|t2 s2], l2 as [|e2 l2]; try discriminate N2; cbn [trace_of] in E; inversion S1; subst; inversion O1; subst.
    + pose proof (trace_read_back t1 e1 (trace_of s1 l1)) as R. rewrite E in R. specialize (R ltac:(assumption) ltac:(assumption)). discriminate R.
    + inversion S2; subst. inversion O2; subst. pose proof (trace_read_back t1 e1 (trace_of s1 l1)) as R1. rewrite E in R1. rewrite trace_read_back in R1 by assumption. specialize (R1 ltac:(assumption) ltac:(assumption)).
      injection R1 as -> R1. f_equal. apply (IH s2); auto.
Qed.
(** Without counting it can be deceived: a datagram that contains the end of an entry and the beginning of another. *)
Definition ex_stamp : bytes := B "2020/01/02 03:04:05 ".
Definition ex_entry (p : bytes) : entry := mkentry (B "recv") (B "udp") (B "10.0.0.2:5060") p.
Example trace_example : length ex_stamp = 20%nat /\ entry_ok (ex_entry (B "hello")) /\ entry_ok (ex_entry (dashes ++ CRLF ++ ex_stamp ++ B "send 3 bytes from udp/a:1" ++ CRLF ++ dashes ++ CRLF ++ B "abc")) /\
  entry_text (ex_entry (B "hello")) = B "recv 5 bytes from udp/10.0.0.2:5060" ++ CRLF ++ dashes ++ CRLF ++ B "hello" ++ CRLF ++ dashes ++ CRLF /\
  entry_text (ex_entry (B "hi" ++ CRLF)) = B "recv 4 bytes from udp/10.0.0.2:5060" ++ CRLF ++ dashes ++ CRLF ++ B "hi" ++ CRLF ++ dashes ++ CRLF.
Proof. vm_compute. repeat split; reflexivity. Qed.
