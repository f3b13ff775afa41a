(** C85: the port of an RTP session. *)
From Verif Require Import Bytes BytesLemmas GoLib GoLibLemmas DialogMsg P_DialogMsg ListenModel.
Local Open Scope Z_scope.

(** ** Specification *)
(** a port RTP may use (RFC 3550: even), of the range the documentation names *)
Definition rtp_port (p : Z) : Prop := 16384 <= p <= 32768 /\ Z.even p = true.
(** the error says so *)
Definition taken (e : option bytes) : Prop := exists a b, e = Some (a ++ B "address already in use" ++ b).

(** ** Proofs *)
Lemma contains_spec t s : contains s t = true <-> exists a b, s = a ++ t ++ b.
Proof.
  induction s as [|c s IH].
  - cbn [contains]. rewrite orb_false_r. split; [intros H; exists []; eexists; exact (has_prefix_split _ _ H)|]. intros (a & b & E). destruct a; [|discriminate]. cbn [app] in E. rewrite E. apply has_prefix_app.
  - cbn [contains]. rewrite orb_true_iff, IH. split.
    + intros [H|(a & b & ->)]; [exists []; eexists; exact (has_prefix_split _ _ H)|exists (c :: a), b; reflexivity].
    + intros ([|x a] & b & E); [left; cbn [app] in E; rewrite E; apply has_prefix_app|right]. injection E as <- E. eauto.
Qed.
Lemma contains_byte_spec s : contains s (B ":") = true <-> In ":"%byte s.
Proof. rewrite contains_spec. split; [intros (a & b & ->); apply in_or_app; right; left; reflexivity|intros H; apply in_split in H; destruct H as (a & b & ->); exists a, b; reflexivity]. Qed.
Lemma port_ok_draw r : rtp_port (bind_port r).
Proof.
  unfold bind_port, rtp_port, rtpBindPortMin, rtpBindPortMax. cbv zeta. change (32768 - 16384 + 1) with 16385. pose proof (Z.mod_pos_bound r 16385 ltac:(lia)) as H. set (q := r mod 16385) in *. clearbody q.
  destruct (Z.eqb_spec ((16384 + q) mod 2) 1) as [E|E]; rewrite Zeven_mod; unfold Zeq_bool; [|].
  - split; [|replace ((16384 + q - 1) mod 2) with 0; [reflexivity|]; rewrite Zminus_mod, E; reflexivity].
    assert (q <> 0) by (intros ->; discriminate E). lia.
  - pose proof (Z.mod_pos_bound (16384 + q) 2 ltac:(lia)). split; [lia|]. replace ((16384 + q) mod 2) with 0 by lia. reflexivity.
Qed.
Lemma taken_iff e : taken e <-> match e with None => true | Some e => negb (contains e (B "address already in use")) end = false.
Proof.
  unfold taken. destruct e as [e|]; [|split; [intros (a & b & H); discriminate|discriminate]]. rewrite negb_false_iff, contains_spec. split; [intros (a & b & E); injection E as ->|intros (a & b & ->)]; exists a, b; reflexivity.
Qed.
Lemma loop_spec host draw o n : forall i err, n <> O -> exists ports, ports <> [] /\ (length ports <= n)%nat /\ Forall rtp_port ports /\
  fst (bind_loop host draw o n i err) = map (fun p => host_port host (itoa p)) ports /\
  (forall k, (S k < length ports)%nat -> taken (o (i + k)%nat (nth k (map (fun p => host_port host (itoa p)) ports) []))) /\
  snd (bind_loop host draw o n i err) = o (i + (length ports - 1))%nat (nth (length ports - 1) (map (fun p => host_port host (itoa p)) ports) []) /\
  (taken (snd (bind_loop host draw o n i err)) -> length ports = n).
Proof.
  induction n as [|n IH]; intros i err N; [congruence|]. cbn [bind_loop]. cbv zeta. rewrite joined. set (p := bind_port (draw i)). assert (P : rtp_port p) by apply port_ok_draw. clearbody p. set (a := host_port host (itoa p)). destruct (match o i a with None => true | Some e => negb (contains e (B "address already in use")) end) eqn:E.
  - exists [p]. split; [discriminate|]. split; [cbn; lia|]. split; [repeat constructor; apply P|]. split; [reflexivity|]. split; [cbn; intros; lia|]. cbn [length Nat.sub map nth snd]. rewrite Nat.add_0_r. split; [reflexivity|].
    intros H. apply taken_iff in H. congruence.
  - assert (T : taken (o i a)) by (apply taken_iff; exact E). destruct n as [|n].
    + cbn [bind_loop]. exists [p]. split; [discriminate|]. split; [cbn; lia|]. split; [repeat constructor; apply P|]. split; [reflexivity|]. split; [cbn; intros; lia|]. cbn [length Nat.sub map nth snd]. rewrite Nat.add_0_r. split; reflexivity.
    + destruct (IH (S i) (o i a) ltac:(congruence)) as (ports & Q1 & Q2 & Q3 & Q4 & Q5 & Q6 & Q7). destruct (bind_loop host draw o (S n) (S i) (o i a)) as [l e]. cbn [fst snd] in *. exists (p :: ports).
      split; [discriminate|]. split; [cbn; lia|]. split; [constructor; assumption|]. split; [cbn [map]; rewrite Q4; reflexivity|]. destruct ports as [|p1 ports]; [congruence|]. split; [|split].
      * intros [|k] K; cbn [map nth]; [rewrite Nat.add_0_r; exact T|]. replace (i + S k)%nat with (S i + k)%nat by lia. apply Q5. cbn [length] in *. lia.
      * rewrite Q6. cbn [length Nat.sub map nth]. rewrite Nat.sub_0_r. f_equal. lia.
      * intros H. apply Q7 in H. cbn [length] in *. lia.
Qed.

(** ** Theorems *)
(** For a host name or IPv4 address (or none), Listen tries between one and ten addresses of that host, each with an even port of the range;
    every one but the last was taken, its result is that of the last, and only after ten attempts does it report that the address is taken. So no
    more than one socket is opened, and none is open when it fails. *)
Theorem listen_attempts : forall host draw o, ~ In ":"%byte host -> exists ports, (1 <= length ports <= 10)%nat /\ Forall rtp_port ports /\
  let tried := map (fun p => host ++ B ":" ++ itoa p) ports in
  fst (Listen host draw o) = tried /\ (forall k, (S k < length ports)%nat -> taken (o k (nth k tried []))) /\
  snd (Listen host draw o) = o (length ports - 1)%nat (last tried []) /\ (taken (snd (Listen host draw o)) -> length ports = 10%nat).
Proof.
  intros host draw o N. unfold Listen. destruct (contains host (B ":")) eqn:C; [apply contains_byte_spec in C; contradiction|].
  destruct (loop_spec host draw o rtpBindMaxAttempts 0 None ltac:(discriminate)) as (ports & Q1 & Q2 & Q3 & Q4 & Q5 & Q6 & Q7). exists ports. cbv zeta.
  assert (E : forall p, host_port host p = host ++ B ":" ++ p). { intros p. unfold host_port. destruct (existsb (beq ":") host) eqn:X; [|reflexivity]. apply existsb_exists in X. destruct X as (x & I & X). destruct (beq_reflect ":" x) as [<-|]; [contradiction|discriminate]. }
  assert (M : map (fun p => host_port host (itoa p)) ports = map (fun p => host ++ B ":" ++ itoa p) ports) by (apply map_ext; intros p; apply E). rewrite M in *. cbn [Nat.add] in *.
  split; [change rtpBindMaxAttempts with 10%nat in Q2; destruct ports; [congruence|cbn [length] in *; lia]|]. split; [exact Q3|]. split; [exact Q4|]. split; [exact Q5|]. split; [|exact Q7].
  rewrite Q6. f_equal. destruct ports as [|p ports _] using rev_ind; [congruence|]. rewrite map_app, app_length. cbn [map length]. rewrite last_last, app_nth2; rewrite map_length; [|lia]. replace (length ports + 1 - 1 - length ports)%nat with O by lia. reflexivity.
Qed.
(** Every even port of the range can be drawn. *)
Theorem every_port : forall p, rtp_port p -> exists r, 0 <= r < 2 ^ 63 /\ forall host o, ~ In ":"%byte host -> hd [] (fst (Listen host (fun _ => r) o)) = host ++ B ":" ++ itoa p.
Proof.
  intros p (R & E). exists (p - 16384). split; [lia|]. intros host o N. unfold Listen. destruct (contains host (B ":")) eqn:C; [apply contains_byte_spec in C; contradiction|].
  assert (BP : bind_port (p - 16384) = p). { unfold bind_port, rtpBindPortMin, rtpBindPortMax. cbv zeta. change (32768 - 16384 + 1) with 16385. rewrite (Z.mod_small (p - 16384) 16385) by lia. replace (16384 + (p - 16384)) with p by lia. rewrite Zeven_mod in E. apply Zeq_bool_eq in E. rewrite E. reflexivity. }
  assert (HP : JoinHostPort host (itoa p) = host ++ B ":" ++ itoa p). { unfold JoinHostPort, contains_byte. destruct (existsb (beq ":") host) eqn:X; [|reflexivity]. apply existsb_exists in X. destruct X as (x & I & X). destruct (beq_reflect ":" x) as [<-|]; [contradiction|discriminate]. }
  change rtpBindMaxAttempts with (S 9). generalize 9%nat. intros n. cbn [bind_loop]. cbv zeta. rewrite BP, HP. match goal with |- context [if ?c then _ else _] => destruct c end; [reflexivity|]. match goal with |- context [bind_loop ?a ?b ?c ?d ?e ?f] => destruct (bind_loop a b c d e f) end. reflexivity.
Qed.
(** A host that contains a colon is taken for an address with a port, and tried once as it is ... *)
Theorem listen_given : forall host draw o, In ":"%byte host -> Listen host draw o = ([host], o O host).
Proof. intros host draw o I. unfold Listen. apply contains_byte_spec in I. rewrite I. reflexivity. Qed.
(** ... so an IPv6 address is given to the operating system without brackets and without a port, which no address with a port is. *)
Theorem ipv6_host_refuted : forall draw o, fst (Listen (B "::1") draw o) = [B "::1"] /\ forall host p, 0 <= p -> B "::1" <> host_port host (itoa p).
Proof.
  intros draw o. split; [reflexivity|]. intros host p P. unfold host_port. destruct (existsb (beq ":") host) eqn:X; [discriminate|]. destruct host as [|c host].
  - cbn [app]. intros H. injection H as H. assert (D : forallb is_digit (itoa p) = true). { unfold itoa. destruct (Z.ltb_spec p 0); [lia|]. apply utoa_digits. lia. } rewrite <- H in D. discriminate D.
  - cbn [app]. intros H. injection H as <- H. discriminate X.
Qed.

(** Two ports are taken, the third is free *)
Example listen_example : let o : os := fun i a => if Nat.ltb i 2 then Some (B "listen udp :16384: bind: address already in use") else None in
  ~ In ":"%byte (B "1.2.3.4") /\ Listen (B "1.2.3.4") (fun i => Z.of_nat i * 3) o = ([B "1.2.3.4:16384"; B "1.2.3.4:16386"; B "1.2.3.4:16390"], None).
Proof. cbv zeta. split; [intros H; cbn in H; repeat destruct H as [H|H]; try discriminate; contradiction|vm_compute; reflexivity]. Qed.
