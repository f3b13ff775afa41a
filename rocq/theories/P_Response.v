(** C45, exactly: where the response to a request goes, for every request and every sender. *)
From Verif Require Import Bytes BytesLemmas GoLib GoLibLemmas SdpModel SipText SipTypes SipAppend UtilModel P_Text P_Lists DialogMsg P_DialogMsg.
Local Open Scope Z_scope.

(** What a Via names: the host of its received parameter, and the port of its rport parameter when that has a value; in their
    absence the host and the port given. A port which is not a number is an error. *)
Definition named_by (v : via) (host : bytes) (port : Z) : bytes * Z + route_err :=
  let host := match value_of (B "received") (v_param v) with Some h => h | None => host end in
  match value_of (B "rport") (v_param v) with
  | Some (c :: x) => match atoi (c :: x) with Some i => inl (host, u16 i) | None => inr RPort end
  | _ => inl (host, port)
  end.

(** What reception does to the top Via. *)
Lemma received_via m v l ip port : status m <= 0 -> vias m = v :: l -> 0 <= port ->
  exists v2, addReceived m (ip, port) = Ok (set_vias (v2 :: l) m) /\ v_host v2 = v_host v /\ v_port v2 = v_port v /\
    (value_of (B "received") (v_param v2) = match value_of (B "received") (v_param v) with Some h => Some h | None => if bseq (v_host v) ip then None else Some ip end) /\
    (value_of (B "rport") (v_param v2) = if v_port v =? port then value_of (B "rport") (v_param v) else
       match value_of (B "rport") (v_param v) with Some (c :: x) => Some (c :: x) | _ => Some (itoa port) end).
Proof.
  intros S V P. unfold addReceived, IsResponse. replace (0 <? status m) with false by (symmetry; apply Z.ltb_ge; lia). rewrite V. cbn [fst snd].
  set (v1 := if v_port v =? port then v else _). set (v2 := if bseq (v_host v1) ip then v1 else _). exists v2. split; [reflexivity|].
  assert (H1 : v_host v1 = v_host v /\ v_port v1 = v_port v /\ value_of (B "received") (v_param v1) = value_of (B "received") (v_param v) /\
    value_of (B "rport") (v_param v1) = if v_port v =? port then value_of (B "rport") (v_param v) else
      match value_of (B "rport") (v_param v) with Some (c :: x) => Some (c :: x) | _ => Some (itoa port) end).
  { unfold v1. destruct (v_port v =? port); [auto|]. rewrite (value_get (B "rport") (v_param v)). destruct (param_get (v_param v) (B "rport")) as [[n [|c x]]|] eqn:G.
    - cbn [set_vparam v_host v_port v_param]. repeat split; auto.
      + apply value_set_other. apply fold_disjoint; [reflexivity|reflexivity|discriminate].
      + apply value_set. unfold value_of. rewrite G. discriminate.
    - repeat split; auto. rewrite value_get, G. reflexivity.
    - cbn [set_vparam v_host v_port v_param]. repeat split; auto. }
  destruct H1 as (HH & HP & HR & HX). clearbody v1. rewrite <- HR, <- HX, <- HH, <- HP. unfold v2. clear v2. destruct (bseq (v_host v1) ip) eqn:E.
  - repeat split; auto. destruct (value_of (B "received") (v_param v1)); reflexivity.
  - rewrite (value_get (B "received") (v_param v1)). destruct (param_get (v_param v1) (B "received")) as [[n x]|] eqn:G.
    + repeat split; auto. rewrite value_get, G. reflexivity.
    + cbn [set_vparam v_host v_port v_param]. repeat split; auto.
Qed.
Lemma route_named tvia tcontact m v l : 0 < status m -> vias m = v :: l -> via_CompareHostPort tvia (v :: l) = false ->
  RouteMessage tvia tcontact m = Ok (m, named_by v (v_host v) (v_port v)).
Proof.
  intros S V T. rewrite (route_response tvia tcontact m v l S V T). unfold named_by. cbv zeta. rewrite !value_get.
  destruct (param_get (v_param v) (B "received")) as [[? ?]|]; destruct (param_get (v_param v) (B "rport")) as [[? [|c x]]|]; try reflexivity; destruct (atoi (c :: x)); reflexivity.
Qed.

(** Every request, every sender, every status: unless the top Via of the request names our own address, the response goes to the
    address which that Via names, and to the sender's for what it does not name. When it does name our own address, it is removed
    and the response goes to the address in the next Via; there being none, the program panics. *)
Theorem response_destination_exact : forall tvia tcontact m v l ip port st,
  status m <= 0 -> 0 < st -> vias m = v :: l -> 0 <= port < 65536 ->
  exists m1, addReceived m (ip, port) = Ok m1 /\
    RouteMessage tvia tcontact (NewResponse m1 st) =
      if via_CompareHostPort tvia [v] then
        match l with
        | [] => Panic
        | w :: _ => Ok (set_vias l (NewResponse m1 st), named_by w (v_host w) (v_port w))
        end
      else Ok (NewResponse m1 st, named_by v ip port).
Proof.
  intros tvia tcontact m v l ip port st S P V R. destruct (received_via m v l ip port S V ltac:(lia)) as (v2 & A & GH & GP & GR & GX).
  exists (set_vias (v2 :: l) m). split; [exact A|].
  assert (T2 : via_CompareHostPort tvia (v2 :: l) = via_CompareHostPort tvia [v]) by (destruct tvia; [reflexivity|]; cbn; rewrite GH, GP; reflexivity).
  destruct (via_CompareHostPort tvia [v]) eqn:T.
  - unfold RouteMessage, IsResponse. change (status (NewResponse (set_vias (v2 :: l) m) st)) with st. apply Z.ltb_lt in P. rewrite P.
    change (vias (NewResponse (set_vias (v2 :: l) m) st)) with (v2 :: l). rewrite T2. cbn [tl]. destruct l as [|w l]; [reflexivity|].
    change (vias (set_vias (w :: l) (NewResponse (set_vias (v2 :: w :: l) m) st))) with (w :: l). cbv beta iota. unfold named_by. cbv zeta. rewrite !value_get.
    destruct (param_get (v_param w) (B "received")) as [[? ?]|]; destruct (param_get (v_param w) (B "rport")) as [[? [|c x]]|]; try reflexivity; destruct (atoi (c :: x)); reflexivity.
  - rewrite (route_named tvia tcontact (NewResponse (set_vias (v2 :: l) m) st) v2 l P eq_refl T2). do 2 f_equal. unfold named_by. cbv zeta. rewrite GR, GX, GH, GP.
    pose proof (itoa_some port ltac:(lia)) as IN. pose proof (atoi_itoa port ltac:(lia)) as IA.
    assert (HO : match match value_of (B "received") (v_param v) with Some h => Some h | None => if bseq (v_host v) ip then None else Some ip end with Some h => h | None => v_host v end =
      match value_of (B "received") (v_param v) with Some h => h | None => ip end).
    { destruct (value_of (B "received") (v_param v)); [reflexivity|]. destruct (bseq_reflect (v_host v) ip); [assumption|reflexivity]. }
    rewrite HO. destruct (Z.eqb_spec (v_port v) port) as [E|E]; [rewrite E; reflexivity|].
    destruct (itoa port) as [|c y]; [congruence|]. destruct (value_of (B "rport") (v_param v)) as [[|d x]|]; try reflexivity; rewrite IA, u16_id by lia; reflexivity.
Qed.
(** So the response goes back to the sender exactly when the Via has no received parameter or one with the sender's address, and no
    rport, an empty one, or one which is the sender's port modulo 65536. *)
Theorem response_goes_back_exact : forall tvia tcontact m v l ip port st,
  status m <= 0 -> 0 < st -> vias m = v :: l -> 0 <= port < 65536 -> via_CompareHostPort tvia [v] = false ->
  ((exists m1 m2, addReceived m (ip, port) = Ok m1 /\ RouteMessage tvia tcontact (NewResponse m1 st) = Ok (m2, inl (ip, port))) <->
   (value_of (B "received") (v_param v) = None \/ value_of (B "received") (v_param v) = Some ip) /\
   (value_of (B "rport") (v_param v) = None \/ value_of (B "rport") (v_param v) = Some [] \/
    exists t i, value_of (B "rport") (v_param v) = Some t /\ atoi t = Some i /\ i mod 65536 = port)).
Proof.
  intros tvia tcontact m v l ip port st S P V R T. destruct (response_destination_exact tvia tcontact m v l ip port st S P V R) as (m1 & A & Q). rewrite T in Q.
  assert (X : (exists m1 m2, addReceived m (ip, port) = Ok m1 /\ RouteMessage tvia tcontact (NewResponse m1 st) = Ok (m2, inl (ip, port))) <-> named_by v ip port = inl (ip, port)).
  { split; [intros (m1' & m2 & A' & Q'); congruence|]. intros N. exists m1, (NewResponse m1 st). split; [exact A|]. rewrite Q, N. reflexivity. }
  rewrite X. clear X. unfold named_by. cbv zeta. destruct (value_of (B "received") (v_param v)) as [h|].
  - destruct (value_of (B "rport") (v_param v)) as [[|c x]|].
    + split; [intros N; injection N as ->; auto|]. intros [[N|N] _]; [discriminate|]. injection N as ->. reflexivity.
    + destruct (atoi (c :: x)) as [i|] eqn:I.
      * unfold u16. split; [intros N; injection N as -> N; split; [auto|]; right; right; exists (c :: x), i; auto|].
        intros [[N|N] [D|[D|(t & j & D & E & M)]]]; try discriminate. injection N as ->. injection D as <-. rewrite I in E. injection E as ->. rewrite M. reflexivity.
      * split; [discriminate|]. intros [_ [D|[D|(t & j & D & E & M)]]]; try discriminate. injection D as <-. congruence.
    + split; [intros N; injection N as ->; auto|]. intros [[N|N] _]; [discriminate|]. injection N as ->. reflexivity.
  - destruct (value_of (B "rport") (v_param v)) as [[|c x]|]; [split; auto| |split; auto].
    destruct (atoi (c :: x)) as [i|] eqn:I.
    + unfold u16. split; [intros N; injection N as N; split; [auto|]; right; right; exists (c :: x), i; auto|].
      intros [_ [D|[D|(t & j & D & E & M)]]]; try discriminate. injection D as <-. rewrite I in E. injection E as ->. rewrite M. reflexivity.
    + split; [discriminate|]. intros [_ [D|[D|(t & j & D & E & M)]]]; try discriminate. injection D as <-. congruence.
Qed.
(** A Via with an rport of its own, one which is no number, and one which is our own address with another below it. *)
Example response_destination_example :
  let via host ps := mkvia (B "SIP") (B "2.0") (B "UDP") host 5060 ps in
  let me := [mkvia [] [] [] (B "1.2.3.4") 5060 []] in
  let dest l := rbind (addReceived (set_vias l (ex_req [])) (B "9.9.9.9", 40000)) (fun m1 => rbind (RouteMessage me [] (NewResponse m1 200)) (fun r => Ok (snd r))) in
  dest [via (B "10.0.0.7") []] = Ok (inl (B "9.9.9.9", 40000)) /\
  dest [via (B "10.0.0.7") [(B "rport", B "777")]] = Ok (inl (B "9.9.9.9", 777)) /\
  dest [via (B "10.0.0.7") [(B "received", B "victim"); (B "rport", B "777")]] = Ok (inl (B "victim", 777)) /\
  dest [via (B "10.0.0.7") [(B "rport", B "x")]] = Ok (inr RPort) /\
  dest [via (B "1.2.3.4") []; via (B "10.0.0.7") [(B "received", B "victim")]] = Ok (inl (B "victim", 5060)) /\
  dest [via (B "1.2.3.4") []] = Panic.
Proof. repeat split; reflexivity. Qed.
