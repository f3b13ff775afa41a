(** Runs of a dialog. The peer's messages are texts which go through ParseMsg and the receive loop. The runs show that the hypotheses of
    the theorems about the event loop are met, and that the refuted parts of the properties are reached. *)
From Verif Require Import Bytes BytesLemmas GoLib GoLibLemmas SdpModel SipText SipTypes SipAppend UtilModel P_Text P_Lists DialogMsg P_DialogMsg DialogModel P_DialogEnd P_Dialog P_DialogCount P_DialogSafe P_DialogFail MsgModel.
Local Open Scope Z_scope.

(** ** Scripts *)
(** A step of the peer is a text, which may depend on what the peer has seen. *)
Inductive step := SPeer (text : dstate -> bytes) | SEvent (e : event).
Definition is_msg (e : event) : bool := match e with EMsg _ => true | _ => false end.
(** the receive loop of a socket at 10.0.0.9:5070; the datagram comes from 10.0.0.1:5060 *)
Definition receive (text : bytes) : option msg :=
  match parse_msg text with MOk m => match prepare (B "10.0.0.9") 5070 (B "10.0.0.1", 5060) None m with Ok m' => Some m' | Panic => None end | _ => None end.
Definition the_event (x : step) (s : dstate) : option event :=
  match x with SPeer t => option_map EMsg (receive (t s)) | SEvent e => if is_msg e then None else Some e end.
Fixpoint play (cfg : config) (r : result) (l : list step) : option (list event * result) :=
  match l with
  | [] => Some ([], r)
  | x :: l =>
    match the_event x (r_state r), r_v r with
    | Some e, Cont =>
      if enabled e (r_state r) then
        let h := handle cfg e (r_state r) in
        match play cfg (mkres (r_state h) (r_out r ++ r_out h) (r_v h)) l with Some (es, r') => Some (e :: es, r') | None => None end
      else None
    | _, _ => None
    end
  end.
Definition real (e : event) : Prop := match e with EMsg m => received m | _ => True end.
Lemma play_run cfg l : forall r es r', play cfg r l = Some (es, r') -> run cfg r es r' /\ Forall real es.
Proof.
  induction l as [|x l IH]; intros r es r'; cbn [play]; [intros E; injection E as <- <-; split; constructor|]. destruct (the_event x (r_state r)) as [e|] eqn:X; [|discriminate]. destruct (r_v r) eqn:V; try discriminate. destruct (enabled e (r_state r)) eqn:EN; [|discriminate].
  cbv zeta. destruct (play cfg _ l) as [[es' r2]|] eqn:P; [|discriminate]. intros E. injection E as <- <-. destruct (IH _ _ _ P) as [R F]. split; [constructor; assumption|]. constructor; [|exact F].
  destruct x as [t|e0]; cbn in X.
  - unfold receive in X. destruct (parse_msg (t (r_state r))) as [m| | |] eqn:PM; try discriminate. destruct (prepare _ _ _ _ m) as [m'|] eqn:PR; [|discriminate]. injection X as <-. cbn. do 6 eexists. split; [exact PM|exact PR].
  - destruct (is_msg e0) eqn:M; [discriminate|]. injection X as <-. destruct e0; cbn in *; auto; discriminate.
Qed.
(** what is looked at: to whom which method or status was sent; states; errors *)
Inductive shown := Sent (to : bytes) (what : bytes) | Status (to : bytes) (n : Z) | State (n : Z) | Peer (ip : bytes) (port : Z) | Failed (e : bytes).
Definition name (e : derr) : bytes :=
  match e with DRoute => B "route" | DLookup => B "lookup" | DSocket => B "socket" | DContact _ => B "contact" | DVersion => B "version" | DNoContact => B "no contact" | DRemoteLoop => B "remote loop" | DLocalLoop => B "local loop" | DResponse m => B "response " ++ itoa (status m) end.
Definition show (o : out) : shown :=
  match o with OErr e => Failed (name e) | OState n => State n | OPeer a p => Peer a p | OSend to m _ => if IsResponse m then Status to (status m) else Sent to (or_else (method m) (B "INVITE")) end.
(** Some execution has this log and this verdict. *)
Definition happens (cfg : config) (m : msg) (log : list shown) (v : verdict) : Prop :=
  exists es r, dialog cfg m es r /\ Forall real es /\ map show (r_out r) = log /\ r_v r = v.
Definition outcome (cfg : config) (m : msg) (l : list step) : option (list shown * verdict) :=
  match play cfg (start cfg m) l with Some (_, r) => Some (map show (r_out r), r_v r) | None => None end.
Lemma outcome_happens cfg m l log v : outcome cfg m l = Some (log, v) -> happens cfg m log v.
Proof.
  unfold outcome. destruct (play cfg (start cfg m) l) as [[es r]|] eqn:E; [|discriminate]. intros H. injection H as <- <-. destruct (play_run _ _ _ _ _ E) as [R F]. exists es, r. auto.
Qed.

(** ** An example world *)
Definition ex_dns : dns := mkdns (fun h => bseq h (B "10.0.0.1")) (fun h => if bseq h (B "example.org") then Some [(B "10.0.0.1", 5060); (B "10.0.0.2", 5060)] else None) (fun a => Some a).
Definition ex_rnd : draws := mkdraws (B "abcdef") (B "ghijkl") (B "0123456789abcde") 77 99.
Definition ex_world (n : nat) : world := mkworld ex_dns (fun a => Some (mksock a (B "10.0.0.9") 5070)) (Some 5071) (fun _ => true) ex_rnd None [].
Definition ex_cfg (max : Z) : config := mkconfig false max ex_world.
Definition bob : uri := mkuri (B "sip") (B "bob") [] (B "example.org") 0 [] [].
Definition ex_invite : msg := set_method (B "INVITE") (set_request (Some bob) msg0).
Definition at_ (h : bytes) : list addr := [mkaddr (Some (mkuri (B "sip") (B "bob") [] h 5060 [] [])) [] []].
(** the peer's answer to the request m *)
Definition answer (n : Z) (contact : list addr) (m : msg) : bytes := msg_append [] (set_addr Contact contact (NewResponse m n)).
Definition reply (n : Z) (contact : list addr) : step := SPeer (fun s => answer n contact (the_request s)).
(** the peer's own request *)
Definition peer_request (mth : bytes) (q : Z) (contact : list addr) (p : option payload) : step := SPeer (fun s =>
  msg_append [] (set_method mth (set_request (Some (mkuri (B "sip") [] [] (B "10.0.0.9") 5070 [] [])) (set_vias [ex_via (B "10.0.0.1") 5060 (B "z9hG4bK9")]
    (set_addr From (addrs (invite s) To) (set_addr To (addrs (invite s) From) (set_addr Contact contact (set_callid (callid (invite s)) (set_cseq q (set_cseqmethod mth (set_pay p msg0))))))))))).
Definition a1 := B "10.0.0.1:5060".
Definition a2 := B "10.0.0.2:5060".
Definition media1 : media := mkmedia (B "RTP/AVP") 4000 [mkcodec 0 (B "PCMU") 8000 [] []].
Definition ex_sdp (audio : bool) : sdp := mksdp (mkorigin (B "-") (B "1") (B "1") (B "10.0.0.1")) (B "10.0.0.1") (if audio then Some media1 else None) (if audio then None else Some media1) (B "s") (B "0 0") 0 false false [] [].
Notation inv := (Sent a1 (B "INVITE")).
Notation ack := (Sent a1 (B "ACK")).

(** A call: ringing, answered, hung up by the application. *)
Example a_call : happens (ex_cfg 2) ex_invite [inv; State Ringing; ack; State Answered; Sent a1 (B "BYE"); State Hangup] Halt.
Proof.
  apply outcome_happens with (l := [reply 180 (at_ (B "10.0.0.1")); reply 200 (at_ (B "10.0.0.1")); SEvent EHangup; reply 200 []]). vm_compute. reflexivity.
Qed.
(** C52, refuted: the answer is undone by a late provisional response; hanging up then cancels instead of ending the call. *)
Theorem late_provisional_run_refuted : happens (ex_cfg 2) ex_invite [inv; ack; State Answered; State Ringing; Sent a1 (B "CANCEL")] Cont.
Proof. apply outcome_happens with (l := [reply 200 (at_ (B "10.0.0.1")); reply 180 (at_ (B "10.0.0.1")); SEvent EHangup]). vm_compute. reflexivity. Qed.
(** C50, refuted: with two repetitions allowed the INVITE is sent six times to one address, because of a redirect. *)
Theorem redirect_run_refuted : happens (ex_cfg 2) ex_invite [inv; inv; inv; ack; inv; inv; inv] Cont.
Proof. apply outcome_happens with (l := [SEvent EReqTimer; SEvent EReqTimer; reply 302 (at_ (B "10.0.0.1")); SEvent EReqTimer; SEvent EReqTimer]). vm_compute. reflexivity. Qed.
(** C54: a server that does not answer, then the next one, then none is left. *)
Example timeout_run : happens (ex_cfg 1) ex_invite [inv; inv; Sent a2 (B "INVITE"); Sent a2 (B "INVITE"); Failed (B "contact")] Halt.
Proof. apply outcome_happens with (l := [SEvent EReqTimer; SEvent EReqTimer; SEvent EReqTimer; SEvent EReqTimer]). vm_compute. reflexivity. Qed.
(** C54, refuted: after a 503 of the first server the second is not tried. *)
Theorem unavailable_run_refuted : happens (ex_cfg 1) ex_invite [inv; ack; Failed (B "contact")] Halt.
Proof. apply outcome_happens with (l := [reply 503 (at_ (B "10.0.0.1"))]). vm_compute. reflexivity. Qed.
(** C55, refuted: four ways in which the peer crashes the dialog. *)
Theorem refusal_run_refuted : happens (ex_cfg 1) ex_invite [inv] Crash.
Proof. apply outcome_happens with (l := [SEvent (ESockErr true)]). vm_compute. reflexivity. Qed.
Theorem video_only_run_refuted : happens (ex_cfg 1) ex_invite [inv; ack; State Answered] Crash.
Proof. apply outcome_happens with (l := [reply 200 (at_ (B "10.0.0.1")); peer_request (B "INVITE") 5 (at_ (B "10.0.0.1")) (Some (PSdp (ex_sdp false)))]). vm_compute. reflexivity. Qed.
Theorem bare_redirect_run_refuted : happens (ex_cfg 1) ex_invite [inv; ack; State Answered; Sent a1 (B "BYE")] Crash.
Proof. apply outcome_happens with (l := [reply 200 (at_ (B "10.0.0.1")); SEvent EHangup; reply 302 []]). vm_compute. reflexivity. Qed.
Theorem reinvite_without_contact_run_refuted : happens (ex_cfg 1) ex_invite [inv; ack; State Answered; Status a1 200] Crash.
Proof. apply outcome_happens with (l := [reply 200 (at_ (B "10.0.0.1")); peer_request (B "INVITE") 5 [] None; SEvent EHangup]). vm_compute. reflexivity. Qed.
(** a peer with manners: a second INVITE, then the peer hangs up *)
Example mannered_run : happens (ex_cfg 1) ex_invite [inv; ack; State Answered; Peer (B "10.0.0.1") 4000; Status a1 200; Status a1 200; State Hangup] Halt.
Proof. apply outcome_happens with (l := [reply 200 (at_ (B "10.0.0.1")); peer_request (B "INVITE") 5 (at_ (B "10.0.0.1")) (Some (PSdp (ex_sdp true))); peer_request (B "ACK") 5 [] None; peer_request (B "BYE") 6 [] None]). vm_compute. reflexivity. Qed.
(** C48: an old request is refused, ... *)
Example old_request_run : happens (ex_cfg 1) ex_invite [inv; Status a1 200; Status a1 500] Cont.
Proof. apply outcome_happens with (l := [peer_request (B "OPTIONS") 9 [] None; peer_request (B "OPTIONS") 3 [] None]). vm_compute. reflexivity. Qed.
(** ... but not after another address was tried in between. *)
Theorem old_request_run_refuted : happens (ex_cfg 0) ex_invite [inv; Status a1 200; Sent a2 (B "INVITE"); Status a2 200] Cont.
Proof. apply outcome_happens with (l := [peer_request (B "OPTIONS") 9 [] None; SEvent EReqTimer; peer_request (B "OPTIONS") 3 [] None]). vm_compute. reflexivity. Qed.
(** C53, refuted: a repeated 200 after the BYE gets no ACK. *)
Theorem repeated_answer_run_refuted : happens (ex_cfg 1) ex_invite [inv; ack; State Answered; ack; Sent a1 (B "BYE")] Cont.
Proof. apply outcome_happens with (l := [reply 200 (at_ (B "10.0.0.1")); reply 200 (at_ (B "10.0.0.1")); SEvent EHangup; SPeer (fun s => answer 200 (at_ (B "10.0.0.1")) (invite s))]). vm_compute. reflexivity. Qed.
(** Hanging up before the answer: the 200 for the CANCEL is not recognised, and the 487 for the INVITE is reported as an error. *)
Theorem cancel_run_refuted : happens (ex_cfg 1) ex_invite [inv; State Ringing; Sent a1 (B "CANCEL"); ack; Failed (B "response 487")] Halt.
Proof. apply outcome_happens with (l := [reply 180 (at_ (B "10.0.0.1")); SEvent EHangup; SPeer (fun s => answer 200 [] (NewCancel (invite s))); reply 487 (at_ (B "10.0.0.1"))]). vm_compute. reflexivity. Qed.
(** C42 in the dialog, refuted: after an INVITE of the peer, the To of our BYE carries our own tag, that of its From. *)
Definition tag_of (l : list addr) : option bytes := match l with a :: _ => value_of (B "tag") (a_param a) | [] => None end.
Theorem bye_to_ourselves_refuted : exists es r to m text, dialog (ex_cfg 1) ex_invite es r /\ Forall real es /\ last (r_out r) (OState 0) = OSend to m text /\
  method m = B "BYE" /\ tag_of (addrs m To) = tag_of (addrs m From) /\ tag_of (addrs m From) <> None.
Proof.
  destruct (play (ex_cfg 1) (start (ex_cfg 1) ex_invite) [reply 200 (at_ (B "10.0.0.1")); peer_request (B "INVITE") 5 (at_ (B "10.0.0.1")) None; SEvent EHangup]) as [[es r]|] eqn:E; [|vm_compute in E; discriminate].
  destruct (play_run _ _ _ _ _ E) as [R F].
  assert (X : exists to m text, last (r_out r) (OState 0) = OSend to m text /\ method m = B "BYE" /\ tag_of (addrs m To) = tag_of (addrs m From) /\ tag_of (addrs m From) <> None).
  { assert (Y : option_map (fun x => last (r_out (snd x)) (OState 0)) (play (ex_cfg 1) (start (ex_cfg 1) ex_invite) [reply 200 (at_ (B "10.0.0.1")); peer_request (B "INVITE") 5 (at_ (B "10.0.0.1")) None; SEvent EHangup]) = Some (last (r_out r) (OState 0))) by (rewrite E; reflexivity).
    clear E R F. set (o := last (r_out r) (OState 0)) in *. clearbody o. vm_compute in Y. injection Y as <-. do 3 eexists. split; [reflexivity|]. split; [reflexivity|]. split; [reflexivity|discriminate]. }
  destruct X as (to & m & text & X). exists es, r, to, m, text. auto.
Qed.
