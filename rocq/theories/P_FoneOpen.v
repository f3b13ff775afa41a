(** C102: how the telephone opens: whom it calls, when it refuses, and what the web server can make of its INVITE. *)
From Verif Require Import Bytes BytesLemmas GoLib GoLibLemmas SdpModel SdpProofs SipText SipTypes SipAppend UtilModel P_Text UriSpec UriTable UriModel P_Uri MsgTable MsgModel MsgWf DialogMsg DialogModel P_DialogRuns P_Written P_Call FoneModel P_FoneCall UriModel UriProofs FoneOpenModel.
Local Open Scope Z_scope.

(** It dials exactly if it is given one argument that is a URI, both sound streams open, it has or is told an address, and an RTP session is made; the INVITE is to that URI. *)
Theorem opens_exactly : forall s asked m, fone_open s = ODial asked m <->
  exists arg u ip port, su_args s = [arg] /\ parse_uri arg = POk u /\ su_speaker s = true /\ su_mic s = true /\ su_rtp s = Some port /\ m = fone_invite u ip (su_user s) (GenerateOriginID (su_draw s)) (u16 port) /\
    ((su_address s <> [] /\ ip = su_address s /\ asked = false) \/ (su_address s = [] /\ asked = true /\ exists code, su_web s = Some (code, ip))).
Proof.
  intros s asked m. unfold fone_open, getPublicIP. split.
  - destruct (su_args s) as [|arg [|]]; try discriminate. destruct (parse_uri arg) as [u| |] eqn:EP; [|discriminate|discriminate]. destruct (su_speaker s); [|discriminate]. destruct (su_mic s); [|discriminate]. cbn [negb].
    destruct (su_address s) as [|a0 a].
    + destruct (su_web s) as [[code body]|]; [|discriminate]. destruct (su_rtp s) as [port|]; [|discriminate]. intros H; injection H as <- <-. exists arg, u, body, port. repeat (split; [assumption || reflexivity|]). right. repeat split. exists code. reflexivity.
    + destruct (su_rtp s) as [port|]; [|discriminate]. intros H; injection H as <- <-. exists arg, u, (a0 :: a), port. repeat (split; [assumption || reflexivity|]). left. repeat split. discriminate.
  - intros (arg & u & ip & port & -> & -> & -> & -> & -> & -> & [(N & -> & ->)|(-> & -> & code & ->)]); [|reflexivity]. cbn [negb]. destruct (su_address s); [congruence|reflexivity].
Qed.
(** Otherwise: without exactly one argument that is a URI it exits with status 1, having opened nothing and asked nobody; without a device, an address or a session it panics. *)
Theorem refuses_exactly : forall s, (forall asked m, fone_open s <> ODial asked m) ->
  (fone_open s = OExit 1 /\ forall arg u, su_args s = [arg] -> parse_uri arg <> POk u) \/
  (exists asked, fone_open s = OPanic asked) /\ (exists arg u, su_args s = [arg] /\ parse_uri arg = POk u) /\
    (su_speaker s = false \/ su_mic s = false \/ (su_address s = [] /\ su_web s = None) \/ su_rtp s = None).
Proof.
  intros s. unfold fone_open, getPublicIP. destruct (su_args s) as [|arg [|arg2 l]]; [left; split; [reflexivity|discriminate]| |left; split; [reflexivity|discriminate]].
  destruct (parse_uri arg) as [u|e|] eqn:EP; [|left; split; [reflexivity|intros a u E; injection E as <-; congruence]|exfalso; destruct (parse_total arg) as [[u E]|[e E]]; congruence]. intros H. right.
  assert (K : exists a u0, [arg] = [a] /\ parse_uri a = POk u0) by (exists arg, u; auto).
  destruct (su_speaker s); cbn [negb] in *; [|split; [eauto|split; [exact K|auto]]]. destruct (su_mic s); cbn [negb] in *; [|split; [eauto|split; [exact K|auto]]].
  destruct (su_address s) as [|a0 a].
  - destruct (su_web s) as [[code body]|]; [|split; [eauto|split; [exact K|auto]]]. destruct (su_rtp s) as [port|]; [exfalso; eapply H; reflexivity|split; [eauto|split; [exact K|auto]]].
  - destruct (su_rtp s) as [port|]; [exfalso; eapply H; reflexivity|split; [eauto|split; [exact K|auto]]].
Qed.
(** If the address is a host name or an IPv4 address, the INVITE is one that the dialog carries, and so C83 and C90 are about it. *)
Theorem opened_call_given : forall s cfg asked m, fone_open s = ODial asked m -> (forall port, su_rtp s = Some port -> port_ok port) ->
  (su_address s <> [] -> public_host (su_address s)) -> (su_address s = [] -> forall code body, su_web s = Some (code, body) -> public_host body) ->
  (forall arg u, su_args s = [arg] -> parse_uri arg = POk u -> Forall no_amp (u_header u)) -> invite_given cfg m.
Proof.
  intros s cfg asked m O PT A W N. apply opens_exactly in O. destruct O as (arg & u & ip & port & EA & EP & _ & _ & ER & -> & D). pose proof (PT port ER) as PO. rewrite u16_id by (unfold port_ok in PO; lia).
  eapply fone_invite_given; [exact EP|exact (N arg u EA EP)| |exact PO]. destruct D as [(NE & -> & _)|(E & _ & code & EW)]; [exact (A NE)|exact (W E code ip EW)].
Qed.
(** ** What the web server can do *)
(** a call with the web server's answer [body], and the first datagram of the dialog *)
Definition ex_sur (body : bytes) : surroundings := mksur [B "sip:+12125650666@10.0.0.1"] [] true true (Some (200, body)) (Some 4000) (B "jart") 77.
Definition first_text (s : surroundings) : bytes := match fone_open s with ODial _ m => match r_out (start (ex_cfg 1) m) with OSend _ _ t :: _ => t | _ => [] end | _ => [] end.
Definition ex_evil : bytes := B "10.0.0.9" ++ CRLF ++ B "Subject: hi" ++ CRLF.
(** Its answer is used as it is, even one that reports an error: a line break at the end, the page of a login screen or an IPv6 address make the INVITE unreadable for the callee, and lines in it become lines of the INVITE. *)
Theorem any_answer_used_refuted :
  (exists m, parse_msg (first_text (ex_sur (B "10.0.0.9"))) = MOk m) /\
  (forall body, In body [B "10.0.0.9" ++ [LF]; B "<html>Please log in</html>"; B "2001:db8::9"] -> exists n, parse_msg (first_text (ex_sur body)) = MErr (EParse n)) /\
  (exists m, fone_open (ex_sur ex_evil) = ODial true m /\ strs m Subject = [] /\ exists a b, first_text (ex_sur ex_evil) = a ++ CRLF ++ B "Subject: hi" ++ CRLF ++ b) /\
  (forall code body u ip user, let s c := mksur [u] [] true true (Some (c, body)) (Some ip) user 0 in fone_open (s code) = fone_open (s 200)).
Proof.
  split; [eexists; vm_compute; reflexivity|]. split; [|split].
  - intros body [<-|[<-|[<-|[]]]]; eexists; vm_compute; reflexivity.
  - eexists. split; [vm_compute; reflexivity|]. split; [reflexivity|].
    exists (firstn 67 (first_text (ex_sur ex_evil))), (skipn 82 (first_text (ex_sur ex_evil))). vm_compute. reflexivity.
  - intros code body u ip user. cbv zeta. unfold fone_open. cbn [su_args su_speaker su_mic su_address su_web su_rtp su_user su_draw negb getPublicIP]. reflexivity.
Qed.
Example opened_example : exists m, fone_open (ex_sur (B "10.0.0.9")) = ODial true m /\ public_host (B "10.0.0.9") /\ port_ok 4000 /\ invite_given (ex_cfg 1) m.
Proof.
  assert (PH : public_host (B "10.0.0.9")) by (repeat split; discriminate). assert (E : exists m, fone_open (ex_sur (B "10.0.0.9")) = ODial true m) by (eexists; vm_compute; reflexivity). destruct E as (m & E). exists m. split; [exact E|]. split; [exact PH|]. split; [unfold port_ok; lia|]. eapply opened_call_given; [exact E|intros p X; injection X as <-; unfold port_ok; lia|intros X; exfalso; apply X; reflexivity|intros _ c b X; injection X as _ <-; exact PH|].
  intros arg u X P. injection X as <-. vm_compute in P. injection P as <-. constructor.
Qed.
Print Assumptions opens_exactly.
Print Assumptions refuses_exactly.
Print Assumptions opened_call_given.
Print Assumptions any_answer_used_refuted.
