(** The beginning of the repository's telephone, fone/main.go:61-135: the command line, the sound devices, the public address, the RTP session, the INVITE. *)
From Verif Require Import Bytes GoLib SdpModel SipText SipTypes UtilModel DialogMsg FoneModel UriModel.
Local Open Scope Z_scope.

(** What the program finds: the arguments that are not flags and the -address flag, whether PulseAudio opens a stream for the speaker and one for the microphone,
    what http.Get and ioutil.ReadAll give (the status of the answer is not looked at), the port of the RTP session if one is made, $USER, and the number drawn for the origin id. *)
Record surroundings := mksur { su_args : list bytes; su_address : bytes; su_speaker : bool; su_mic : bool; su_web : option (Z * bytes); su_rtp : option Z; su_user : bytes; su_draw : Z }.
(** fone/main.go:286-297  getPublicIP *)
Definition getPublicIP (web : option (Z * bytes)) : option bytes := match web with Some (_, body) => Some body | None => None end.
(** How it goes on: os.Exit with a status, a panic, or dialog.NewDialog with an INVITE. [asked]: the web server was asked. *)
Inductive opening := OExit (code : nat) | OPanic (asked : bool) | ODial (asked : bool) (invite : msg).
(** fone/main.go:61-135 main. Request and To share one URI object (FoneModel.fone_invite); the order of the deferred calls is left out. *)
Definition fone_open (s : surroundings) : opening :=
  match su_args s with
  | [arg] =>
    match parse_uri arg with
    | PErr _ => OExit 1
    | PPanic => OPanic false
    | POk u =>
      if negb (su_speaker s) then OPanic false
      else if negb (su_mic s) then OPanic false
      else
        let asked := match su_address s with [] => true | _ => false end in
        match (match su_address s with [] => getPublicIP (su_web s) | a => Some a end) with
        | None => OPanic asked
        | Some publicIP =>
          match su_rtp s with
          | None => OPanic asked
          | Some port => ODial asked (fone_invite u publicIP (su_user s) (GenerateOriginID (su_draw s)) (u16 port))
          end
        end
    end
  | _ => OExit 1
  end.
