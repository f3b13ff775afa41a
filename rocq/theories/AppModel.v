(** The channels between a dialog and its application: dialog/dialog.go:47-52, 82-102 (NewDialog), 144-147. OnErr, OnState and OnPeer
    are unbuffered: the dialog waits until the application has taken a notification. Hangup has room for four requests. *)
From Verif Require Import Bytes GoLib SdpModel SipText SipTypes DialogMsg DialogModel.
Local Open Scope nat_scope.

(** What comes over OnErr, OnState and OnPeer; transmitting a datagram is not seen by the application. *)
Definition note (o : out) : bool := match o with OSend _ _ _ => false | _ => true end.
Definition notes (l : list out) : list out := filter note l.
(** dialog/dialog.go:87 *)
Definition hangup_room : nat := 4.
(** The event loop [loop] has done everything up to [r_out], but the application has still to take [waiting] before the loop goes on.
    [asked] requests to hang up are in the channel. *)
Record sys := mksys { loop : result; waiting : list out; asked : nat }.
Inductive act := AAsk | ATake (o : out) | AEvent (e : event).
Section App.
Variable cfg : config.
Definition turn (r : result) (e : event) : result :=
  let h := handle cfg e (r_state r) in mkres (r_state h) (r_out r ++ r_out h) (r_v h).
Definition fresh_notes (r : result) (e : event) : list out := notes (r_out (handle cfg e (r_state r))).
(** The steps: the application asks to hang up; the application takes the notification the dialog is waiting with; the loop handles an
    event. A request to hang up is an event only if one is in the channel. A crash ends the program, applications included. *)
Inductive sstep : sys -> act -> sys -> Prop :=
| s_ask r w n : r_v r <> Crash -> n < hangup_room -> sstep (mksys r w n) AAsk (mksys r w (S n))
| s_take r o w n : sstep (mksys r (o :: w) n) (ATake o) (mksys r w n)
| s_event r e n : r_v r = Cont -> enabled e (r_state r) = true -> e <> EHangup -> sstep (mksys r [] n) (AEvent e) (mksys (turn r e) (fresh_notes r e) n)
| s_hangup r n : r_v r = Cont -> sstep (mksys r [] (S n)) (AEvent EHangup) (mksys (turn r EHangup) (fresh_notes r EHangup) n).
Inductive ssteps : sys -> list act -> sys -> Prop :=
| ss_nil s : ssteps s [] s
| ss_cons s a t l u : sstep s a t -> ssteps t l u -> ssteps s (a :: l) u.
(** dialog/dialog.go:82-108  NewDialog and the first step of run *)
Definition begin (m : msg) : sys := mksys (start cfg m) (notes (r_out (start cfg m))) 0.
End App.
