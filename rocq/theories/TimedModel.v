(** The event loop of a dialog (DialogModel.v) together with the clock: when its timers may fire. Times are in nanoseconds. A turn of the
    loop begins, does its work and ends; the timers it sets are set at some moment in between. *)
From Verif Require Import Bytes GoLib SdpModel SipText SipTypes SipAppend UtilModel DialogMsg DialogModel.
Local Open Scope Z_scope.

(** dialog/util.go:21-23  duration: int and time.Duration have 64 bits, and the product wraps *)
Definition duration (ms : Z) : Z := i64 (ms * 1000000).
(** time.After, of the standard library: the channel gets its value when the duration has passed, at once if it is not positive. *)
Definition due (now ms : Z) : Z := now + Z.max 0 (duration ms).

(** Does the turn set requestTimer to a new channel (dialog/dialog.go:187, 433)? DialogModel only says whether a timer is armed, so the turn is
    looked at from a state in which it is not. P_Timed.v shows that nothing else depends on this. *)
Definition arms_request (cfg : config) (e : event) (s : dstate) : bool := rtimer (r_state (handle cfg e (set_rtimer false s))).
(** the same for responseTimer (dialog/dialog.go:447, 460) *)
Definition arms_response (cfg : config) (e : event) (s : dstate) : bool := rsptimer (r_state (handle cfg e (set_rsptimer false s))).

(** The loop, the time, and when the channels in requestTimer and responseTimer get their values. *)
Record timed := mktimed { t_loop : result; t_now : Z; t_request : Z; t_response : Z }.
(** A turn: what it is about, when it is taken, when it sets a timer (if it does) and when it ends. *)
Record turn := mkturn { u_event : event; u_at : Z; u_arm : Z; u_end : Z }.

(** dialog/dialog.go:111-148  one turn of the loop. A timer is taken after it has fired; how long after, and how long the turn takes, is open. *)
Inductive tstep (cfg : config) (ms : Z) : timed -> turn -> timed -> Prop :=
| t_turn x u : let s := r_state (t_loop x) in let r := handle cfg (u_event u) s in
    r_v (t_loop x) = Cont -> enabled (u_event u) s = true -> t_now x <= u_at u -> u_at u <= u_arm u -> u_arm u <= u_end u ->
    (u_event u = EReqTimer -> t_request x <= u_at u) -> (u_event u = ERspTimer -> t_response x <= u_at u) ->
    tstep cfg ms x u (mktimed (mkres (r_state r) (r_out (t_loop x) ++ r_out r) (r_v r)) (u_end u)
      (if arms_request cfg (u_event u) s then due (u_arm u) ms else t_request x)
      (if arms_response cfg (u_event u) s then due (u_arm u) ms else t_response x)).
Inductive tsteps (cfg : config) (ms : Z) : timed -> list turn -> timed -> Prop :=
| ts_nil x : tsteps cfg ms x [] x
| ts_cons x u y us z : tstep cfg ms x u y -> tsteps cfg ms y us z -> tsteps cfg ms x (u :: us) z.

(** dialog/dialog.go:82-108  NewDialog and the first step of run; requestTimer is set at [arm], and the step ends at [end_] *)
Definition tbegin (cfg : config) (ms : Z) (m : msg) (arm end_ : Z) : timed := mktimed (start cfg m) end_ (due arm ms) end_.
