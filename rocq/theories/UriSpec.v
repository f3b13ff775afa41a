(** What a URI text is and what it denotes: the specification for C05-C09 (no reference to the automaton). *)
From Verif Require Import Bytes GoLib SdpModel SipText SipTypes P_Text.
Local Open Scope Z_scope.

Definition alpha_class (c : byte) : bool := one_of (B "abcdefghijklmnopqrstuvwxyzABCDEFGHIJKLMNOPQRSTUVWXYZ") c.
Definition digit_class (c : byte) : bool := one_of (B "0123456789") c.
Definition scheme_class (c : byte) : bool := alnum c || one_of (B "+-.") c.
Definition host_class (c : byte) : bool := alnum c || one_of (B "+-.") c.
Definition ip6_class (c : byte) : bool := hex_class c || one_of (B ".:") c.
(** like param_class (P_Text), with ? instead of & *)
Definition header_class (c : byte) : bool := unreserved c || one_of (B "[]/?:+$") c.

(** scheme: a letter, then letters, digits, + - . ; the value is in lower case *)
Definition scheme_text (t v : bytes) : Prop :=
  exists c r, t = c :: r /\ alpha_class c = true /\ forallb scheme_class r = true /\ v = map lower t.
(** [user [":" password] "@"]; escapes are decoded *)
Definition userinfo_text (t user pass : bytes) : Prop :=
  (t = [] /\ user = [] /\ pass = []) \/
  exists tu tp, t = tu ++ tp ++ B "@" /\ tu <> [] /\ slot user_class user tu /\
    ((tp = [] /\ pass = []) \/ exists x, tp = B ":" ++ x /\ x <> [] /\ slot pass_class pass x).
(** host name, IPv4 address or telephone number, or an IPv6 address in brackets; the value is in lower case *)
Definition host_text (t v : bytes) : Prop :=
  exists x, x <> [] /\ v = map lower x /\
    ((t = x /\ forallb host_class x = true) \/ (t = B "[" ++ x ++ B "]" /\ forallb ip6_class x = true)).
(** [":" digits]; the value is the number modulo 2^16, 0 if absent *)
Definition port_text (t : bytes) (v : Z) : Prop :=
  (t = [] /\ v = 0) \/ exists d n, t = B ":" ++ d /\ digits_value d = Some n /\ v = n mod 65536.
(** name ["=" value]; an absent value is empty *)
Definition item_text (cls : byte -> bool) (p : param) (t : bytes) : Prop :=
  exists tn tv, t = tn ++ tv /\ tn <> [] /\ slot cls (fst p) tn /\
    ((tv = [] /\ snd p = []) \/ exists x, tv = B "=" ++ x /\ x <> [] /\ slot cls (snd p) x).
Definition params_text (t : bytes) (ps : list param) : Prop :=
  exists ts, Forall2 (item_text param_class) ps ts /\ t = concat (map (fun x => B ";" ++ x) ts).
Definition headers_text (t : bytes) (hs : list param) : Prop :=
  (t = [] /\ hs = []) \/
  exists x ts, Forall2 (item_text header_class) hs (x :: ts) /\ t = B "?" ++ x ++ concat (map (fun x => B "&" ++ x) ts).

(** The whole text. Parameter and header lists are newest first in the URI, oldest first in the text. *)
Definition uri_text (s : bytes) (u : uri) : Prop :=
  exists sch inf hst prt par hdr,
    s = sch ++ B ":" ++ inf ++ hst ++ prt ++ par ++ hdr /\
    scheme_text sch (u_scheme u) /\ userinfo_text inf (u_user u) (u_pass u) /\ host_text hst (u_host u) /\
    port_text prt (u_port u) /\ params_text par (rev (u_param u)) /\ headers_text hdr (rev (u_header u)).

(** Well-formed URI values: what an application may put into a URI and expect to get back. *)
Definition lower_case (s : bytes) : Prop := map lower s = s.
Definition wf_uri (u : uri) : Prop :=
  scheme_text (u_scheme u) (u_scheme u) /\
  (u_user u = [] -> u_pass u = []) /\
  (u_host u <> [] /\ lower_case (u_host u) /\
   forallb (if existsb (beq ":") (u_host u) then ip6_class else host_class) (u_host u) = true) /\
  0 <= u_port u < 65536 /\
  Forall (fun p => fst p <> []) (u_param u) /\ Forall (fun p => fst p <> []) (u_header u).
