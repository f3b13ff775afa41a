(** The URI grammar of sip/uri_parse.rl:117-156 as regular expressions with actions, and the proof that the generated
    automaton (UriTable.v) implements it. [Seq (Act a) r] is Ragel's entering action, [Seq r (Act a)] its leaving action. *)
From Coq Require Import FMapPositive.
From Verif Require Import Bytes BytesLemmas GoLib Auto AutoRe UriTable SdpModel SipText SipTypes UriModel.

Notation ure := (re uact Empty_set).
Declare Scope re_scope.
Delimit Scope re_scope with re.
Local Notation "a ;; b" := (Seq a b) (at level 61, right associativity) : re_scope.
Local Open Scope re_scope.
Definition ch (c : byte) : ure := Cls [(Byte.to_N c, Byte.to_N c)].
Definition on (a : uact) (k : ranges) : ure := Act a ;; Cls k.
Definition plus (r : ure) : ure := r ;; Star r.

(** uri_parse.rl:118-131 *)
Definition k_digit : ranges := [(48, 57)]%N.
Definition k_alpha : ranges := [(65, 90); (97, 122)]%N.
Definition k_xdigit : ranges := [(48, 57); (65, 70); (97, 102)]%N.
Definition k_unreserved : ranges := [(48, 57); (65, 90); (97, 122); (45, 45); (95, 95); (46, 46); (33, 33); (126, 126); (42, 42); (39, 39); (40, 40); (41, 41)]%N.
Definition k_ipv6c : ranges := k_xdigit ++ [(46, 46); (58, 58)]%N.
Definition k_hostc : ranges := [(48, 57); (65, 90); (97, 122); (45, 46); (43, 43)]%N.      (* ipv4c | hostc | telc *)
Definition k_schemec : ranges := [(48, 57); (65, 90); (97, 122); (43, 43); (45, 46)]%N.
Definition k_userc : ranges := k_unreserved ++ [(38, 38); (61, 61); (43, 43); (36, 36); (44, 44); (59, 59); (63, 63); (47, 47)]%N.
Definition k_passc : ranges := k_unreserved ++ [(38, 38); (61, 61); (43, 43); (36, 36); (44, 44)]%N.
Definition k_paramc : ranges := k_unreserved ++ [(91, 91); (93, 93); (47, 47); (58, 58); (38, 38); (43, 43); (36, 36)]%N.
Definition k_headerc : ranges := k_unreserved ++ [(91, 91); (93, 93); (47, 47); (63, 63); (58, 58); (43, 43); (36, 36)]%N.

(** uri_parse.rl:133-138 *)
Definition escaped : ure := ch "%" ;; on UHexHi k_xdigit ;; on UHexLo k_xdigit.
Definition chr (k : ranges) : ure := Alt escaped (on UAppend k).
(** uri_parse.rl:140-156 *)
Definition g_scheme : ure := Act UStart ;; on ULower k_alpha ;; Star (on ULower k_schemec) ;; Act UScheme.
Definition g_user : ure := Act UStart ;; plus (chr k_userc) ;; Act UUser.
Definition g_pass : ure := Act UStart ;; plus (chr k_passc) ;; Act UPass.
Definition g_host6 : ure := ch "[" ;; Act UStart ;; plus (on ULower k_ipv6c) ;; Act UHost ;; ch "]".
Definition g_host : ure := Alt g_host6 (Act UStart ;; plus (on ULower k_hostc) ;; Act UHost).
Definition g_port : ure := plus (on UPort k_digit).
Definition g_kv (k : ranges) (fin : uact) : ure :=
  Act UStart ;; Act UB2 ;; plus (chr k) ;; Act UB1 ;; Alt Eps (ch "=" ;; Act UStart ;; plus (chr k) ;; Act UB2) ;; Act fin.
Definition g_params : ure := Star (ch ";" ;; g_kv k_paramc UParam).
Definition g_headers : ure := Alt Eps (ch "?" ;; g_kv k_headerc UHeader ;; Star (ch "&" ;; g_kv k_headerc UHeader)).
Definition g_hostport : ure := g_host ;; Alt Eps (ch ":" ;; g_port).
Definition g_tail : ure := g_hostport ;; g_params ;; g_headers.
Definition g_userpass : ure := g_user ;; Alt Eps (ch ":" ;; g_pass).
Definition uriSansUser : ure := g_scheme ;; ch ":" ;; g_tail.
Definition uriWithUser : ure := g_scheme ;; ch ":" ;; g_userpass ;; ch "@" ;; g_tail.

(** ** The automaton implements it *)
Definition uact_id (a : uact) : N :=
  match a with UStart => 0 | UAppend => 1 | UHexHi => 2 | UHexLo => 3 | UScheme => 4 | UUser => 5 | UPass => 6 | UHost => 7
  | UPort => 8 | UB1 => 9 | UB2 => 10 | ULower => 11 | UParam => 12 | UHeader => 13 end.
Definition uact_eqb (a b : uact) : bool := N.eqb (uact_id a) (uact_id b).
Lemma uact_eqb_spec a b : uact_eqb a b = true <-> a = b.
Proof. destruct a, b; split; intros H; try reflexivity; discriminate. Qed.
Definition no_jump (a b : Empty_set) : bool := match a with end.
Lemma no_jump_spec a b : no_jump a b = true <-> a = b.
Proof. destruct a. Qed.
Definition uri_final (n : positive) : option (list uact) :=
  if (n <? uri_first_final)%positive then None else Some (uri_eof n).
Definition uri_cert : cert :=
  explore uri_row uact_eqb no_jump 500 [(uri_en_uriSansUser, [uriSansUser]); (uri_en_uriWithUser, [uriWithUser])] (PositiveMap.empty _).
Lemma uri_checked : check_cert uri_row uact_eqb no_jump uri_final uri_cert = true.
Proof. vm_compute. reflexivity. Qed.
