(** The machines of sip/sip.rl and sip/msg_parse.rl as regular expressions with actions, one per entry point of the automaton,
    and the proof that the generated automaton (MsgTable.v) implements them. An expression ends in [Jmp], which leaves the machine;
    a [Jmp] to 280 is taken on the LF that ends a line. Where the generated code repeats an action, so does the expression. *)
From Coq Require Import FMapPositive.
From Verif Require Import Bytes BytesLemmas GoLib Auto AutoRe SdpModel SipTypes MsgTable MsgSpec.

Notation mre := (re mact mjump).
Local Notation "a ;; b" := (Seq a b) (at level 61, right associativity).
Definition m_on (a : mact) (k : ranges) : mre := Act a ;; Cls k.
Definition k1 (c : byte) : ranges := [(Byte.to_N c, Byte.to_N c)].
Definition m_ch (c : byte) : mre := Cls (k1 c).
Fixpoint m_str (w : bytes) (r : mre) : mre := match w with [] => r | c :: w' => m_ch c ;; m_str w' r end.
Definition m_plus (r : mre) : mre := r ;; Star r.
Fixpoint m_acts (l : list mact) (r : mre) : mre := match l with [] => r | a :: l' => Act a ;; m_acts l' r end.

(** sip.rl:263-351 *)
Definition k_wsp : ranges := [(9, 9); (32, 32)]%N.
Definition k_not_wsp : ranges := [(0, 8); (10, 31); (33, 256)]%N.
Definition k_plain : ranges := [(0, 8); (10, 31); (33, 255)]%N.     (* neither white space nor a folded CR *)
Definition k_dig : ranges := [(48, 57)]%N.
Definition k_xdig : ranges := [(48, 57); (65, 70); (97, 102)]%N.
Definition k_alph : ranges := [(65, 90); (97, 122)]%N.
Definition k_token : ranges := [(48, 57); (65, 90); (97, 122); (45, 45); (46, 46); (33, 33); (37, 37); (42, 42); (95, 95); (43, 43); (96, 96); (39, 39); (126, 126)]%N.
Definition k_word : ranges := k_token ++ [(40, 40); (41, 41); (60, 60); (62, 62); (58, 58); (92, 92); (34, 34); (47, 47); (91, 91); (93, 93); (63, 63); (123, 123); (125, 125)]%N.
Definition k_tokenhost : ranges := k_token ++ [(91, 91); (93, 93); (58, 58)]%N.
Definition k_host : ranges := [(48, 57); (65, 90); (97, 122); (45, 46)]%N.
Definition k_ip6 : ranges := [(48, 57); (65, 70); (97, 102); (46, 46); (58, 58)]%N.
Definition k_schm : ranges := [(48, 57); (65, 90); (97, 122); (43, 43); (45, 45); (46, 46)]%N.
Definition k_unres : ranges := [(48, 57); (65, 90); (97, 122); (45, 45); (95, 95); (46, 46); (33, 33); (126, 126); (42, 42); (39, 39); (40, 40); (41, 41)]%N.
Definition k_uric1 : ranges := k_unres ++ [(47, 47); (63, 63); (58, 58); (64, 64); (38, 38); (61, 61); (43, 43); (36, 36); (37, 37); (91, 91); (93, 93)]%N.  (* without ; and , *)
Definition k_uric : ranges := k_uric1 ++ [(59, 59); (44, 44)]%N.
Definition k_reason : ranges := k_unres ++ [(59, 59); (47, 47); (63, 63); (58, 58); (64, 64); (38, 38); (61, 61); (43, 43); (36, 36); (44, 44); (32, 32); (9, 9)]%N.
Definition k_qdtext : ranges := [(9, 9); (32, 33); (35, 91); (93, 126)]%N.   (* and the blanks of LWS *)
Definition k_qpair : ranges := [(0, 9); (11, 12); (14, 127)]%N.
Definition k_vchar : ranges := [(9, 9); (32, 127)]%N.
Definition k_not_sp : ranges := [(0, 31); (33, 256)]%N.
Definition k_cont : ranges := [(128, 191)]%N.
Definition m_wsp : mre := Cls k_wsp.
Definition m_lf : mre := Cls [(10, 10)]%N.
Definition m_crf : mre := Cls [(256, 256)]%N.    (* CR when lookAheadWSP *)
Definition m_cr : mre := Cls [(13, 13)]%N.       (* CR when !lookAheadWSP *)

(** CRLF with the actions on LF, then the header machine *)
Definition eol (l : list mact) : mre := m_cr ;; m_acts l (Jmp [(10, 10)]%N (Go 280)).
(** white space that may be folded once: SWS, LWS (sip.rl:270-272) *)
Definition after_fold (x : mre) : mre := m_lf ;; m_wsp ;; Star m_wsp ;; x.
Definition m_sws (x : mre) : mre := Star m_wsp ;; Alt x (m_crf ;; after_fold x).
Definition m_lws (x : mre) : mre := Alt (m_wsp ;; m_sws x) (m_crf ;; after_fold x).
(** SWS <: any @acts @hold @goto *)
Definition m_goto (l : list mact) (n : positive) : mre :=
  Star m_wsp ;; Alt (m_acts l (Jmp k_plain (Hold n))) (m_crf ;; m_lf ;; m_wsp ;; Star m_wsp ;; m_acts l (Jmp k_not_wsp (Hold n))).

(** sip.rl:277-291, with and without @append *)
Definition m_utf8 (one : ranges -> mre) : mre :=
  Alt (one [(192, 223)]%N ;; one k_cont)
  (Alt (one [(224, 239)]%N ;; one k_cont ;; one k_cont)
  (Alt (one [(240, 247)]%N ;; one k_cont ;; one k_cont ;; one k_cont)
  (Alt (one [(248, 251)]%N ;; one k_cont ;; one k_cont ;; one k_cont ;; one k_cont)
       (one [(252, 253)]%N ;; one k_cont ;; one k_cont ;; one k_cont ;; one k_cont ;; one k_cont)))).
Definition put1 (k : ranges) : mre := m_on MAppend k.
(** sip.rl:355-359 *)
Definition m_qpiece : mre :=
  Alt (put1 k_qdtext) (Alt (put1 [(256, 256)]%N ;; put1 [(10, 10)]%N ;; put1 k_wsp) (Alt (m_ch x5c ;; put1 k_qpair) (m_utf8 put1))).
Definition m_quoted : mre := m_ch x22 ;; Act MStart ;; Star m_qpiece ;; m_ch x22.
(** sip.rl:376-381 *)
Definition m_pvalue : mre := Alt (m_plus (put1 k_tokenhost)) m_quoted.
Definition m_token : mre := m_plus (Cls k_token).

(** sip.rl:550-565  main *)
Definition m_version : mre -> mre := fun x => m_plus (m_on MMajor k_dig) ;; m_ch "." ;; m_plus (m_on MMinor k_dig) ;; x.
Definition m_request : mre :=
  Act MMark ;; m_token ;; Act MMethod ;; m_ch " " ;; Act MMark ;; m_plus (Cls k_not_sp) ;; Act MRequest ;; m_ch " " ;; m_str (B "SIP/") (m_version (eol [])).
Definition m_escaped : mre := m_ch "%" ;; m_on MHexHi k_xdig ;; m_on MHexLo k_xdig.
Definition m_reason : mre := Alt m_escaped (Alt (m_utf8 put1) (put1 k_reason)).
(** mark is set because the text may yet turn out to be a method *)
Definition m_response : mre :=
  Act MMark ;; m_str (B "SIP/") (m_version (m_ch " " ;; m_on MStatus k_dig ;; m_on MStatus k_dig ;; m_on MStatus k_dig ;; m_ch " " ;;
    Act MStart ;; m_plus m_reason ;; Act MPhrase ;; eol [])).
Definition r_main : mre := Alt m_request m_response.

(** sip.rl:363-369  ctype *)
Definition m_ctparam : mre :=
  m_sws (m_ch ";" ;; m_sws (m_token ;; m_sws (m_ch "=" ;; m_sws (Alt m_token m_quoted)))).
Definition r_ctype : mre := Act MMark ;; m_token ;; m_ch "/" ;; m_token ;; Act MCtype ;; Star m_ctparam ;; eol [].

(** sip.rl:383-411  via_param, via *)
Definition param_sep (comma semi : list mact) (nc ns : positive) : mre :=
  Alt (m_ch "," ;; m_goto comma nc) (m_ch ";" ;; m_goto semi ns).
Definition r_via_param : mre :=
  let sep := param_sep [MViaParam; MVia; MViaNew] [MViaParam; MStart] 103 68 in
  let fin := eol [MViaParam; MVia] in
  Act MStart ;; Act MMark ;; m_token ;; Act MName ;;
  Alt fin (m_sws (Alt (m_ch "=" ;; m_sws (m_pvalue ;; Alt fin (m_sws sep))) sep)).
Definition m_viahost : mre :=
  Alt (Act MMark ;; m_plus (Cls k_host) ;; Act MViaHost) (m_ch "[" ;; Act MMark ;; m_plus (Cls k_ip6) ;; Act MViaHost ;; m_ch "]").
Definition r_via : mre :=
  let sep := param_sep [MVia; MViaNew] [MStart] 103 68 in
  let fin := eol [MVia] in
  Act MMark ;; m_token ;; Act MViaProtocol ;; m_sws (m_ch "/" ;; m_sws (
  Act MMark ;; m_token ;; Act MViaVersion ;; m_sws (m_ch "/" ;; m_sws (
  Act MMark ;; m_token ;; Act MViaTransport ;; m_lws (m_viahost ;;
  Alt fin (m_sws (Alt (m_ch ":" ;; m_sws (m_plus (m_on MViaPort k_dig) ;; Alt fin (m_sws sep))) sep))))))).

(** sip.rl:432-457  addresses *)
Definition r_addr_param : mre :=
  let sep := param_sep [MAddrParam; MAddr] [MAddrParam] 256 153 in
  let fin := eol [MAddrParam; MAddr] in
  Act MStart ;; Act MMark ;; m_token ;; Act MName ;;
  Alt fin (m_sws (Alt (m_ch "=" ;; m_sws (m_pvalue ;; Alt fin (m_sws sep))) sep)).
Definition m_angle_end : mre :=
  let sep := param_sep [MAddr] [] 256 153 in
  let fin := eol [MAddr] in
  Star m_wsp ;; Alt fin (Alt sep (m_crf ;; after_fold (Alt fin (Alt sep (m_crf ;; after_fold sep))))).
Definition m_angle : mre :=
  m_ch "<" ;; Act MMark ;; Cls k_alph ;; Star (Cls k_schm) ;; m_ch ":" ;; m_plus (Cls k_uric) ;; Act MAddrUri ;; m_ch ">" ;; m_angle_end.
(** (token LWS)+ then LAQUOT: every blank after the first of a run might already belong to LAQUOT, so the display name is stored again *)
Definition m_blank : mre := Act MDisplayU ;; m_wsp.
Definition m_gap (tail folded : mre) : mre :=
  Alt (m_wsp ;; Star m_blank ;; tail)
  (Alt (m_crf ;; m_lf ;; m_wsp ;; Star m_blank ;; folded)
       (m_wsp ;; Star m_blank ;; Act MDisplayU ;; m_crf ;; m_lf ;; m_wsp ;; Star m_blank ;; folded)).
Definition m_gap0 : mre :=
  Alt (m_wsp ;; Star m_blank)
  (Alt (m_crf ;; m_lf ;; m_wsp ;; Star m_blank)
       (m_wsp ;; Star m_blank ;; Act MDisplayU ;; m_crf ;; m_lf ;; m_wsp ;; Star m_blank)).
Definition m_unquoted : mre :=
  Act MMark ;; Star (m_token ;; m_gap0) ;; m_token ;;
  m_gap (Act MDisplayU ;; m_angle) (Act MDisplayU ;; Alt m_angle (m_crf ;; after_fold m_angle)).
Definition r_angled : mre :=
  Alt (Act MStart ;; m_quoted ;; Act MDisplayQ ;; m_sws m_angle) (Alt m_unquoted (m_sws m_angle)).
(** ( uri - ";" ) %AddrUri addr_uri_end: a separator right after the URI is still a possible byte of it, so the URI is stored again *)
Definition m_again (c : byte) (other stop blank nofold : ranges) (l : list mact) (n : positive) : mre :=
  let fold_tail := Star m_wsp ;; Alt (m_acts l (Jmp nofold (Hold n))) (m_ch c ;; m_goto l n) in
  m_ch c ;; Star (Act MAddrUri ;; m_ch c) ;;
  Alt (m_acts l (Jmp other (Hold n)))
  (Act MAddrUri ;; Alt (m_acts l (Jmp stop (Hold n)))
    (Alt (m_wsp ;; Star m_wsp ;; Alt (m_acts l (Jmp blank (Hold n))) (Alt (m_crf ;; m_lf ;; m_wsp ;; fold_tail) (m_ch c ;; m_goto l n)))
         (m_crf ;; m_lf ;; m_wsp ;; fold_tail))).
Definition m_uri_end : mre :=
  let sep := param_sep [MAddr] [] 256 153 in
  Alt (Act MAddrUri ;; eol [MAddr])
  (Alt (Act MAddrUri ;; m_lws sep)
  (Alt (Act MAddrUri ;; m_again "," [(0, 8); (10, 12); (14, 31); (33, 43); (45, 58); (60, 255)]%N [(13, 13); (59, 59)]%N
          [(0, 8); (10, 31); (33, 43); (45, 255)]%N [(0, 8); (10, 31); (33, 43); (45, 256)]%N [MAddr] 256)
       (Act MAddrUri ;; m_again ";" [(0, 8); (10, 12); (14, 31); (33, 43); (45, 58); (60, 255)]%N [(13, 13); (44, 44)]%N
          [(0, 8); (10, 31); (33, 58); (60, 255)]%N [(0, 8); (10, 31); (33, 58); (60, 256)]%N [] 153))).
Definition r_addr_uri : mre :=
  Cls k_alph ;; Star (Cls k_schm) ;; m_ch ":" ;; Cls k_uric ;; Star (Cls k_uric1) ;; m_uri_end.
Definition m_lws0 : mre := Alt (m_plus m_wsp) (Star m_wsp ;; m_crf ;; m_lf ;; m_plus m_wsp).
Definition r_addr : mre :=
  Alt (Act MAddrNew ;; Jmp [(34, 34); (60, 60)]%N (Hold 188))
  (Alt (Act MMark ;; m_plus (m_token ;; m_lws0) ;; Act MAddrNew ;; Jmp [(60, 60)]%N (Back 188))
       (Act MMark ;; Cls k_alph ;; Star (Cls k_schm) ;; Act MAddrNew ;; Jmp [(58, 58)]%N (Back 229))).

(** sip.rl:531-543  value, xheader, header *)
Definition m_vpiece : mre := Alt (Cls k_vchar) (Alt (m_crf ;; m_lf ;; m_wsp) (m_utf8 (@Cls mact mjump))).
Definition r_value : mre := Act MMark ;; Star m_vpiece ;; eol [MValue].
Definition m_hcolon (x : mre) : mre := Star m_wsp ;; m_ch ":" ;; x.
Definition r_xheader : mre := m_token ;; Act MName ;; m_hcolon (m_goto [MValueNil] 263).
Definition r_header : mre := Alt (m_cr ;; Jmp [(10, 10)]%N Done) (Act MMark ;; Jmp k_token (Hold 281)).

(** sip.rl:437-497, 535-539  the known headers (MsgSpec.known_headers) *)
Definition m_number (first more : list mact) : mre :=
  m_hcolon (m_sws (m_acts first (Cls k_dig) ;; Star (m_acts more (Cls k_dig)) ;; eol [])).
Definition m_header (h : hkind) : mre :=
  match h with
  | HStr f => Act (MValuep f) ;; m_hcolon (m_goto [] 263)
  | HAllow_u => Act (MValuep Allow) ;; Act (MValuep AllowEvents) ;; m_hcolon (m_goto [] 263)
  | HAddr f => Act (MAddrp f) ;; m_hcolon (m_goto [MValueNil] 256)
  | HVia => m_hcolon (m_goto [MViaNew] 103)
  | HCtype => m_hcolon (m_goto [] 34)
  | HCallID => m_hcolon (m_sws (Act MMark ;; m_plus (Cls k_word) ;; Alt Eps (m_ch "@" ;; m_plus (Cls k_word)) ;; Act MCallID ;; eol []))
  | HCSeq => m_hcolon (m_sws (m_plus (m_on MCSeq k_dig) ;; m_lws (Act MMark ;; m_token ;; Act MCSeqMethod ;; eol [])))
  | HClen => m_number [MClen0; MClen] [MClen]
  | HExpires => m_number [MExpires0; MExpires] [MExpires]
  | HMaxForwards => m_number [MMaxForwards0; MMaxForwards] [MMaxForwards]
  | HMinExpires => m_number [MMinExpires0; MMinExpires] [MMinExpires]
  | HLength_l => m_number [MClen0; MClen; MExpires0; MExpires; MMaxForwards0; MMaxForwards; MMinExpires0; MMinExpires] [MClen; MExpires; MMaxForwards; MMinExpires]
  end.
(** A prefix tree over names; a symbol that continues no name leaves for the xheader machine ($!gxh) *)
Definition upper (c : byte) : byte := if ((97 <=? bz c) && (bz c <=? 122))%Z then zb (bz c - 32) else c.
Definition k_letter (c : byte) : ranges := [(Byte.to_N c, Byte.to_N c); (Byte.to_N (upper c), Byte.to_N (upper c))].
Fixpoint heads (l : list (bytes * mre)) : list byte :=
  match l with
  | [] => []
  | ([], _) :: l' => heads l'
  | (c :: _, _) :: l' => let h := heads l' in if existsb (beq c) h then h else c :: h
  end.
Fixpoint tails (c : byte) (l : list (bytes * mre)) : list (bytes * mre) :=
  match l with
  | [] => []
  | (d :: w, r) :: l' => if beq c d then (w, r) :: tails c l' else tails c l'
  | ([], _) :: l' => tails c l'
  end.
Fixpoint ends (l : list (bytes * mre)) : list mre :=
  match l with [] => [] | ([], r) :: l' => r :: ends l' | _ :: l' => ends l' end.
Definition symbols : list N := Eval vm_compute in map N.of_nat (seq 0 257).
(** consecutive symbols as ranges *)
Fixpoint span (l : list N) : ranges :=
  match l with
  | [] => []
  | c :: l' => match span l' with (a, b) :: k => if N.eqb a (c + 1) then (c, b) :: k else (c, c) :: (a, b) :: k | [] => [(c, c)] end
  end.
Definition k_others (l : list (bytes * mre)) : ranges :=
  let k := flat_map k_letter (heads l) ++ match ends l with [] => [] | _ => [(9, 9); (32, 32); (58, 58)]%N end in
  span (filter (fun c => negb (in_ranges k c)) symbols).
Fixpoint alts (x : mre) (l : list mre) : mre := match l with [] => x | r :: l' => Alt r (alts x l') end.
Fixpoint trie (fuel : nat) (l : list (bytes * mre)) : mre :=
  match fuel with
  | O => Eps
  | S f => alts (Jmp (k_others l) (Hold 273)) (ends l ++ map (fun c => Cls (k_letter c) ;; trie f (tails c l)) (heads l))
  end.
Definition name_table : list (bytes * mre) := map (fun x => (fst x, m_header (snd x))) known_headers.
Definition r_names : mre := trie 24 name_table.

(** ** The automaton implements them *)
Scheme Equality for sfield.
Scheme Equality for afield.
Scheme Equality for mact.
Scheme Equality for positive.
Scheme Equality for mjump.
Lemma mact_eqb_spec a b : mact_beq a b = true <-> a = b.
Proof. split; [apply internal_mact_dec_bl|apply internal_mact_dec_lb]. Qed.
Lemma mjump_eqb_spec a b : mjump_beq a b = true <-> a = b.
Proof. split; [apply internal_mjump_dec_bl|apply internal_mjump_dec_lb]. Qed.
Definition msg_final (n : positive) : option (list mact) := if (n <? msg_first_final)%positive then None else Some [].
Definition machines : list (positive * list mre) :=
  [(msg_en_main, [r_main]); (msg_en_ctype, [r_ctype]); (msg_en_via_param, [r_via_param]); (msg_en_via, [r_via]); (msg_en_addr_param, [r_addr_param]);
   (msg_en_addr_angled, [r_angled]); (msg_en_addr_uri, [r_addr_uri]); (msg_en_addr, [r_addr]); (msg_en_value, [r_value]); (msg_en_xheader, [r_xheader]);
   (msg_en_header, [r_header]); (281%positive, [r_names])].
Definition msg_cert : cert := explore msg_row mact_beq mjump_beq 20000 machines (PositiveMap.empty _).
Lemma msg_checked : check_cert msg_row mact_beq mjump_beq msg_final msg_cert = true.
Proof. vm_compute. reflexivity. Qed.
Lemma machine_cert : forallb (fun x => list_eqb (re_eqb mact_beq mjump_beq) (lookup msg_cert (fst x)) (snd x)) machines = true.
Proof. vm_compute. reflexivity. Qed.
