(** Package sdp: codec.go, codecs.go, media.go, origin.go, sdp.go. Log output is not modelled;
    error texts are replaced with an enumeration. *)
From Verif Require Import Bytes GoLib.
Local Open Scope Z_scope.

Notation "'do' x <- r ; k" := (rbind r (fun x => k)) (at level 200, x name, r at level 100, k at level 200).

(** s[n:]; out of range is a panic *)
Definition from (n : nat) (s : bytes) : res bytes :=
  if Nat.leb n (length s) then Ok (skipn n s) else Panic.
(** s[0:n] *)
Definition upto (n : nat) (s : bytes) : res bytes :=
  if Nat.leb n (length s) then Ok (firstn n s) else Panic.
(** l[i] *)
Definition at_ {A} (l : list A) (i : nat) : res A :=
  match nth_error l i with Some x => Ok x | None => Panic end.

(** sdp/codec.go:25-31  type Codec *)
Record codec := mkcodec { c_pt : Z; c_name : bytes; c_rate : Z; c_param : bytes; c_fmtp : bytes }.
(** sdp/media.go:24-28  type Media *)
Record media := mkmedia { m_proto : bytes; m_port : Z; m_codecs : list codec }.
(** sdp/origin.go:25-30  type Origin *)
Record origin := mkorigin { o_user : bytes; o_id : bytes; o_version : bytes; o_addr : bytes }.
(** sdp/sdp.go:86-98  type SDP *)
Record sdp := mksdp {
  s_origin : origin; s_addr : bytes; s_audio : option media; s_video : option media;
  s_session : bytes; s_time : bytes; s_ptime : Z; s_sendonly : bool; s_recvonly : bool;
  s_attrs : list (bytes * bytes); s_other : list (bytes * bytes)
}.

(** sdp/codec.go:33-52  Codec.Append *)
Definition codec_append (c : codec) : bytes :=
  B "a=rtpmap:" ++ itoa (c_pt c) ++ B " " ++ c_name c ++ B "/" ++ itoa (c_rate c) ++
  (match c_param c with [] => [] | p => B "/" ++ p end) ++ CRLF ++
  (match c_fmtp c with [] => [] | f => B "a=fmtp:" ++ itoa (c_pt c) ++ B " " ++ f ++ CRLF end).

(** sdp/media.go:30-49  Media.Append *)
Definition media_append (ty : bytes) (m : media) : bytes :=
  B "m=" ++ ty ++ B " " ++ itoa (m_port m) ++ B " " ++
  (match m_proto m with [] => B "RTP/AVP" | p => p end) ++
  concat (map (fun c => B " " ++ itoa (c_pt c)) (m_codecs m)) ++ CRLF ++
  concat (map codec_append (m_codecs m)).

(** util/util.go:40-42  IsIPv6 *)
Definition IsIPv6 (ip : bytes) : bool := contains_byte ":" ip.

(** sdp/origin.go:32-63  Origin.Append; [rid] is the string a call to GenerateOriginID would return *)
Definition origin_append (rid : bytes) (o : origin) : bytes :=
  let id := match o_id o with [] => rid | i => i end in
  B "o=" ++ (match o_user o with [] => B "-" | u => u end) ++ B " " ++ id ++ B " " ++
  (match o_version o with [] => id | v => v end) ++
  (if IsIPv6 (o_addr o) then B " IN IP6 " else B " IN IP4 ") ++
  (match o_addr o with [] => B "69.28.157.198" | a => a end) ++ CRLF.

(** sdp/sdp.go:334-346 *)
Definition attr_append (a : bytes * bytes) : bytes :=
  match snd a with
  | [] => B "a=" ++ fst a ++ CRLF
  | v => B "a=" ++ fst a ++ B ":" ++ v ++ CRLF
  end.
(** sdp/sdp.go:361-368 *)
Definition other_append (a : bytes * bytes) : bytes := fst a ++ B "=" ++ snd a ++ CRLF.

(** sdp/sdp.go:299-369  SDP.Append *)
Definition sdp_append (rid : bytes) (s : sdp) : bytes :=
  B "v=0" ++ CRLF ++ origin_append rid (s_origin s) ++
  B "s=" ++ (match s_session s with [] => B "my people call themselves dark angels" | x => x end) ++ CRLF ++
  (if IsIPv6 (s_addr s) then B "c=IN IP6 " else B "c=IN IP4 ") ++
  (match s_addr s with [] => B "69.28.157.198" | a => a end) ++ CRLF ++
  B "t=" ++ (match s_time s with [] => B "0 0" | x => x end) ++ CRLF ++
  (match s_audio s with Some m => media_append (B "audio") m | None => [] end) ++
  (match s_video s with Some m => media_append (B "video") m | None => [] end) ++
  concat (map attr_append (s_attrs s)) ++
  (if 0 <? s_ptime s then B "a=ptime:" ++ itoa (s_ptime s) ++ CRLF else []) ++
  (if s_sendonly s then B "a=sendonly" ++ CRLF else if s_recvonly s then B "a=recvonly" ++ CRLF else B "a=sendrecv" ++ CRLF) ++
  concat (map other_append (s_other s)).

(** sdp/codecs.go:36-65 *)
Definition ULAWCodec : codec := mkcodec 0 (B "PCMU") 8000 [] [].
Definition DTMFCodec : codec := mkcodec 101 (B "telephone-event") 8000 [] (B "0-16").
Definition Opus : codec := mkcodec 111 (B "opus") 48000 (B "2") [].
Definition StandardCodecs (pt : Z) : option codec :=
  let k n r := Some (mkcodec pt n r [] []) in
  match pt with
  | 0 => Some ULAWCodec
  | 3 => k (B "GSM") 8000 | 4 => k (B "G723") 8000 | 5 => k (B "DVI4") 8000 | 6 => k (B "DVI4") 16000
  | 7 => k (B "LPC") 8000 | 8 => k (B "PCMA") 8000 | 9 => k (B "G722") 8000
  | 10 => Some (mkcodec 10 (B "L16") 44100 (B "2") [])
  | 11 => k (B "L16") 44100 | 12 => k (B "QCELP") 8000 | 13 => k (B "CN") 8000 | 14 => k (B "MPA") 90000
  | 15 => k (B "G728") 8000 | 16 => k (B "DVI4") 11025 | 17 => k (B "DVI4") 22050 | 18 => k (B "G729") 8000
  | 25 => k (B "CelB") 90000 | 26 => k (B "JPEG") 90000 | 28 => k (B "nv") 90000 | 31 => k (B "H261") 90000
  | 32 => k (B "MPV") 90000 | 33 => k (B "MP2T") 90000 | 34 => k (B "H263") 90000
  | _ => None
  end.

(** The errors of sdp.go, one per errors.New *)
Inductive sdp_err :=
| ENoVersion | ETooFewLines | EMissing | ENoMedia | EDynamic | EUnknownCodec | ERate | ERtpmap
| EMLine | EMPort | EMPt | EConnLine | EConnNet | EConnMulticast | EOriginLine | EOriginNet | EOriginMulticast.

(** sdp/sdp.go:475-488  parseConnLine *)
Definition parseConnLine (line : bytes) : res (bytes + sdp_err) :=
  do l <- from 2 line;
  let toks := split_byte " " l in
  if negb (Nat.eqb (length toks) 3) then Ok (inr EConnLine)
  else
    do t0 <- at_ toks 0; do t1 <- at_ toks 1; do t2 <- at_ toks 2;
    if negb (bseq t0 (B "IN")) || (negb (bseq t1 (B "IP4")) && negb (bseq t1 (B "IP6"))) then Ok (inr EConnNet)
    else match index_byte "/" t2 with
         | Some _ => Ok (inr EConnMulticast)
         | None => Ok (inl t2)
         end.

(** sdp/sdp.go:491-507  parseOriginLine *)
Definition parseOriginLine (line : bytes) : res (origin + sdp_err) :=
  do l <- from 2 line;
  let toks := split_byte " " l in
  if negb (Nat.eqb (length toks) 6) then Ok (inr EOriginLine)
  else
    do t0 <- at_ toks 0; do t1 <- at_ toks 1; do t2 <- at_ toks 2;
    do t3 <- at_ toks 3; do t4 <- at_ toks 4; do t5 <- at_ toks 5;
    if negb (bseq t3 (B "IN")) || (negb (bseq t4 (B "IP4")) && negb (bseq t4 (B "IP6"))) then Ok (inr EOriginNet)
    else match index_byte "/" t5 with
         | Some _ => Ok (inr EOriginMulticast)
         | None => Ok (inl (mkorigin t0 t1 t2 t5))
         end.

(** sdp/sdp.go:462-469  payload types of the m= line *)
Fixpoint parse_pts (toks : list bytes) : list Z + sdp_err :=
  match toks with
  | [] => inl []
  | t :: ts => match parse_uint 8 t with
               | None => inr EMPt
               | Some v => match parse_pts ts with inl l => inl (u8 v :: l) | inr e => inr e end
               end
  end.

(** sdp/sdp.go:438-472  parseMediaInfo *)
Definition parseMediaInfo (s : bytes) : res ((Z * bytes * list Z) + sdp_err) :=
  let toks := split_byte " " s in
  if Nat.ltb (length toks) 3 then Ok (inr EMLine)
  else
    do t0 <- at_ toks 0;
    do portS <- (match index_byte "/" t0 with
                 | Some (S n) => upto (S n) t0
                 | _ => Ok t0
                 end);
    match parse_uint 16 portS with
    | None => Ok (inr EMPort)
    | Some portU =>
      do proto <- at_ toks 1;
      Ok (match parse_pts (skipn 2 toks) with inl pts => inl (u16 portU, proto, pts) | inr e => inr e end)
    end.

(** sdp/sdp.go:420-435  parseRtpmapInfo on a codec whose PT is set; sets Name, Rate and Param *)
Definition parseRtpmapInfo (pt : Z) (s : bytes) : res (codec + sdp_err) :=
  let toks := split_byte "/" s in
  if Nat.leb 2 (length toks) then
    do name <- at_ toks 0; do r <- at_ toks 1;
    match atoi r with
    | None => Ok (inr ERate)
    | Some rate =>
      if Nat.leb 3 (length toks) then do p <- at_ toks 2; Ok (inl (mkcodec pt name rate p []))
      else Ok (inl (mkcodec pt name rate [] []))
    end
  else Ok (inr ERtpmap).

(** sdp/sdp.go:414-416 *)
Definition isDynamicPT (pt : Z) : bool := 96 <=? pt.

(** sdp/sdp.go:382-390, 403-408  the first entry with the given prefix, without the prefix *)
Fixpoint find_prefix (prefix : bytes) (l : list bytes) : option bytes :=
  match l with
  | [] => None
  | x :: l' => if has_prefix x prefix then Some (skipn (length prefix) x) else find_prefix prefix l'
  end.

(** sdp/sdp.go:378-409  one iteration of populateCodecs *)
Definition populate_one (pt : Z) (rtpmaps fmtps : list bytes) : res (codec + sdp_err) :=
  let prefix := itoa pt ++ B " " in
  do c1 <- (match find_prefix prefix rtpmaps with
            | Some info => parseRtpmapInfo pt info
            | None => Ok (inl (mkcodec pt [] 0 [] []))
            end);
  match c1 with
  | inr e => Ok (inr e)
  | inl c =>
    let c2 := match c_name c with
              | [] => if isDynamicPT pt then inr EDynamic
                      else match StandardCodecs pt with Some v => inl v | None => inr EUnknownCodec end
              | _ => inl c
              end in
    match c2 with
    | inr e => Ok (inr e)
    | inl c => Ok (inl (match find_prefix prefix fmtps with
                        | Some f => mkcodec (c_pt c) (c_name c) (c_rate c) (c_param c) f
                        | None => c
                        end))
    end
  end.

(** sdp/sdp.go:376-411  populateCodecs *)
Fixpoint populateCodecs (pts : list Z) (rtpmaps fmtps : list bytes) : res (list codec + sdp_err) :=
  match pts with
  | [] => Ok (inl [])
  | pt :: pts' =>
    do r <- populate_one pt rtpmaps fmtps;
    match r with
    | inr e => Ok (inr e)
    | inl c => do rs <- populateCodecs pts' rtpmaps fmtps;
               Ok (match rs with inl cs => inl (c :: cs) | inr e => inr e end)
    end
  end.

(** Local variables of Parse (sdp/sdp.go:118-144). [p_room] is len(lines): the length of the
    rtpmaps and fmtps slices and the capacity of Attrs. Attrs and Other are kept in order. *)
Record pst := mkpst {
  p_room : nat; p_audio : bytes; p_video : bytes; p_rtpmaps : list bytes; p_fmtps : list bytes;
  p_attrs : list (bytes * bytes); p_other : list (bytes * bytes);
  p_session : bytes; p_time : bytes; p_conn : option bytes; p_origin : option origin;
  p_ptime : Z; p_sendonly : bool; p_recvonly : bool
}.

(** sdp/sdp.go:181-216  an attribute line, without its "a=" *)
Definition parse_attr (st : pst) (line : bytes) : res pst :=
  let add_attr (a : bytes * bytes) :=
    if Nat.ltb (length (p_attrs st)) (p_room st) then
      Ok (mkpst (p_room st) (p_audio st) (p_video st) (p_rtpmaps st) (p_fmtps st) (p_attrs st ++ [a]) (p_other st)
            (p_session st) (p_time st) (p_conn st) (p_origin st) (p_ptime st) (p_sendonly st) (p_recvonly st))
    else Panic in
  if has_prefix line (B "rtpmap:") then
    do v <- from 7 line;
    if Nat.ltb (length (p_rtpmaps st)) (p_room st) then
      Ok (mkpst (p_room st) (p_audio st) (p_video st) (p_rtpmaps st ++ [v]) (p_fmtps st) (p_attrs st) (p_other st)
            (p_session st) (p_time st) (p_conn st) (p_origin st) (p_ptime st) (p_sendonly st) (p_recvonly st))
    else Panic
  else if has_prefix line (B "fmtp:") then
    do v <- from 5 line;
    if Nat.ltb (length (p_fmtps st)) (p_room st) then
      Ok (mkpst (p_room st) (p_audio st) (p_video st) (p_rtpmaps st) (p_fmtps st ++ [v]) (p_attrs st) (p_other st)
            (p_session st) (p_time st) (p_conn st) (p_origin st) (p_ptime st) (p_sendonly st) (p_recvonly st))
    else Panic
  else if has_prefix line (B "ptime:") then
    do v <- from 6 line;
    match atoi v with
    | Some n => if 0 <? n then
        Ok (mkpst (p_room st) (p_audio st) (p_video st) (p_rtpmaps st) (p_fmtps st) (p_attrs st) (p_other st)
              (p_session st) (p_time st) (p_conn st) (p_origin st) n (p_sendonly st) (p_recvonly st))
      else Ok st
    | None => Ok st
    end
  else if bseq line (B "sendrecv") then Ok st
  else if bseq line (B "sendonly") then
    Ok (mkpst (p_room st) (p_audio st) (p_video st) (p_rtpmaps st) (p_fmtps st) (p_attrs st) (p_other st)
          (p_session st) (p_time st) (p_conn st) (p_origin st) (p_ptime st) true (p_recvonly st))
  else if bseq line (B "recvonly") then
    Ok (mkpst (p_room st) (p_audio st) (p_video st) (p_rtpmaps st) (p_fmtps st) (p_attrs st) (p_other st)
          (p_session st) (p_time st) (p_conn st) (p_origin st) (p_ptime st) (p_sendonly st) true)
  else
    match index_byte ":" line with
    | Some O => Ok st
    | Some n => do k <- upto n line; do v <- from (n + 1) line; add_attr (k, v)
    | None => add_attr (line, [])
    end.

(** sdp/sdp.go:146-230  one line *)
Definition parse_line (st : pst) (line : bytes) : res (pst + sdp_err) :=
  match line with
  | [] => Ok (inl st)
  | _ =>
    if Nat.ltb (length line) 3 then Ok (inl st)
    else
      do c1 <- at_ line 1;
      if negb (beq c1 "=") then Ok (inl st)
      else
        do c0 <- at_ line 0;
        if beq c0 "m" then
          do l <- from 2 line;
          if has_prefix l (B "audio ") then
            do v <- from 6 l;
            Ok (inl (mkpst (p_room st) v (p_video st) (p_rtpmaps st) (p_fmtps st) (p_attrs st) (p_other st)
              (p_session st) (p_time st) (p_conn st) (p_origin st) (p_ptime st) (p_sendonly st) (p_recvonly st)))
          else if has_prefix l (B "video ") then
            do v <- from 6 l;
            Ok (inl (mkpst (p_room st) (p_audio st) v (p_rtpmaps st) (p_fmtps st) (p_attrs st) (p_other st)
              (p_session st) (p_time st) (p_conn st) (p_origin st) (p_ptime st) (p_sendonly st) (p_recvonly st)))
          else Ok (inl st)
        else if beq c0 "s" then
          do v <- from 2 line;
          Ok (inl (mkpst (p_room st) (p_audio st) (p_video st) (p_rtpmaps st) (p_fmtps st) (p_attrs st) (p_other st)
              v (p_time st) (p_conn st) (p_origin st) (p_ptime st) (p_sendonly st) (p_recvonly st)))
        else if beq c0 "t" then
          do v <- from 2 line;
          Ok (inl (mkpst (p_room st) (p_audio st) (p_video st) (p_rtpmaps st) (p_fmtps st) (p_attrs st) (p_other st)
              (p_session st) v (p_conn st) (p_origin st) (p_ptime st) (p_sendonly st) (p_recvonly st)))
        else if beq c0 "c" then
          match p_conn st with
          | Some _ => Ok (inl st)
          | None =>
            do r <- parseConnLine line;
            Ok (match r with
                | inr e => inr e
                | inl a => inl (mkpst (p_room st) (p_audio st) (p_video st) (p_rtpmaps st) (p_fmtps st) (p_attrs st) (p_other st)
                   (p_session st) (p_time st) (Some a) (p_origin st) (p_ptime st) (p_sendonly st) (p_recvonly st))
                end)
          end
        else if beq c0 "o" then
          do r <- parseOriginLine line;
          Ok (match r with
              | inr e => inr e
              | inl o => inl (mkpst (p_room st) (p_audio st) (p_video st) (p_rtpmaps st) (p_fmtps st) (p_attrs st) (p_other st)
                   (p_session st) (p_time st) (p_conn st) (Some o) (p_ptime st) (p_sendonly st) (p_recvonly st))
              end)
        else if beq c0 "a" then
          do l <- from 2 line;
          do st' <- parse_attr st l; Ok (inl st')
        else
          match index_byte "=" line with
          | Some O => Ok (inl st)
          | Some n =>
            do k <- upto n line; do v <- from (n + 1) line;
            Ok (inl (mkpst (p_room st) (p_audio st) (p_video st) (p_rtpmaps st) (p_fmtps st) (p_attrs st) (p_other st ++ [(k, v)])
              (p_session st) (p_time st) (p_conn st) (p_origin st) (p_ptime st) (p_sendonly st) (p_recvonly st)))
          | None =>
            Ok (inl (mkpst (p_room st) (p_audio st) (p_video st) (p_rtpmaps st) (p_fmtps st) (p_attrs st) (p_other st ++ [(line, [])])
              (p_session st) (p_time st) (p_conn st) (p_origin st) (p_ptime st) (p_sendonly st) (p_recvonly st)))
          end
  end.

Fixpoint parse_lines (st : pst) (lines : list bytes) : res (pst + sdp_err) :=
  match lines with
  | [] => Ok (inl st)
  | l :: ls => do r <- parse_line st l;
               match r with inr e => Ok (inr e) | inl st' => parse_lines st' ls end
  end.

(** sdp/sdp.go:242-268  one media section *)
Definition parse_media (info : bytes) (rtpmaps fmtps : list bytes) : res (option media + sdp_err) :=
  match info with
  | [] => Ok (inl None)
  | _ =>
    do r <- parseMediaInfo info;
    match r with
    | inr e => Ok (inr e)
    | inl (port, proto, pts) =>
      do cs <- populateCodecs pts rtpmaps fmtps;
      Ok (match cs with inr e => inr e | inl l => inl (Some (mkmedia proto port l)) end)
    end
  end.

(** sdp/sdp.go:117-275  Parse. The default session name is "pok\xc3\xa9mon". *)
Definition sdp_parse (s : bytes) : res (sdp + sdp_err) :=
  if negb (has_prefix s (B "v=0" ++ CRLF)) then Ok (inr ENoVersion)
  else
    do s <- from 5 s;
    let lines := split_crlf s in
    if Nat.ltb (length lines) 2 then Ok (inr ETooFewLines)
    else
      do r <- parse_lines (mkpst (length lines) [] [] [] [] [] [] (B "pok" ++ [xc3; xa9] ++ B "mon") (B "0 0") None None 0 false false) lines;
      match r with
      | inr e => Ok (inr e)
      | inl st =>
        match p_conn st, p_origin st with
        | Some addr, Some o =>
          do a <- parse_media (p_audio st) (p_rtpmaps st) (p_fmtps st);
          match a with
          | inr e => Ok (inr e)
          | inl audio =>
            do v <- parse_media (p_video st) (p_rtpmaps st) (p_fmtps st);
            match v with
            | inr e => Ok (inr e)
            | inl video =>
              match audio, video with
              | None, None => Ok (inr ENoMedia)
              | _, _ => Ok (inl (mksdp o addr audio video (p_session st) (p_time st) (p_ptime st)
                                   (p_sendonly st) (p_recvonly st) (p_attrs st) (p_other st)))
              end
            end
          end
        | _, _ => Ok (inr EMissing)
        end
      end.

(** sdp/sdp.go:101-114  New; [ip] is addr.IP.String(), [rid] the generated origin id *)
Definition sdp_new (ip : bytes) (port : Z) (rid : bytes) (codecs : list codec) : sdp :=
  mksdp (mkorigin [] rid rid ip) ip (Some (mkmedia (B "RTP/AVP") (u16 port) codecs)) None [] [] 0 false false [] [].
