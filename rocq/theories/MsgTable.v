(** Generated by tools/ragel2coq.py from /repo/sip/msg_parse.go (states st_case_N and the trK labels they lead to).
    One entry per set of symbols: the actions executed and where to continue. Symbols 0 to 255 are bytes, 256 is a CR
    for which lookAheadWSP holds. The first entry whose set has the symbol counts. Symbols not listed go to st0. *)
From Verif Require Import Bytes GoLib Auto SdpModel SipTypes.

(** The actions, by the lines of /repo/sip/sip.rl they are written on. *)
Inductive mact :=
| MMark   (* 80: mark = p *)
| MStart   (* 88: amt = 0 *)
| MAppend   (* 92: buf[amt] = data[p] amt++ *)
| MHexHi   (* 102: hex = unhex(data[p]) * 16 *)
| MHexLo   (* 106: hex += unhex(data[p]) buf[amt] = hex amt++ *)
| MMethod   (* 112: msg.Method = string(data[mark:p]) *)
| MMajor   (* 116: msg.VersionMajor = msg.VersionMajor * 10 + (data[p] - 0x30) *)
| MMinor   (* 120: msg.VersionMinor = msg.VersionMinor * 10 + (data[p] - 0x30) *)
| MRequest   (* 124: msg.Request, err = ParseURI(data[mark:p]) if err != nil { return nil, err } *)
| MStatus   (* 129: msg.Status = msg.Status * 10 + (int(data[p]) - 0x30) *)
| MPhrase   (* 133: msg.Phrase = string(buf[0:amt]) *)
| MViaNew   (* 137: via = new(Via) *)
| MVia   (* 141: *viap = via viap = &via.Next via = nil *)
| MViaProtocol   (* 147: via.Protocol = string(data[mark:p]) *)
| MViaVersion   (* 151: via.Version = string(data[mark:p]) *)
| MViaTransport   (* 155: via.Transport = string(data[mark:p]) *)
| MViaHost   (* 159: via.Host = string(data[mark:p]) *)
| MViaPort   (* 163: via.Port = via.Port * 10 + (uint16(data[p]) - 0x30) *)
| MViaParam   (* 167: via.Param = &Param{name, string(buf[0:amt]), via.Param} *)
| MName   (* 176: name = string(data[mark:p]) *)
| MValue   (* 180: { b := data[mark:p - 1] if value != nil { *value = string(b) } else { msg.XHeader = &XHeader{name, b, msg.XHeader} } } *)
| MAddrNew   (* 189: addr = new(Addr) *)
| MDisplayQ   (* 193: addr.Display = string(buf[0:amt]) *)
| MDisplayU   (* 197: { end := p for end > mark && whitespacec(data[end - 1]) { end-- } addr.Display = string(data[mark:end]) } *)
| MAddrUri   (* 205: addr.Uri, err = ParseURI(data[mark:p]) if err != nil { return nil, err } *)
| MAddrParam   (* 210: addr.Param = &Param{name, string(buf[0:amt]), addr.Param} *)
| MAddr   (* 214: *addrp = addr addrp = &addr.Next addr = nil *)
| MCallID   (* 220: msg.CallID = string(data[mark:p]) *)
| MClen   (* 224: clen = clen * 10 + (int(data[p]) - 0x30) *)
| MCtype   (* 228: ctype = string(data[mark:p]) *)
| MCSeq   (* 232: msg.CSeq = msg.CSeq * 10 + (int(data[p]) - 0x30) *)
| MCSeqMethod   (* 236: msg.CSeqMethod = string(data[mark:p]) *)
| MExpires   (* 240: msg.Expires = msg.Expires * 10 + (int(data[p]) - 0x30) *)
| MMaxForwards   (* 244: msg.MaxForwards = msg.MaxForwards * 10 + (int(data[p]) - 0x30) *)
| MMinExpires   (* 248: msg.MinExpires = msg.MinExpires * 10 + (int(data[p]) - 0x30) *)
| MClen0   (* 493: clen=0 *)
| MExpires0   (* 495: msg.Expires=0 *)
| MMaxForwards0   (* 496: msg.MaxForwards=0 *)
| MMinExpires0   (* 497: msg.MinExpires=0 *)
| MValueNil   (* 532, 534: value=nil *)
| MAddrp (f : afield)    (* 437-443: addrp=lastAddr(&msg.F) *)
| MValuep (f : sfield)   (* 450-485: value=&msg.F *)
.
(** Where to continue: the next position in the header machine (fgoto header on the last byte of a line), the same position
    (fhold: p--), the position saved in mark (fexec mark), or out of the automaton (fbreak). *)
Inductive mjump := Go (n : positive) | Hold (n : positive) | Back (n : positive) | Done.

Definition msg_row (n : positive) : row mact mjump :=
  match n with
  | 1%positive => [([(33, 33); (37, 37); (39, 39); (42, 43); (45, 46); (48, 57); (65, 82); (84, 90); (95, 122); (126, 126)], [MMark], Adv 2);
      ([(83, 83)], [MMark], Adv 14)]
  | 2%positive => [([(32, 32)], [MMethod], Adv 3);
      ([(33, 33); (37, 37); (39, 39); (42, 43); (45, 46); (48, 57); (65, 90); (95, 122); (126, 126)], [], Adv 2)]
  | 3%positive => [([(0, 31); (33, 256)], [MMark], Adv 4)]
  | 4%positive => [([(32, 32)], [MRequest], Adv 5);
      ([(0, 256)], [], Adv 4)]
  | 5%positive => [([(83, 83)], [], Adv 6)]
  | 6%positive => [([(73, 73)], [], Adv 7)]
  | 7%positive => [([(80, 80)], [], Adv 8)]
  | 8%positive => [([(47, 47)], [], Adv 9)]
  | 9%positive => [([(48, 57)], [MMajor], Adv 10)]
  | 10%positive => [([(46, 46)], [], Adv 11);
      ([(48, 57)], [MMajor], Adv 10)]
  | 11%positive => [([(48, 57)], [MMinor], Adv 12)]
  | 12%positive => [([(13, 13)], [], Adv 13);
      ([(48, 57)], [MMinor], Adv 12)]
  | 13%positive => [([(10, 10)], [], Jump (Go 280))]
  | 14%positive => [([(32, 32)], [MMethod], Adv 3);
      ([(33, 33); (37, 37); (39, 39); (42, 43); (45, 46); (48, 57); (65, 72); (74, 90); (95, 122); (126, 126)], [], Adv 2);
      ([(73, 73)], [], Adv 15)]
  | 15%positive => [([(32, 32)], [MMethod], Adv 3);
      ([(33, 33); (37, 37); (39, 39); (42, 43); (45, 46); (48, 57); (65, 79); (81, 90); (95, 122); (126, 126)], [], Adv 2);
      ([(80, 80)], [], Adv 16)]
  | 16%positive => [([(32, 32)], [MMethod], Adv 3);
      ([(33, 33); (37, 37); (39, 39); (42, 43); (45, 46); (48, 57); (65, 90); (95, 122); (126, 126)], [], Adv 2);
      ([(47, 47)], [], Adv 17)]
  | 17%positive => [([(48, 57)], [MMajor], Adv 18)]
  | 18%positive => [([(46, 46)], [], Adv 19);
      ([(48, 57)], [MMajor], Adv 18)]
  | 19%positive => [([(48, 57)], [MMinor], Adv 20)]
  | 20%positive => [([(32, 32)], [], Adv 21);
      ([(48, 57)], [MMinor], Adv 20)]
  | 21%positive => [([(48, 57)], [MStatus], Adv 22)]
  | 22%positive => [([(48, 57)], [MStatus], Adv 23)]
  | 23%positive => [([(48, 57)], [MStatus], Adv 24)]
  | 24%positive => [([(32, 32)], [], Adv 25)]
  | 25%positive => [([(9, 9); (32, 33); (36, 36); (38, 59); (61, 61); (63, 90); (95, 95); (97, 122); (126, 126)], [MStart; MAppend], Adv 26);
      ([(37, 37)], [MStart], Adv 27);
      ([(192, 223)], [MStart; MAppend], Adv 29);
      ([(224, 239)], [MStart; MAppend], Adv 30);
      ([(240, 247)], [MStart; MAppend], Adv 31);
      ([(248, 251)], [MStart; MAppend], Adv 32);
      ([(252, 253)], [MStart; MAppend], Adv 33)]
  | 26%positive => [([(9, 9); (32, 33); (36, 36); (38, 59); (61, 61); (63, 90); (95, 95); (97, 122); (126, 126)], [MAppend], Adv 26);
      ([(13, 13)], [MPhrase], Adv 13);
      ([(37, 37)], [], Adv 27);
      ([(192, 223)], [MAppend], Adv 29);
      ([(224, 239)], [MAppend], Adv 30);
      ([(240, 247)], [MAppend], Adv 31);
      ([(248, 251)], [MAppend], Adv 32);
      ([(252, 253)], [MAppend], Adv 33)]
  | 27%positive => [([(48, 57); (65, 70); (97, 102)], [MHexHi], Adv 28)]
  | 28%positive => [([(48, 57); (65, 70); (97, 102)], [MHexLo], Adv 26)]
  | 29%positive => [([(128, 191)], [MAppend], Adv 26)]
  | 30%positive => [([(128, 191)], [MAppend], Adv 29)]
  | 31%positive => [([(128, 191)], [MAppend], Adv 30)]
  | 32%positive => [([(128, 191)], [MAppend], Adv 31)]
  | 33%positive => [([(128, 191)], [MAppend], Adv 32)]
  | 34%positive => [([(33, 33); (37, 37); (39, 39); (42, 43); (45, 46); (48, 57); (65, 90); (95, 122); (126, 126)], [MMark], Adv 35)]
  | 35%positive => [([(33, 33); (37, 37); (39, 39); (42, 43); (45, 46); (48, 57); (65, 90); (95, 122); (126, 126)], [], Adv 35);
      ([(47, 47)], [], Adv 36)]
  | 36%positive => [([(33, 33); (37, 37); (39, 39); (42, 43); (45, 46); (48, 57); (65, 90); (95, 122); (126, 126)], [], Adv 37)]
  | 37%positive => [([(9, 9); (32, 32)], [MCtype], Adv 38);
      ([(13, 13)], [MCtype], Adv 44);
      ([(33, 33); (37, 37); (39, 39); (42, 43); (45, 46); (48, 57); (65, 90); (95, 122); (126, 126)], [], Adv 37);
      ([(59, 59)], [MCtype], Adv 39);
      ([(256, 256)], [MCtype], Adv 45)]
  | 38%positive => [([(9, 9); (32, 32)], [], Adv 38);
      ([(59, 59)], [], Adv 39);
      ([(256, 256)], [], Adv 45)]
  | 39%positive => [([(9, 9); (32, 32)], [], Adv 39);
      ([(33, 33); (37, 37); (39, 39); (42, 43); (45, 46); (48, 57); (65, 90); (95, 122); (126, 126)], [], Adv 40);
      ([(256, 256)], [], Adv 65)]
  | 40%positive => [([(9, 9); (32, 32)], [], Adv 41);
      ([(33, 33); (37, 37); (39, 39); (42, 43); (45, 46); (48, 57); (65, 90); (95, 122); (126, 126)], [], Adv 40);
      ([(61, 61)], [], Adv 42);
      ([(256, 256)], [], Adv 62)]
  | 41%positive => [([(9, 9); (32, 32)], [], Adv 41);
      ([(61, 61)], [], Adv 42);
      ([(256, 256)], [], Adv 62)]
  | 42%positive => [([(9, 9); (32, 32)], [], Adv 42);
      ([(33, 33); (37, 37); (39, 39); (42, 43); (45, 46); (48, 57); (65, 90); (95, 122); (126, 126)], [], Adv 43);
      ([(34, 34)], [], Adv 48);
      ([(256, 256)], [], Adv 59)]
  | 43%positive => [([(9, 9); (32, 32)], [], Adv 38);
      ([(13, 13)], [], Adv 44);
      ([(33, 33); (37, 37); (39, 39); (42, 43); (45, 46); (48, 57); (65, 90); (95, 122); (126, 126)], [], Adv 43);
      ([(59, 59)], [], Adv 39);
      ([(256, 256)], [], Adv 45)]
  | 44%positive => [([(10, 10)], [], Jump (Go 280))]
  | 45%positive => [([(10, 10)], [], Adv 46)]
  | 46%positive => [([(9, 9); (32, 32)], [], Adv 47)]
  | 47%positive => [([(9, 9); (32, 32)], [], Adv 47);
      ([(59, 59)], [], Adv 39)]
  | 48%positive => [([(9, 9); (32, 33); (35, 91); (93, 126)], [MStart; MAppend], Adv 49);
      ([(34, 34)], [MStart], Adv 50);
      ([(92, 92)], [MStart], Adv 51);
      ([(192, 223)], [MStart; MAppend], Adv 52);
      ([(224, 239)], [MStart; MAppend], Adv 53);
      ([(240, 247)], [MStart; MAppend], Adv 54);
      ([(248, 251)], [MStart; MAppend], Adv 55);
      ([(252, 253)], [MStart; MAppend], Adv 56);
      ([(256, 256)], [MStart; MAppend], Adv 57)]
  | 49%positive => [([(9, 9); (32, 33); (35, 91); (93, 126)], [MAppend], Adv 49);
      ([(34, 34)], [], Adv 50);
      ([(92, 92)], [], Adv 51);
      ([(192, 223)], [MAppend], Adv 52);
      ([(224, 239)], [MAppend], Adv 53);
      ([(240, 247)], [MAppend], Adv 54);
      ([(248, 251)], [MAppend], Adv 55);
      ([(252, 253)], [MAppend], Adv 56);
      ([(256, 256)], [MAppend], Adv 57)]
  | 50%positive => [([(9, 9); (32, 32)], [], Adv 38);
      ([(13, 13)], [], Adv 44);
      ([(59, 59)], [], Adv 39);
      ([(256, 256)], [], Adv 45)]
  | 51%positive => [([(0, 9); (11, 12); (14, 127)], [MAppend], Adv 49)]
  | 52%positive => [([(128, 191)], [MAppend], Adv 49)]
  | 53%positive => [([(128, 191)], [MAppend], Adv 52)]
  | 54%positive => [([(128, 191)], [MAppend], Adv 53)]
  | 55%positive => [([(128, 191)], [MAppend], Adv 54)]
  | 56%positive => [([(128, 191)], [MAppend], Adv 55)]
  | 57%positive => [([(10, 10)], [MAppend], Adv 58)]
  | 58%positive => [([(9, 9); (32, 32)], [MAppend], Adv 49)]
  | 59%positive => [([(10, 10)], [], Adv 60)]
  | 60%positive => [([(9, 9); (32, 32)], [], Adv 61)]
  | 61%positive => [([(9, 9); (32, 32)], [], Adv 61);
      ([(33, 33); (37, 37); (39, 39); (42, 43); (45, 46); (48, 57); (65, 90); (95, 122); (126, 126)], [], Adv 43);
      ([(34, 34)], [], Adv 48)]
  | 62%positive => [([(10, 10)], [], Adv 63)]
  | 63%positive => [([(9, 9); (32, 32)], [], Adv 64)]
  | 64%positive => [([(9, 9); (32, 32)], [], Adv 64);
      ([(61, 61)], [], Adv 42)]
  | 65%positive => [([(10, 10)], [], Adv 66)]
  | 66%positive => [([(9, 9); (32, 32)], [], Adv 67)]
  | 67%positive => [([(9, 9); (32, 32)], [], Adv 67);
      ([(33, 33); (37, 37); (39, 39); (42, 43); (45, 46); (48, 57); (65, 90); (95, 122); (126, 126)], [], Adv 40)]
  | 68%positive => [([(33, 33); (37, 37); (39, 39); (42, 43); (45, 46); (48, 57); (65, 90); (95, 122); (126, 126)], [MStart; MMark], Adv 69)]
  | 69%positive => [([(9, 9); (32, 32)], [MName], Adv 70);
      ([(13, 13)], [MName], Adv 85);
      ([(33, 33); (37, 37); (39, 39); (42, 43); (45, 46); (48, 57); (65, 90); (95, 122); (126, 126)], [], Adv 69);
      ([(44, 44)], [MName], Adv 71);
      ([(59, 59)], [MName], Adv 75);
      ([(61, 61)], [MName], Adv 79);
      ([(256, 256)], [MName], Adv 100)]
  | 70%positive => [([(9, 9); (32, 32)], [], Adv 70);
      ([(44, 44)], [], Adv 71);
      ([(59, 59)], [], Adv 75);
      ([(61, 61)], [], Adv 79);
      ([(256, 256)], [], Adv 100)]
  | 71%positive => [([(9, 9); (32, 32)], [], Adv 71);
      ([(256, 256)], [], Adv 72);
      ([(0, 256)], [MViaParam; MVia; MViaNew], Jump (Hold 103))]
  | 72%positive => [([(10, 10)], [], Adv 73)]
  | 73%positive => [([(9, 9); (32, 32)], [], Adv 74)]
  | 74%positive => [([(9, 9); (32, 32)], [], Adv 74);
      ([(0, 256)], [MViaParam; MVia; MViaNew], Jump (Hold 103))]
  | 75%positive => [([(9, 9); (32, 32)], [], Adv 75);
      ([(256, 256)], [], Adv 76);
      ([(0, 256)], [MViaParam; MStart], Jump (Hold 68))]
  | 76%positive => [([(10, 10)], [], Adv 77)]
  | 77%positive => [([(9, 9); (32, 32)], [], Adv 78)]
  | 78%positive => [([(9, 9); (32, 32)], [], Adv 78);
      ([(0, 256)], [MViaParam; MStart], Jump (Hold 68))]
  | 79%positive => [([(9, 9); (32, 32)], [], Adv 79);
      ([(33, 33); (37, 37); (39, 39); (42, 43); (45, 46); (48, 58); (65, 91); (93, 93); (95, 122); (126, 126)], [MAppend], Adv 80);
      ([(34, 34)], [], Adv 86);
      ([(256, 256)], [], Adv 97)]
  | 80%positive => [([(9, 9); (32, 32)], [], Adv 81);
      ([(13, 13)], [], Adv 85);
      ([(33, 33); (37, 37); (39, 39); (42, 43); (45, 46); (48, 58); (65, 91); (93, 93); (95, 122); (126, 126)], [MAppend], Adv 80);
      ([(44, 44)], [], Adv 71);
      ([(59, 59)], [], Adv 75);
      ([(256, 256)], [], Adv 82)]
  | 81%positive => [([(9, 9); (32, 32)], [], Adv 81);
      ([(44, 44)], [], Adv 71);
      ([(59, 59)], [], Adv 75);
      ([(256, 256)], [], Adv 82)]
  | 82%positive => [([(10, 10)], [], Adv 83)]
  | 83%positive => [([(9, 9); (32, 32)], [], Adv 84)]
  | 84%positive => [([(9, 9); (32, 32)], [], Adv 84);
      ([(44, 44)], [], Adv 71);
      ([(59, 59)], [], Adv 75)]
  | 85%positive => [([(10, 10)], [MViaParam; MVia], Jump (Go 280))]
  | 86%positive => [([(9, 9); (32, 33); (35, 91); (93, 126)], [MStart; MAppend], Adv 87);
      ([(34, 34)], [MStart], Adv 88);
      ([(92, 92)], [MStart], Adv 89);
      ([(192, 223)], [MStart; MAppend], Adv 90);
      ([(224, 239)], [MStart; MAppend], Adv 91);
      ([(240, 247)], [MStart; MAppend], Adv 92);
      ([(248, 251)], [MStart; MAppend], Adv 93);
      ([(252, 253)], [MStart; MAppend], Adv 94);
      ([(256, 256)], [MStart; MAppend], Adv 95)]
  | 87%positive => [([(9, 9); (32, 33); (35, 91); (93, 126)], [MAppend], Adv 87);
      ([(34, 34)], [], Adv 88);
      ([(92, 92)], [], Adv 89);
      ([(192, 223)], [MAppend], Adv 90);
      ([(224, 239)], [MAppend], Adv 91);
      ([(240, 247)], [MAppend], Adv 92);
      ([(248, 251)], [MAppend], Adv 93);
      ([(252, 253)], [MAppend], Adv 94);
      ([(256, 256)], [MAppend], Adv 95)]
  | 88%positive => [([(9, 9); (32, 32)], [], Adv 81);
      ([(13, 13)], [], Adv 85);
      ([(44, 44)], [], Adv 71);
      ([(59, 59)], [], Adv 75);
      ([(256, 256)], [], Adv 82)]
  | 89%positive => [([(0, 9); (11, 12); (14, 127)], [MAppend], Adv 87)]
  | 90%positive => [([(128, 191)], [MAppend], Adv 87)]
  | 91%positive => [([(128, 191)], [MAppend], Adv 90)]
  | 92%positive => [([(128, 191)], [MAppend], Adv 91)]
  | 93%positive => [([(128, 191)], [MAppend], Adv 92)]
  | 94%positive => [([(128, 191)], [MAppend], Adv 93)]
  | 95%positive => [([(10, 10)], [MAppend], Adv 96)]
  | 96%positive => [([(9, 9); (32, 32)], [MAppend], Adv 87)]
  | 97%positive => [([(10, 10)], [], Adv 98)]
  | 98%positive => [([(9, 9); (32, 32)], [], Adv 99)]
  | 99%positive => [([(9, 9); (32, 32)], [], Adv 99);
      ([(33, 33); (37, 37); (39, 39); (42, 43); (45, 46); (48, 58); (65, 91); (93, 93); (95, 122); (126, 126)], [MAppend], Adv 80);
      ([(34, 34)], [], Adv 86)]
  | 100%positive => [([(10, 10)], [], Adv 101)]
  | 101%positive => [([(9, 9); (32, 32)], [], Adv 102)]
  | 102%positive => [([(9, 9); (32, 32)], [], Adv 102);
      ([(44, 44)], [], Adv 71);
      ([(59, 59)], [], Adv 75);
      ([(61, 61)], [], Adv 79)]
  | 103%positive => [([(33, 33); (37, 37); (39, 39); (42, 43); (45, 46); (48, 57); (65, 90); (95, 122); (126, 126)], [MMark], Adv 104)]
  | 104%positive => [([(9, 9); (32, 32)], [MViaProtocol], Adv 105);
      ([(33, 33); (37, 37); (39, 39); (42, 43); (45, 46); (48, 57); (65, 90); (95, 122); (126, 126)], [], Adv 104);
      ([(47, 47)], [MViaProtocol], Adv 106);
      ([(256, 256)], [MViaProtocol], Adv 150)]
  | 105%positive => [([(9, 9); (32, 32)], [], Adv 105);
      ([(47, 47)], [], Adv 106);
      ([(256, 256)], [], Adv 150)]
  | 106%positive => [([(9, 9); (32, 32)], [], Adv 106);
      ([(33, 33); (37, 37); (39, 39); (42, 43); (45, 46); (48, 57); (65, 90); (95, 122); (126, 126)], [MMark], Adv 107);
      ([(256, 256)], [], Adv 147)]
  | 107%positive => [([(9, 9); (32, 32)], [MViaVersion], Adv 108);
      ([(33, 33); (37, 37); (39, 39); (42, 43); (45, 46); (48, 57); (65, 90); (95, 122); (126, 126)], [], Adv 107);
      ([(47, 47)], [MViaVersion], Adv 109);
      ([(256, 256)], [MViaVersion], Adv 144)]
  | 108%positive => [([(9, 9); (32, 32)], [], Adv 108);
      ([(47, 47)], [], Adv 109);
      ([(256, 256)], [], Adv 144)]
  | 109%positive => [([(9, 9); (32, 32)], [], Adv 109);
      ([(33, 33); (37, 37); (39, 39); (42, 43); (45, 46); (48, 57); (65, 90); (95, 122); (126, 126)], [MMark], Adv 110);
      ([(256, 256)], [], Adv 141)]
  | 110%positive => [([(9, 9); (32, 32)], [MViaTransport], Adv 111);
      ([(33, 33); (37, 37); (39, 39); (42, 43); (45, 46); (48, 57); (65, 90); (95, 122); (126, 126)], [], Adv 110);
      ([(256, 256)], [MViaTransport], Adv 138)]
  | 111%positive => [([(9, 9); (32, 32)], [], Adv 111);
      ([(45, 46); (48, 57); (65, 90); (97, 122)], [MMark], Adv 112);
      ([(91, 91)], [], Adv 135);
      ([(256, 256)], [], Adv 138)]
  | 112%positive => [([(9, 9); (32, 32)], [MViaHost], Adv 113);
      ([(13, 13)], [MViaHost], Adv 128);
      ([(44, 44)], [MViaHost], Adv 114);
      ([(45, 46); (48, 57); (65, 90); (97, 122)], [], Adv 112);
      ([(58, 58)], [MViaHost], Adv 118);
      ([(59, 59)], [MViaHost], Adv 121);
      ([(256, 256)], [MViaHost], Adv 132)]
  | 113%positive => [([(9, 9); (32, 32)], [], Adv 113);
      ([(44, 44)], [], Adv 114);
      ([(58, 58)], [], Adv 118);
      ([(59, 59)], [], Adv 121);
      ([(256, 256)], [], Adv 132)]
  | 114%positive => [([(9, 9); (32, 32)], [], Adv 114);
      ([(256, 256)], [], Adv 115);
      ([(0, 256)], [MVia; MViaNew], Jump (Hold 103))]
  | 115%positive => [([(10, 10)], [], Adv 116)]
  | 116%positive => [([(9, 9); (32, 32)], [], Adv 117)]
  | 117%positive => [([(9, 9); (32, 32)], [], Adv 117);
      ([(0, 256)], [MVia; MViaNew], Jump (Hold 103))]
  | 118%positive => [([(9, 9); (32, 32)], [], Adv 118);
      ([(48, 57)], [MViaPort], Adv 119);
      ([(256, 256)], [], Adv 129)]
  | 119%positive => [([(9, 9); (32, 32)], [], Adv 120);
      ([(13, 13)], [], Adv 128);
      ([(44, 44)], [], Adv 114);
      ([(48, 57)], [MViaPort], Adv 119);
      ([(59, 59)], [], Adv 121);
      ([(256, 256)], [], Adv 125)]
  | 120%positive => [([(9, 9); (32, 32)], [], Adv 120);
      ([(44, 44)], [], Adv 114);
      ([(59, 59)], [], Adv 121);
      ([(256, 256)], [], Adv 125)]
  | 121%positive => [([(9, 9); (32, 32)], [], Adv 121);
      ([(256, 256)], [], Adv 122);
      ([(0, 256)], [MStart], Jump (Hold 68))]
  | 122%positive => [([(10, 10)], [], Adv 123)]
  | 123%positive => [([(9, 9); (32, 32)], [], Adv 124)]
  | 124%positive => [([(9, 9); (32, 32)], [], Adv 124);
      ([(0, 256)], [MStart], Jump (Hold 68))]
  | 125%positive => [([(10, 10)], [], Adv 126)]
  | 126%positive => [([(9, 9); (32, 32)], [], Adv 127)]
  | 127%positive => [([(9, 9); (32, 32)], [], Adv 127);
      ([(44, 44)], [], Adv 114);
      ([(59, 59)], [], Adv 121)]
  | 128%positive => [([(10, 10)], [MVia], Jump (Go 280))]
  | 129%positive => [([(10, 10)], [], Adv 130)]
  | 130%positive => [([(9, 9); (32, 32)], [], Adv 131)]
  | 131%positive => [([(9, 9); (32, 32)], [], Adv 131);
      ([(48, 57)], [MViaPort], Adv 119)]
  | 132%positive => [([(10, 10)], [], Adv 133)]
  | 133%positive => [([(9, 9); (32, 32)], [], Adv 134)]
  | 134%positive => [([(9, 9); (32, 32)], [], Adv 134);
      ([(44, 44)], [], Adv 114);
      ([(58, 58)], [], Adv 118);
      ([(59, 59)], [], Adv 121)]
  | 135%positive => [([(46, 46); (48, 58); (65, 70); (97, 102)], [MMark], Adv 136)]
  | 136%positive => [([(46, 46); (48, 58); (65, 70); (97, 102)], [], Adv 136);
      ([(93, 93)], [MViaHost], Adv 137)]
  | 137%positive => [([(9, 9); (32, 32)], [], Adv 113);
      ([(13, 13)], [], Adv 128);
      ([(44, 44)], [], Adv 114);
      ([(58, 58)], [], Adv 118);
      ([(59, 59)], [], Adv 121);
      ([(256, 256)], [], Adv 132)]
  | 138%positive => [([(10, 10)], [], Adv 139)]
  | 139%positive => [([(9, 9); (32, 32)], [], Adv 140)]
  | 140%positive => [([(9, 9); (32, 32)], [], Adv 140);
      ([(45, 46); (48, 57); (65, 90); (97, 122)], [MMark], Adv 112);
      ([(91, 91)], [], Adv 135)]
  | 141%positive => [([(10, 10)], [], Adv 142)]
  | 142%positive => [([(9, 9); (32, 32)], [], Adv 143)]
  | 143%positive => [([(9, 9); (32, 32)], [], Adv 143);
      ([(33, 33); (37, 37); (39, 39); (42, 43); (45, 46); (48, 57); (65, 90); (95, 122); (126, 126)], [MMark], Adv 110)]
  | 144%positive => [([(10, 10)], [], Adv 145)]
  | 145%positive => [([(9, 9); (32, 32)], [], Adv 146)]
  | 146%positive => [([(9, 9); (32, 32)], [], Adv 146);
      ([(47, 47)], [], Adv 109)]
  | 147%positive => [([(10, 10)], [], Adv 148)]
  | 148%positive => [([(9, 9); (32, 32)], [], Adv 149)]
  | 149%positive => [([(9, 9); (32, 32)], [], Adv 149);
      ([(33, 33); (37, 37); (39, 39); (42, 43); (45, 46); (48, 57); (65, 90); (95, 122); (126, 126)], [MMark], Adv 107)]
  | 150%positive => [([(10, 10)], [], Adv 151)]
  | 151%positive => [([(9, 9); (32, 32)], [], Adv 152)]
  | 152%positive => [([(9, 9); (32, 32)], [], Adv 152);
      ([(47, 47)], [], Adv 106)]
  | 153%positive => [([(33, 33); (37, 37); (39, 39); (42, 43); (45, 46); (48, 57); (65, 90); (95, 122); (126, 126)], [MStart; MMark], Adv 154)]
  | 154%positive => [([(9, 9); (32, 32)], [MName], Adv 155);
      ([(13, 13)], [MName], Adv 170);
      ([(33, 33); (37, 37); (39, 39); (42, 43); (45, 46); (48, 57); (65, 90); (95, 122); (126, 126)], [], Adv 154);
      ([(44, 44)], [MName], Adv 156);
      ([(59, 59)], [MName], Adv 160);
      ([(61, 61)], [MName], Adv 164);
      ([(256, 256)], [MName], Adv 185)]
  | 155%positive => [([(9, 9); (32, 32)], [], Adv 155);
      ([(44, 44)], [], Adv 156);
      ([(59, 59)], [], Adv 160);
      ([(61, 61)], [], Adv 164);
      ([(256, 256)], [], Adv 185)]
  | 156%positive => [([(9, 9); (32, 32)], [], Adv 156);
      ([(256, 256)], [], Adv 157);
      ([(0, 256)], [MAddrParam; MAddr], Jump (Hold 256))]
  | 157%positive => [([(10, 10)], [], Adv 158)]
  | 158%positive => [([(9, 9); (32, 32)], [], Adv 159)]
  | 159%positive => [([(9, 9); (32, 32)], [], Adv 159);
      ([(0, 256)], [MAddrParam; MAddr], Jump (Hold 256))]
  | 160%positive => [([(9, 9); (32, 32)], [], Adv 160);
      ([(256, 256)], [], Adv 161);
      ([(0, 256)], [MAddrParam], Jump (Hold 153))]
  | 161%positive => [([(10, 10)], [], Adv 162)]
  | 162%positive => [([(9, 9); (32, 32)], [], Adv 163)]
  | 163%positive => [([(9, 9); (32, 32)], [], Adv 163);
      ([(0, 256)], [MAddrParam], Jump (Hold 153))]
  | 164%positive => [([(9, 9); (32, 32)], [], Adv 164);
      ([(33, 33); (37, 37); (39, 39); (42, 43); (45, 46); (48, 58); (65, 91); (93, 93); (95, 122); (126, 126)], [MAppend], Adv 165);
      ([(34, 34)], [], Adv 171);
      ([(256, 256)], [], Adv 182)]
  | 165%positive => [([(9, 9); (32, 32)], [], Adv 166);
      ([(13, 13)], [], Adv 170);
      ([(33, 33); (37, 37); (39, 39); (42, 43); (45, 46); (48, 58); (65, 91); (93, 93); (95, 122); (126, 126)], [MAppend], Adv 165);
      ([(44, 44)], [], Adv 156);
      ([(59, 59)], [], Adv 160);
      ([(256, 256)], [], Adv 167)]
  | 166%positive => [([(9, 9); (32, 32)], [], Adv 166);
      ([(44, 44)], [], Adv 156);
      ([(59, 59)], [], Adv 160);
      ([(256, 256)], [], Adv 167)]
  | 167%positive => [([(10, 10)], [], Adv 168)]
  | 168%positive => [([(9, 9); (32, 32)], [], Adv 169)]
  | 169%positive => [([(9, 9); (32, 32)], [], Adv 169);
      ([(44, 44)], [], Adv 156);
      ([(59, 59)], [], Adv 160)]
  | 170%positive => [([(10, 10)], [MAddrParam; MAddr], Jump (Go 280))]
  | 171%positive => [([(9, 9); (32, 33); (35, 91); (93, 126)], [MStart; MAppend], Adv 172);
      ([(34, 34)], [MStart], Adv 173);
      ([(92, 92)], [MStart], Adv 174);
      ([(192, 223)], [MStart; MAppend], Adv 175);
      ([(224, 239)], [MStart; MAppend], Adv 176);
      ([(240, 247)], [MStart; MAppend], Adv 177);
      ([(248, 251)], [MStart; MAppend], Adv 178);
      ([(252, 253)], [MStart; MAppend], Adv 179);
      ([(256, 256)], [MStart; MAppend], Adv 180)]
  | 172%positive => [([(9, 9); (32, 33); (35, 91); (93, 126)], [MAppend], Adv 172);
      ([(34, 34)], [], Adv 173);
      ([(92, 92)], [], Adv 174);
      ([(192, 223)], [MAppend], Adv 175);
      ([(224, 239)], [MAppend], Adv 176);
      ([(240, 247)], [MAppend], Adv 177);
      ([(248, 251)], [MAppend], Adv 178);
      ([(252, 253)], [MAppend], Adv 179);
      ([(256, 256)], [MAppend], Adv 180)]
  | 173%positive => [([(9, 9); (32, 32)], [], Adv 166);
      ([(13, 13)], [], Adv 170);
      ([(44, 44)], [], Adv 156);
      ([(59, 59)], [], Adv 160);
      ([(256, 256)], [], Adv 167)]
  | 174%positive => [([(0, 9); (11, 12); (14, 127)], [MAppend], Adv 172)]
  | 175%positive => [([(128, 191)], [MAppend], Adv 172)]
  | 176%positive => [([(128, 191)], [MAppend], Adv 175)]
  | 177%positive => [([(128, 191)], [MAppend], Adv 176)]
  | 178%positive => [([(128, 191)], [MAppend], Adv 177)]
  | 179%positive => [([(128, 191)], [MAppend], Adv 178)]
  | 180%positive => [([(10, 10)], [MAppend], Adv 181)]
  | 181%positive => [([(9, 9); (32, 32)], [MAppend], Adv 172)]
  | 182%positive => [([(10, 10)], [], Adv 183)]
  | 183%positive => [([(9, 9); (32, 32)], [], Adv 184)]
  | 184%positive => [([(9, 9); (32, 32)], [], Adv 184);
      ([(33, 33); (37, 37); (39, 39); (42, 43); (45, 46); (48, 58); (65, 91); (93, 93); (95, 122); (126, 126)], [MAppend], Adv 165);
      ([(34, 34)], [], Adv 171)]
  | 185%positive => [([(10, 10)], [], Adv 186)]
  | 186%positive => [([(9, 9); (32, 32)], [], Adv 187)]
  | 187%positive => [([(9, 9); (32, 32)], [], Adv 187);
      ([(44, 44)], [], Adv 156);
      ([(59, 59)], [], Adv 160);
      ([(61, 61)], [], Adv 164)]
  | 188%positive => [([(9, 9); (32, 32)], [], Adv 189);
      ([(33, 33); (37, 37); (39, 39); (42, 43); (45, 46); (48, 57); (65, 90); (95, 122); (126, 126)], [MMark], Adv 213);
      ([(34, 34)], [MStart], Adv 218);
      ([(60, 60)], [], Adv 190);
      ([(256, 256)], [], Adv 210)]
  | 189%positive => [([(9, 9); (32, 32)], [], Adv 189);
      ([(60, 60)], [], Adv 190);
      ([(256, 256)], [], Adv 210)]
  | 190%positive => [([(65, 90); (97, 122)], [MMark], Adv 191)]
  | 191%positive => [([(43, 43); (45, 46); (48, 57); (65, 90); (97, 122)], [], Adv 191);
      ([(58, 58)], [], Adv 192)]
  | 192%positive => [([(33, 33); (36, 59); (61, 61); (63, 91); (93, 93); (95, 95); (97, 122); (126, 126)], [], Adv 193)]
  | 193%positive => [([(33, 33); (36, 59); (61, 61); (63, 91); (93, 93); (95, 95); (97, 122); (126, 126)], [], Adv 193);
      ([(62, 62)], [MAddrUri], Adv 194)]
  | 194%positive => [([(9, 9); (32, 32)], [], Adv 194);
      ([(13, 13)], [], Adv 203);
      ([(44, 44)], [], Adv 195);
      ([(59, 59)], [], Adv 199);
      ([(256, 256)], [], Adv 204)]
  | 195%positive => [([(9, 9); (32, 32)], [], Adv 195);
      ([(256, 256)], [], Adv 196);
      ([(0, 256)], [MAddr], Jump (Hold 256))]
  | 196%positive => [([(10, 10)], [], Adv 197)]
  | 197%positive => [([(9, 9); (32, 32)], [], Adv 198)]
  | 198%positive => [([(9, 9); (32, 32)], [], Adv 198);
      ([(0, 256)], [MAddr], Jump (Hold 256))]
  | 199%positive => [([(9, 9); (32, 32)], [], Adv 199);
      ([(256, 256)], [], Adv 200);
      ([(0, 256)], [], Jump (Hold 153))]
  | 200%positive => [([(10, 10)], [], Adv 201)]
  | 201%positive => [([(9, 9); (32, 32)], [], Adv 202)]
  | 202%positive => [([(9, 9); (32, 32)], [], Adv 202);
      ([(0, 256)], [], Jump (Hold 153))]
  | 203%positive => [([(10, 10)], [MAddr], Jump (Go 280))]
  | 204%positive => [([(10, 10)], [], Adv 205)]
  | 205%positive => [([(9, 9); (32, 32)], [], Adv 206)]
  | 206%positive => [([(9, 9); (32, 32)], [], Adv 206);
      ([(13, 13)], [], Adv 203);
      ([(44, 44)], [], Adv 195);
      ([(59, 59)], [], Adv 199);
      ([(256, 256)], [], Adv 207)]
  | 207%positive => [([(10, 10)], [], Adv 208)]
  | 208%positive => [([(9, 9); (32, 32)], [], Adv 209)]
  | 209%positive => [([(9, 9); (32, 32)], [], Adv 209);
      ([(44, 44)], [], Adv 195);
      ([(59, 59)], [], Adv 199)]
  | 210%positive => [([(10, 10)], [], Adv 211)]
  | 211%positive => [([(9, 9); (32, 32)], [], Adv 212)]
  | 212%positive => [([(9, 9); (32, 32)], [], Adv 212);
      ([(60, 60)], [], Adv 190)]
  | 213%positive => [([(9, 9); (32, 32)], [], Adv 214);
      ([(33, 33); (37, 37); (39, 39); (42, 43); (45, 46); (48, 57); (65, 90); (95, 122); (126, 126)], [], Adv 213);
      ([(256, 256)], [], Adv 215)]
  | 214%positive => [([(9, 9); (32, 32)], [MDisplayU], Adv 214);
      ([(33, 33); (37, 37); (39, 39); (42, 43); (45, 46); (48, 57); (65, 90); (95, 122); (126, 126)], [], Adv 213);
      ([(60, 60)], [MDisplayU], Adv 190);
      ([(256, 256)], [MDisplayU], Adv 215)]
  | 215%positive => [([(10, 10)], [], Adv 216)]
  | 216%positive => [([(9, 9); (32, 32)], [], Adv 217)]
  | 217%positive => [([(9, 9); (32, 32)], [MDisplayU], Adv 217);
      ([(33, 33); (37, 37); (39, 39); (42, 43); (45, 46); (48, 57); (65, 90); (95, 122); (126, 126)], [], Adv 213);
      ([(60, 60)], [MDisplayU], Adv 190);
      ([(256, 256)], [MDisplayU], Adv 210)]
  | 218%positive => [([(9, 9); (32, 33); (35, 91); (93, 126)], [MStart; MAppend], Adv 219);
      ([(34, 34)], [MStart], Adv 220);
      ([(92, 92)], [MStart], Adv 221);
      ([(192, 223)], [MStart; MAppend], Adv 222);
      ([(224, 239)], [MStart; MAppend], Adv 223);
      ([(240, 247)], [MStart; MAppend], Adv 224);
      ([(248, 251)], [MStart; MAppend], Adv 225);
      ([(252, 253)], [MStart; MAppend], Adv 226);
      ([(256, 256)], [MStart; MAppend], Adv 227)]
  | 219%positive => [([(9, 9); (32, 33); (35, 91); (93, 126)], [MAppend], Adv 219);
      ([(34, 34)], [], Adv 220);
      ([(92, 92)], [], Adv 221);
      ([(192, 223)], [MAppend], Adv 222);
      ([(224, 239)], [MAppend], Adv 223);
      ([(240, 247)], [MAppend], Adv 224);
      ([(248, 251)], [MAppend], Adv 225);
      ([(252, 253)], [MAppend], Adv 226);
      ([(256, 256)], [MAppend], Adv 227)]
  | 220%positive => [([(9, 9); (32, 32)], [MDisplayQ], Adv 189);
      ([(60, 60)], [MDisplayQ], Adv 190);
      ([(256, 256)], [MDisplayQ], Adv 210)]
  | 221%positive => [([(0, 9); (11, 12); (14, 127)], [MAppend], Adv 219)]
  | 222%positive => [([(128, 191)], [MAppend], Adv 219)]
  | 223%positive => [([(128, 191)], [MAppend], Adv 222)]
  | 224%positive => [([(128, 191)], [MAppend], Adv 223)]
  | 225%positive => [([(128, 191)], [MAppend], Adv 224)]
  | 226%positive => [([(128, 191)], [MAppend], Adv 225)]
  | 227%positive => [([(10, 10)], [MAppend], Adv 228)]
  | 228%positive => [([(9, 9); (32, 32)], [MAppend], Adv 219)]
  | 229%positive => [([(65, 90); (97, 122)], [], Adv 230)]
  | 230%positive => [([(43, 43); (45, 46); (48, 57); (65, 90); (97, 122)], [], Adv 230);
      ([(58, 58)], [], Adv 231)]
  | 231%positive => [([(33, 33); (36, 59); (61, 61); (63, 91); (93, 93); (95, 95); (97, 122); (126, 126)], [], Adv 232)]
  | 232%positive => [([(9, 9); (32, 32)], [MAddrUri], Adv 233);
      ([(13, 13)], [MAddrUri], Adv 255);
      ([(33, 33); (36, 43); (45, 58); (61, 61); (63, 91); (93, 93); (95, 95); (97, 122); (126, 126)], [], Adv 232);
      ([(44, 44)], [MAddrUri], Adv 245);
      ([(59, 59)], [MAddrUri], Adv 250);
      ([(256, 256)], [MAddrUri], Adv 242)]
  | 233%positive => [([(9, 9); (32, 32)], [], Adv 233);
      ([(44, 44)], [], Adv 234);
      ([(59, 59)], [], Adv 238);
      ([(256, 256)], [], Adv 242)]
  | 234%positive => [([(9, 9); (32, 32)], [], Adv 234);
      ([(256, 256)], [], Adv 235);
      ([(0, 256)], [MAddr], Jump (Hold 256))]
  | 235%positive => [([(10, 10)], [], Adv 236)]
  | 236%positive => [([(9, 9); (32, 32)], [], Adv 237)]
  | 237%positive => [([(9, 9); (32, 32)], [], Adv 237);
      ([(0, 256)], [MAddr], Jump (Hold 256))]
  | 238%positive => [([(9, 9); (32, 32)], [], Adv 238);
      ([(256, 256)], [], Adv 239);
      ([(0, 256)], [], Jump (Hold 153))]
  | 239%positive => [([(10, 10)], [], Adv 240)]
  | 240%positive => [([(9, 9); (32, 32)], [], Adv 241)]
  | 241%positive => [([(9, 9); (32, 32)], [], Adv 241);
      ([(0, 256)], [], Jump (Hold 153))]
  | 242%positive => [([(10, 10)], [], Adv 243)]
  | 243%positive => [([(9, 9); (32, 32)], [], Adv 244)]
  | 244%positive => [([(9, 9); (32, 32)], [], Adv 244);
      ([(44, 44)], [], Adv 234);
      ([(59, 59)], [], Adv 238)]
  | 245%positive => [([(9, 9); (32, 32)], [MAddrUri], Adv 246);
      ([(13, 13); (59, 59)], [MAddrUri; MAddr], Jump (Hold 256));
      ([(44, 44)], [MAddrUri], Adv 245);
      ([(256, 256)], [MAddrUri], Adv 247);
      ([(0, 256)], [MAddr], Jump (Hold 256))]
  | 246%positive => [([(9, 9); (32, 32)], [], Adv 246);
      ([(44, 44)], [], Adv 234);
      ([(256, 256)], [], Adv 247);
      ([(0, 256)], [MAddr], Jump (Hold 256))]
  | 247%positive => [([(10, 10)], [], Adv 248)]
  | 248%positive => [([(9, 9); (32, 32)], [], Adv 249)]
  | 249%positive => [([(9, 9); (32, 32)], [], Adv 249);
      ([(44, 44)], [], Adv 234);
      ([(0, 256)], [MAddr], Jump (Hold 256))]
  | 250%positive => [([(9, 9); (32, 32)], [MAddrUri], Adv 251);
      ([(13, 13); (44, 44)], [MAddrUri], Jump (Hold 153));
      ([(59, 59)], [MAddrUri], Adv 250);
      ([(256, 256)], [MAddrUri], Adv 252);
      ([(0, 256)], [], Jump (Hold 153))]
  | 251%positive => [([(9, 9); (32, 32)], [], Adv 251);
      ([(59, 59)], [], Adv 238);
      ([(256, 256)], [], Adv 252);
      ([(0, 256)], [], Jump (Hold 153))]
  | 252%positive => [([(10, 10)], [], Adv 253)]
  | 253%positive => [([(9, 9); (32, 32)], [], Adv 254)]
  | 254%positive => [([(9, 9); (32, 32)], [], Adv 254);
      ([(59, 59)], [], Adv 238);
      ([(0, 256)], [], Jump (Hold 153))]
  | 255%positive => [([(10, 10)], [MAddr], Jump (Go 280))]
  | 256%positive => [([(33, 33); (37, 37); (39, 39); (42, 43); (45, 46); (48, 57); (95, 96); (126, 126)], [MMark], Adv 257);
      ([(34, 34); (60, 60)], [MAddrNew], Jump (Hold 188));
      ([(65, 90); (97, 122)], [MMark], Adv 262)]
  | 257%positive => [([(9, 9); (32, 32)], [], Adv 258);
      ([(33, 33); (37, 37); (39, 39); (42, 43); (45, 46); (48, 57); (65, 90); (95, 122); (126, 126)], [], Adv 257);
      ([(256, 256)], [], Adv 259)]
  | 258%positive => [([(9, 9); (32, 32)], [], Adv 258);
      ([(33, 33); (37, 37); (39, 39); (42, 43); (45, 46); (48, 57); (65, 90); (95, 122); (126, 126)], [], Adv 257);
      ([(60, 60)], [MAddrNew], Jump (Back 188));
      ([(256, 256)], [], Adv 259)]
  | 259%positive => [([(10, 10)], [], Adv 260)]
  | 260%positive => [([(9, 9); (32, 32)], [], Adv 261)]
  | 261%positive => [([(9, 9); (32, 32)], [], Adv 261);
      ([(33, 33); (37, 37); (39, 39); (42, 43); (45, 46); (48, 57); (65, 90); (95, 122); (126, 126)], [], Adv 257);
      ([(60, 60)], [MAddrNew], Jump (Back 188))]
  | 262%positive => [([(9, 9); (32, 32)], [], Adv 258);
      ([(33, 33); (37, 37); (39, 39); (42, 42); (95, 96); (126, 126)], [], Adv 257);
      ([(43, 43); (45, 46); (48, 57); (65, 90); (97, 122)], [], Adv 262);
      ([(58, 58)], [MAddrNew], Jump (Back 229));
      ([(256, 256)], [], Adv 259)]
  | 263%positive => [([(9, 9); (32, 127)], [MMark], Adv 264);
      ([(13, 13)], [MMark], Adv 270);
      ([(192, 223)], [MMark], Adv 265);
      ([(224, 239)], [MMark], Adv 266);
      ([(240, 247)], [MMark], Adv 267);
      ([(248, 251)], [MMark], Adv 268);
      ([(252, 253)], [MMark], Adv 269);
      ([(256, 256)], [MMark], Adv 271)]
  | 264%positive => [([(9, 9); (32, 127)], [], Adv 264);
      ([(13, 13)], [], Adv 270);
      ([(192, 223)], [], Adv 265);
      ([(224, 239)], [], Adv 266);
      ([(240, 247)], [], Adv 267);
      ([(248, 251)], [], Adv 268);
      ([(252, 253)], [], Adv 269);
      ([(256, 256)], [], Adv 271)]
  | 265%positive => [([(128, 191)], [], Adv 264)]
  | 266%positive => [([(128, 191)], [], Adv 265)]
  | 267%positive => [([(128, 191)], [], Adv 266)]
  | 268%positive => [([(128, 191)], [], Adv 267)]
  | 269%positive => [([(128, 191)], [], Adv 268)]
  | 270%positive => [([(10, 10)], [MValue], Jump (Go 280))]
  | 271%positive => [([(10, 10)], [], Adv 272)]
  | 272%positive => [([(9, 9); (32, 32)], [], Adv 264)]
  | 273%positive => [([(33, 33); (37, 37); (39, 39); (42, 43); (45, 46); (48, 57); (65, 90); (95, 122); (126, 126)], [], Adv 274)]
  | 274%positive => [([(9, 9); (32, 32)], [MName], Adv 275);
      ([(33, 33); (37, 37); (39, 39); (42, 43); (45, 46); (48, 57); (65, 90); (95, 122); (126, 126)], [], Adv 274);
      ([(58, 58)], [MName], Adv 276)]
  | 275%positive => [([(9, 9); (32, 32)], [], Adv 275);
      ([(58, 58)], [], Adv 276)]
  | 276%positive => [([(9, 9); (32, 32)], [], Adv 276);
      ([(256, 256)], [], Adv 277);
      ([(0, 256)], [MValueNil], Jump (Hold 263))]
  | 277%positive => [([(10, 10)], [], Adv 278)]
  | 278%positive => [([(9, 9); (32, 32)], [], Adv 279)]
  | 279%positive => [([(9, 9); (32, 32)], [], Adv 279);
      ([(0, 256)], [MValueNil], Jump (Hold 263))]
  | 280%positive => [([(13, 13)], [], Adv 764);
      ([(33, 33); (37, 37); (39, 39); (42, 43); (45, 46); (48, 57); (65, 90); (95, 122); (126, 126)], [MMark], Jump (Hold 281))]
  | 281%positive => [([(65, 65); (97, 97)], [], Adv 282);
      ([(66, 66); (98, 98)], [], Adv 363);
      ([(67, 67); (99, 99)], [], Adv 364);
      ([(68, 68); (100, 100)], [], Adv 459);
      ([(69, 69); (101, 101)], [], Adv 463);
      ([(70, 70); (102, 102)], [], Adv 489);
      ([(73, 73); (105, 105)], [], Adv 493);
      ([(75, 75); (107, 107)], [], Adv 504);
      ([(76, 76); (108, 108)], [], Adv 505);
      ([(77, 77); (109, 109)], [], Adv 512);
      ([(79, 79); (111, 111)], [], Adv 556);
      ([(80, 80); (112, 112)], [], Adv 568);
      ([(82, 82); (114, 114)], [], Adv 626);
      ([(83, 83); (115, 115)], [], Adv 686);
      ([(84, 84); (116, 116)], [], Adv 704);
      ([(85, 85); (117, 117)], [], Adv 714);
      ([(86, 86); (118, 118)], [], Adv 734);
      ([(87, 87); (119, 119)], [], Adv 742);
      ([(0, 256)], [], Jump (Hold 273))]
  | 282%positive => [([(9, 9); (32, 32)], [MValuep AcceptContact], Adv 283);
      ([(58, 58)], [MValuep AcceptContact], Adv 284);
      ([(67, 67); (99, 99)], [], Adv 288);
      ([(76, 76); (108, 108)], [], Adv 317);
      ([(85, 85); (117, 117)], [], Adv 336);
      ([(0, 256)], [], Jump (Hold 273))]
  | 283%positive => [([(9, 9); (32, 32)], [], Adv 283);
      ([(58, 58)], [], Adv 284)]
  | 284%positive => [([(9, 9); (32, 32)], [], Adv 284);
      ([(256, 256)], [], Adv 285);
      ([(0, 256)], [], Jump (Hold 263))]
  | 285%positive => [([(10, 10)], [], Adv 286)]
  | 286%positive => [([(9, 9); (32, 32)], [], Adv 287)]
  | 287%positive => [([(9, 9); (32, 32)], [], Adv 287);
      ([(0, 256)], [], Jump (Hold 263))]
  | 288%positive => [([(67, 67); (99, 99)], [], Adv 289);
      ([(0, 256)], [], Jump (Hold 273))]
  | 289%positive => [([(69, 69); (101, 101)], [], Adv 290);
      ([(0, 256)], [], Jump (Hold 273))]
  | 290%positive => [([(80, 80); (112, 112)], [], Adv 291);
      ([(0, 256)], [], Jump (Hold 273))]
  | 291%positive => [([(84, 84); (116, 116)], [], Adv 292);
      ([(0, 256)], [], Jump (Hold 273))]
  | 292%positive => [([(9, 9); (32, 32)], [MValuep Accept], Adv 283);
      ([(45, 45)], [], Adv 293);
      ([(58, 58)], [MValuep Accept], Adv 284);
      ([(0, 256)], [], Jump (Hold 273))]
  | 293%positive => [([(67, 67); (99, 99)], [], Adv 294);
      ([(69, 69); (101, 101)], [], Adv 301);
      ([(76, 76); (108, 108)], [], Adv 309);
      ([(0, 256)], [], Jump (Hold 273))]
  | 294%positive => [([(79, 79); (111, 111)], [], Adv 295);
      ([(0, 256)], [], Jump (Hold 273))]
  | 295%positive => [([(78, 78); (110, 110)], [], Adv 296);
      ([(0, 256)], [], Jump (Hold 273))]
  | 296%positive => [([(84, 84); (116, 116)], [], Adv 297);
      ([(0, 256)], [], Jump (Hold 273))]
  | 297%positive => [([(65, 65); (97, 97)], [], Adv 298);
      ([(0, 256)], [], Jump (Hold 273))]
  | 298%positive => [([(67, 67); (99, 99)], [], Adv 299);
      ([(0, 256)], [], Jump (Hold 273))]
  | 299%positive => [([(84, 84); (116, 116)], [], Adv 300);
      ([(0, 256)], [], Jump (Hold 273))]
  | 300%positive => [([(9, 9); (32, 32)], [MValuep AcceptContact], Adv 283);
      ([(58, 58)], [MValuep AcceptContact], Adv 284);
      ([(0, 256)], [], Jump (Hold 273))]
  | 301%positive => [([(78, 78); (110, 110)], [], Adv 302);
      ([(0, 256)], [], Jump (Hold 273))]
  | 302%positive => [([(67, 67); (99, 99)], [], Adv 303);
      ([(0, 256)], [], Jump (Hold 273))]
  | 303%positive => [([(79, 79); (111, 111)], [], Adv 304);
      ([(0, 256)], [], Jump (Hold 273))]
  | 304%positive => [([(68, 68); (100, 100)], [], Adv 305);
      ([(0, 256)], [], Jump (Hold 273))]
  | 305%positive => [([(73, 73); (105, 105)], [], Adv 306);
      ([(0, 256)], [], Jump (Hold 273))]
  | 306%positive => [([(78, 78); (110, 110)], [], Adv 307);
      ([(0, 256)], [], Jump (Hold 273))]
  | 307%positive => [([(71, 71); (103, 103)], [], Adv 308);
      ([(0, 256)], [], Jump (Hold 273))]
  | 308%positive => [([(9, 9); (32, 32)], [MValuep AcceptEncoding], Adv 283);
      ([(58, 58)], [MValuep AcceptEncoding], Adv 284);
      ([(0, 256)], [], Jump (Hold 273))]
  | 309%positive => [([(65, 65); (97, 97)], [], Adv 310);
      ([(0, 256)], [], Jump (Hold 273))]
  | 310%positive => [([(78, 78); (110, 110)], [], Adv 311);
      ([(0, 256)], [], Jump (Hold 273))]
  | 311%positive => [([(71, 71); (103, 103)], [], Adv 312);
      ([(0, 256)], [], Jump (Hold 273))]
  | 312%positive => [([(85, 85); (117, 117)], [], Adv 313);
      ([(0, 256)], [], Jump (Hold 273))]
  | 313%positive => [([(65, 65); (97, 97)], [], Adv 314);
      ([(0, 256)], [], Jump (Hold 273))]
  | 314%positive => [([(71, 71); (103, 103)], [], Adv 315);
      ([(0, 256)], [], Jump (Hold 273))]
  | 315%positive => [([(69, 69); (101, 101)], [], Adv 316);
      ([(0, 256)], [], Jump (Hold 273))]
  | 316%positive => [([(9, 9); (32, 32)], [MValuep AcceptLanguage], Adv 283);
      ([(58, 58)], [MValuep AcceptLanguage], Adv 284);
      ([(0, 256)], [], Jump (Hold 273))]
  | 317%positive => [([(69, 69); (101, 101)], [], Adv 318);
      ([(76, 76); (108, 108)], [], Adv 326);
      ([(0, 256)], [], Jump (Hold 273))]
  | 318%positive => [([(82, 82); (114, 114)], [], Adv 319);
      ([(0, 256)], [], Jump (Hold 273))]
  | 319%positive => [([(84, 84); (116, 116)], [], Adv 320);
      ([(0, 256)], [], Jump (Hold 273))]
  | 320%positive => [([(45, 45)], [], Adv 321);
      ([(0, 256)], [], Jump (Hold 273))]
  | 321%positive => [([(73, 73); (105, 105)], [], Adv 322);
      ([(0, 256)], [], Jump (Hold 273))]
  | 322%positive => [([(78, 78); (110, 110)], [], Adv 323);
      ([(0, 256)], [], Jump (Hold 273))]
  | 323%positive => [([(70, 70); (102, 102)], [], Adv 324);
      ([(0, 256)], [], Jump (Hold 273))]
  | 324%positive => [([(79, 79); (111, 111)], [], Adv 325);
      ([(0, 256)], [], Jump (Hold 273))]
  | 325%positive => [([(9, 9); (32, 32)], [MValuep AlertInfo], Adv 283);
      ([(58, 58)], [MValuep AlertInfo], Adv 284);
      ([(0, 256)], [], Jump (Hold 273))]
  | 326%positive => [([(79, 79); (111, 111)], [], Adv 327);
      ([(0, 256)], [], Jump (Hold 273))]
  | 327%positive => [([(87, 87); (119, 119)], [], Adv 328);
      ([(0, 256)], [], Jump (Hold 273))]
  | 328%positive => [([(9, 9); (32, 32)], [MValuep Allow], Adv 283);
      ([(45, 45)], [], Adv 329);
      ([(58, 58)], [MValuep Allow], Adv 284);
      ([(0, 256)], [], Jump (Hold 273))]
  | 329%positive => [([(69, 69); (101, 101)], [], Adv 330);
      ([(0, 256)], [], Jump (Hold 273))]
  | 330%positive => [([(86, 86); (118, 118)], [], Adv 331);
      ([(0, 256)], [], Jump (Hold 273))]
  | 331%positive => [([(69, 69); (101, 101)], [], Adv 332);
      ([(0, 256)], [], Jump (Hold 273))]
  | 332%positive => [([(78, 78); (110, 110)], [], Adv 333);
      ([(0, 256)], [], Jump (Hold 273))]
  | 333%positive => [([(84, 84); (116, 116)], [], Adv 334);
      ([(0, 256)], [], Jump (Hold 273))]
  | 334%positive => [([(83, 83); (115, 115)], [], Adv 335);
      ([(0, 256)], [], Jump (Hold 273))]
  | 335%positive => [([(9, 9); (32, 32)], [MValuep AllowEvents], Adv 283);
      ([(58, 58)], [MValuep AllowEvents], Adv 284);
      ([(0, 256)], [], Jump (Hold 273))]
  | 336%positive => [([(84, 84); (116, 116)], [], Adv 337);
      ([(0, 256)], [], Jump (Hold 273))]
  | 337%positive => [([(72, 72); (104, 104)], [], Adv 338);
      ([(0, 256)], [], Jump (Hold 273))]
  | 338%positive => [([(69, 69); (101, 101)], [], Adv 339);
      ([(79, 79); (111, 111)], [], Adv 354);
      ([(0, 256)], [], Jump (Hold 273))]
  | 339%positive => [([(78, 78); (110, 110)], [], Adv 340);
      ([(0, 256)], [], Jump (Hold 273))]
  | 340%positive => [([(84, 84); (116, 116)], [], Adv 341);
      ([(0, 256)], [], Jump (Hold 273))]
  | 341%positive => [([(73, 73); (105, 105)], [], Adv 342);
      ([(0, 256)], [], Jump (Hold 273))]
  | 342%positive => [([(67, 67); (99, 99)], [], Adv 343);
      ([(0, 256)], [], Jump (Hold 273))]
  | 343%positive => [([(65, 65); (97, 97)], [], Adv 344);
      ([(0, 256)], [], Jump (Hold 273))]
  | 344%positive => [([(84, 84); (116, 116)], [], Adv 345);
      ([(0, 256)], [], Jump (Hold 273))]
  | 345%positive => [([(73, 73); (105, 105)], [], Adv 346);
      ([(0, 256)], [], Jump (Hold 273))]
  | 346%positive => [([(79, 79); (111, 111)], [], Adv 347);
      ([(0, 256)], [], Jump (Hold 273))]
  | 347%positive => [([(78, 78); (110, 110)], [], Adv 348);
      ([(0, 256)], [], Jump (Hold 273))]
  | 348%positive => [([(45, 45)], [], Adv 349);
      ([(0, 256)], [], Jump (Hold 273))]
  | 349%positive => [([(73, 73); (105, 105)], [], Adv 350);
      ([(0, 256)], [], Jump (Hold 273))]
  | 350%positive => [([(78, 78); (110, 110)], [], Adv 351);
      ([(0, 256)], [], Jump (Hold 273))]
  | 351%positive => [([(70, 70); (102, 102)], [], Adv 352);
      ([(0, 256)], [], Jump (Hold 273))]
  | 352%positive => [([(79, 79); (111, 111)], [], Adv 353);
      ([(0, 256)], [], Jump (Hold 273))]
  | 353%positive => [([(9, 9); (32, 32)], [MValuep AuthenticationInfo], Adv 283);
      ([(58, 58)], [MValuep AuthenticationInfo], Adv 284);
      ([(0, 256)], [], Jump (Hold 273))]
  | 354%positive => [([(82, 82); (114, 114)], [], Adv 355);
      ([(0, 256)], [], Jump (Hold 273))]
  | 355%positive => [([(73, 73); (105, 105)], [], Adv 356);
      ([(0, 256)], [], Jump (Hold 273))]
  | 356%positive => [([(90, 90); (122, 122)], [], Adv 357);
      ([(0, 256)], [], Jump (Hold 273))]
  | 357%positive => [([(65, 65); (97, 97)], [], Adv 358);
      ([(0, 256)], [], Jump (Hold 273))]
  | 358%positive => [([(84, 84); (116, 116)], [], Adv 359);
      ([(0, 256)], [], Jump (Hold 273))]
  | 359%positive => [([(73, 73); (105, 105)], [], Adv 360);
      ([(0, 256)], [], Jump (Hold 273))]
  | 360%positive => [([(79, 79); (111, 111)], [], Adv 361);
      ([(0, 256)], [], Jump (Hold 273))]
  | 361%positive => [([(78, 78); (110, 110)], [], Adv 362);
      ([(0, 256)], [], Jump (Hold 273))]
  | 362%positive => [([(9, 9); (32, 32)], [MValuep Authorization], Adv 283);
      ([(58, 58)], [MValuep Authorization], Adv 284);
      ([(0, 256)], [], Jump (Hold 273))]
  | 363%positive => [([(9, 9); (32, 32)], [MValuep ReferredBy], Adv 283);
      ([(58, 58)], [MValuep ReferredBy], Adv 284);
      ([(0, 256)], [], Jump (Hold 273))]
  | 364%positive => [([(9, 9); (32, 32)], [], Adv 365);
      ([(58, 58)], [], Adv 366);
      ([(65, 65); (97, 97)], [], Adv 370);
      ([(79, 79); (111, 111)], [], Adv 388);
      ([(83, 83); (115, 115)], [], Adv 445);
      ([(0, 256)], [], Jump (Hold 273))]
  | 365%positive => [([(9, 9); (32, 32)], [], Adv 365);
      ([(58, 58)], [], Adv 366)]
  | 366%positive => [([(9, 9); (32, 32)], [], Adv 366);
      ([(256, 256)], [], Adv 367);
      ([(0, 256)], [], Jump (Hold 34))]
  | 367%positive => [([(10, 10)], [], Adv 368)]
  | 368%positive => [([(9, 9); (32, 32)], [], Adv 369)]
  | 369%positive => [([(9, 9); (32, 32)], [], Adv 369);
      ([(0, 256)], [], Jump (Hold 34))]
  | 370%positive => [([(76, 76); (108, 108)], [], Adv 371);
      ([(0, 256)], [], Jump (Hold 273))]
  | 371%positive => [([(76, 76); (108, 108)], [], Adv 372);
      ([(0, 256)], [], Jump (Hold 273))]
  | 372%positive => [([(45, 45)], [], Adv 373);
      ([(0, 256)], [], Jump (Hold 273))]
  | 373%positive => [([(73, 73); (105, 105)], [], Adv 374);
      ([(0, 256)], [], Jump (Hold 273))]
  | 374%positive => [([(68, 68); (100, 100)], [], Adv 375);
      ([(78, 78); (110, 110)], [], Adv 385);
      ([(0, 256)], [], Jump (Hold 273))]
  | 375%positive => [([(9, 9); (32, 32)], [], Adv 376);
      ([(58, 58)], [], Adv 377);
      ([(0, 256)], [], Jump (Hold 273))]
  | 376%positive => [([(9, 9); (32, 32)], [], Adv 376);
      ([(58, 58)], [], Adv 377)]
  | 377%positive => [([(9, 9); (32, 32)], [], Adv 377);
      ([(33, 34); (37, 37); (39, 43); (45, 58); (60, 60); (62, 63); (65, 93); (95, 123); (125, 126)], [MMark], Adv 378);
      ([(256, 256)], [], Adv 382)]
  | 378%positive => [([(13, 13)], [MCallID], Adv 381);
      ([(33, 34); (37, 37); (39, 43); (45, 58); (60, 60); (62, 63); (65, 93); (95, 123); (125, 126)], [], Adv 378);
      ([(64, 64)], [], Adv 379)]
  | 379%positive => [([(33, 34); (37, 37); (39, 43); (45, 58); (60, 60); (62, 63); (65, 93); (95, 123); (125, 126)], [], Adv 380)]
  | 380%positive => [([(13, 13)], [MCallID], Adv 381);
      ([(33, 34); (37, 37); (39, 43); (45, 58); (60, 60); (62, 63); (65, 93); (95, 123); (125, 126)], [], Adv 380)]
  | 381%positive => [([(10, 10)], [], Jump (Go 280))]
  | 382%positive => [([(10, 10)], [], Adv 383)]
  | 383%positive => [([(9, 9); (32, 32)], [], Adv 384)]
  | 384%positive => [([(9, 9); (32, 32)], [], Adv 384);
      ([(33, 34); (37, 37); (39, 43); (45, 58); (60, 60); (62, 63); (65, 93); (95, 123); (125, 126)], [MMark], Adv 378)]
  | 385%positive => [([(70, 70); (102, 102)], [], Adv 386);
      ([(0, 256)], [], Jump (Hold 273))]
  | 386%positive => [([(79, 79); (111, 111)], [], Adv 387);
      ([(0, 256)], [], Jump (Hold 273))]
  | 387%positive => [([(9, 9); (32, 32)], [MValuep CallInfo], Adv 283);
      ([(58, 58)], [MValuep CallInfo], Adv 284);
      ([(0, 256)], [], Jump (Hold 273))]
  | 388%positive => [([(78, 78); (110, 110)], [], Adv 389);
      ([(0, 256)], [], Jump (Hold 273))]
  | 389%positive => [([(84, 84); (116, 116)], [], Adv 390);
      ([(0, 256)], [], Jump (Hold 273))]
  | 390%positive => [([(65, 65); (97, 97)], [], Adv 391);
      ([(69, 69); (101, 101)], [], Adv 399);
      ([(0, 256)], [], Jump (Hold 273))]
  | 391%positive => [([(67, 67); (99, 99)], [], Adv 392);
      ([(0, 256)], [], Jump (Hold 273))]
  | 392%positive => [([(84, 84); (116, 116)], [], Adv 393);
      ([(0, 256)], [], Jump (Hold 273))]
  | 393%positive => [([(9, 9); (32, 32)], [MAddrp Contact], Adv 394);
      ([(58, 58)], [MAddrp Contact], Adv 395);
      ([(0, 256)], [], Jump (Hold 273))]
  | 394%positive => [([(9, 9); (32, 32)], [], Adv 394);
      ([(58, 58)], [], Adv 395)]
  | 395%positive => [([(9, 9); (32, 32)], [], Adv 395);
      ([(256, 256)], [], Adv 396);
      ([(0, 256)], [MValueNil], Jump (Hold 256))]
  | 396%positive => [([(10, 10)], [], Adv 397)]
  | 397%positive => [([(9, 9); (32, 32)], [], Adv 398)]
  | 398%positive => [([(9, 9); (32, 32)], [], Adv 398);
      ([(0, 256)], [MValueNil], Jump (Hold 256))]
  | 399%positive => [([(78, 78); (110, 110)], [], Adv 400);
      ([(0, 256)], [], Jump (Hold 273))]
  | 400%positive => [([(84, 84); (116, 116)], [], Adv 401);
      ([(0, 256)], [], Jump (Hold 273))]
  | 401%positive => [([(45, 45)], [], Adv 402);
      ([(0, 256)], [], Jump (Hold 273))]
  | 402%positive => [([(68, 68); (100, 100)], [], Adv 403);
      ([(69, 69); (101, 101)], [], Adv 414);
      ([(76, 76); (108, 108)], [], Adv 422);
      ([(84, 84); (116, 116)], [], Adv 441);
      ([(0, 256)], [], Jump (Hold 273))]
  | 403%positive => [([(73, 73); (105, 105)], [], Adv 404);
      ([(0, 256)], [], Jump (Hold 273))]
  | 404%positive => [([(83, 83); (115, 115)], [], Adv 405);
      ([(0, 256)], [], Jump (Hold 273))]
  | 405%positive => [([(80, 80); (112, 112)], [], Adv 406);
      ([(0, 256)], [], Jump (Hold 273))]
  | 406%positive => [([(79, 79); (111, 111)], [], Adv 407);
      ([(0, 256)], [], Jump (Hold 273))]
  | 407%positive => [([(83, 83); (115, 115)], [], Adv 408);
      ([(0, 256)], [], Jump (Hold 273))]
  | 408%positive => [([(73, 73); (105, 105)], [], Adv 409);
      ([(0, 256)], [], Jump (Hold 273))]
  | 409%positive => [([(84, 84); (116, 116)], [], Adv 410);
      ([(0, 256)], [], Jump (Hold 273))]
  | 410%positive => [([(73, 73); (105, 105)], [], Adv 411);
      ([(0, 256)], [], Jump (Hold 273))]
  | 411%positive => [([(79, 79); (111, 111)], [], Adv 412);
      ([(0, 256)], [], Jump (Hold 273))]
  | 412%positive => [([(78, 78); (110, 110)], [], Adv 413);
      ([(0, 256)], [], Jump (Hold 273))]
  | 413%positive => [([(9, 9); (32, 32)], [MValuep ContentDisposition], Adv 283);
      ([(58, 58)], [MValuep ContentDisposition], Adv 284);
      ([(0, 256)], [], Jump (Hold 273))]
  | 414%positive => [([(78, 78); (110, 110)], [], Adv 415);
      ([(0, 256)], [], Jump (Hold 273))]
  | 415%positive => [([(67, 67); (99, 99)], [], Adv 416);
      ([(0, 256)], [], Jump (Hold 273))]
  | 416%positive => [([(79, 79); (111, 111)], [], Adv 417);
      ([(0, 256)], [], Jump (Hold 273))]
  | 417%positive => [([(68, 68); (100, 100)], [], Adv 418);
      ([(0, 256)], [], Jump (Hold 273))]
  | 418%positive => [([(73, 73); (105, 105)], [], Adv 419);
      ([(0, 256)], [], Jump (Hold 273))]
  | 419%positive => [([(78, 78); (110, 110)], [], Adv 420);
      ([(0, 256)], [], Jump (Hold 273))]
  | 420%positive => [([(71, 71); (103, 103)], [], Adv 421);
      ([(0, 256)], [], Jump (Hold 273))]
  | 421%positive => [([(9, 9); (32, 32)], [MValuep ContentEncoding], Adv 283);
      ([(58, 58)], [MValuep ContentEncoding], Adv 284);
      ([(0, 256)], [], Jump (Hold 273))]
  | 422%positive => [([(65, 65); (97, 97)], [], Adv 423);
      ([(69, 69); (101, 101)], [], Adv 430);
      ([(0, 256)], [], Jump (Hold 273))]
  | 423%positive => [([(78, 78); (110, 110)], [], Adv 424);
      ([(0, 256)], [], Jump (Hold 273))]
  | 424%positive => [([(71, 71); (103, 103)], [], Adv 425);
      ([(0, 256)], [], Jump (Hold 273))]
  | 425%positive => [([(85, 85); (117, 117)], [], Adv 426);
      ([(0, 256)], [], Jump (Hold 273))]
  | 426%positive => [([(65, 65); (97, 97)], [], Adv 427);
      ([(0, 256)], [], Jump (Hold 273))]
  | 427%positive => [([(71, 71); (103, 103)], [], Adv 428);
      ([(0, 256)], [], Jump (Hold 273))]
  | 428%positive => [([(69, 69); (101, 101)], [], Adv 429);
      ([(0, 256)], [], Jump (Hold 273))]
  | 429%positive => [([(9, 9); (32, 32)], [MValuep ContentLanguage], Adv 283);
      ([(58, 58)], [MValuep ContentLanguage], Adv 284);
      ([(0, 256)], [], Jump (Hold 273))]
  | 430%positive => [([(78, 78); (110, 110)], [], Adv 431);
      ([(0, 256)], [], Jump (Hold 273))]
  | 431%positive => [([(71, 71); (103, 103)], [], Adv 432);
      ([(0, 256)], [], Jump (Hold 273))]
  | 432%positive => [([(84, 84); (116, 116)], [], Adv 433);
      ([(0, 256)], [], Jump (Hold 273))]
  | 433%positive => [([(72, 72); (104, 104)], [], Adv 434);
      ([(0, 256)], [], Jump (Hold 273))]
  | 434%positive => [([(9, 9); (32, 32)], [], Adv 435);
      ([(58, 58)], [], Adv 436);
      ([(0, 256)], [], Jump (Hold 273))]
  | 435%positive => [([(9, 9); (32, 32)], [], Adv 435);
      ([(58, 58)], [], Adv 436)]
  | 436%positive => [([(9, 9); (32, 32)], [], Adv 436);
      ([(48, 57)], [MClen0; MClen], Adv 437);
      ([(256, 256)], [], Adv 438)]
  | 437%positive => [([(13, 13)], [], Adv 381);
      ([(48, 57)], [MClen], Adv 437)]
  | 438%positive => [([(10, 10)], [], Adv 439)]
  | 439%positive => [([(9, 9); (32, 32)], [], Adv 440)]
  | 440%positive => [([(9, 9); (32, 32)], [], Adv 440);
      ([(48, 57)], [MClen0; MClen], Adv 437)]
  | 441%positive => [([(89, 89); (121, 121)], [], Adv 442);
      ([(0, 256)], [], Jump (Hold 273))]
  | 442%positive => [([(80, 80); (112, 112)], [], Adv 443);
      ([(0, 256)], [], Jump (Hold 273))]
  | 443%positive => [([(69, 69); (101, 101)], [], Adv 444);
      ([(0, 256)], [], Jump (Hold 273))]
  | 444%positive => [([(9, 9); (32, 32)], [], Adv 365);
      ([(58, 58)], [], Adv 366);
      ([(0, 256)], [], Jump (Hold 273))]
  | 445%positive => [([(69, 69); (101, 101)], [], Adv 446);
      ([(0, 256)], [], Jump (Hold 273))]
  | 446%positive => [([(81, 81); (113, 113)], [], Adv 447);
      ([(0, 256)], [], Jump (Hold 273))]
  | 447%positive => [([(9, 9); (32, 32)], [], Adv 448);
      ([(58, 58)], [], Adv 449);
      ([(0, 256)], [], Jump (Hold 273))]
  | 448%positive => [([(9, 9); (32, 32)], [], Adv 448);
      ([(58, 58)], [], Adv 449)]
  | 449%positive => [([(9, 9); (32, 32)], [], Adv 449);
      ([(48, 57)], [MCSeq], Adv 450);
      ([(256, 256)], [], Adv 456)]
  | 450%positive => [([(9, 9); (32, 32)], [], Adv 451);
      ([(48, 57)], [MCSeq], Adv 450);
      ([(256, 256)], [], Adv 453)]
  | 451%positive => [([(9, 9); (32, 32)], [], Adv 451);
      ([(33, 33); (37, 37); (39, 39); (42, 43); (45, 46); (48, 57); (65, 90); (95, 122); (126, 126)], [MMark], Adv 452);
      ([(256, 256)], [], Adv 453)]
  | 452%positive => [([(13, 13)], [MCSeqMethod], Adv 381);
      ([(33, 33); (37, 37); (39, 39); (42, 43); (45, 46); (48, 57); (65, 90); (95, 122); (126, 126)], [], Adv 452)]
  | 453%positive => [([(10, 10)], [], Adv 454)]
  | 454%positive => [([(9, 9); (32, 32)], [], Adv 455)]
  | 455%positive => [([(9, 9); (32, 32)], [], Adv 455);
      ([(33, 33); (37, 37); (39, 39); (42, 43); (45, 46); (48, 57); (65, 90); (95, 122); (126, 126)], [MMark], Adv 452)]
  | 456%positive => [([(10, 10)], [], Adv 457)]
  | 457%positive => [([(9, 9); (32, 32)], [], Adv 458)]
  | 458%positive => [([(9, 9); (32, 32)], [], Adv 458);
      ([(48, 57)], [MCSeq], Adv 450)]
  | 459%positive => [([(65, 65); (97, 97)], [], Adv 460);
      ([(0, 256)], [], Jump (Hold 273))]
  | 460%positive => [([(84, 84); (116, 116)], [], Adv 461);
      ([(0, 256)], [], Jump (Hold 273))]
  | 461%positive => [([(69, 69); (101, 101)], [], Adv 462);
      ([(0, 256)], [], Jump (Hold 273))]
  | 462%positive => [([(9, 9); (32, 32)], [MValuep Date], Adv 283);
      ([(58, 58)], [MValuep Date], Adv 284);
      ([(0, 256)], [], Jump (Hold 273))]
  | 463%positive => [([(9, 9); (32, 32)], [MValuep ContentEncoding], Adv 283);
      ([(58, 58)], [MValuep ContentEncoding], Adv 284);
      ([(82, 82); (114, 114)], [], Adv 464);
      ([(86, 86); (118, 118)], [], Adv 473);
      ([(88, 88); (120, 120)], [], Adv 477);
      ([(0, 256)], [], Jump (Hold 273))]
  | 464%positive => [([(82, 82); (114, 114)], [], Adv 465);
      ([(0, 256)], [], Jump (Hold 273))]
  | 465%positive => [([(79, 79); (111, 111)], [], Adv 466);
      ([(0, 256)], [], Jump (Hold 273))]
  | 466%positive => [([(82, 82); (114, 114)], [], Adv 467);
      ([(0, 256)], [], Jump (Hold 273))]
  | 467%positive => [([(45, 45)], [], Adv 468);
      ([(0, 256)], [], Jump (Hold 273))]
  | 468%positive => [([(73, 73); (105, 105)], [], Adv 469);
      ([(0, 256)], [], Jump (Hold 273))]
  | 469%positive => [([(78, 78); (110, 110)], [], Adv 470);
      ([(0, 256)], [], Jump (Hold 273))]
  | 470%positive => [([(70, 70); (102, 102)], [], Adv 471);
      ([(0, 256)], [], Jump (Hold 273))]
  | 471%positive => [([(79, 79); (111, 111)], [], Adv 472);
      ([(0, 256)], [], Jump (Hold 273))]
  | 472%positive => [([(9, 9); (32, 32)], [MValuep ErrorInfo], Adv 283);
      ([(58, 58)], [MValuep ErrorInfo], Adv 284);
      ([(0, 256)], [], Jump (Hold 273))]
  | 473%positive => [([(69, 69); (101, 101)], [], Adv 474);
      ([(0, 256)], [], Jump (Hold 273))]
  | 474%positive => [([(78, 78); (110, 110)], [], Adv 475);
      ([(0, 256)], [], Jump (Hold 273))]
  | 475%positive => [([(84, 84); (116, 116)], [], Adv 476);
      ([(0, 256)], [], Jump (Hold 273))]
  | 476%positive => [([(9, 9); (32, 32)], [MValuep Event], Adv 283);
      ([(58, 58)], [MValuep Event], Adv 284);
      ([(0, 256)], [], Jump (Hold 273))]
  | 477%positive => [([(80, 80); (112, 112)], [], Adv 478);
      ([(0, 256)], [], Jump (Hold 273))]
  | 478%positive => [([(73, 73); (105, 105)], [], Adv 479);
      ([(0, 256)], [], Jump (Hold 273))]
  | 479%positive => [([(82, 82); (114, 114)], [], Adv 480);
      ([(0, 256)], [], Jump (Hold 273))]
  | 480%positive => [([(69, 69); (101, 101)], [], Adv 481);
      ([(0, 256)], [], Jump (Hold 273))]
  | 481%positive => [([(83, 83); (115, 115)], [], Adv 482);
      ([(0, 256)], [], Jump (Hold 273))]
  | 482%positive => [([(9, 9); (32, 32)], [], Adv 483);
      ([(58, 58)], [], Adv 484);
      ([(0, 256)], [], Jump (Hold 273))]
  | 483%positive => [([(9, 9); (32, 32)], [], Adv 483);
      ([(58, 58)], [], Adv 484)]
  | 484%positive => [([(9, 9); (32, 32)], [], Adv 484);
      ([(48, 57)], [MExpires0; MExpires], Adv 485);
      ([(256, 256)], [], Adv 486)]
  | 485%positive => [([(13, 13)], [], Adv 381);
      ([(48, 57)], [MExpires], Adv 485)]
  | 486%positive => [([(10, 10)], [], Adv 487)]
  | 487%positive => [([(9, 9); (32, 32)], [], Adv 488)]
  | 488%positive => [([(9, 9); (32, 32)], [], Adv 488);
      ([(48, 57)], [MExpires0; MExpires], Adv 485)]
  | 489%positive => [([(9, 9); (32, 32)], [MAddrp From], Adv 394);
      ([(58, 58)], [MAddrp From], Adv 395);
      ([(82, 82); (114, 114)], [], Adv 490);
      ([(0, 256)], [], Jump (Hold 273))]
  | 490%positive => [([(79, 79); (111, 111)], [], Adv 491);
      ([(0, 256)], [], Jump (Hold 273))]
  | 491%positive => [([(77, 77); (109, 109)], [], Adv 492);
      ([(0, 256)], [], Jump (Hold 273))]
  | 492%positive => [([(9, 9); (32, 32)], [MAddrp From], Adv 394);
      ([(58, 58)], [MAddrp From], Adv 395);
      ([(0, 256)], [], Jump (Hold 273))]
  | 493%positive => [([(9, 9); (32, 32)], [], Adv 376);
      ([(58, 58)], [], Adv 377);
      ([(78, 78); (110, 110)], [], Adv 494);
      ([(0, 256)], [], Jump (Hold 273))]
  | 494%positive => [([(45, 45)], [], Adv 495);
      ([(0, 256)], [], Jump (Hold 273))]
  | 495%positive => [([(82, 82); (114, 114)], [], Adv 496);
      ([(0, 256)], [], Jump (Hold 273))]
  | 496%positive => [([(69, 69); (101, 101)], [], Adv 497);
      ([(0, 256)], [], Jump (Hold 273))]
  | 497%positive => [([(80, 80); (112, 112)], [], Adv 498);
      ([(0, 256)], [], Jump (Hold 273))]
  | 498%positive => [([(76, 76); (108, 108)], [], Adv 499);
      ([(0, 256)], [], Jump (Hold 273))]
  | 499%positive => [([(89, 89); (121, 121)], [], Adv 500);
      ([(0, 256)], [], Jump (Hold 273))]
  | 500%positive => [([(45, 45)], [], Adv 501);
      ([(0, 256)], [], Jump (Hold 273))]
  | 501%positive => [([(84, 84); (116, 116)], [], Adv 502);
      ([(0, 256)], [], Jump (Hold 273))]
  | 502%positive => [([(79, 79); (111, 111)], [], Adv 503);
      ([(0, 256)], [], Jump (Hold 273))]
  | 503%positive => [([(9, 9); (32, 32)], [MValuep InReplyTo], Adv 283);
      ([(58, 58)], [MValuep InReplyTo], Adv 284);
      ([(0, 256)], [], Jump (Hold 273))]
  | 504%positive => [([(9, 9); (32, 32)], [MValuep Supported], Adv 283);
      ([(58, 58)], [MValuep Supported], Adv 284);
      ([(0, 256)], [], Jump (Hold 273))]
  | 505%positive => [([(9, 9); (32, 32)], [], Adv 506);
      ([(58, 58)], [], Adv 507);
      ([(0, 256)], [], Jump (Hold 273))]
  | 506%positive => [([(9, 9); (32, 32)], [], Adv 506);
      ([(58, 58)], [], Adv 507)]
  | 507%positive => [([(9, 9); (32, 32)], [], Adv 507);
      ([(48, 57)], [MClen0; MClen; MExpires0; MExpires; MMaxForwards0; MMaxForwards; MMinExpires0; MMinExpires], Adv 508);
      ([(256, 256)], [], Adv 509)]
  | 508%positive => [([(13, 13)], [], Adv 381);
      ([(48, 57)], [MClen; MExpires; MMaxForwards; MMinExpires], Adv 508)]
  | 509%positive => [([(10, 10)], [], Adv 510)]
  | 510%positive => [([(9, 9); (32, 32)], [], Adv 511)]
  | 511%positive => [([(9, 9); (32, 32)], [], Adv 511);
      ([(48, 57)], [MClen0; MClen; MExpires0; MExpires; MMaxForwards0; MMaxForwards; MMinExpires0; MMinExpires], Adv 508)]
  | 512%positive => [([(9, 9); (32, 32)], [MAddrp Contact], Adv 394);
      ([(58, 58)], [MAddrp Contact], Adv 395);
      ([(65, 65); (97, 97)], [], Adv 513);
      ([(73, 73); (105, 105)], [], Adv 530);
      ([(0, 256)], [], Jump (Hold 273))]
  | 513%positive => [([(88, 88); (120, 120)], [], Adv 514);
      ([(0, 256)], [], Jump (Hold 273))]
  | 514%positive => [([(45, 45)], [], Adv 515);
      ([(0, 256)], [], Jump (Hold 273))]
  | 515%positive => [([(70, 70); (102, 102)], [], Adv 516);
      ([(0, 256)], [], Jump (Hold 273))]
  | 516%positive => [([(79, 79); (111, 111)], [], Adv 517);
      ([(0, 256)], [], Jump (Hold 273))]
  | 517%positive => [([(82, 82); (114, 114)], [], Adv 518);
      ([(0, 256)], [], Jump (Hold 273))]
  | 518%positive => [([(87, 87); (119, 119)], [], Adv 519);
      ([(0, 256)], [], Jump (Hold 273))]
  | 519%positive => [([(65, 65); (97, 97)], [], Adv 520);
      ([(0, 256)], [], Jump (Hold 273))]
  | 520%positive => [([(82, 82); (114, 114)], [], Adv 521);
      ([(0, 256)], [], Jump (Hold 273))]
  | 521%positive => [([(68, 68); (100, 100)], [], Adv 522);
      ([(0, 256)], [], Jump (Hold 273))]
  | 522%positive => [([(83, 83); (115, 115)], [], Adv 523);
      ([(0, 256)], [], Jump (Hold 273))]
  | 523%positive => [([(9, 9); (32, 32)], [], Adv 524);
      ([(58, 58)], [], Adv 525);
      ([(0, 256)], [], Jump (Hold 273))]
  | 524%positive => [([(9, 9); (32, 32)], [], Adv 524);
      ([(58, 58)], [], Adv 525)]
  | 525%positive => [([(9, 9); (32, 32)], [], Adv 525);
      ([(48, 57)], [MMaxForwards0; MMaxForwards], Adv 526);
      ([(256, 256)], [], Adv 527)]
  | 526%positive => [([(13, 13)], [], Adv 381);
      ([(48, 57)], [MMaxForwards], Adv 526)]
  | 527%positive => [([(10, 10)], [], Adv 528)]
  | 528%positive => [([(9, 9); (32, 32)], [], Adv 529)]
  | 529%positive => [([(9, 9); (32, 32)], [], Adv 529);
      ([(48, 57)], [MMaxForwards0; MMaxForwards], Adv 526)]
  | 530%positive => [([(77, 77); (109, 109)], [], Adv 531);
      ([(78, 78); (110, 110)], [], Adv 541);
      ([(0, 256)], [], Jump (Hold 273))]
  | 531%positive => [([(69, 69); (101, 101)], [], Adv 532);
      ([(0, 256)], [], Jump (Hold 273))]
  | 532%positive => [([(45, 45)], [], Adv 533);
      ([(0, 256)], [], Jump (Hold 273))]
  | 533%positive => [([(86, 86); (118, 118)], [], Adv 534);
      ([(0, 256)], [], Jump (Hold 273))]
  | 534%positive => [([(69, 69); (101, 101)], [], Adv 535);
      ([(0, 256)], [], Jump (Hold 273))]
  | 535%positive => [([(82, 82); (114, 114)], [], Adv 536);
      ([(0, 256)], [], Jump (Hold 273))]
  | 536%positive => [([(83, 83); (115, 115)], [], Adv 537);
      ([(0, 256)], [], Jump (Hold 273))]
  | 537%positive => [([(73, 73); (105, 105)], [], Adv 538);
      ([(0, 256)], [], Jump (Hold 273))]
  | 538%positive => [([(79, 79); (111, 111)], [], Adv 539);
      ([(0, 256)], [], Jump (Hold 273))]
  | 539%positive => [([(78, 78); (110, 110)], [], Adv 540);
      ([(0, 256)], [], Jump (Hold 273))]
  | 540%positive => [([(9, 9); (32, 32)], [MValuep MIMEVersion], Adv 283);
      ([(58, 58)], [MValuep MIMEVersion], Adv 284);
      ([(0, 256)], [], Jump (Hold 273))]
  | 541%positive => [([(45, 45)], [], Adv 542);
      ([(0, 256)], [], Jump (Hold 273))]
  | 542%positive => [([(69, 69); (101, 101)], [], Adv 543);
      ([(0, 256)], [], Jump (Hold 273))]
  | 543%positive => [([(88, 88); (120, 120)], [], Adv 544);
      ([(0, 256)], [], Jump (Hold 273))]
  | 544%positive => [([(80, 80); (112, 112)], [], Adv 545);
      ([(0, 256)], [], Jump (Hold 273))]
  | 545%positive => [([(73, 73); (105, 105)], [], Adv 546);
      ([(0, 256)], [], Jump (Hold 273))]
  | 546%positive => [([(82, 82); (114, 114)], [], Adv 547);
      ([(0, 256)], [], Jump (Hold 273))]
  | 547%positive => [([(69, 69); (101, 101)], [], Adv 548);
      ([(0, 256)], [], Jump (Hold 273))]
  | 548%positive => [([(83, 83); (115, 115)], [], Adv 549);
      ([(0, 256)], [], Jump (Hold 273))]
  | 549%positive => [([(9, 9); (32, 32)], [], Adv 550);
      ([(58, 58)], [], Adv 551);
      ([(0, 256)], [], Jump (Hold 273))]
  | 550%positive => [([(9, 9); (32, 32)], [], Adv 550);
      ([(58, 58)], [], Adv 551)]
  | 551%positive => [([(9, 9); (32, 32)], [], Adv 551);
      ([(48, 57)], [MMinExpires0; MMinExpires], Adv 552);
      ([(256, 256)], [], Adv 553)]
  | 552%positive => [([(13, 13)], [], Adv 381);
      ([(48, 57)], [MMinExpires], Adv 552)]
  | 553%positive => [([(10, 10)], [], Adv 554)]
  | 554%positive => [([(9, 9); (32, 32)], [], Adv 555)]
  | 555%positive => [([(9, 9); (32, 32)], [], Adv 555);
      ([(48, 57)], [MMinExpires0; MMinExpires], Adv 552)]
  | 556%positive => [([(9, 9); (32, 32)], [MValuep Event], Adv 283);
      ([(58, 58)], [MValuep Event], Adv 284);
      ([(82, 82); (114, 114)], [], Adv 557);
      ([(0, 256)], [], Jump (Hold 273))]
  | 557%positive => [([(71, 71); (103, 103)], [], Adv 558);
      ([(0, 256)], [], Jump (Hold 273))]
  | 558%positive => [([(65, 65); (97, 97)], [], Adv 559);
      ([(0, 256)], [], Jump (Hold 273))]
  | 559%positive => [([(78, 78); (110, 110)], [], Adv 560);
      ([(0, 256)], [], Jump (Hold 273))]
  | 560%positive => [([(73, 73); (105, 105)], [], Adv 561);
      ([(0, 256)], [], Jump (Hold 273))]
  | 561%positive => [([(90, 90); (122, 122)], [], Adv 562);
      ([(0, 256)], [], Jump (Hold 273))]
  | 562%positive => [([(65, 65); (97, 97)], [], Adv 563);
      ([(0, 256)], [], Jump (Hold 273))]
  | 563%positive => [([(84, 84); (116, 116)], [], Adv 564);
      ([(0, 256)], [], Jump (Hold 273))]
  | 564%positive => [([(73, 73); (105, 105)], [], Adv 565);
      ([(0, 256)], [], Jump (Hold 273))]
  | 565%positive => [([(79, 79); (111, 111)], [], Adv 566);
      ([(0, 256)], [], Jump (Hold 273))]
  | 566%positive => [([(78, 78); (110, 110)], [], Adv 567);
      ([(0, 256)], [], Jump (Hold 273))]
  | 567%positive => [([(9, 9); (32, 32)], [MValuep Organization], Adv 283);
      ([(58, 58)], [MValuep Organization], Adv 284);
      ([(0, 256)], [], Jump (Hold 273))]
  | 568%positive => [([(45, 45)], [], Adv 569);
      ([(82, 82); (114, 114)], [], Adv 587);
      ([(0, 256)], [], Jump (Hold 273))]
  | 569%positive => [([(65, 65); (97, 97)], [], Adv 570);
      ([(0, 256)], [], Jump (Hold 273))]
  | 570%positive => [([(83, 83); (115, 115)], [], Adv 571);
      ([(0, 256)], [], Jump (Hold 273))]
  | 571%positive => [([(83, 83); (115, 115)], [], Adv 572);
      ([(0, 256)], [], Jump (Hold 273))]
  | 572%positive => [([(69, 69); (101, 101)], [], Adv 573);
      ([(0, 256)], [], Jump (Hold 273))]
  | 573%positive => [([(82, 82); (114, 114)], [], Adv 574);
      ([(0, 256)], [], Jump (Hold 273))]
  | 574%positive => [([(84, 84); (116, 116)], [], Adv 575);
      ([(0, 256)], [], Jump (Hold 273))]
  | 575%positive => [([(69, 69); (101, 101)], [], Adv 576);
      ([(0, 256)], [], Jump (Hold 273))]
  | 576%positive => [([(68, 68); (100, 100)], [], Adv 577);
      ([(0, 256)], [], Jump (Hold 273))]
  | 577%positive => [([(45, 45)], [], Adv 578);
      ([(0, 256)], [], Jump (Hold 273))]
  | 578%positive => [([(73, 73); (105, 105)], [], Adv 579);
      ([(0, 256)], [], Jump (Hold 273))]
  | 579%positive => [([(68, 68); (100, 100)], [], Adv 580);
      ([(0, 256)], [], Jump (Hold 273))]
  | 580%positive => [([(69, 69); (101, 101)], [], Adv 581);
      ([(0, 256)], [], Jump (Hold 273))]
  | 581%positive => [([(78, 78); (110, 110)], [], Adv 582);
      ([(0, 256)], [], Jump (Hold 273))]
  | 582%positive => [([(84, 84); (116, 116)], [], Adv 583);
      ([(0, 256)], [], Jump (Hold 273))]
  | 583%positive => [([(73, 73); (105, 105)], [], Adv 584);
      ([(0, 256)], [], Jump (Hold 273))]
  | 584%positive => [([(84, 84); (116, 116)], [], Adv 585);
      ([(0, 256)], [], Jump (Hold 273))]
  | 585%positive => [([(89, 89); (121, 121)], [], Adv 586);
      ([(0, 256)], [], Jump (Hold 273))]
  | 586%positive => [([(9, 9); (32, 32)], [MAddrp PAssertedIdentity], Adv 394);
      ([(58, 58)], [MAddrp PAssertedIdentity], Adv 395);
      ([(0, 256)], [], Jump (Hold 273))]
  | 587%positive => [([(73, 73); (105, 105)], [], Adv 588);
      ([(79, 79); (111, 111)], [], Adv 594);
      ([(0, 256)], [], Jump (Hold 273))]
  | 588%positive => [([(79, 79); (111, 111)], [], Adv 589);
      ([(0, 256)], [], Jump (Hold 273))]
  | 589%positive => [([(82, 82); (114, 114)], [], Adv 590);
      ([(0, 256)], [], Jump (Hold 273))]
  | 590%positive => [([(73, 73); (105, 105)], [], Adv 591);
      ([(0, 256)], [], Jump (Hold 273))]
  | 591%positive => [([(84, 84); (116, 116)], [], Adv 592);
      ([(0, 256)], [], Jump (Hold 273))]
  | 592%positive => [([(89, 89); (121, 121)], [], Adv 593);
      ([(0, 256)], [], Jump (Hold 273))]
  | 593%positive => [([(9, 9); (32, 32)], [MValuep Priority], Adv 283);
      ([(58, 58)], [MValuep Priority], Adv 284);
      ([(0, 256)], [], Jump (Hold 273))]
  | 594%positive => [([(88, 88); (120, 120)], [], Adv 595);
      ([(0, 256)], [], Jump (Hold 273))]
  | 595%positive => [([(89, 89); (121, 121)], [], Adv 596);
      ([(0, 256)], [], Jump (Hold 273))]
  | 596%positive => [([(45, 45)], [], Adv 597);
      ([(0, 256)], [], Jump (Hold 273))]
  | 597%positive => [([(65, 65); (97, 97)], [], Adv 598);
      ([(82, 82); (114, 114)], [], Adv 619);
      ([(0, 256)], [], Jump (Hold 273))]
  | 598%positive => [([(85, 85); (117, 117)], [], Adv 599);
      ([(0, 256)], [], Jump (Hold 273))]
  | 599%positive => [([(84, 84); (116, 116)], [], Adv 600);
      ([(0, 256)], [], Jump (Hold 273))]
  | 600%positive => [([(72, 72); (104, 104)], [], Adv 601);
      ([(0, 256)], [], Jump (Hold 273))]
  | 601%positive => [([(69, 69); (101, 101)], [], Adv 602);
      ([(79, 79); (111, 111)], [], Adv 610);
      ([(0, 256)], [], Jump (Hold 273))]
  | 602%positive => [([(78, 78); (110, 110)], [], Adv 603);
      ([(0, 256)], [], Jump (Hold 273))]
  | 603%positive => [([(84, 84); (116, 116)], [], Adv 604);
      ([(0, 256)], [], Jump (Hold 273))]
  | 604%positive => [([(73, 73); (105, 105)], [], Adv 605);
      ([(0, 256)], [], Jump (Hold 273))]
  | 605%positive => [([(67, 67); (99, 99)], [], Adv 606);
      ([(0, 256)], [], Jump (Hold 273))]
  | 606%positive => [([(65, 65); (97, 97)], [], Adv 607);
      ([(0, 256)], [], Jump (Hold 273))]
  | 607%positive => [([(84, 84); (116, 116)], [], Adv 608);
      ([(0, 256)], [], Jump (Hold 273))]
  | 608%positive => [([(69, 69); (101, 101)], [], Adv 609);
      ([(0, 256)], [], Jump (Hold 273))]
  | 609%positive => [([(9, 9); (32, 32)], [MValuep ProxyAuthenticate], Adv 283);
      ([(58, 58)], [MValuep ProxyAuthenticate], Adv 284);
      ([(0, 256)], [], Jump (Hold 273))]
  | 610%positive => [([(82, 82); (114, 114)], [], Adv 611);
      ([(0, 256)], [], Jump (Hold 273))]
  | 611%positive => [([(73, 73); (105, 105)], [], Adv 612);
      ([(0, 256)], [], Jump (Hold 273))]
  | 612%positive => [([(90, 90); (122, 122)], [], Adv 613);
      ([(0, 256)], [], Jump (Hold 273))]
  | 613%positive => [([(65, 65); (97, 97)], [], Adv 614);
      ([(0, 256)], [], Jump (Hold 273))]
  | 614%positive => [([(84, 84); (116, 116)], [], Adv 615);
      ([(0, 256)], [], Jump (Hold 273))]
  | 615%positive => [([(73, 73); (105, 105)], [], Adv 616);
      ([(0, 256)], [], Jump (Hold 273))]
  | 616%positive => [([(79, 79); (111, 111)], [], Adv 617);
      ([(0, 256)], [], Jump (Hold 273))]
  | 617%positive => [([(78, 78); (110, 110)], [], Adv 618);
      ([(0, 256)], [], Jump (Hold 273))]
  | 618%positive => [([(9, 9); (32, 32)], [MValuep ProxyAuthorization], Adv 283);
      ([(58, 58)], [MValuep ProxyAuthorization], Adv 284);
      ([(0, 256)], [], Jump (Hold 273))]
  | 619%positive => [([(69, 69); (101, 101)], [], Adv 620);
      ([(0, 256)], [], Jump (Hold 273))]
  | 620%positive => [([(81, 81); (113, 113)], [], Adv 621);
      ([(0, 256)], [], Jump (Hold 273))]
  | 621%positive => [([(85, 85); (117, 117)], [], Adv 622);
      ([(0, 256)], [], Jump (Hold 273))]
  | 622%positive => [([(73, 73); (105, 105)], [], Adv 623);
      ([(0, 256)], [], Jump (Hold 273))]
  | 623%positive => [([(82, 82); (114, 114)], [], Adv 624);
      ([(0, 256)], [], Jump (Hold 273))]
  | 624%positive => [([(69, 69); (101, 101)], [], Adv 625);
      ([(0, 256)], [], Jump (Hold 273))]
  | 625%positive => [([(9, 9); (32, 32)], [MValuep ProxyRequire], Adv 283);
      ([(58, 58)], [MValuep ProxyRequire], Adv 284);
      ([(0, 256)], [], Jump (Hold 273))]
  | 626%positive => [([(9, 9); (32, 32)], [MValuep ReferTo], Adv 283);
      ([(58, 58)], [MValuep ReferTo], Adv 284);
      ([(69, 69); (101, 101)], [], Adv 627);
      ([(79, 79); (111, 111)], [], Adv 682);
      ([(0, 256)], [], Jump (Hold 273))]
  | 627%positive => [([(67, 67); (99, 99)], [], Adv 628);
      ([(70, 70); (102, 102)], [], Adv 638);
      ([(77, 77); (109, 109)], [], Adv 649);
      ([(80, 80); (112, 112)], [], Adv 662);
      ([(81, 81); (113, 113)], [], Adv 668);
      ([(84, 84); (116, 116)], [], Adv 673);
      ([(0, 256)], [], Jump (Hold 273))]
  | 628%positive => [([(79, 79); (111, 111)], [], Adv 629);
      ([(0, 256)], [], Jump (Hold 273))]
  | 629%positive => [([(82, 82); (114, 114)], [], Adv 630);
      ([(0, 256)], [], Jump (Hold 273))]
  | 630%positive => [([(68, 68); (100, 100)], [], Adv 631);
      ([(0, 256)], [], Jump (Hold 273))]
  | 631%positive => [([(45, 45)], [], Adv 632);
      ([(0, 256)], [], Jump (Hold 273))]
  | 632%positive => [([(82, 82); (114, 114)], [], Adv 633);
      ([(0, 256)], [], Jump (Hold 273))]
  | 633%positive => [([(79, 79); (111, 111)], [], Adv 634);
      ([(0, 256)], [], Jump (Hold 273))]
  | 634%positive => [([(85, 85); (117, 117)], [], Adv 635);
      ([(0, 256)], [], Jump (Hold 273))]
  | 635%positive => [([(84, 84); (116, 116)], [], Adv 636);
      ([(0, 256)], [], Jump (Hold 273))]
  | 636%positive => [([(69, 69); (101, 101)], [], Adv 637);
      ([(0, 256)], [], Jump (Hold 273))]
  | 637%positive => [([(9, 9); (32, 32)], [MAddrp RecordRoute], Adv 394);
      ([(58, 58)], [MAddrp RecordRoute], Adv 395);
      ([(0, 256)], [], Jump (Hold 273))]
  | 638%positive => [([(69, 69); (101, 101)], [], Adv 639);
      ([(0, 256)], [], Jump (Hold 273))]
  | 639%positive => [([(82, 82); (114, 114)], [], Adv 640);
      ([(0, 256)], [], Jump (Hold 273))]
  | 640%positive => [([(45, 45)], [], Adv 641);
      ([(82, 82); (114, 114)], [], Adv 644);
      ([(0, 256)], [], Jump (Hold 273))]
  | 641%positive => [([(84, 84); (116, 116)], [], Adv 642);
      ([(0, 256)], [], Jump (Hold 273))]
  | 642%positive => [([(79, 79); (111, 111)], [], Adv 643);
      ([(0, 256)], [], Jump (Hold 273))]
  | 643%positive => [([(9, 9); (32, 32)], [MValuep ReferTo], Adv 283);
      ([(58, 58)], [MValuep ReferTo], Adv 284);
      ([(0, 256)], [], Jump (Hold 273))]
  | 644%positive => [([(69, 69); (101, 101)], [], Adv 645);
      ([(0, 256)], [], Jump (Hold 273))]
  | 645%positive => [([(68, 68); (100, 100)], [], Adv 646);
      ([(0, 256)], [], Jump (Hold 273))]
  | 646%positive => [([(45, 45)], [], Adv 647);
      ([(0, 256)], [], Jump (Hold 273))]
  | 647%positive => [([(66, 66); (98, 98)], [], Adv 648);
      ([(0, 256)], [], Jump (Hold 273))]
  | 648%positive => [([(89, 89); (121, 121)], [], Adv 363);
      ([(0, 256)], [], Jump (Hold 273))]
  | 649%positive => [([(79, 79); (111, 111)], [], Adv 650);
      ([(0, 256)], [], Jump (Hold 273))]
  | 650%positive => [([(84, 84); (116, 116)], [], Adv 651);
      ([(0, 256)], [], Jump (Hold 273))]
  | 651%positive => [([(69, 69); (101, 101)], [], Adv 652);
      ([(0, 256)], [], Jump (Hold 273))]
  | 652%positive => [([(45, 45)], [], Adv 653);
      ([(0, 256)], [], Jump (Hold 273))]
  | 653%positive => [([(80, 80); (112, 112)], [], Adv 654);
      ([(0, 256)], [], Jump (Hold 273))]
  | 654%positive => [([(65, 65); (97, 97)], [], Adv 655);
      ([(0, 256)], [], Jump (Hold 273))]
  | 655%positive => [([(82, 82); (114, 114)], [], Adv 656);
      ([(0, 256)], [], Jump (Hold 273))]
  | 656%positive => [([(84, 84); (116, 116)], [], Adv 657);
      ([(0, 256)], [], Jump (Hold 273))]
  | 657%positive => [([(89, 89); (121, 121)], [], Adv 658);
      ([(0, 256)], [], Jump (Hold 273))]
  | 658%positive => [([(45, 45)], [], Adv 659);
      ([(0, 256)], [], Jump (Hold 273))]
  | 659%positive => [([(73, 73); (105, 105)], [], Adv 660);
      ([(0, 256)], [], Jump (Hold 273))]
  | 660%positive => [([(68, 68); (100, 100)], [], Adv 661);
      ([(0, 256)], [], Jump (Hold 273))]
  | 661%positive => [([(9, 9); (32, 32)], [MAddrp RemotePartyID], Adv 394);
      ([(58, 58)], [MAddrp RemotePartyID], Adv 395);
      ([(0, 256)], [], Jump (Hold 273))]
  | 662%positive => [([(76, 76); (108, 108)], [], Adv 663);
      ([(0, 256)], [], Jump (Hold 273))]
  | 663%positive => [([(89, 89); (121, 121)], [], Adv 664);
      ([(0, 256)], [], Jump (Hold 273))]
  | 664%positive => [([(45, 45)], [], Adv 665);
      ([(0, 256)], [], Jump (Hold 273))]
  | 665%positive => [([(84, 84); (116, 116)], [], Adv 666);
      ([(0, 256)], [], Jump (Hold 273))]
  | 666%positive => [([(79, 79); (111, 111)], [], Adv 667);
      ([(0, 256)], [], Jump (Hold 273))]
  | 667%positive => [([(9, 9); (32, 32)], [MValuep ReplyTo], Adv 283);
      ([(58, 58)], [MValuep ReplyTo], Adv 284);
      ([(0, 256)], [], Jump (Hold 273))]
  | 668%positive => [([(85, 85); (117, 117)], [], Adv 669);
      ([(0, 256)], [], Jump (Hold 273))]
  | 669%positive => [([(73, 73); (105, 105)], [], Adv 670);
      ([(0, 256)], [], Jump (Hold 273))]
  | 670%positive => [([(82, 82); (114, 114)], [], Adv 671);
      ([(0, 256)], [], Jump (Hold 273))]
  | 671%positive => [([(69, 69); (101, 101)], [], Adv 672);
      ([(0, 256)], [], Jump (Hold 273))]
  | 672%positive => [([(9, 9); (32, 32)], [MValuep Require], Adv 283);
      ([(58, 58)], [MValuep Require], Adv 284);
      ([(0, 256)], [], Jump (Hold 273))]
  | 673%positive => [([(82, 82); (114, 114)], [], Adv 674);
      ([(0, 256)], [], Jump (Hold 273))]
  | 674%positive => [([(89, 89); (121, 121)], [], Adv 675);
      ([(0, 256)], [], Jump (Hold 273))]
  | 675%positive => [([(45, 45)], [], Adv 676);
      ([(0, 256)], [], Jump (Hold 273))]
  | 676%positive => [([(65, 65); (97, 97)], [], Adv 677);
      ([(0, 256)], [], Jump (Hold 273))]
  | 677%positive => [([(70, 70); (102, 102)], [], Adv 678);
      ([(0, 256)], [], Jump (Hold 273))]
  | 678%positive => [([(84, 84); (116, 116)], [], Adv 679);
      ([(0, 256)], [], Jump (Hold 273))]
  | 679%positive => [([(69, 69); (101, 101)], [], Adv 680);
      ([(0, 256)], [], Jump (Hold 273))]
  | 680%positive => [([(82, 82); (114, 114)], [], Adv 681);
      ([(0, 256)], [], Jump (Hold 273))]
  | 681%positive => [([(9, 9); (32, 32)], [MValuep RetryAfter], Adv 283);
      ([(58, 58)], [MValuep RetryAfter], Adv 284);
      ([(0, 256)], [], Jump (Hold 273))]
  | 682%positive => [([(85, 85); (117, 117)], [], Adv 683);
      ([(0, 256)], [], Jump (Hold 273))]
  | 683%positive => [([(84, 84); (116, 116)], [], Adv 684);
      ([(0, 256)], [], Jump (Hold 273))]
  | 684%positive => [([(69, 69); (101, 101)], [], Adv 685);
      ([(0, 256)], [], Jump (Hold 273))]
  | 685%positive => [([(9, 9); (32, 32)], [MAddrp Route], Adv 394);
      ([(58, 58)], [MAddrp Route], Adv 395);
      ([(0, 256)], [], Jump (Hold 273))]
  | 686%positive => [([(9, 9); (32, 32)], [MValuep Subject], Adv 283);
      ([(58, 58)], [MValuep Subject], Adv 284);
      ([(69, 69); (101, 101)], [], Adv 687);
      ([(85, 85); (117, 117)], [], Adv 692);
      ([(0, 256)], [], Jump (Hold 273))]
  | 687%positive => [([(82, 82); (114, 114)], [], Adv 688);
      ([(0, 256)], [], Jump (Hold 273))]
  | 688%positive => [([(86, 86); (118, 118)], [], Adv 689);
      ([(0, 256)], [], Jump (Hold 273))]
  | 689%positive => [([(69, 69); (101, 101)], [], Adv 690);
      ([(0, 256)], [], Jump (Hold 273))]
  | 690%positive => [([(82, 82); (114, 114)], [], Adv 691);
      ([(0, 256)], [], Jump (Hold 273))]
  | 691%positive => [([(9, 9); (32, 32)], [MValuep Server], Adv 283);
      ([(58, 58)], [MValuep Server], Adv 284);
      ([(0, 256)], [], Jump (Hold 273))]
  | 692%positive => [([(66, 66); (98, 98)], [], Adv 693);
      ([(80, 80); (112, 112)], [], Adv 698);
      ([(0, 256)], [], Jump (Hold 273))]
  | 693%positive => [([(74, 74); (106, 106)], [], Adv 694);
      ([(0, 256)], [], Jump (Hold 273))]
  | 694%positive => [([(69, 69); (101, 101)], [], Adv 695);
      ([(0, 256)], [], Jump (Hold 273))]
  | 695%positive => [([(67, 67); (99, 99)], [], Adv 696);
      ([(0, 256)], [], Jump (Hold 273))]
  | 696%positive => [([(84, 84); (116, 116)], [], Adv 697);
      ([(0, 256)], [], Jump (Hold 273))]
  | 697%positive => [([(9, 9); (32, 32)], [MValuep Subject], Adv 283);
      ([(58, 58)], [MValuep Subject], Adv 284);
      ([(0, 256)], [], Jump (Hold 273))]
  | 698%positive => [([(80, 80); (112, 112)], [], Adv 699);
      ([(0, 256)], [], Jump (Hold 273))]
  | 699%positive => [([(79, 79); (111, 111)], [], Adv 700);
      ([(0, 256)], [], Jump (Hold 273))]
  | 700%positive => [([(82, 82); (114, 114)], [], Adv 701);
      ([(0, 256)], [], Jump (Hold 273))]
  | 701%positive => [([(84, 84); (116, 116)], [], Adv 702);
      ([(0, 256)], [], Jump (Hold 273))]
  | 702%positive => [([(69, 69); (101, 101)], [], Adv 703);
      ([(0, 256)], [], Jump (Hold 273))]
  | 703%positive => [([(68, 68); (100, 100)], [], Adv 504);
      ([(0, 256)], [], Jump (Hold 273))]
  | 704%positive => [([(9, 9); (32, 32)], [MAddrp To], Adv 394);
      ([(58, 58)], [MAddrp To], Adv 395);
      ([(73, 73); (105, 105)], [], Adv 705);
      ([(79, 79); (111, 111)], [], Adv 713);
      ([(0, 256)], [], Jump (Hold 273))]
  | 705%positive => [([(77, 77); (109, 109)], [], Adv 706);
      ([(0, 256)], [], Jump (Hold 273))]
  | 706%positive => [([(69, 69); (101, 101)], [], Adv 707);
      ([(0, 256)], [], Jump (Hold 273))]
  | 707%positive => [([(83, 83); (115, 115)], [], Adv 708);
      ([(0, 256)], [], Jump (Hold 273))]
  | 708%positive => [([(84, 84); (116, 116)], [], Adv 709);
      ([(0, 256)], [], Jump (Hold 273))]
  | 709%positive => [([(65, 65); (97, 97)], [], Adv 710);
      ([(0, 256)], [], Jump (Hold 273))]
  | 710%positive => [([(77, 77); (109, 109)], [], Adv 711);
      ([(0, 256)], [], Jump (Hold 273))]
  | 711%positive => [([(80, 80); (112, 112)], [], Adv 712);
      ([(0, 256)], [], Jump (Hold 273))]
  | 712%positive => [([(9, 9); (32, 32)], [MValuep Timestamp], Adv 283);
      ([(58, 58)], [MValuep Timestamp], Adv 284);
      ([(0, 256)], [], Jump (Hold 273))]
  | 713%positive => [([(9, 9); (32, 32)], [MAddrp To], Adv 394);
      ([(58, 58)], [MAddrp To], Adv 395);
      ([(0, 256)], [], Jump (Hold 273))]
  | 714%positive => [([(9, 9); (32, 32)], [MValuep Allow; MValuep AllowEvents], Adv 283);
      ([(58, 58)], [MValuep Allow; MValuep AllowEvents], Adv 284);
      ([(78, 78); (110, 110)], [], Adv 715);
      ([(83, 83); (115, 115)], [], Adv 725);
      ([(0, 256)], [], Jump (Hold 273))]
  | 715%positive => [([(83, 83); (115, 115)], [], Adv 716);
      ([(0, 256)], [], Jump (Hold 273))]
  | 716%positive => [([(85, 85); (117, 117)], [], Adv 717);
      ([(0, 256)], [], Jump (Hold 273))]
  | 717%positive => [([(80, 80); (112, 112)], [], Adv 718);
      ([(0, 256)], [], Jump (Hold 273))]
  | 718%positive => [([(80, 80); (112, 112)], [], Adv 719);
      ([(0, 256)], [], Jump (Hold 273))]
  | 719%positive => [([(79, 79); (111, 111)], [], Adv 720);
      ([(0, 256)], [], Jump (Hold 273))]
  | 720%positive => [([(82, 82); (114, 114)], [], Adv 721);
      ([(0, 256)], [], Jump (Hold 273))]
  | 721%positive => [([(84, 84); (116, 116)], [], Adv 722);
      ([(0, 256)], [], Jump (Hold 273))]
  | 722%positive => [([(69, 69); (101, 101)], [], Adv 723);
      ([(0, 256)], [], Jump (Hold 273))]
  | 723%positive => [([(68, 68); (100, 100)], [], Adv 724);
      ([(0, 256)], [], Jump (Hold 273))]
  | 724%positive => [([(9, 9); (32, 32)], [MValuep Unsupported], Adv 283);
      ([(58, 58)], [MValuep Unsupported], Adv 284);
      ([(0, 256)], [], Jump (Hold 273))]
  | 725%positive => [([(69, 69); (101, 101)], [], Adv 726);
      ([(0, 256)], [], Jump (Hold 273))]
  | 726%positive => [([(82, 82); (114, 114)], [], Adv 727);
      ([(0, 256)], [], Jump (Hold 273))]
  | 727%positive => [([(45, 45)], [], Adv 728);
      ([(0, 256)], [], Jump (Hold 273))]
  | 728%positive => [([(65, 65); (97, 97)], [], Adv 729);
      ([(0, 256)], [], Jump (Hold 273))]
  | 729%positive => [([(71, 71); (103, 103)], [], Adv 730);
      ([(0, 256)], [], Jump (Hold 273))]
  | 730%positive => [([(69, 69); (101, 101)], [], Adv 731);
      ([(0, 256)], [], Jump (Hold 273))]
  | 731%positive => [([(78, 78); (110, 110)], [], Adv 732);
      ([(0, 256)], [], Jump (Hold 273))]
  | 732%positive => [([(84, 84); (116, 116)], [], Adv 733);
      ([(0, 256)], [], Jump (Hold 273))]
  | 733%positive => [([(9, 9); (32, 32)], [MValuep UserAgent], Adv 283);
      ([(58, 58)], [MValuep UserAgent], Adv 284);
      ([(0, 256)], [], Jump (Hold 273))]
  | 734%positive => [([(9, 9); (32, 32)], [], Adv 735);
      ([(58, 58)], [], Adv 736);
      ([(73, 73); (105, 105)], [], Adv 740);
      ([(0, 256)], [], Jump (Hold 273))]
  | 735%positive => [([(9, 9); (32, 32)], [], Adv 735);
      ([(58, 58)], [], Adv 736)]
  | 736%positive => [([(9, 9); (32, 32)], [], Adv 736);
      ([(256, 256)], [], Adv 737);
      ([(0, 256)], [MViaNew], Jump (Hold 103))]
  | 737%positive => [([(10, 10)], [], Adv 738)]
  | 738%positive => [([(9, 9); (32, 32)], [], Adv 739)]
  | 739%positive => [([(9, 9); (32, 32)], [], Adv 739);
      ([(0, 256)], [MViaNew], Jump (Hold 103))]
  | 740%positive => [([(65, 65); (97, 97)], [], Adv 741);
      ([(0, 256)], [], Jump (Hold 273))]
  | 741%positive => [([(9, 9); (32, 32)], [], Adv 735);
      ([(58, 58)], [], Adv 736);
      ([(0, 256)], [], Jump (Hold 273))]
  | 742%positive => [([(65, 65); (97, 97)], [], Adv 743);
      ([(87, 87); (119, 119)], [], Adv 749);
      ([(0, 256)], [], Jump (Hold 273))]
  | 743%positive => [([(82, 82); (114, 114)], [], Adv 744);
      ([(0, 256)], [], Jump (Hold 273))]
  | 744%positive => [([(78, 78); (110, 110)], [], Adv 745);
      ([(0, 256)], [], Jump (Hold 273))]
  | 745%positive => [([(73, 73); (105, 105)], [], Adv 746);
      ([(0, 256)], [], Jump (Hold 273))]
  | 746%positive => [([(78, 78); (110, 110)], [], Adv 747);
      ([(0, 256)], [], Jump (Hold 273))]
  | 747%positive => [([(71, 71); (103, 103)], [], Adv 748);
      ([(0, 256)], [], Jump (Hold 273))]
  | 748%positive => [([(9, 9); (32, 32)], [MValuep Warning], Adv 283);
      ([(58, 58)], [MValuep Warning], Adv 284);
      ([(0, 256)], [], Jump (Hold 273))]
  | 749%positive => [([(87, 87); (119, 119)], [], Adv 750);
      ([(0, 256)], [], Jump (Hold 273))]
  | 750%positive => [([(45, 45)], [], Adv 751);
      ([(0, 256)], [], Jump (Hold 273))]
  | 751%positive => [([(65, 65); (97, 97)], [], Adv 752);
      ([(0, 256)], [], Jump (Hold 273))]
  | 752%positive => [([(85, 85); (117, 117)], [], Adv 753);
      ([(0, 256)], [], Jump (Hold 273))]
  | 753%positive => [([(84, 84); (116, 116)], [], Adv 754);
      ([(0, 256)], [], Jump (Hold 273))]
  | 754%positive => [([(72, 72); (104, 104)], [], Adv 755);
      ([(0, 256)], [], Jump (Hold 273))]
  | 755%positive => [([(69, 69); (101, 101)], [], Adv 756);
      ([(0, 256)], [], Jump (Hold 273))]
  | 756%positive => [([(78, 78); (110, 110)], [], Adv 757);
      ([(0, 256)], [], Jump (Hold 273))]
  | 757%positive => [([(84, 84); (116, 116)], [], Adv 758);
      ([(0, 256)], [], Jump (Hold 273))]
  | 758%positive => [([(73, 73); (105, 105)], [], Adv 759);
      ([(0, 256)], [], Jump (Hold 273))]
  | 759%positive => [([(67, 67); (99, 99)], [], Adv 760);
      ([(0, 256)], [], Jump (Hold 273))]
  | 760%positive => [([(65, 65); (97, 97)], [], Adv 761);
      ([(0, 256)], [], Jump (Hold 273))]
  | 761%positive => [([(84, 84); (116, 116)], [], Adv 762);
      ([(0, 256)], [], Jump (Hold 273))]
  | 762%positive => [([(69, 69); (101, 101)], [], Adv 763);
      ([(0, 256)], [], Jump (Hold 273))]
  | 763%positive => [([(9, 9); (32, 32)], [MValuep WWWAuthenticate], Adv 283);
      ([(58, 58)], [MValuep WWWAuthenticate], Adv 284);
      ([(0, 256)], [], Jump (Hold 273))]
  | 764%positive => [([(10, 10)], [], Jump Done)]
  | 765%positive => []
  | 766%positive => []
  | 767%positive => []
  | 768%positive => []
  | 769%positive => []
  | 770%positive => []
  | 771%positive => []
  | 772%positive => [([(9, 9); (32, 32)], [], Adv 238);
      ([(256, 256)], [], Adv 239);
      ([(0, 256)], [], Jump (Hold 153))]
  | 773%positive => [([(9, 9); (32, 32)], [MAddrUri], Adv 233);
      ([(13, 13)], [MAddrUri], Adv 255);
      ([(33, 33); (36, 43); (45, 58); (61, 61); (63, 91); (93, 93); (95, 95); (97, 122); (126, 126)], [], Adv 232);
      ([(44, 44)], [MAddrUri], Adv 245);
      ([(59, 59)], [MAddrUri], Adv 250);
      ([(256, 256)], [MAddrUri], Adv 242)]
  | 774%positive => [([(9, 9); (32, 32)], [], Adv 234);
      ([(256, 256)], [], Adv 235);
      ([(0, 256)], [MAddr], Jump (Hold 256))]
  | 775%positive => [([(9, 9); (32, 32)], [MAddrUri], Adv 246);
      ([(13, 13); (59, 59)], [MAddrUri; MAddr], Jump (Hold 256));
      ([(44, 44)], [MAddrUri], Adv 245);
      ([(256, 256)], [MAddrUri], Adv 247);
      ([(0, 256)], [MAddr], Jump (Hold 256))]
  | 776%positive => [([(9, 9); (32, 32)], [MAddrUri], Adv 251);
      ([(13, 13); (44, 44)], [MAddrUri], Jump (Hold 153));
      ([(59, 59)], [MAddrUri], Adv 250);
      ([(256, 256)], [MAddrUri], Adv 252);
      ([(0, 256)], [], Jump (Hold 153))]
  | 777%positive => [([(10, 10)], [MAddr], Jump (Go 280))]
  | 778%positive => []
  | 779%positive => []
  | 780%positive => []
  | 781%positive => []
  | _ => []
  end%N.

(** msg_parse.go:33-48. The only state from first_final on which is ever entered is the one fbreak sets, 781. *)
Definition msg_first_final : positive := 765.
Definition msg_en_main : positive := 1.
Definition msg_en_header : positive := 280.
Definition msg_en_xheader : positive := 273.
Definition msg_en_value : positive := 263.
Definition msg_en_addr : positive := 256.
Definition msg_en_addr_uri : positive := 229.
Definition msg_en_addr_angled : positive := 188.
Definition msg_en_addr_param : positive := 153.
Definition msg_en_via : positive := 103.
Definition msg_en_via_param : positive := 68.
Definition msg_en_ctype : positive := 34.
