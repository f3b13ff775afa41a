(** Generated by tools/ragel2coq.py from /repo/sip/uri_parse.go (states st_case_N and the trK labels they lead to).
    One entry per set of bytes: the actions executed and the state entered with p++. Bytes not listed go to st0, the error state. *)
From Verif Require Import Bytes Auto.

(** The actions, by the lines of /repo/sip/uri_parse.rl they are written on. *)
Inductive uact :=
| UStart   (* 43: amt = 0 *)
| UAppend   (* 47: buf[amt] = data[p] amt++ *)
| UHexHi   (* 52: hex = unhex(data[p]) * 16 *)
| UHexLo   (* 56: hex += unhex(data[p]) buf[amt] = hex amt++ *)
| UScheme   (* 70: uri.Scheme = string(buf[0:amt]) *)
| UUser   (* 74: uri.User = string(buf[0:amt]) *)
| UPass   (* 78: uri.Pass = string(buf[0:amt]) *)
| UHost   (* 82: uri.Host = string(buf[0:amt]) *)
| UPort   (* 86: uri.Port = uri.Port * 10 + uint16(data[p] - 0x30) *)
| UB1   (* 90: b1 = string(buf[0:amt]) amt = 0 *)
| UB2   (* 95: b2 = string(buf[0:amt]) amt = 0 *)
| ULower   (* 100: if 'A' <= data[p] && data[p] <= 'Z' { buf[amt] = data[p] + 0x20 } else { buf[amt] = data[p] } amt++ *)
| UParam   (* 109: uri.Param = &URIParam{b1, b2, uri.Param} *)
| UHeader   (* 113: uri.Header = &URIHeader{b1, b2, uri.Header} *)
.

Definition uri_row (n : positive) : row uact Empty_set :=
  match n with
  | 1%positive => [([(65, 90); (97, 122)], [UStart; ULower], Adv 2)]
  | 2%positive => [([(43, 43); (45, 46); (48, 57); (65, 90); (97, 122)], [ULower], Adv 2);
      ([(58, 58)], [UScheme], Adv 3)]
  | 3%positive => [([(33, 33); (36, 36); (38, 57); (59, 59); (61, 61); (63, 63); (65, 90); (95, 95); (97, 122); (126, 126)], [UStart; UAppend], Adv 4);
      ([(37, 37)], [UStart], Adv 5)]
  | 4%positive => [([(33, 33); (36, 36); (38, 57); (59, 59); (61, 61); (63, 63); (65, 90); (95, 95); (97, 122); (126, 126)], [UAppend], Adv 4);
      ([(37, 37)], [], Adv 5);
      ([(58, 58)], [UUser], Adv 7);
      ([(64, 64)], [UUser], Adv 11)]
  | 5%positive => [([(48, 57); (65, 70); (97, 102)], [UHexHi], Adv 6)]
  | 6%positive => [([(48, 57); (65, 70); (97, 102)], [UHexLo], Adv 4)]
  | 7%positive => [([(33, 33); (36, 36); (38, 46); (48, 57); (61, 61); (65, 90); (95, 95); (97, 122); (126, 126)], [UStart; UAppend], Adv 8);
      ([(37, 37)], [UStart], Adv 9)]
  | 8%positive => [([(33, 33); (36, 36); (38, 46); (48, 57); (61, 61); (65, 90); (95, 95); (97, 122); (126, 126)], [UAppend], Adv 8);
      ([(37, 37)], [], Adv 9);
      ([(64, 64)], [UPass], Adv 11)]
  | 9%positive => [([(48, 57); (65, 70); (97, 102)], [UHexHi], Adv 10)]
  | 10%positive => [([(48, 57); (65, 70); (97, 102)], [UHexLo], Adv 8)]
  | 11%positive => [([(43, 43); (45, 46); (48, 57); (65, 90); (97, 122)], [UStart; ULower], Adv 45);
      ([(91, 91)], [], Adv 25)]
  | 12%positive => [([(48, 57)], [UPort], Adv 46)]
  | 13%positive => [([(33, 33); (36, 36); (38, 43); (45, 58); (65, 91); (93, 93); (95, 95); (97, 122); (126, 126)], [UStart; UB2; UAppend], Adv 47);
      ([(37, 37)], [UStart; UB2], Adv 14)]
  | 14%positive => [([(48, 57); (65, 70); (97, 102)], [UHexHi], Adv 15)]
  | 15%positive => [([(48, 57); (65, 70); (97, 102)], [UHexLo], Adv 47)]
  | 16%positive => [([(33, 33); (36, 36); (38, 43); (45, 58); (65, 91); (93, 93); (95, 95); (97, 122); (126, 126)], [UStart; UAppend], Adv 48);
      ([(37, 37)], [UStart], Adv 17)]
  | 17%positive => [([(48, 57); (65, 70); (97, 102)], [UHexHi], Adv 18)]
  | 18%positive => [([(48, 57); (65, 70); (97, 102)], [UHexLo], Adv 48)]
  | 19%positive => [([(33, 33); (36, 36); (39, 43); (45, 58); (63, 63); (65, 91); (93, 93); (95, 95); (97, 122); (126, 126)], [UStart; UB2; UAppend], Adv 49);
      ([(37, 37)], [UStart; UB2], Adv 20)]
  | 20%positive => [([(48, 57); (65, 70); (97, 102)], [UHexHi], Adv 21)]
  | 21%positive => [([(48, 57); (65, 70); (97, 102)], [UHexLo], Adv 49)]
  | 22%positive => [([(33, 33); (36, 36); (39, 43); (45, 58); (63, 63); (65, 91); (93, 93); (95, 95); (97, 122); (126, 126)], [UStart; UAppend], Adv 50);
      ([(37, 37)], [UStart], Adv 23)]
  | 23%positive => [([(48, 57); (65, 70); (97, 102)], [UHexHi], Adv 24)]
  | 24%positive => [([(48, 57); (65, 70); (97, 102)], [UHexLo], Adv 50)]
  | 25%positive => [([(46, 46); (48, 58); (65, 70); (97, 102)], [UStart; ULower], Adv 26)]
  | 26%positive => [([(46, 46); (48, 58); (65, 70); (97, 102)], [ULower], Adv 26);
      ([(93, 93)], [UHost], Adv 51)]
  | 27%positive => [([(65, 90); (97, 122)], [UStart; ULower], Adv 28)]
  | 28%positive => [([(43, 43); (45, 46); (48, 57); (65, 90); (97, 122)], [ULower], Adv 28);
      ([(58, 58)], [UScheme], Adv 29)]
  | 29%positive => [([(43, 43); (45, 46); (48, 57); (65, 90); (97, 122)], [UStart; ULower], Adv 52);
      ([(91, 91)], [], Adv 43)]
  | 30%positive => [([(48, 57)], [UPort], Adv 53)]
  | 31%positive => [([(33, 33); (36, 36); (38, 43); (45, 58); (65, 91); (93, 93); (95, 95); (97, 122); (126, 126)], [UStart; UB2; UAppend], Adv 54);
      ([(37, 37)], [UStart; UB2], Adv 32)]
  | 32%positive => [([(48, 57); (65, 70); (97, 102)], [UHexHi], Adv 33)]
  | 33%positive => [([(48, 57); (65, 70); (97, 102)], [UHexLo], Adv 54)]
  | 34%positive => [([(33, 33); (36, 36); (38, 43); (45, 58); (65, 91); (93, 93); (95, 95); (97, 122); (126, 126)], [UStart; UAppend], Adv 55);
      ([(37, 37)], [UStart], Adv 35)]
  | 35%positive => [([(48, 57); (65, 70); (97, 102)], [UHexHi], Adv 36)]
  | 36%positive => [([(48, 57); (65, 70); (97, 102)], [UHexLo], Adv 55)]
  | 37%positive => [([(33, 33); (36, 36); (39, 43); (45, 58); (63, 63); (65, 91); (93, 93); (95, 95); (97, 122); (126, 126)], [UStart; UB2; UAppend], Adv 56);
      ([(37, 37)], [UStart; UB2], Adv 38)]
  | 38%positive => [([(48, 57); (65, 70); (97, 102)], [UHexHi], Adv 39)]
  | 39%positive => [([(48, 57); (65, 70); (97, 102)], [UHexLo], Adv 56)]
  | 40%positive => [([(33, 33); (36, 36); (39, 43); (45, 58); (63, 63); (65, 91); (93, 93); (95, 95); (97, 122); (126, 126)], [UStart; UAppend], Adv 57);
      ([(37, 37)], [UStart], Adv 41)]
  | 41%positive => [([(48, 57); (65, 70); (97, 102)], [UHexHi], Adv 42)]
  | 42%positive => [([(48, 57); (65, 70); (97, 102)], [UHexLo], Adv 57)]
  | 43%positive => [([(46, 46); (48, 58); (65, 70); (97, 102)], [UStart; ULower], Adv 44)]
  | 44%positive => [([(46, 46); (48, 58); (65, 70); (97, 102)], [ULower], Adv 44);
      ([(93, 93)], [UHost], Adv 58)]
  | 45%positive => [([(43, 43); (45, 46); (48, 57); (65, 90); (97, 122)], [ULower], Adv 45);
      ([(58, 58)], [UHost], Adv 12);
      ([(59, 59)], [UHost], Adv 13);
      ([(63, 63)], [UHost], Adv 19)]
  | 46%positive => [([(48, 57)], [UPort], Adv 46);
      ([(59, 59)], [], Adv 13);
      ([(63, 63)], [], Adv 19)]
  | 47%positive => [([(33, 33); (36, 36); (38, 43); (45, 58); (65, 91); (93, 93); (95, 95); (97, 122); (126, 126)], [UAppend], Adv 47);
      ([(37, 37)], [], Adv 14);
      ([(59, 59)], [UB1; UParam], Adv 13);
      ([(61, 61)], [UB1], Adv 16);
      ([(63, 63)], [UB1; UParam], Adv 19)]
  | 48%positive => [([(33, 33); (36, 36); (38, 43); (45, 58); (65, 91); (93, 93); (95, 95); (97, 122); (126, 126)], [UAppend], Adv 48);
      ([(37, 37)], [], Adv 17);
      ([(59, 59)], [UB2; UParam], Adv 13);
      ([(63, 63)], [UB2; UParam], Adv 19)]
  | 49%positive => [([(33, 33); (36, 36); (39, 43); (45, 58); (63, 63); (65, 91); (93, 93); (95, 95); (97, 122); (126, 126)], [UAppend], Adv 49);
      ([(37, 37)], [], Adv 20);
      ([(38, 38)], [UB1; UHeader], Adv 19);
      ([(61, 61)], [UB1], Adv 22)]
  | 50%positive => [([(33, 33); (36, 36); (39, 43); (45, 58); (63, 63); (65, 91); (93, 93); (95, 95); (97, 122); (126, 126)], [UAppend], Adv 50);
      ([(37, 37)], [], Adv 23);
      ([(38, 38)], [UB2; UHeader], Adv 19)]
  | 51%positive => [([(58, 58)], [], Adv 12);
      ([(59, 59)], [], Adv 13);
      ([(63, 63)], [], Adv 19)]
  | 52%positive => [([(43, 43); (45, 46); (48, 57); (65, 90); (97, 122)], [ULower], Adv 52);
      ([(58, 58)], [UHost], Adv 30);
      ([(59, 59)], [UHost], Adv 31);
      ([(63, 63)], [UHost], Adv 37)]
  | 53%positive => [([(48, 57)], [UPort], Adv 53);
      ([(59, 59)], [], Adv 31);
      ([(63, 63)], [], Adv 37)]
  | 54%positive => [([(33, 33); (36, 36); (38, 43); (45, 58); (65, 91); (93, 93); (95, 95); (97, 122); (126, 126)], [UAppend], Adv 54);
      ([(37, 37)], [], Adv 32);
      ([(59, 59)], [UB1; UParam], Adv 31);
      ([(61, 61)], [UB1], Adv 34);
      ([(63, 63)], [UB1; UParam], Adv 37)]
  | 55%positive => [([(33, 33); (36, 36); (38, 43); (45, 58); (65, 91); (93, 93); (95, 95); (97, 122); (126, 126)], [UAppend], Adv 55);
      ([(37, 37)], [], Adv 35);
      ([(59, 59)], [UB2; UParam], Adv 31);
      ([(63, 63)], [UB2; UParam], Adv 37)]
  | 56%positive => [([(33, 33); (36, 36); (39, 43); (45, 58); (63, 63); (65, 91); (93, 93); (95, 95); (97, 122); (126, 126)], [UAppend], Adv 56);
      ([(37, 37)], [], Adv 38);
      ([(38, 38)], [UB1; UHeader], Adv 37);
      ([(61, 61)], [UB1], Adv 40)]
  | 57%positive => [([(33, 33); (36, 36); (39, 43); (45, 58); (63, 63); (65, 91); (93, 93); (95, 95); (97, 122); (126, 126)], [UAppend], Adv 57);
      ([(37, 37)], [], Adv 41);
      ([(38, 38)], [UB2; UHeader], Adv 37)]
  | 58%positive => [([(58, 58)], [], Adv 30);
      ([(59, 59)], [], Adv 31);
      ([(63, 63)], [], Adv 37)]
  | _ => []
  end%N.

(** uri_parse.go:30-35 *)
Definition uri_first_final : positive := 45.
Definition uri_en_uriSansUser : positive := 27.
Definition uri_en_uriWithUser : positive := 1.
(** the switch on cs at the end of the input, uri_parse.go:2625-2674 *)
Definition uri_eof (n : positive) : list uact :=
  match n with
  | 45 | 52 => [UHost]
  | 47 | 54 => [UB1; UParam]
  | 49 | 56 => [UB1; UHeader]
  | 48 | 55 => [UB2; UParam]
  | 50 | 57 => [UB2; UHeader]
  | _ => []
  end%positive.
