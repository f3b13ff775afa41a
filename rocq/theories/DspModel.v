(** dsp/dsp_amd64.s transcribed instruction by instruction. *)
From Verif Require Import Bytes Asm.
Local Open Scope Z_scope.

(** dsp/dsp_amd64.s:15  #define ULAW_BIAS $0x84 *)
Definition ULAW_BIAS : Z := 0x84.

(** dsp/dsp_amd64.s:17-31  L16MixSat160 *)
Definition mix_prog : list instr :=
  [ (* 0: line 20 *) LDARG 0 AX;
    (* 1: line 21 *) LDARG 8 BX;
    (* 2: line 22 *) MOVQ (I 19) CX;
    (* 3: moar, line 23 *) MOVO_LD BX;
    (* 4: line 24 *) PADDSW AX;
    (* 5: line 25 *) MOVO_ST AX;
    (* 6: line 26 *) ADDQ (I 16) AX;
    (* 7: line 27 *) ADDQ (I 16) BX;
    (* 8: line 28 *) DECQ CX;
    (* 9: line 29 *) CMPQ CX (I 0);
    (* 10: line 30 *) JGE 3%nat;
    (* 11: line 31 *) RET ].

(** dsp/dsp_amd64.s:33-62  LinearToUlaw *)
Definition enc_prog : list instr :=
  [ (* 0: line 35 *) LDARG 0 AX;
    (* 1: line 36 *) CMPQ AX (I 0);
    (* 2: line 37 *) JS 6%nat;
    (* 3: ifPos, line 38 *) ADDQ (I ULAW_BIAS) AX;
    (* 4: line 39 *) MOVQ (I 0xFF) R13;
    (* 5: line 40 *) JMP 10%nat;
    (* 6: ifNeg, line 41 *) MOVQ (I ULAW_BIAS) BX;
    (* 7: line 42 *) SUBQ (R AX) BX;
    (* 8: line 43 *) MOVQ (R BX) AX;
    (* 9: line 44 *) MOVQ (I 0x7F) R13;
    (* 10: endIf, line 45 *) MOVQ (R AX) DX;
    (* 11: line 46 *) ORQ (I 0xFF) DX;
    (* 12: line 47 *) BSRQ DX BX;
    (* 13: line 48 *) SUBQ (I 7) BX;
    (* 14: line 49 *) CMPQ BX (I 8);
    (* 15: line 50 *) JGE 25%nat;
    (* 16: line 51 *) MOVQ (R BX) CX;
    (* 17: line 52 *) ADDQ (I 3) CX;
    (* 18: line 53 *) SARQ (R CX) AX;
    (* 19: line 54 *) ANDQ (I 0xF) AX;
    (* 20: line 55 *) SHLQ (I 4) BX;
    (* 21: line 56 *) ORQ (R BX) AX;
    (* 22: line 57 *) XORQ (R R13) AX;
    (* 23: line 58 *) STRET AX;
    (* 24: line 59 *) RET;
    (* 25: loud, line 60 *) XORQ (I 0x7F) R13;
    (* 26: line 61 *) STRET R13;
    (* 27: line 62 *) RET ].

(** dsp/dsp_amd64.s:64-85  UlawToLinear *)
Definition dec_prog : list instr :=
  [ (* 0: line 66 *) LDARG 0 AX;
    (* 1: line 67 *) NOTQ AX;
    (* 2: line 68 *) MOVQ (R AX) CX;
    (* 3: line 69 *) MOVQ (R AX) DX;
    (* 4: line 70 *) ANDQ (I 0x0F) AX;
    (* 5: line 71 *) SHLQ (I 3) AX;
    (* 6: line 72 *) ADDQ (I 0x84) AX;
    (* 7: line 73 *) ANDQ (I 0x70) CX;
    (* 8: line 74 *) SARQ (I 4) CX;
    (* 9: line 75 *) SHLQ (R CX) AX;
    (* 10: line 76 *) ANDQ (I 0x80) DX;
    (* 11: line 77 *) CMPQ DX (I 0);
    (* 12: line 78 *) JE 17%nat;
    (* 13: line 79 *) MOVQ (I 0x84) BX;
    (* 14: line 80 *) SUBQ (R AX) BX;
    (* 15: line 81 *) STRET BX;
    (* 16: line 82 *) RET;
    (* 17: death, line 83 *) SUBQ (I 0x84) AX;
    (* 18: line 84 *) STRET AX;
    (* 19: line 85 *) RET ].

(** Registers hold arbitrary values on entry; they are parameters. *)
Definition entry (a b c d e : Z) (m : Z -> Z) : cpu :=
  mkcpu a b c d e [0;0;0;0;0;0;0;0] false false false m None.

Definition retval (o : outcome) : option Z :=
  match o with Halt s => ret s | _ => None end.

(** The Go-visible functions (dsp/dsp.go:22-31): result for any register contents on entry. *)
Definition LinearToUlaw (x : Z) : option Z :=
  retval (run 64 enc_prog (fun _ => x) (entry 0 0 0 0 0 (fun _ => 0)) 0).
Definition UlawToLinear (u : Z) : option Z :=
  retval (run 64 dec_prog (fun _ => u) (entry 0 0 0 0 0 (fun _ => 0)) 0).

(** L16MixSat160(dst, src): the memory afterwards, or [None] for a hardware fault. *)
Definition L16MixSat160 (m : Z -> Z) (dst src : Z) : option (Z -> Z) :=
  match run 400 mix_prog (fun n => if Z.eqb n 0 then dst else src) (entry 0 0 0 0 0 m) 0 with
  | Halt s => Some (mem s)
  | _ => None
  end.
