(** Package util: util.go, identifier generation. The random source is an argument. *)
From Verif Require Import Bytes GoLib SipText.
Local Open Scope Z_scope.

(** encoding/hex.EncodeToString: two lower-case digits per byte *)
Fixpoint hex_encode (b : bytes) : bytes :=
  match b with
  | [] => []
  | c :: b' => hexChar (bz c / 16) :: hexChar (bz c mod 16) :: hex_encode b'
  end.

(** s[a:b]; out of range is a panic *)
Definition slice_of (a b : nat) (s : bytes) : res bytes :=
  if Nat.leb a b && Nat.leb b (length s) then Ok (firstn (b - a) (skipn a s)) else Panic.

(** util/util.go:55-57  GenerateTag, given the six bytes drawn *)
Definition GenerateTag (rnd : bytes) : bytes := hex_encode rnd.
(** util/util.go:61-63  GenerateBranch *)
Definition GenerateBranch (rnd : bytes) : bytes := B "z9hG4bK-" ++ GenerateTag rnd.
(** util/util.go:66-75  GenerateCallID, given the fifteen bytes drawn *)
Definition GenerateCallID (rnd : bytes) : res bytes :=
  let digs := hex_encode rnd in
  rbind (slice_of 0 8 digs) (fun a =>
  rbind (slice_of 8 12 digs) (fun b =>
  rbind (slice_of 12 15 digs) (fun c =>
  rbind (slice_of 15 18 digs) (fun d =>
  rbind (slice_of 18 (length digs) digs) (fun e =>
  Ok (a ++ B "-" ++ b ++ B "-4" ++ c ++ B "-a" ++ d ++ B "-" ++ e)))))).
(** util/util.go:45-52  GenerateCSeq: rand.Int returns a number in [0, 50000) *)
Definition GenerateCSeq (draw : Z) : Z := draw mod 50000.
(** util/util.go:78-85  GenerateOriginID: rand.Int returns a number in [0, 2^32 - 1) *)
Definition GenerateOriginID (draw : Z) : bytes := itoa (draw mod (2 ^ 32 - 1)).
