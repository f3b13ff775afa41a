(** The pointer structure behind Msg, Addr, Via and URI, for the Copy methods: sip/msg.go:110-127,
    sip/addr.go:90-99, sip/via.go:65-78, sip/uri.go:60-69. A heap is a list of cells, a pointer an index.
    Payload and SourceAddr pointers, which Copy shares, are not followed. *)
From Verif Require Import Bytes SdpModel SipTypes.

Definition ptr := option nat.
(** sip/uri.go:47-55, sip/addr.go:42-47, sip/via.go:27-35, sip/param.go:25-29 (also uriparam.go, uriheader.go, xheader.go) *)
Inductive cell :=
| CUri (base : uri) (param header : ptr)           (* the lists inside base are not used *)
| CAddr (u : ptr) (display : bytes) (param next : ptr)
| CVia (base : via) (param next : ptr)             (* the list inside base is not used *)
| CParam (name value : bytes) (next : ptr).
Definition heap := list cell.

(** sip/uri.go:60-69  URI.Copy *)
Definition uri_copy (h : heap) (p : ptr) : res (heap * ptr) :=
  match p with
  | None => Ok (h, None)
  | Some a =>
    match nth_error h a with
    | Some (CUri b pa he) => Ok (h ++ [CUri b pa he], Some (length h))
    | _ => Panic
    end
  end.

(** sip/addr.go:90-99  Addr.Copy. The new cell is put in the heap once its fields are known; nothing else can see
    it earlier. Fuel is the length of the list; running out is reported as a panic. *)
Fixpoint addr_copy (fuel : nat) (h : heap) (p : ptr) : res (heap * ptr) :=
  match p with
  | None => Ok (h, None)
  | Some a =>
    match fuel with
    | O => Panic
    | S f =>
      match nth_error h a with
      | Some (CAddr u d pa nx) =>
        do x <- uri_copy h u;
        do y <- addr_copy f (fst x) nx;
        Ok (fst y ++ [CAddr (snd x) [] pa (snd y)], Some (length (fst y)))
      | _ => Panic
      end
    end
  end.

(** sip/via.go:65-78  Via.Copy *)
Fixpoint via_copy (fuel : nat) (h : heap) (p : ptr) : res (heap * ptr) :=
  match p with
  | None => Ok (h, None)
  | Some a =>
    match fuel with
    | O => Panic
    | S f =>
      match nth_error h a with
      | Some (CVia b pa nx) =>
        do y <- via_copy f h nx;
        Ok (fst y ++ [CVia b pa (snd y)], Some (length (fst y)))
      | _ => Panic
      end
    end
  end.

(** sip/msg.go:27-96  the pointer fields of Msg; [hm_flat] holds the others *)
Record hmsg := mkhmsg { hm_flat : msg; hm_request : ptr; hm_addrs : afield -> ptr; hm_vias : ptr; hm_xheader : ptr }.

(** sip/msg.go:116-124: which pointers are copied, in order *)
Definition copy_field (fuel : nat) (x : heap * hmsg) (f : afield) : res (heap * hmsg) :=
  do y <- addr_copy fuel (fst x) (hm_addrs (snd x) f);
  Ok (fst y, mkhmsg (hm_flat (snd x)) (hm_request (snd x)) (fun g => if afield_eqb g f then snd y else hm_addrs (snd x) g)
               (hm_vias (snd x)) (hm_xheader (snd x))).
Fixpoint copy_fields (fuel : nat) (x : heap * hmsg) (fs : list afield) : res (heap * hmsg) :=
  match fs with [] => Ok x | f :: fs' => do y <- copy_field fuel x f; copy_fields fuel y fs' end.
(** sip/msg.go:110-127  Msg.Copy *)
Definition msg_copy (fuel : nat) (h : heap) (m : hmsg) : res (heap * hmsg) :=
  do r <- uri_copy h (hm_request m);
  do a <- copy_fields fuel (fst r, mkhmsg (hm_flat m) (snd r) (hm_addrs m) (hm_vias m) (hm_xheader m)) [To; From];
  do v <- via_copy fuel (fst a) (hm_vias (snd a));
  copy_fields fuel (fst v, mkhmsg (hm_flat (snd a)) (hm_request (snd a)) (hm_addrs (snd a)) (snd v) (hm_xheader (snd a)))
    [PAssertedIdentity; RemotePartyID; Route; Contact; RecordRoute].
