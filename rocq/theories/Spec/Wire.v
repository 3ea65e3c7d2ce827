(** Independent description of the RTR wire format (RFC 8210 section 5) by
    absolute offsets into the byte string.  Uses only the PDU type of the model. *)
From Verif Require Import Model.Pdu.

(** Big-endian number in the [n] bytes at offset [off]. *)
Definition fld (b : bytes) (off n : nat) : N := unbe (firstn n (skipn off b)).
(** The [n] bytes at offset [off]. *)
Definition sub (b : bytes) (off n : nat) : bytes := firstn n (skipn off b).

Definition w_ver (b : bytes) : N := fld b 0 1.
Definition w_type (b : bytes) : N := fld b 1 1.
Definition w_sess (b : bytes) : N := fld b 2 2.
Definition w_len (b : bytes) : N := fld b 4 4.

(** A complete frame is present at the start of [b]. *)
Definition frame_ok (b : bytes) : Prop :=
  8 <= nlen b /\ 8 <= w_len b /\ w_len b <= 262168 /\ w_len b <= nlen b.

(** A prefix of an address with [max] bits: a length above [max] is not representable. *)
Definition w_pfx (a : addr) (max plen : N) : prefix :=
  mkPrefix a (if plen <=? max then Some plen else None).

(** [w_pdu b p]: the frame at the start of [b] is the PDU [p]. *)
Inductive w_pdu (b : bytes) : pdu -> Prop :=
| W_notify : w_type b = 0 -> w_len b = 12 ->
    w_pdu b (SerialNotify (w_ver b) (w_sess b) (fld b 8 4))
| W_query : w_type b = 1 -> w_len b = 12 ->
    w_pdu b (SerialQuery (w_ver b) (w_sess b) (fld b 8 4))
| W_reset : w_type b = 2 -> w_len b = 8 -> w_pdu b (ResetQuery (w_ver b))
| W_response : w_type b = 3 -> w_len b = 8 -> w_pdu b (CacheResponse (w_ver b) (w_sess b))
| W_v4 : w_type b = 4 -> w_len b = 20 ->
    w_pdu b (IPv4Prefix (w_ver b) (fld b 8 1) (fld b 10 1) (fld b 16 4)
                        (w_pfx (A4 (fld b 12 4)) 32 (fld b 9 1)))
| W_v6 : w_type b = 6 -> w_len b = 32 ->
    w_pdu b (IPv6Prefix (w_ver b) (fld b 8 1) (fld b 10 1) (fld b 28 4)
                        (w_pfx (A6 (fld b 12 16)) 128 (fld b 9 1)))
| W_eod0 : w_type b = 7 -> w_len b = 12 ->
    w_pdu b (EndOfData (w_ver b) (w_sess b) (fld b 8 4) 0 0 0)
| W_eod1 : w_type b = 7 -> w_len b = 24 ->
    w_pdu b (EndOfData (w_ver b) (w_sess b) (fld b 8 4) (fld b 12 4) (fld b 16 4) (fld b 20 4))
| W_creset : w_type b = 8 -> w_len b = 8 -> w_pdu b (CacheReset (w_ver b))
| W_rkey : w_type b = 9 -> 36 <= w_len b ->
    w_pdu b (RouterKey (w_ver b) (fld b 2 1) (sub b 8 20) (fld b 28 4)
                       (sub b 32 (N.to_nat (w_len b - 32))))
| W_error (lp lt : N) : w_type b = 10 ->
    16 <= w_len b ->
    lp = fld b 8 4 -> 16 + lp <= w_len b ->
    lt = fld b (12 + N.to_nat lp) 4 -> 16 + lp + lt <= w_len b ->
    w_pdu b (ErrorReport (w_ver b) (w_sess b) (sub b 12 (N.to_nat lp))
                         (sub b (16 + N.to_nat lp) (N.to_nat lt))).

(** PDUs the library can put on the wire without loss of meaning. *)
Definition sendable (p : pdu) : Prop :=
  match p with
  | IPv4Prefix _ _ _ _ p => is4 (p_addr p) = true /\ is_valid p = true
  | IPv6Prefix _ _ _ _ p => is6 (p_addr p) = true /\ is_valid p = true
  | RouterKey _ _ ski _ spki =>
      nlen ski = 20 /\ 4 <= nlen spki /\ 32 + nlen spki <= 262168
  | ErrorReport _ _ c m => 17 + nlen c + nlen m <= 262168
  | _ => True
  end.

(** The two documented normalisations of C01. *)
Definition normal (p : pdu) : pdu :=
  match p with
  | ErrorReport v c k m => match m with [] => p | _ => ErrorReport v c k (m ++ [0]) end
  | EndOfData v s n _ _ _ => if v =? 0 then EndOfData v s n 0 0 0 else p
  | _ => p
  end.

(** Frames the library itself would have produced: reserved bytes zero, prefix
    length within the family (or 255, what an invalid prefix is sent as), End of Data of the length its version prescribes,
    Error Report without text. *)
Definition canonical (b : bytes) : Prop :=
  (w_type b = 2 -> w_sess b = 0) /\
  (w_type b = 4 -> w_sess b = 0 /\ fld b 11 1 = 0 /\ (fld b 9 1 <= 32 \/ fld b 9 1 = 255)) /\
  (w_type b = 6 -> w_sess b = 0 /\ fld b 11 1 = 0 /\ (fld b 9 1 <= 128 \/ fld b 9 1 = 255)) /\
  (w_type b = 7 -> (w_ver b = 0 <-> w_len b = 12)) /\
  (w_type b = 8 -> w_sess b = 0) /\
  (w_type b = 9 -> fld b 3 1 = 0) /\
  (w_type b = 10 -> w_len b = 16 + fld b 8 4).

(** Reading a whole stream: [n] PDUs, then what is left. *)
Fixpoint decode_n (w : Z) (n : nat) (b : bytes) : res (list pdu * bytes) derr :=
  match n with
  | O => Ok ([], b)
  | S n => do r <- decode w b; do r2 <- decode_n w n (snd r); Ok (fst r :: fst r2, snd r2)
  end.
(** Serialisations concatenated. *)
Fixpoint encode_all (l : list pdu) : res bytes Empty_set :=
  match l with
  | [] => Ok []
  | p :: l => do b <- encode p; do r <- encode_all l; Ok (b ++ r)
  end.

