(** Model of /repo/lib/structs.go: the PDUs, their serialisation (Write) and
    Decode. *)
From Verif Require Export Model.Netip.

(** lib/structs.go:21-64, constants. *)
Definition messageMaxSize : N := 262168.
(** lib/structs.go:34. *)
Definition PDU_ID_SERIAL_NOTIFY : N := 0.
(** lib/structs.go:35. *)
Definition PDU_ID_SERIAL_QUERY : N := 1.
(** lib/structs.go:36. *)
Definition PDU_ID_RESET_QUERY : N := 2.
(** lib/structs.go:37. *)
Definition PDU_ID_CACHE_RESPONSE : N := 3.
(** lib/structs.go:38. *)
Definition PDU_ID_IPV4_PREFIX : N := 4.
(** lib/structs.go:39. *)
Definition PDU_ID_IPV6_PREFIX : N := 6.
(** lib/structs.go:40. *)
Definition PDU_ID_END_OF_DATA : N := 7.
(** lib/structs.go:41. *)
Definition PDU_ID_CACHE_RESET : N := 8.
(** lib/structs.go:42. *)
Definition PDU_ID_ROUTER_KEY : N := 9.
(** lib/structs.go:43. *)
Definition PDU_ID_ERROR_REPORT : N := 10.
(** lib/structs.go:45. *)
Definition FLAG_ADDED : N := 1.
(** lib/structs.go:46. *)
Definition FLAG_REMOVED : N := 0.
(** lib/structs.go:48. *)
Definition PDU_ERROR_CORRUPTDATA : N := 0.
(** lib/structs.go:49. *)
Definition PDU_ERROR_INTERNALERR : N := 1.
(** lib/structs.go:50. *)
Definition PDU_ERROR_NODATA : N := 2.
(** lib/structs.go:52. *)
Definition PDU_ERROR_BADPROTOVERSION : N := 4.

(** The PDU structs, lib/structs.go:115-119, 151-155, 187-189, 220-223, 254-260,
    297-303, 340-348, 390-392, 423-429, 468-473. *)
Inductive pdu :=
| SerialNotify (ver sess serial : N)
| SerialQuery (ver sess serial : N)
| ResetQuery (ver : N)
| CacheResponse (ver sess : N)
| IPv4Prefix (ver flags maxlen asn : N) (pfx : prefix)
| IPv6Prefix (ver flags maxlen asn : N) (pfx : prefix)
| EndOfData (ver sess serial refresh retry expire : N)
| CacheReset (ver : N)
| RouterKey (ver flags : N) (ski : bytes) (asn : N) (spki : bytes)
| ErrorReport (ver code : N) (copy msg : bytes).

(** GetVersion, lib/structs.go:135 and its nine siblings. *)
Definition get_version (p : pdu) : N :=
  match p with
  | SerialNotify v _ _ | SerialQuery v _ _ | ResetQuery v | CacheResponse v _
  | IPv4Prefix v _ _ _ _ | IPv6Prefix v _ _ _ _ | EndOfData v _ _ _ _ _
  | CacheReset v | RouterKey v _ _ _ _ | ErrorReport v _ _ _ => v
  end.

(** SetVersion, lib/structs.go:131 and its nine siblings. *)
Definition set_version (v : N) (p : pdu) : pdu :=
  match p with
  | SerialNotify _ s n => SerialNotify v s n
  | SerialQuery _ s n => SerialQuery v s n
  | ResetQuery _ => ResetQuery v
  | CacheResponse _ s => CacheResponse v s
  | IPv4Prefix _ f m a p => IPv4Prefix v f m a p
  | IPv6Prefix _ f m a p => IPv6Prefix v f m a p
  | EndOfData _ s n a b c => EndOfData v s n a b c
  | CacheReset _ => CacheReset v
  | RouterKey _ f k a s => RouterKey v f k a s
  | ErrorReport _ c k m => ErrorReport v c k m
  end.

(** GetType, lib/structs.go:139 and its nine siblings. *)
Definition get_type (p : pdu) : N :=
  match p with
  | SerialNotify _ _ _ => PDU_ID_SERIAL_NOTIFY
  | SerialQuery _ _ _ => PDU_ID_SERIAL_QUERY
  | ResetQuery _ => PDU_ID_RESET_QUERY
  | CacheResponse _ _ => PDU_ID_CACHE_RESPONSE
  | IPv4Prefix _ _ _ _ _ => PDU_ID_IPV4_PREFIX
  | IPv6Prefix _ _ _ _ _ => PDU_ID_IPV6_PREFIX
  | EndOfData _ _ _ _ _ _ => PDU_ID_END_OF_DATA
  | CacheReset _ => PDU_ID_CACHE_RESET
  | RouterKey _ _ _ _ _ => PDU_ID_ROUTER_KEY
  | ErrorReport _ _ _ _ => PDU_ID_ERROR_REPORT
  end.

(** IsCorrectPDUVersion, lib/structs.go:102-113. *)
Definition is_correct_pdu_version (p : pdu) (version : N) : bool :=
  if 1 <? version then false
  else match p with RouterKey _ _ _ _ _ => negb (version =? 0) | _ => true end.

(** Write and Bytes.  [binary.Write] of a value of k bytes is [be k]; a byte
    slice is written as is.  The only error type a writer can produce is
    irrelevant (the code ignores it), hence [Empty_set]; [Panic] comes from As4.
    lib/structs.go:143-149, 179-185, 213-218, 247-252, 284-295, 327-338, 373-388,
    416-421, 453-466, 497-516. *)
Definition encode (p : pdu) : res bytes Empty_set :=
  match p with
  | SerialNotify v s n => Ok (be 1 v ++ be 1 PDU_ID_SERIAL_NOTIFY ++ be 2 s ++ be 4 12 ++ be 4 n)
  | SerialQuery v s n => Ok (be 1 v ++ be 1 PDU_ID_SERIAL_QUERY ++ be 2 s ++ be 4 12 ++ be 4 n)
  | ResetQuery v => Ok (be 1 v ++ be 1 PDU_ID_RESET_QUERY ++ be 2 0 ++ be 4 8)
  | CacheResponse v s => Ok (be 1 v ++ be 1 PDU_ID_CACHE_RESPONSE ++ be 2 s ++ be 4 8)
  | IPv4Prefix v f m a p =>
      do a4 <- as4 (p_addr p);
      Ok (be 1 v ++ be 1 PDU_ID_IPV4_PREFIX ++ be 2 0 ++ be 4 20 ++ be 1 f
          ++ be 1 (to_u8 (bits p)) ++ be 1 m ++ be 1 0 ++ a4 ++ be 4 a)
  | IPv6Prefix v f m a p =>
      Ok (be 1 v ++ be 1 PDU_ID_IPV6_PREFIX ++ be 2 0 ++ be 4 32 ++ be 1 f
          ++ be 1 (to_u8 (bits p)) ++ be 1 m ++ be 1 0 ++ as16 (p_addr p) ++ be 4 a)
  | EndOfData v s n r t e =>
      Ok (be 1 v ++ be 1 PDU_ID_END_OF_DATA ++ be 2 s ++
          (if v =? 0 then be 4 12 ++ be 4 n
           else be 4 24 ++ be 4 n ++ be 4 r ++ be 4 t ++ be 4 e))
  | CacheReset v => Ok (be 1 v ++ be 1 PDU_ID_CACHE_RESET ++ be 2 0 ++ be 4 8)
  | RouterKey v f ski a spki =>
      if negb (nlen ski =? 20) then Ok []
      else Ok (be 1 v ++ be 1 PDU_ID_ROUTER_KEY ++ be 1 f ++ be 1 0
               ++ be 4 (32 + nlen spki) ++ ski ++ be 4 a ++ spki)
  | ErrorReport v c cp msg =>
      let nonnull := negb (beqb msg []) in
      let addlen := if nonnull then 1 else 0 in
      Ok (be 1 v ++ be 1 PDU_ID_ERROR_REPORT ++ be 2 c
          ++ be 4 (12 + nlen cp + 4 + nlen msg + addlen)
          ++ be 4 (nlen cp) ++ cp ++ be 4 (nlen msg + addlen)
          ++ (if nonnull then msg ++ be 1 0 else []))
  end.

(** Why Decode fails (the error texts are not modelled). lib/structs.go:523-706. *)
Inductive derr := EIO | ELength | EPayload | EAddr | EType.

(** binary.Read of [k] bytes from a reader holding [b]: io.ReadFull.
    Standard library; called at lib/structs.go:523-560. *)
Definition read (k : N) (b : bytes) : res (bytes * bytes) derr :=
  if nlen b <? k then Err EIO
  else Ok (firstn (N.to_nat k) b, skipn (N.to_nat k) b).

(** The switch of Decode, lib/structs.go:560-705.  [w] is the width of Go's int. *)
Definition decode_payload (w : Z) (pver pduType sessionId : N) (toread : bytes)
  : res pdu derr :=
  let n := nlen toread in
  if pduType =? PDU_ID_SERIAL_NOTIFY then          (* 561-570 *)
    if negb (n =? 4) then Err EPayload
    else do serial <- getU32 toread; Ok (SerialNotify pver sessionId serial)
  else if pduType =? PDU_ID_SERIAL_QUERY then      (* 571-580 *)
    if negb (n =? 4) then Err EPayload
    else do serial <- getU32 toread; Ok (SerialQuery pver sessionId serial)
  else if pduType =? PDU_ID_RESET_QUERY then       (* 581-587 *)
    if negb (n =? 0) then Err EPayload else Ok (ResetQuery pver)
  else if pduType =? PDU_ID_CACHE_RESPONSE then    (* 588-595 *)
    if negb (n =? 0) then Err EPayload else Ok (CacheResponse pver sessionId)
  else if pduType =? PDU_ID_IPV4_PREFIX then       (* 596-613 *)
    if negb (n =? 12) then Err EPayload
    else
      do plen <- index toread 1;
      do ip <- slice toread 4 8;
      match addr_from_slice ip with
      | None => Err EAddr
      | Some a =>
          do asnb <- slice toread 8 n;
          do asn <- getU32 asnb;
          do flags <- index toread 0;
          do maxlen <- index toread 2;
          Ok (IPv4Prefix pver flags maxlen asn (prefix_from a (Z.of_N plen)))
      end
  else if pduType =? PDU_ID_IPV6_PREFIX then       (* 614-631 *)
    if negb (n =? 24) then Err EPayload
    else
      do plen <- index toread 1;
      do ip <- slice toread 4 20;
      match addr_from_slice ip with
      | None => Err EAddr
      | Some a =>
          do asnb <- slice toread 20 n;
          do asn <- getU32 asnb;
          do flags <- index toread 0;
          do maxlen <- index toread 2;
          Ok (IPv6Prefix pver flags maxlen asn (prefix_from a (Z.of_N plen)))
      end
  else if pduType =? PDU_ID_END_OF_DATA then       (* 632-657 *)
    if negb (n =? 4) && negb (n =? 16) then Err EPayload
    else if n =? 4 then
      do serial <- getU32 toread;
      Ok (EndOfData pver sessionId serial 0 0 0)
    else
      do b0 <- slice toread 0 4; do serial <- getU32 b0;
      do b1 <- slice toread 4 8; do refresh <- getU32 b1;
      do b2 <- slice toread 8 12; do retry <- getU32 b2;
      do b3 <- slice toread 12 16; do expire <- getU32 b3;
      Ok (EndOfData pver sessionId serial refresh retry expire)
  else if pduType =? PDU_ID_CACHE_RESET then       (* 658-664 *)
    if negb (n =? 0) then Err EPayload else Ok (CacheReset pver)
  else if pduType =? PDU_ID_ROUTER_KEY then        (* 665-680 *)
    if n <? 28 then Err EPayload
    else
      do asnb <- slice toread 20 24; do asn <- getU32 asnb;
      do spki <- slice toread 24 n;
      do ski <- slice toread 0 20;
      Ok (RouterKey pver (sessionId / 256) ski asn spki)
  else if pduType =? PDU_ID_ERROR_REPORT then      (* 681-702 *)
    if n <? 8 then Err EPayload
    else
      do lb <- slice toread 0 4; do lenPdu <- getU32 lb;
      if (Z.of_N n <? iadd w (int_of_u32 w lenPdu) 8)%Z then Err EPayload
      else
        do errPdu <- slice toread 4 (u32add lenPdu 4);
        do tb <- slice toread (u32add lenPdu 4) (u32add lenPdu 8);
        do lenErrText <- getU32 tb;
        if (Z.of_N n <? iadd w (iadd w (int_of_u32 w lenPdu) 8) (int_of_u32 w lenErrText))%Z
        then Err EPayload
        else
          do errMsg <- slice toread (u32add lenPdu 8) (u32add (u32add lenPdu 8) lenErrText);
          Ok (ErrorReport pver sessionId errPdu errMsg)
  else Err EType.                                   (* 703-704 *)

(** Decode, lib/structs.go:523-706: the PDU and what is left in the reader.
    The nil-reader test (524-526) has no counterpart: a reader is a byte list. *)
Definition decode (w : Z) (b : bytes) : res (pdu * bytes) derr :=
  do r1 <- read 1 b;
  do r2 <- read 1 (snd r1);
  do r3 <- read 2 (snd r2);
  do r4 <- read 4 (snd r3);
  let pver := unbe (fst r1) in
  let pduType := unbe (fst r2) in
  let sessionId := unbe (fst r3) in
  let length := unbe (fst r4) in
  if length <? 8 then Err ELength
  else if messageMaxSize <? length then Err ELength
  else
    do r5 <- read (length - 8) (snd r4);
    do p <- decode_payload w pver pduType sessionId (fst r5);
    Ok (p, snd r5).

(** DecodeBytes, lib/structs.go:518-521: what follows the first PDU is ignored. *)
Definition decode_bytes (w : Z) (b : bytes) : res pdu derr :=
  do r <- decode w b; Ok (fst r).

(** Values the Go types of the struct fields can hold. *)
Definition wf_pdu (p : pdu) : Prop :=
  match p with
  | SerialNotify v s n | SerialQuery v s n => u8 v /\ u16 s /\ u32 n
  | ResetQuery v | CacheReset v => u8 v
  | CacheResponse v s => u8 v /\ u16 s
  | IPv4Prefix v f m a p | IPv6Prefix v f m a p =>
      u8 v /\ u8 f /\ u8 m /\ u32 a /\ wf_prefix p
  | EndOfData v s n r t e => u8 v /\ u16 s /\ u32 n /\ u32 r /\ u32 t /\ u32 e
  | RouterKey v f ski a spki => u8 v /\ u8 f /\ bytes_ok ski /\ u32 a /\ bytes_ok spki
  | ErrorReport v c cp msg => u8 v /\ u16 c /\ bytes_ok cp /\ bytes_ok msg
  end.
