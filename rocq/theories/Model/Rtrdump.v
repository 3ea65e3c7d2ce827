(** Model of /repo/cmd/rtrdump/rtrdump.go. *)
From Verif Require Export Model.Json Model.Session.

(** Client, rtrdump.go:69-75, and the parts of RPKIList it fills (prefixfile.go:11-24):
    roas, bgpsec_keys, and vrps, sessionid and serial of the metadata. *)
Record dump := mkDump {
  d_roas : list vrpjson; d_keys : list brkjson; d_count : N; d_session : N; d_serial : N
}.
(** The initial value, rtrdump.go:167-175. *)
Definition empty_dump : dump := mkDump [] [] 0 0 0.

(** HandlePDU, rtrdump.go:77-126.  The boolean: Disconnect was called. *)
Definition dump_handle (c : dump) (p : pdu) : dump * bool :=
  match p with
  | IPv4Prefix _ _ m a x | IPv6Prefix _ _ m a x =>
      (mkDump (d_roas c ++ [mkVJ (prefix_string x) m (AsnU32 a) [] None]) (d_keys c)
              (d_count c + 1) (d_session c) (d_serial c), false)
  | RouterKey _ _ ski a spki =>
      (mkDump (d_roas c) (d_keys c ++ [mkBJ a None [] spki (hex_encode ski)])
              (d_count c) (d_session c) (d_serial c), false)
  | EndOfData _ sess serial _ _ _ =>
      (mkDump (d_roas c) (d_keys c) (d_count c) sess serial, true)
  | CacheResponse _ _ => (c, false)
  | _ => (c, true)
  end.

(** The flags that matter here, rtrdump.go:35-39. *)
Record dump_flags := mkDF {
  f_serial : bool; f_serial_value : Z; f_session_id : Z; f_version : Z
}.
(** The version asked for, rtrdump.go:151-157; [None]: log.Fatal. *)
Definition dump_version (f : dump_flags) : option N :=
  if (1 <? f_version f)%Z then None else Some (if (f_version f =? 1)%Z then 1 else 0).
(** ClientConnected, rtrdump.go:128-134, with the conversions of 173-174. *)
Definition dump_query (f : dump_flags) (version : N) : pdu :=
  cs_send version
    (if f_serial f then SerialQuery 0 (to_u16 (f_session_id f)) (to_u32 (f_serial_value f))
     else ResetQuery 0).
(** main, rtrdump.go:226-247, once connected: the file written, or [None] when the program
    ends with log.Fatal (or crashed).  [b] is what the server sends. *)
Definition dump_main (version : N) (b : bytes) : option dump :=
  let r := start_rw dump_handle version empty_dump b in
  match o_end r with Finished => Some (o_state r) | _ => None end.

(** What a reader of the JSON file gets (encoding/json; Props.JsonProps, C90, for the text): an AS number
    comes back as a float64, which is exact for 32 bits; everything else as it was.
    Written at rtrdump.go:240-262, read at stayrtr.go:487. *)
Definition reread (d : dump) : list vrpjson * list brkjson :=
  (map (fun v => mkVJ (vj_prefix v) (vj_length v)
                      (match vj_asn v with AsnU32 n => AsnFloat (Z.of_N n) 0 | a => a end)
                      (vj_ta v) (vj_expires v)) (d_roas d),
   d_keys d).
