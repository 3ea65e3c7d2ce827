(** Model of /repo/prefixfile/prefixfile.go: the JSON records, after decoding.  For
    the text and its decoding by encoding/json see [Model.JsonText], [Model.JsonFile]. *)
From Verif Require Export Model.Format Model.Data.

(** The dynamic types of VRPJson.ASN (prefixfile.go:29, 55-74): a string; uint32
    (SLURM assertions, slurm.go:210); float64, what encoding/json yields for a number
    (the value m * 2^e, finite); anything else (null, bool, array, object). *)
Inductive jasn := AsnStr (s : bytes) | AsnU32 (n : N) | AsnFloat (m e : Z) | AsnOther.

(** VRPJson, prefixfile.go:26-32. *)
Record vrpjson := mkVJ {
  vj_prefix : bytes; vj_length : N; vj_asn : jasn; vj_ta : bytes; vj_expires : option Z
}.
(** BgpSecKeyJson, prefixfile.go:34-45. *)
Record brkjson := mkBJ {
  bj_asn : N; bj_expires : option Z; bj_ta : bytes; bj_pubkey : bytes; bj_ski : bytes
}.

(** strings.TrimLeft(s, "aAsS"), prefixfile.go:58. *)
Definition in_cutset (c : N) : bool := (c =? 97) || (c =? 65) || (c =? 115) || (c =? 83).
(** prefixfile.go:58, the whole string. *)
Fixpoint trim_as (s : bytes) : bytes :=
  match s with c :: s' => if in_cutset c then trim_as s' else s | [] => [] end.
(** strconv.ParseUint(s, 10, 32), prefixfile.go:59: empty strings, non-digits and values
    above 2^32-1 are errors.  (No sign and, in base 10, no underscores.) *)
Fixpoint parse_uint_loop (n : N) (s : bytes) : option N :=
  match s with
  | [] => Some n
  | c :: s' => if is_digit c then
                 let n1 := n * 10 + (c - 48) in
                 if 4294967295 <? n1 then None else parse_uint_loop n1 s'
               else None
  end.
(** prefixfile.go:59. *)
Definition parse_uint32 (s : bytes) : option N :=
  match s with [] => None | _ => parse_uint_loop 0 s end.
(** uint32(x) of a float64, prefixfile.go:68: truncation; out of range the result is
    implementation-defined, here as compiled for amd64 (via int64, which is -2^63 when out
    of range itself; then the low 32 bits). *)
Definition float_trunc (m e : Z) : Z := (if 0 <=? e then m * 2 ^ e else Z.quot m (2 ^ (- e)))%Z.
(** prefixfile.go:68. *)
Definition u32_of_float (m e : Z) : N :=
  let t := float_trunc m e in
  let i := if ((- 2 ^ 63 <=? t) && (t <? 2 ^ 63))%Z then t else (- 2 ^ 63)%Z in
  to_u32 i.
(** GetASN2, prefixfile.go:55-74; [None] is an error.  GetASN, 76-79.  (case int, 69-70, does
    not arise.) *)
Definition get_asn2 (a : jasn) : option N :=
  match a with
  | AsnStr s => parse_uint32 (trim_as s)
  | AsnU32 n => Some n
  | AsnFloat m e => Some (u32_of_float m e)
  | AsnOther => None
  end.
(** GetASN, prefixfile.go:76-79: zero on error. *)
Definition get_asn (a : jasn) : N := match get_asn2 a with Some n => n | None => 0 end.

(** GetPrefix2, prefixfile.go:81-90 (ParsePrefix only yields valid prefixes), and
    GetPrefix, 92-95: the zero Prefix on error. *)
Definition get_prefix2 (v : vrpjson) : option prefix :=
  match parse_prefix (vj_prefix v) with
  | Some p => if is_valid p then Some p else None
  | None => None
  end.
(** netip.Prefix{}, prefixfile.go:84, 87. *)
Definition zero_prefix : prefix := mkPrefix A0 None.
(** GetPrefix, prefixfile.go:92-95: the zero Prefix on error. *)
Definition get_prefix (v : vrpjson) : prefix :=
  match get_prefix2 v with Some p => p | None => zero_prefix end.

(** Values the Go types can hold. *)
Definition wf_vj (v : vrpjson) : Prop :=
  u8 (vj_length v) /\ match vj_asn v with AsnU32 n => u32 n | _ => True end.
(** Values BgpSecKeyJson can hold, prefixfile.go:34-45. *)
Definition wf_bj (b : brkjson) : Prop := u32 (bj_asn b) /\ bytes_ok (bj_pubkey b).
