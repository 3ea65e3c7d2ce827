(** What encoding/json (Go 1.23) makes of a JSON value for the types of
    /repo/prefixfile/prefixfile.go:11-45 and slurm.go:14-80, and how it writes the former.

    A value of a wrong type, a number out of range, or text that is not base64 is an error of
    the whole file ([None]); the library goes on and reports the first one, and both callers
    then drop what was stored (stayrtr.go:487-490, slurm.go:86-89). *)
From Verif Require Export Model.JsonText Model.State Model.Rtrdump Model.SshAuth.
Local Open Scope string_scope.
Local Open Scope list_scope.
Local Open Scope N_scope.

(** ** Reading *)

(** foldName (fold.go): two names are the same field if they differ only in case.  Besides
    the ASCII letters that goes for U+017F and U+212A, which fold to S and K.  No type in
    /repo has two fields with the same folded name, so the exact match the library tries
    first finds the same field.  prefixfile.go:11-45, slurm.go:14-80. *)
Fixpoint fold_name (k : bytes) : bytes :=
  match k with
  | [] => []
  | x :: t =>
      match t with
      | y :: t1 =>
          if (x =? 197) && (y =? 191) then 83 :: fold_name t1
          else match t1 with
               | z :: t2 => if (x =? 226) && (y =? 132) && (z =? 170) then 75 :: fold_name t2
                            else (if (97 <=? x) && (x <=? 122) then x - 32 else x) :: fold_name t
               | [] => (if (97 <=? x) && (x <=? 122) then x - 32 else x) :: fold_name t
               end
      | [] => [if (97 <=? x) && (x <=? 122) then x - 32 else x]
      end
  end.
(** The field a key names.  prefixfile.go:11-45, slurm.go:14-80. *)
Definition is_field (key : bytes) (name : string) : bool := beqb (fold_name key) (fold_name (str name)).

(** Decoder.object into a struct: member by member; null leaves the struct as it is.  [f]
    stores one member.  Standard library, stayrtr.go:189, slurm.go:86. *)
Definition dec_struct {A} (f : A -> bytes -> json -> option A) (a : A) (j : json) : option A :=
  match j with
  | JNull => Some a
  | JObj l => fold_left (fun acc m => match acc with Some x => f x (fst m) (snd m) | None => None end) l (Some a)
  | _ => None
  end.
(** A slice: [None] is nil; the elements, and what is left in the array behind them of
    elements cut off earlier (encoding/json stores into the old array when a key occurs again).
    Standard library, stayrtr.go:189. *)
Definition gslice (A : Type) : Type := option (list A * list A).
(** Elements one after the other, each stored over the old one (or the zero value); the rest
    of the old ones.  Decoder.array of the standard library, stayrtr.go:189. *)
Fixpoint dec_elems {A} (el : A -> json -> option A) (zero : A) (old : list A) (l : list json) : option (list A * list A) :=
  match l with
  | [] => Some ([], old)
  | j :: r =>
      match el (hd zero old) j with
      | Some x => match dec_elems el zero (tl old) r with
                  | Some (xs, rest) => Some (x :: xs, rest)
                  | None => None
                  end
      | None => None
      end
  end.
(** Decoder.array into a slice; an empty one gets a new array; null gives nil.  Standard
    library, stayrtr.go:189. *)
Definition dec_slice {A} (el : A -> json -> option A) (zero : A) (cur : gslice A) (j : json) : option (gslice A) :=
  match j with
  | JNull => Some None
  | JArr [] => Some (Some ([], []))
  | JArr l => match dec_elems el zero (match cur with Some (a, b) => a ++ b | None => [] end) l with
              | Some s => Some (Some s)
              | None => None
              end
  | _ => None
  end.
(** The elements of a slice (Go language; stayrtr.go:493). *)
Definition sl_list {A} (s : gslice A) : list A := match s with Some (a, _) => a | None => [] end.

(** literalStore into a string, an unsigned integer below [max], an int or int64 and pointers
    to them; null leaves the first three as they are and makes a pointer nil.  Standard
    library, for the fields of prefixfile.go:11-45, slurm.go:14-80. *)
Definition dec_string (cur : bytes) (j : json) : option bytes :=
  match j with JNull => Some cur | JStr s => Some s | _ => None end.
(** As [dec_string]: uint8, uint32 (prefixfile.go:28, 35; slurm.go:46, 53). *)
Definition dec_uint (max : N) (cur : N) (j : json) : option N :=
  match j with
  | JNull => Some cur
  | JNum lit => match lit_uint lit with Some n => if n <? max then Some n else None | None => None end
  | _ => None
  end.
(** As [dec_string]: int (prefixfile.go:18-23, slurm.go:47, 77). *)
Definition dec_int64 (cur : Z) (j : json) : option Z :=
  match j with JNull => Some cur | JNum lit => lit_int lit | _ => None end.
(** As [dec_string]: *int64 (prefixfile.go:21, 31, 36). *)
Definition dec_pint (j : json) : option (option Z) :=
  match j with JNull => Some None | JNum lit => match lit_int lit with Some z => Some (Some z) | None => None end | _ => None end.
(** As [dec_string]: *uint32 (slurm.go:16, 21). *)
Definition dec_puint32 (j : json) : option (option N) :=
  match j with
  | JNull => Some None
  | _ => match dec_uint 4294967296 0 j with Some n => Some (Some n) | None => None end
  end.
(** The value of a character of base64.StdEncoding.  prefixfile.go:41, slurm.go:22, 52, 55. *)
Definition b64val (c : N) : option N :=
  if (65 <=? c) && (c <=? 90) then Some (c - 65)
  else if (97 <=? c) && (c <=? 122) then Some (c - 71)
  else if (48 <=? c) && (c <=? 57) then Some (c + 4)
  else if c =? 43 then Some 62 else if c =? 47 then Some 63 else None.
(** base64.StdEncoding.Decode of characters without line breaks: groups of four, the last one
    filled up with '='.  The bits left over in it are not looked at.  Standard library;
    prefixfile.go:41, slurm.go:22, 52, 55. *)
Fixpoint b64groups (s : bytes) : option bytes :=
  match s with
  | [] => Some []
  | a :: b :: c :: d :: r =>
      match b64val a, b64val b with
      | Some x, Some y =>
          if (c =? 61) && (d =? 61) then
            match r with [] => Some [x * 4 + y / 16] | _ => None end
          else match b64val c with
          | Some z =>
              if d =? 61 then
                match r with [] => Some [x * 4 + y / 16; y mod 16 * 16 + z / 4] | _ => None end
              else match b64val d with
              | Some w =>
                  match b64groups r with
                  | Some q => Some (x * 4 + y / 16 :: y mod 16 * 16 + z / 4 :: z mod 4 * 64 + w :: q)
                  | None => None
                  end
              | None => None
              end
          | None => None
          end
      | _, _ => None
      end
  | _ => None
  end.
(** base64.StdEncoding.Decode: line breaks are ignored.  As [b64groups]. *)
Definition b64dec (s : bytes) : option bytes :=
  b64groups (filter (fun c => negb ((c =? 10) || (c =? 13))) s).
(** []byte: base64 text, or an array of numbers.  (A null in such an array is 0; if the key
    has occurred before it is the byte that was there, which is not modelled.)
    prefixfile.go:41, slurm.go:22, 52, 55. *)
Definition dec_bytes (j : json) : option bytes :=
  match j with
  | JNull => Some []
  | JStr s => b64dec s
  | JArr l => match dec_elems (dec_uint 256) 0 [] l with Some (b, _) => Some b | None => None end
  | _ => None
  end.
(** Decoding into an interface{}: every number in it must be one that fits a float64.
    prefixfile.go:29. *)
Fixpoint floats_ok (j : json) : bool :=
  match j with
  | JNum lit => match lit_float lit with Some _ => true | None => false end
  | JArr l => forallb floats_ok l
  | JObj l => forallb (fun m => floats_ok (snd m)) l
  | _ => true
  end.
(** VRPJson.ASN, prefixfile.go:29. *)
Definition dec_asn (j : json) : option jasn :=
  match j with
  | JStr s => Some (AsnStr s)
  | JNum lit => match lit_float lit with Some (m, e) => Some (AsnFloat m e) | None => None end
  | _ => if floats_ok j then Some AsnOther else None
  end.

(** The zero value of VRPJson (asn is nil), prefixfile.go:26-32. *)
Definition zero_vj : vrpjson := mkVJ [] 0 AsnOther [] None.
(** VRPJson, prefixfile.go:26-32. *)
Definition dec_vrp : vrpjson -> json -> option vrpjson :=
  dec_struct (fun v key j =>
    if is_field key "prefix" then
      match dec_string (vj_prefix v) j with Some x => Some (mkVJ x (vj_length v) (vj_asn v) (vj_ta v) (vj_expires v)) | None => None end
    else if is_field key "maxLength" then
      match dec_uint 256 (vj_length v) j with Some x => Some (mkVJ (vj_prefix v) x (vj_asn v) (vj_ta v) (vj_expires v)) | None => None end
    else if is_field key "asn" then
      match dec_asn j with Some x => Some (mkVJ (vj_prefix v) (vj_length v) x (vj_ta v) (vj_expires v)) | None => None end
    else if is_field key "ta" then
      match dec_string (vj_ta v) j with Some x => Some (mkVJ (vj_prefix v) (vj_length v) (vj_asn v) x (vj_expires v)) | None => None end
    else if is_field key "expires" then
      match dec_pint j with Some x => Some (mkVJ (vj_prefix v) (vj_length v) (vj_asn v) (vj_ta v) x) | None => None end
    else Some v).
(** The zero value of BgpSecKeyJson, prefixfile.go:34-45. *)
Definition zero_bj : brkjson := mkBJ 0 None [] [] [].
(** BgpSecKeyJson, prefixfile.go:34-45. *)
Definition dec_brk : brkjson -> json -> option brkjson :=
  dec_struct (fun b key j =>
    if is_field key "asn" then
      match dec_uint 4294967296 (bj_asn b) j with Some x => Some (mkBJ x (bj_expires b) (bj_ta b) (bj_pubkey b) (bj_ski b)) | None => None end
    else if is_field key "expires" then
      match dec_pint j with Some x => Some (mkBJ (bj_asn b) x (bj_ta b) (bj_pubkey b) (bj_ski b)) | None => None end
    else if is_field key "ta" then
      match dec_string (bj_ta b) j with Some x => Some (mkBJ (bj_asn b) (bj_expires b) x (bj_pubkey b) (bj_ski b)) | None => None end
    else if is_field key "pubkey" then
      match dec_bytes j with Some x => Some (mkBJ (bj_asn b) (bj_expires b) (bj_ta b) x (bj_ski b)) | None => None end
    else if is_field key "ski" then
      match dec_string (bj_ski b) j with Some x => Some (mkBJ (bj_asn b) (bj_expires b) (bj_ta b) (bj_pubkey b) x) | None => None end
    else Some b).
(** MetaData, prefixfile.go:17-24. *)
Record meta := mkMeta { md_vrps : Z; md_keys : Z; md_build : bytes; md_gen : option Z; md_session : Z; md_serial : Z }.
(** Its zero value, prefixfile.go:17-24. *)
Definition zero_meta : meta := mkMeta 0 0 [] None 0 0.
(** MetaData, prefixfile.go:17-24. *)
Definition dec_meta : meta -> json -> option meta :=
  dec_struct (fun m key j =>
    if is_field key "vrps" then
      match dec_int64 (md_vrps m) j with Some x => Some (mkMeta x (md_keys m) (md_build m) (md_gen m) (md_session m) (md_serial m)) | None => None end
    else if is_field key "bgpsec_pubkeys" then
      match dec_int64 (md_keys m) j with Some x => Some (mkMeta (md_vrps m) x (md_build m) (md_gen m) (md_session m) (md_serial m)) | None => None end
    else if is_field key "buildtime" then
      match dec_string (md_build m) j with Some x => Some (mkMeta (md_vrps m) (md_keys m) x (md_gen m) (md_session m) (md_serial m)) | None => None end
    else if is_field key "generated" then
      match dec_pint j with Some x => Some (mkMeta (md_vrps m) (md_keys m) (md_build m) x (md_session m) (md_serial m)) | None => None end
    else if is_field key "sessionid" then
      match dec_int64 (md_session m) j with Some x => Some (mkMeta (md_vrps m) (md_keys m) (md_build m) (md_gen m) x (md_serial m)) | None => None end
    else if is_field key "serial" then
      match dec_int64 (md_serial m) j with Some x => Some (mkMeta (md_vrps m) (md_keys m) (md_build m) (md_gen m) (md_session m) x) | None => None end
    else Some m).
(** RPKIList while it is being filled, prefixfile.go:11-15. *)
Record filling := mkFill { fi_meta : meta; fi_roa : gslice vrpjson; fi_brk : gslice brkjson }.
(** Its zero value, stayrtr.go:188. *)
Definition zero_fill : filling := mkFill zero_meta None None.
(** RPKIList, prefixfile.go:11-15. *)
Definition dec_list : filling -> json -> option filling :=
  dec_struct (fun r key j =>
    if is_field key "metadata" then
      match dec_meta (fi_meta r) j with Some x => Some (mkFill x (fi_roa r) (fi_brk r)) | None => None end
    else if is_field key "roas" then
      match dec_slice dec_vrp zero_vj (fi_roa r) j with Some x => Some (mkFill (fi_meta r) x (fi_brk r)) | None => None end
    else if is_field key "bgpsec_keys" then
      match dec_slice dec_brk zero_bj (fi_brk r) j with Some x => Some (mkFill (fi_meta r) (fi_roa r) x) | None => None end
    else Some r).
(** decodeJSON, stayrtr.go:184-191, rtrmon.go:200-207. *)
Definition decode_json (t : bytes) : option filling :=
  match parse t with Some j => dec_list zero_fill j | None => None end.
(** What the server keeps of it, with the room append would find behind the slices ([room],
    depending on their length).  stayrtr.go:493. *)
Definition kept_list (room : nat -> nat) (r : filling) : rpkilist :=
  mkRL (md_build (fi_meta r)) (md_gen (fi_meta r))
    (match fi_roa r with Some (l, _) => Some l | None => None end) (room (length (sl_list (fi_roa r))))
    (sl_list (fi_brk r)) (room (length (sl_list (fi_brk r)))).

(** decodeJSON as the daemon uses it, stayrtr.go:487-493. *)
Definition reader (room : nat -> nat) (t : bytes) : option rpkilist := option_map (kept_list room) (decode_json t).

(** SlurmPrefixFilter, slurm.go:14-18, with the comment (which must be a string). *)
Definition dec_pfilter : pfilter * bytes -> json -> option (pfilter * bytes) :=
  dec_struct (fun f key j =>
    if is_field key "Prefix" then
      match dec_string (pf_prefix (fst f)) j with Some x => Some (mkPF x (pf_asn (fst f)), snd f) | None => None end
    else if is_field key "asn" then
      match dec_puint32 j with Some x => Some (mkPF (pf_prefix (fst f)) x, snd f) | None => None end
    else if is_field key "Comment" then
      match dec_string (snd f) j with Some x => Some (fst f, x) | None => None end
    else Some f).
(** SlurmBGPsecFilter, slurm.go:20-24. *)
Definition dec_bfilter : bfilter * bytes -> json -> option (bfilter * bytes) :=
  dec_struct (fun f key j =>
    if is_field key "asn" then
      match dec_puint32 j with Some x => Some (mkBF x (bf_ski (fst f)), snd f) | None => None end
    else if is_field key "SKI" then
      match dec_bytes j with Some x => Some (mkBF (bf_asn (fst f)) x, snd f) | None => None end
    else if is_field key "comment" then
      match dec_string (snd f) j with Some x => Some (fst f, x) | None => None end
    else Some f).
(** SlurmPrefixAssertion, slurm.go:44-49. *)
Definition dec_passert : passert -> json -> option passert :=
  dec_struct (fun a key j =>
    if is_field key "Prefix" then
      match dec_string (pa_prefix a) j with Some x => Some (mkPA x (pa_asn a) (pa_maxlen a) (pa_comment a)) | None => None end
    else if is_field key "ASN" then
      match dec_uint 4294967296 (pa_asn a) j with Some x => Some (mkPA (pa_prefix a) x (pa_maxlen a) (pa_comment a)) | None => None end
    else if is_field key "MaxPrefixLength" then
      match dec_int64 (pa_maxlen a) j with Some x => Some (mkPA (pa_prefix a) (pa_asn a) x (pa_comment a)) | None => None end
    else if is_field key "Comment" then
      match dec_string (pa_comment a) j with Some x => Some (mkPA (pa_prefix a) (pa_asn a) (pa_maxlen a) x) | None => None end
    else Some a).
(** SlurmBGPsecAssertion, slurm.go:51-56. *)
Definition dec_bassert : bassert * bytes -> json -> option (bassert * bytes) :=
  dec_struct (fun a key j =>
    if is_field key "SKI" then
      match dec_bytes j with Some x => Some (mkBA x (ba_asn (fst a)) (ba_key (fst a)), snd a) | None => None end
    else if is_field key "asn" then
      match dec_uint 4294967296 (ba_asn (fst a)) j with Some x => Some (mkBA (ba_ski (fst a)) x (ba_key (fst a)), snd a) | None => None end
    else if is_field key "comment" then
      match dec_string (snd a) j with Some x => Some (fst a, x) | None => None end
    else if is_field key "routerPublicKey" then
      match dec_bytes j with Some x => Some (mkBA (ba_ski (fst a)) (ba_asn (fst a)) x, snd a) | None => None end
    else Some a).
(** SlurmValidationOutputFilters, slurm.go:39-42. *)
Definition dec_filters : gslice (pfilter * bytes) * gslice (bfilter * bytes) -> json -> option (gslice (pfilter * bytes) * gslice (bfilter * bytes)) :=
  dec_struct (fun s key j =>
    if is_field key "PrefixFilters" then
      match dec_slice dec_pfilter (mkPF [] None, []) (fst s) j with Some x => Some (x, snd s) | None => None end
    else if is_field key "BgpsecFilters" then
      match dec_slice dec_bfilter (mkBF None [], []) (snd s) j with Some x => Some (fst s, x) | None => None end
    else Some s).
(** SlurmLocallyAddedAssertions, slurm.go:71-74. *)
Definition dec_asserts : gslice passert * gslice (bassert * bytes) -> json -> option (gslice passert * gslice (bassert * bytes)) :=
  dec_struct (fun s key j =>
    if is_field key "PrefixAssertions" then
      match dec_slice dec_passert (mkPA [] 0 0 []) (fst s) j with Some x => Some (x, snd s) | None => None end
    else if is_field key "BgpsecAssertions" then
      match dec_slice dec_bassert (mkBA [] 0 [], []) (snd s) j with Some x => Some (fst s, x) | None => None end
    else Some s).
(** SlurmConfig while it is being filled, slurm.go:76-80. *)
Record sfilling := mkSF {
  sf_version : Z; sf_filters : gslice (pfilter * bytes) * gslice (bfilter * bytes);
  sf_asserts : gslice passert * gslice (bassert * bytes)
}.
(** SlurmConfig, slurm.go:76-80. *)
Definition dec_config : sfilling -> json -> option sfilling :=
  dec_struct (fun s key j =>
    if is_field key "SlurmVersion" then
      match dec_int64 (sf_version s) j with Some x => Some (mkSF x (sf_filters s) (sf_asserts s)) | None => None end
    else if is_field key "ValidationOutputFilters" then
      match dec_filters (sf_filters s) j with Some x => Some (mkSF (sf_version s) x (sf_asserts s)) | None => None end
    else if is_field key "LocallyAddedAssertions" then
      match dec_asserts (sf_asserts s) j with Some x => Some (mkSF (sf_version s) (sf_filters s) x) | None => None end
    else Some s).
(** DecodeJSONSlurm, slurm.go:82-91. *)
Definition decode_slurm (t : bytes) : option slurm :=
  match parse t with
  | Some j =>
      match dec_config (mkSF 0 (None, None) (None, None)) j with
      | Some s => Some (mkSlurm (map fst (sl_list (fst (sf_filters s)))) (map fst (sl_list (snd (sf_filters s))))
                                (sl_list (fst (sf_asserts s))) (map fst (sl_list (snd (sf_asserts s)))))
      | None => None
      end
  | None => None
  end.

(** ** Writing *)

(** base64.StdEncoding.EncodeToString: [b64raw] filled up with '='.  Standard library,
    prefixfile.go:41. *)
Definition b64std (l : bytes) : bytes :=
  b64raw l ++ match (length l mod 3)%nat with 1%nat => [61; 61] | 2%nat => [61] | _ => [] end.
(** The number of an AS as it is written, prefixfile.go:29.  [fmt m e] is how floatEncoder
    writes the float64 m * 2^e (strconv, the shortest digits that are read back the same);
    an AsnOther stands for null here. *)
Definition asn_json (fmt : Z -> Z -> bytes) (a : jasn) : json :=
  match a with
  | AsnStr s => JStr s
  | AsnU32 n => JNum (dec n)
  | AsnFloat m e => JNum (fmt m e)
  | AsnOther => JNull
  end.
(** omitempty on a string or a pointer, prefixfile.go:20-21, 30-31, 36-37. *)
Definition opt_str (name : string) (s : bytes) : list (bytes * json) :=
  match s with [] => [] | _ => [(str name, JStr s)] end.
(** As [opt_str], prefixfile.go:19, 31. *)
Definition opt_int (name : string) (z : option Z) : list (bytes * json) :=
  match z with None => [] | Some x => [(str name, JNum (zdec x))] end.
(** VRPJson, prefixfile.go:26-32. *)
Definition vrp_json (fmt : Z -> Z -> bytes) (v : vrpjson) : json :=
  JObj ([(str "prefix", JStr (vj_prefix v)); (str "maxLength", JNum (dec (vj_length v))); (str "asn", asn_json fmt (vj_asn v))]
        ++ opt_str "ta" (vj_ta v) ++ opt_int "expires" (vj_expires v)).
(** BgpSecKeyJson, prefixfile.go:34-45.  (A nil Pubkey is written as null, here as "".) *)
Definition brk_json (b : brkjson) : json :=
  JObj ([(str "asn", JNum (dec (bj_asn b)))] ++ opt_int "expires" (bj_expires b) ++ opt_str "ta" (bj_ta b)
        ++ [(str "pubkey", JStr (b64std (bj_pubkey b))); (str "ski", JStr (bj_ski b))]).
(** MetaData, prefixfile.go:17-24. *)
Definition meta_json (m : meta) : json :=
  JObj ([(str "vrps", JNum (zdec (md_vrps m))); (str "bgpsec_pubkeys", JNum (zdec (md_keys m)))]
        ++ opt_str "buildtime" (md_build m) ++ opt_int "generated" (md_gen m)
        ++ (if (md_session m =? 0)%Z then [] else [(str "sessionid", JNum (zdec (md_session m)))])
        ++ [(str "serial", JNum (zdec (md_serial m)))]).
(** RPKIList, prefixfile.go:11-15; [None] is a nil slice. *)
Definition list_json (fmt : Z -> Z -> bytes) (m : meta) (roa : option (list vrpjson)) (brk : list brkjson) : json :=
  JObj ([(str "metadata", meta_json m);
         (str "roas", match roa with Some l => JArr (map (vrp_json fmt) l) | None => JNull end)]
        ++ match brk with [] => [] | _ => [(str "bgpsec_keys", JArr (map brk_json brk))] end).
(** exporter, stayrtr.go:631-637: Encode ends the document with a newline.  roas is null until
    there has been an update (681). *)
Definition export_text (fmt : Z -> Z -> bytes) (published : bool) (s : state) : bytes :=
  print (list_json fmt (mkMeta (Z.of_nat (length (exported_roa s))) 0 (ex_build (st_exported s)) None 0 0)
           (if published then Some (exported_roa s) else None) (exported_brk s)) ++ [10].
(** The file of rtrdump, rtrdump.go:243-247. *)
Definition dump_text (fmt : Z -> Z -> bytes) (d : dump) : bytes :=
  print (list_json fmt (mkMeta (Z.of_N (d_count d)) 0 [] None (Z.of_N (d_session d)) (Z.of_N (d_serial d)))
           (Some (d_roas d)) (d_keys d)) ++ [10].
