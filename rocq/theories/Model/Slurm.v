(** Model of /repo/prefixfile/slurm.go (RFC 8416), after JSON decoding. *)
From Verif Require Export Model.Json.

(** SlurmPrefixFilter, slurm.go:14-18, without the comment; an absent prefix is "". *)
Record pfilter := mkPF { pf_prefix : bytes; pf_asn : option N }.
(** SlurmBGPsecFilter, slurm.go:20-24. *)
Record bfilter := mkBF { bf_asn : option N; bf_ski : bytes }.
(** SlurmPrefixAssertion, slurm.go:44-49; MaxPrefixLength is an int. *)
Record passert := mkPA { pa_prefix : bytes; pa_asn : N; pa_maxlen : Z; pa_comment : bytes }.
(** SlurmBGPsecAssertion, slurm.go:51-56. *)
Record bassert := mkBA { ba_ski : bytes; ba_asn : N; ba_key : bytes }.
(** SlurmConfig, slurm.go:76-80, flattened. *)
Record slurm := mkSlurm {
  s_pfilters : list pfilter; s_bfilters : list bfilter;
  s_passerts : list passert; s_basserts : list bassert
}.

(** netip.Prefix.Overlaps (standard library): same family and equal addresses under the
    shorter of the two masks. *)
Definition top_eq (w b x y : N) : bool := x / 2 ^ (w - b) =? y / 2 ^ (w - b).
(** netip.Prefix.Overlaps of the standard library (used at slurm.go:93-133). *)
Definition overlaps (p o : prefix) : bool :=
  match p_bits p, p_bits o with
  | Some a, Some b =>
      match p_addr p, p_addr o with
      | A4 x, A4 y => top_eq 32 (N.min a b) x y
      | A6 x, A6 y => top_eq 128 (N.min a b) x y
      | _, _ => false
      end
  | _, _ => false
  end.

(** SlurmPrefixFilter.GetPrefix, slurm.go:34-37: the zero Prefix if it does not parse. *)
Definition pf_get_prefix (f : pfilter) : prefix :=
  match parse_prefix (pf_prefix f) with Some p => p | None => zero_prefix end.
(** The body of the inner loop of FilterOnVRPs, slurm.go:103-118. *)
Definition pf_match (f : pfilter) (v : vrpjson) : bool :=
  let rPrefix := get_prefix v in
  let fPrefix := pf_get_prefix f in
  let m := if is_valid fPrefix && is_valid rPrefix
           then overlaps fPrefix rPrefix && (bits fPrefix <=? bits rPrefix)%Z else true in
  if m then match pf_asn f with
            | Some a => get_asn (vj_asn v) =? a
            | None => true
            end
  else false.
(** FilterOnVRPs, slurm.go:93-131: (added, removed). *)
Definition filter_on_vrps (fs : list pfilter) (vs : list vrpjson) : list vrpjson * list vrpjson :=
  match fs with
  | [] => (vs, [])
  | _ => fold_left (fun st v => let '(added, removed) := st in
           if existsb (fun f => pf_match f v) fs then (added, removed ++ [v]) else (added ++ [v], removed))
           vs ([], [])
  end.

(** The inner loop of FilterOnBRKs, slurm.go:142-181.  [cache] is skiCache ([None] is
    nil); a failed decoding leaves the decoded part in it. *)
Definition ski_lookup (cache : option bytes) (b : brkjson) : bytes * bool :=
  match cache with Some c => (c, true) | None => hex_decode (bj_ski b) end.
(** slurm.go:142-181. *)
Fixpoint brk_match (fs : list bfilter) (cache : option bytes) (b : brkjson) : bool :=
  match fs with
  | [] => false
  | f :: fs' =>
      match bf_asn f with
      | Some a =>
          if bj_asn b =? a then
            if negb (nlen (bf_ski f) =? 0) then
              let (c, ok) := ski_lookup cache b in
              if negb ok then brk_match fs' (Some c) b
              else if beqb (bf_ski f) c then true else brk_match fs' (Some c) b
            else true
          else brk_match fs' cache b
      | None =>
          if negb (nlen (bf_ski f) =? 0) then
            let (c, ok) := ski_lookup cache b in
            if negb ok then brk_match fs' (Some c) b
            else if beqb (bf_ski f) c then true else brk_match fs' (Some c) b
          else brk_match fs' cache b
      end
  end.
(** FilterOnBRKs, slurm.go:133-192. *)
Definition filter_on_brks (fs : list bfilter) (bs : list brkjson) : list brkjson * list brkjson :=
  match fs with
  | [] => (bs, [])
  | _ => fold_left (fun st b => let '(added, removed) := st in
           if brk_match fs None b then (added, removed ++ [b]) else (added ++ [b], removed))
           bs ([], [])
  end.

(** net.ParseCIDR as used by SlurmPrefixAssertion.GetPrefix, slurm.go:62-65: only whether
    it succeeds and the mask size.  Splits at the first slash; the mask may have leading
    zeros. *)
Fixpoint split_first (c : N) (s : bytes) : option (bytes * bytes) :=
  match s with
  | [] => None
  | x :: s' => if x =? c then Some ([], s')
               else match split_first c s' with Some (a, b) => Some (x :: a, b) | None => None end
  end.
(** net.ParseCIDR, slurm.go:62-65. *)
Definition cidr_size (s : bytes) : option N :=
  match split_first c_slash s with
  | None => None
  | Some (addr, mask) =>
      match parse_addr addr with
      | None => None
      | Some a =>
          match mask with
          | [] => None
          | _ => match undec 0 mask with
                 | None => None
                 | Some n => if bitlen a <? n then None else Some n
                 end
          end
      end
  end.

(** AssertVRPs, slurm.go:194-217. *)
Definition assert_vrps (l : list passert) : list vrpjson :=
  flat_map (fun a =>
    match cidr_size (pa_prefix a) with
    | None => []
    | Some size =>
        let maxLength := if (pa_maxlen a <=? Z.of_N size)%Z then Z.of_N size else pa_maxlen a in
        [mkVJ (pa_prefix a) (to_u8 maxLength) (AsnU32 (pa_asn a)) (pa_comment a) None]
    end) l.
(** AssertBRKs, slurm.go:219-235. *)
Definition assert_brks (l : list bassert) : list brkjson :=
  map (fun a => mkBJ (ba_asn a) None [] (ba_key a) (hex_encode (ba_ski a))) l.

(** FilterAssert, slurm.go:243-264, without logging.  (The append may write into spare
    capacity behind the input slice; the values of the result do not depend on it.) *)
Definition filter_assert (s : slurm) (vs : list vrpjson) (bs : list brkjson) : list vrpjson * list brkjson :=
  (fst (filter_on_vrps (s_pfilters s) vs) ++ assert_vrps (s_passerts s),
   fst (filter_on_brks (s_bfilters s) bs) ++ assert_brks (s_basserts s)).
