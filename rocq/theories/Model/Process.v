(** Model of processData and isValidPrefixLength, /repo/cmd/stayrtr/stayrtr.go:193-322. *)
From Verif Require Export Model.Json.

(** isValidPrefixLength, stayrtr.go:193-201. *)
Definition is_valid_prefix_length (p : prefix) (maxLength : N) : bool :=
  let plen := bits p in
  negb ((plen =? 0)%Z || (maxLength <? to_u8 plen) || (bitlen (p_addr p) mod 256 <? maxLength)).

(** The de-duplication key, stayrtr.go:254: "%s,%d,%d". *)
Definition c_comma : N := 44.
(** fmt.Sprintf of the key, stayrtr.go:254. *)
Definition dup_key (p : prefix) (asn len : N) : bytes :=
  prefix_string p ++ [c_comma] ++ dec asn ++ [c_comma] ++ dec len.

(** Is the entry past its expiry time, stayrtr.go:240-247, 301-308. *)
Definition expired (now : Z) (e : option Z) : bool :=
  match e with Some t => (t <? now)%Z | None => false end.

(** One iteration of the first loop, stayrtr.go:224-267: VRPs so far (in order), keys
    seen, counters. *)
Definition vrp_step (now : Z) (st : list sd * list bytes * N * N) (v : vrpjson)
  : list sd * list bytes * N * N :=
  let '(out, seen, c4, c6) := st in
  match get_prefix2 v with
  | None => st
  | Some p =>
      match get_asn2 (vj_asn v) with
      | None => st
      | Some asn =>
          if negb (is_valid_prefix_length p (vj_length v)) then st
          else if expired now (vj_expires v) then st
          else
            let c4' := if is4 (p_addr p) then c4 + 1 else c4 in
            let c6' := if is4 (p_addr p) then c6 else c6 + 1 in
            let key := dup_key p asn (vj_length v) in
            if existsb (beqb key) seen then (out, seen, c4', c6')
            else (out ++ [VRP p asn (vj_length v) 0], key :: seen, c4', c6')
      end
  end.
(** The first loop. stayrtr.go:225-267. *)
Definition vrp_loop (now : Z) (l : list vrpjson) : list sd * list bytes * N * N :=
  fold_left (vrp_step now) l ([], [], 0, 0).

(** netip.Addr.Compare <= 0 on addresses: BitLen first, then the value. *)
Definition addr_le (a b : addr) : bool :=
  match a, b with
  | A0, _ => true
  | A4 _, A0 => false
  | A4 x, A4 y => x <=? y
  | A4 _, A6 _ => true
  | A6 x, A6 y => x <=? y
  | A6 _, _ => false
  end.
(** The comparison function, stayrtr.go:289-297.  ([Compare < 1] includes equality.) *)
Definition vrp_less (a b : sd) : bool :=
  match a, b with
  | VRP p _ m _, VRP q _ n _ =>
      if (bits p =? bits q)%Z then
        if negb (m =? n) then n <? m else addr_le (p_addr p) (p_addr q)
      else (bits q <? bits p)%Z
  | _, _ => false
  end.
(** The order sort.Slice leaves, stayrtr.go:269-298. The model takes any function that
    returns a sorted permutation; that sort.Slice is one, although this comparison is
    reflexive, is C100 (model in PdqSort.v). *)
Fixpoint sorted_vrps (l : list sd) : Prop :=
  match l with
  | [] => True
  | x :: r => (forall y, In y r -> vrp_less x y = true) /\ sorted_vrps r
  end.

(** The second loop, stayrtr.go:300-319. *)
Definition brk_loop (now : Z) (l : list brkjson) : list sd :=
  flat_map (fun b =>
    if expired now (bj_expires b) then []
    else let (ski, ok) := hex_decode (bj_ski b) in
         if ok then [BgpsecKey (bj_asn b) ski (bj_pubkey b) 0] else []) l.

(** processData, stayrtr.go:209-322: VRPs, router keys, IPv4 and IPv6 counts. *)
Definition process_data (sort : list sd -> list sd) (now : Z) (vs : list vrpjson) (bs : list brkjson)
  : list sd * list sd * N * N :=
  let '(out, _, c4, c6) := vrp_loop now vs in
  (sort out, brk_loop now bs, c4, c6).
