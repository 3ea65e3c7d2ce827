(** Text formatting and parsing of the Go standard library as used by the code:
    %v of unsigned integers, %x of byte slices, encoding/hex,
    netip.Addr.String, netip.Prefix.String, netip.ParsePrefix (Go 1.23).
    Not in /repo: these are the library functions called from
    lib/server.go:840,885, prefixfile/prefixfile.go:55-90, prefixfile/slurm.go. *)
From Verif Require Export Lib.Digits Model.Netip.

(** Characters used below.
    A character (no counterpart in /repo; for the formats of the standard library). *)
Definition c_dash : N := 45.
(** A character (no counterpart in /repo; for the formats of the standard library). *)
Definition c_dot : N := 46.
(** A character (no counterpart in /repo; for the formats of the standard library). *)
Definition c_slash : N := 47.
(** A character (no counterpart in /repo; for the formats of the standard library). *)
Definition c_0 : N := 48.
(** A character (no counterpart in /repo; for the formats of the standard library). *)
Definition c_9 : N := 57.
(** A character (no counterpart in /repo; for the formats of the standard library). *)
Definition c_colon : N := 58.
(** A character (no counterpart in /repo; for the formats of the standard library). *)
Definition c_pct : N := 37.

(** strconv.Itoa / %v of an unsigned integer. *)
Definition decc (d : N) : N := 48 + d.
(** Standard library (strconv); used at stayrtr.go:254, lib/server.go:853-905. *)
Definition dec (n : N) : bytes := map decc (digits 10 n).

(** One hexadecimal digit, lower case. Standard library (encoding/hex). *)
Definition hexc (d : N) : N := if d <? 10 then 48 + d else 87 + d.
(** netip's appendHex: no leading zeros. *)
Definition hexs (n : N) : bytes := map hexc (digits 16 n).
(** %x of a byte slice and hex.EncodeToString: two digits per byte.
    Standard library; used at rtrdump.go:104, rtrmon.go:515, slurm.go:226. *)
Definition hex_encode (l : bytes) : bytes :=
  flat_map (fun b => [hexc (b / 16); hexc (b mod 16)]) l.

(** Whether a byte is '0'..'9', as in the parsers of the standard library. *)
Definition is_digit (c : N) : bool := (48 <=? c) && (c <=? 57).
(** Value of a hexadecimal character, either case.
    Standard library (encoding/hex, net/netip). *)
Definition hexval (c : N) : option N :=
  if is_digit c then Some (c - 48)
  else if (97 <=? c) && (c <=? 102) then Some (c - 87)
  else if (65 <=? c) && (c <=? 70) then Some (c - 55)
  else None.
(** hex.DecodeString: the decoded bytes up to the first error, and whether there
    was an error (odd length included).
    Standard library; used at stayrtr.go:309, slurm.go:149, 173. *)
Fixpoint hex_decode (s : bytes) : bytes * bool :=
  match s with
  | [] => ([], true)
  | [_] => ([], false)
  | a :: b :: s' =>
      match hexval a, hexval b with
      | Some x, Some y => let (r, ok) := hex_decode s' in (x * 16 + y :: r, ok)
      | _, _ => ([], false)
      end
  end.

(** * Printing addresses *)
(** Addr.string4. net/netip of the standard library. *)
Definition string4 (x : N) : bytes :=
  match be 4 x with
  | [a; b; c; d] => dec a ++ [c_dot] ++ dec b ++ [c_dot] ++ dec c ++ [c_dot] ++ dec d
  | _ => []
  end.
(** v6u16(0..7) net/netip of the standard library. *)
Definition groups (x : N) : list N := fdig 65536 8 x.
(** The length of a run of zero groups, appendTo6 of net/netip. *)
Fixpoint zrun (l : list N) : nat :=
  match l with 0 :: l' => S (zrun l') | _ => 0%nat end.
(** appendTo6, first loop: start and length of the first longest run of at
    least two zero groups; [(255,0)] if none. net/netip of the standard library. *)
Fixpoint find_zeros (l : list N) (i : nat) (best : nat * nat) : nat * nat :=
  match l with
  | [] => best
  | _ :: l' =>
      let r := zrun l in
      find_zeros l' (S i)
        (if (2 <=? r)%nat && (snd best <? r)%nat then (i, r) else best)
  end.
(** appendTo6, second loop. net/netip of the standard library. *)
Fixpoint emit6 (fuel : nat) (g : list N) (zs ze i : nat) : bytes :=
  match fuel with
  | O => []
  | S f =>
      if (8 <=? i)%nat then []
      else if (i =? zs)%nat then
        [c_colon; c_colon] ++
        (if (8 <=? ze)%nat then [] else hexs (nth ze g 0) ++ emit6 f g zs ze (S ze))
      else (if (0 <? i)%nat then [c_colon] else []) ++ hexs (nth i g 0) ++ emit6 f g zs ze (S i)
  end.
(** appendTo6 of net/netip: both loops, and nothing for the zone. *)
Definition string6 (x : N) : bytes :=
  let g := groups x in
  let z := find_zeros g 0 (255%nat, 0%nat) in
  emit6 9 g (fst z) (fst z + snd z) 0.
(** Addr.String. net/netip of the standard library; the text for the zero Addr. *)
Definition str_invalid_ip : bytes := [105; 110; 118; 97; 108; 105; 100; 32; 73; 80].
(** The text before a mapped address, Addr.String of net/netip. *)
Definition str_mapped : bytes := [58; 58; 102; 102; 102; 102; 58].   (* "::ffff:" *)
(** Addr.String, net/netip of the standard library. *)
Definition addr_string (a : addr) : bytes :=
  match a with
  | A0 => str_invalid_ip
  | A4 x => string4 x
  | A6 x => if is4in6 a then str_mapped ++ string4 (x mod 2 ^ 32) else string6 x
  end.
(** Prefix.String. net/netip of the standard library; the text for an invalid prefix. *)
Definition str_invalid_prefix : bytes :=
  [105; 110; 118; 97; 108; 105; 100; 32; 80; 114; 101; 102; 105; 120].
(** Prefix.String of net/netip (used at stayrtr.go:254, lib/server.go:853, rtrdump.go:86,
    rtrmon.go:478). *)
Definition prefix_string (p : prefix) : bytes :=
  match p_bits p with
  | None => str_invalid_prefix
  | Some b => addr_string (p_addr p) ++ [c_slash] ++ dec b
  end.

(** * Parsing addresses *)
(** parseIPv4Fields: [first], [prevdot] stand for i == 0 and s[i-1] == '.'.
    net/netip of the standard library. *)
Fixpoint parse4 (first prevdot : bool) (val : N) (digLen : nat) (fields : list N) (s : bytes)
  : option (list N) :=
  match s with
  | [] => if (length fields <? 3)%nat then None else Some (fields ++ [val])
  | c :: s' =>
      if is_digit c then
        if (digLen =? 1)%nat && (val =? 0) then None
        else
          let val' := val * 10 + (c - 48) in
          if 255 <? val' then None
          else parse4 false false val' (S digLen) fields s'
      else if c =? c_dot then
        if first || (match s' with [] => true | _ => false end) || prevdot then None
        else if (length fields =? 3)%nat then None
        else parse4 false true 0 0 (fields ++ [val]) s'
      else None
  end.
(** parseIPv4 of net/netip. *)
Definition parse_ipv4 (s : bytes) : option (list N) := parse4 true false 0 0 [] s.

(** parseIPv6: one group of hexadecimal digits. net/netip of the standard library. *)
Fixpoint scan_hex (off : nat) (acc : N) (s : bytes) : option (N * nat * bytes) :=
  match s with
  | [] => Some (acc, off, [])
  | c :: s' =>
      match hexval c with
      | None => Some (acc, off, s)
      | Some d =>
          let acc' := acc * 16 + d in
          if (3 <? off)%nat then None
          else if 65535 <? acc' then None
          else scan_hex (S off) acc' s'
      end
  end.
(** parseIPv6: main loop; groups parsed so far, position of the ellipsis,
    unread input. net/netip of the standard library. *)
Fixpoint parse6_loop (fuel : nat) (gs : list N) (ell : option nat) (s : bytes)
  : option (list N * option nat * bytes) :=
  match fuel with
  | O => Some (gs, ell, s)
  | S f =>
      match scan_hex 0 0 s with
      | None => None
      | Some (acc, off, r) =>
          if (off =? 0)%nat then None
          else match r with
          | [] => Some (gs ++ [acc], ell, [])
          | c :: r' =>
              if c =? c_dot then
                if match ell with None => negb (length gs =? 6)%nat | Some _ => false end then None
                else if (8 <? length gs + 2)%nat then None
                else match parse_ipv4 s with
                     | Some [x0; x1; x2; x3] =>
                         Some (gs ++ [x0 * 256 + x1; x2 * 256 + x3], ell, [])
                     | _ => None
                     end
              else if negb (c =? c_colon) then None
              else match r' with
                   | [] => None
                   | c2 :: r'' =>
                       if c2 =? c_colon then
                         match ell with
                         | Some _ => None
                         | None =>
                             let ell' := Some (length gs + 1)%nat in
                             match r'' with
                             | [] => Some (gs ++ [acc], ell', [])
                             | _ => parse6_loop f (gs ++ [acc]) ell' r''
                             end
                         end
                       else parse6_loop f (gs ++ [acc]) ell r'
                   end
          end
      end
  end.
(** parseIPv6: expansion of the ellipsis. net/netip of the standard library. *)
Definition finish6 (r : option (list N * option nat * bytes)) : option addr :=
  match r with
  | Some (gs, ell, []) =>
      if (length gs <? 8)%nat then
        match ell with
        | None => None
        | Some e => Some (A6 (undig 65536 (firstn e gs ++ repeat 0 (8 - length gs)%nat ++ skipn e gs)))
        end
      else match ell with
           | Some _ => None
           | None => Some (A6 (undig 65536 gs))
           end
  | _ => None
  end.
(** parseIPv6 of net/netip; a zone is an error for prefixes. *)
Definition parse_ipv6 (s : bytes) : option addr :=
  if existsb (N.eqb c_pct) s then None   (* zones: rejected by ParsePrefix *)
  else if match s with a :: b :: _ => (a =? c_colon) && (b =? c_colon) | _ => false end then
    match skipn 2 s with
    | [] => Some (A6 0)
    | s1 => finish6 (parse6_loop 8 [] (Some 0%nat) s1)
    end
  else finish6 (parse6_loop 8 [] None s).
(** netip.ParseAddr: dispatch on the first of '.', ':' and '%'. *)
Fixpoint addr_kind (s : bytes) : N :=
  match s with
  | [] => 0
  | c :: s' => if (c =? c_dot) || (c =? c_colon) || (c =? c_pct) then c else addr_kind s'
  end.
(** ParseAddr of net/netip. *)
Definition parse_addr (s : bytes) : option addr :=
  let k := addr_kind s in
  if k =? c_dot then
    match parse_ipv4 s with Some l => Some (A4 (unbe l)) | None => None end
  else if k =? c_colon then parse_ipv6 s
  else None.

(** Split at the last occurrence of a character (LastIndexByteString).
    Standard library, in ParsePrefix of net/netip. *)
Fixpoint split_last (c : N) (s : bytes) : option (bytes * bytes) :=
  match s with
  | [] => None
  | x :: s' =>
      match split_last c s' with
      | Some (a, b) => Some (x :: a, b)
      | None => if x =? c then Some ([], s') else None
      end
  end.
(** Decimal digits only, value unbounded.
    Standard library (strconv.Atoi in ParsePrefix of net/netip). *)
Fixpoint undec (acc : N) (s : bytes) : option N :=
  match s with
  | [] => Some acc
  | c :: s' => if is_digit c then undec (acc * 10 + (c - 48)) s' else None
  end.
(** netip.ParsePrefix.  strconv.Atoi's range error and its acceptance of a lone
    sign cannot show: a longer string must start with 1..9 and the value is
    bounded by 128 afterwards. *)
Definition parse_prefix (s : bytes) : option prefix :=
  match split_last c_slash s with
  | None => None
  | Some (ipStr, bitsStr) =>
      match parse_addr ipStr with
      | None => None
      | Some a =>
          let lead_ok := match bitsStr with
                         | [] => false
                         | [_] => true
                         | c :: _ => (49 <=? c) && (c <=? 57)
                         end in
          if negb lead_ok then None
          else match undec 0 bitsStr with
               | None => None
               | Some b => if bitlen a <? b then None else Some (mkPrefix a (Some b))
               end
      end
  end.
