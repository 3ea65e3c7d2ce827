(** Model of the data records of /repo/lib/server.go and of the diff functions. *)
From Verif Require Export Model.Format Model.Pdu.

(** SendableData: *VRP (lib/server.go:824-829) or *BgpsecKey (869-874).  The code
    copies records (Copy, 853-859 and 897-907) before every SetFlag, so pointers
    are modelled as values. *)
Inductive sd :=
| VRP (p : prefix) (asn maxlen flags : N)
| BgpsecKey (asn : N) (ski pubkey : bytes) (flags : N).

(** GetFlag, lib/server.go:865, 913; SetFlag, 861, 909. *)
Definition get_flag (d : sd) : N :=
  match d with VRP _ _ _ f => f | BgpsecKey _ _ _ f => f end.
(** SetFlag, lib/server.go:861, 909. *)
Definition set_flag (f : N) (d : sd) : sd :=
  match d with VRP p a m _ => VRP p a m f | BgpsecKey a s k _ => BgpsecKey a s k f end.

(** HashKey, lib/server.go:839-841 ("%v-%v-%v") and 884-886 ("%v-%x-%x"). *)
Definition hashkey (d : sd) : bytes :=
  match d with
  | VRP p a m _ => prefix_string p ++ [c_dash] ++ dec m ++ [c_dash] ++ dec a
  | BgpsecKey a s k _ => dec a ++ [c_dash] ++ hex_encode s ++ [c_dash] ++ hex_encode k
  end.

(** Equals, lib/server.go:843-851 and 888-895.  Type() differs between the two
    kinds, so mixed comparisons are false. *)
Definition equals (a b : sd) : bool :=
  match a, b with
  | VRP p1 a1 m1 _, VRP p2 a2 m2 _ => (m1 =? m2) && (a1 =? a2) && prefix_eqb p1 p2
  | BgpsecKey a1 s1 k1 _, BgpsecKey a2 s2 k2 _ => (a1 =? a2) && beqb k1 k2 && beqb s1 s2
  | _, _ => false
  end.

(** map[string]uint8 built by ConvertSDListToMap, lib/server.go:219-225, as an
    association list: a later assignment shadows an earlier one. *)
Definition sdmap := list (bytes * N).
(** ConvertSDListToMap, lib/server.go:219-225. *)
Definition convert_map (l : list sd) : sdmap :=
  fold_left (fun m v => (hashkey v, get_flag v) :: m) l [].
(** Lookup in such a map, lib/server.go:227-256. *)
Fixpoint map_get (m : sdmap) (k : bytes) : option N :=
  match m with
  | [] => None
  | (k', f) :: m' => if beqb k k' then Some f else map_get m' k
  end.
(** Whether it has the key, lib/server.go:227-256. *)
Definition map_has (m : sdmap) (k : bytes) : bool :=
  match map_get m k with Some _ => true | None => false end.

(** ComputeDiff, lib/server.go:227-256. *)
Definition compute_diff (new prev : list sd) (populate : bool) : list sd * list sd * list sd :=
  let newMap := convert_map new in
  let prevMap := convert_map prev in
  let added := flat_map (fun x => if map_has prevMap (hashkey x) then [] else [set_flag FLAG_ADDED x]) new in
  let removed := flat_map (fun x => if map_has newMap (hashkey x) then [] else [set_flag FLAG_REMOVED x]) prev in
  let unchanged := flat_map (fun x => if map_has newMap (hashkey x) then (if populate then [x] else []) else []) prev in
  (added, removed, unchanged).

(** ApplyDiff, lib/server.go:258-289. *)
Definition apply_diff (diff prev : list sd) : list sd :=
  let diffMap := convert_map diff in
  let prevMap := convert_map prev in
  flat_map (fun x => if map_has diffMap (hashkey x) then [] else [x]) prev ++
  flat_map (fun x =>
    if get_flag x =? FLAG_ADDED then [x]
    else if get_flag x =? FLAG_REMOVED then
      match map_get prevMap (hashkey x) with
      | None => [x]
      | Some f => if f =? FLAG_REMOVED then [x] else []
      end
    else []) diff.

(** Values the Go types can hold, with a valid prefix. *)
Definition wf_sd (d : sd) : Prop :=
  match d with
  | VRP p a m f => wf_prefix p /\ is_valid p = true /\ u32 a /\ u8 m /\ u8 f
  | BgpsecKey a s k f => u32 a /\ bytes_ok s /\ bytes_ok k /\ u8 f
  end.
