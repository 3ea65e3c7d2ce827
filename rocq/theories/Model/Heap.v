(** The records of lib/server.go as what they are in Go: pointers to memory that is shared.

    Model/Data.v and Model/Cache.v take records for values.  Here a record is a place in the memory, the two
    byte slices of a router key are places of their own, and Copy, SetFlag, the differences and the queue of a
    client work on places.  Simplified: slices of records are lists (the code appends only to slices it has
    just made, lib/server.go:228-230, 259, 363, 373, 384), a byte slice is a whole place (nothing is cut out
    of one), and nothing is ever freed. *)
From Verif Require Export Model.Conn.

(** *VRP (lib/server.go:824-829) and *BgpsecKey (869-874), whose slices are places. *)
Inductive hrec :=
| HVRP (p : prefix) (asn maxlen flags : N)
| HKey (asn : N) (ski pubkey : nat) (flags : N).
(** The memory: records and byte slices, each with whether lib/server.go made it ([true], in Copy: 853-859,
    897-907) or its caller, and the records that have been written to in place (861, 909), last first. *)
Record heap := mkHeap { h_recs : list (bool * hrec); h_blocks : list (bool * bytes); h_written : list nat }.

(** The bytes of a slice.  lib/server.go:871-872. *)
Definition block (h : heap) (b : nat) : bytes := match nth_error (h_blocks h) b with Some (_, s) => s | None => [] end.
(** What a pointer points to.  lib/server.go:824-829, 869-874.  A nil pointer would crash the program; the callers pass none. *)
Definition deref (h : heap) (p : nat) : sd :=
  match nth_error (h_recs h) p with
  | Some (_, HVRP x a m f) => VRP x a m f
  | Some (_, HKey a s k f) => BgpsecKey a (block h s) (block h k) f
  | None => VRP (mkPrefix A0 None) 0 0 0
  end.

(** [&VRP{...}] and [&cop], lib/server.go:854, 906.  The owner says who made it. *)
Definition new_rec (h : heap) (own : bool) (r : hrec) : heap * nat :=
  (mkHeap (h_recs h ++ [(own, r)]) (h_blocks h) (h_written h), length (h_recs h)).
(** [make([]byte, n)] and [copy], lib/server.go:900-901, 904-905. *)
Definition new_block (h : heap) (own : bool) (s : bytes) : heap * nat :=
  (mkHeap (h_recs h) (h_blocks h ++ [(own, s)]) (h_written h), length (h_blocks h)).
(** Copy, lib/server.go:853-859 and 897-907. *)
Definition h_copy (h : heap) (p : nat) : heap * nat :=
  match nth_error (h_recs h) p with
  | Some (_, HKey a s k f) =>
      let '(h, k') := new_block h true (block h k) in
      let '(h, s') := new_block h true (block h s) in
      new_rec h true (HKey a s' k' f)
  | Some (_, r) => new_rec h true r
  | None => new_rec h true (HVRP (mkPrefix A0 None) 0 0 0)
  end.
(** No counterpart in /repo: replacing one element (for lib/server.go:862, 910). *)
Fixpoint put_nth {A} (l : list A) (i : nat) (x : A) : list A :=
  match l, i with
  | [], _ => []
  | _ :: r, O => x :: r
  | y :: r, S j => y :: put_nth r j x
  end.
(** SetFlag, lib/server.go:861-863 and 909-911. *)
Definition h_set_flag (h : heap) (p : nat) (f : N) : heap :=
  match nth_error (h_recs h) p with
  | Some (o, HVRP x a m _) => mkHeap (put_nth (h_recs h) p (o, HVRP x a m f)) (h_blocks h) (p :: h_written h)
  | Some (o, HKey a s k _) => mkHeap (put_nth (h_recs h) p (o, HKey a s k f)) (h_blocks h) (p :: h_written h)
  | None => h
  end.

(** A loop over a list of records that appends to a new one.  lib/server.go:235-242, 243-253, 263-269, 270-287. *)
Fixpoint h_loop (f : heap -> nat -> heap * list nat) (h : heap) (l : list nat) : heap * list nat :=
  match l with
  | [] => (h, [])
  | p :: r =>
      let '(h, o) := f h p in
      let '(h, os) := h_loop f h r in
      (h, o ++ os)
  end.
(** [rcopy := item.Copy(); rcopy.SetFlag(f)], lib/server.go:238-239, 246-247. *)
Definition h_flagged (h : heap) (p : nat) (f : N) : heap * list nat :=
  let '(h, q) := h_copy h p in (h_set_flag h q f, [q]).
(** [rcopy := item.Copy()], lib/server.go:250, 266, 272, 277, 281. *)
Definition h_plain (h : heap) (p : nat) : heap * list nat := let '(h, q) := h_copy h p in (h, [q]).

(** ComputeDiff, lib/server.go:227-256, with populateUnchanged = false as AddData calls it (354). *)
Definition h_compute_diff (h : heap) (new prev : list nat) : heap * (list nat * list nat) :=
  let newMap := convert_map (map (deref h) new) in
  let prevMap := convert_map (map (deref h) prev) in
  let '(h, added) := h_loop (fun h p => if map_has prevMap (hashkey (deref h p)) then (h, []) else h_flagged h p FLAG_ADDED) h new in
  let '(h, removed) := h_loop (fun h p => if map_has newMap (hashkey (deref h p)) then (h, []) else h_flagged h p FLAG_REMOVED) h prev in
  (h, (added, removed)).

(** ApplyDiff, lib/server.go:258-289. *)
Definition h_apply_diff (h : heap) (diff prev : list nat) : heap * list nat :=
  let diffMap := convert_map (map (deref h) diff) in
  let prevMap := convert_map (map (deref h) prev) in
  let '(h, kept) := h_loop (fun h p => if map_has diffMap (hashkey (deref h p)) then (h, []) else h_plain h p) h prev in
  let '(h, more) := h_loop (fun h p =>
    if get_flag (deref h p) =? FLAG_ADDED then h_plain h p
    else if get_flag (deref h p) =? FLAG_REMOVED then
      match map_get prevMap (hashkey (deref h p)) with
      | None => h_plain h p
      | Some f => if f =? FLAG_REMOVED then h_plain h p else (h, [])
      end
    else (h, [])) h diff in
  (h, kept ++ more).

(** The fields of Server, lib/server.go:139-143. *)
Record hserver := mkHS { hs_list : list (list nat); hs_current : list nat; hs_serial : N; hs_keep : Z }.

(** The loop over the kept differences, lib/server.go:374-376. *)
Fixpoint h_apply_all (h : heap) (diff : list nat) (l : list (list nat)) : heap * list (list nat) :=
  match l with
  | [] => (h, [])
  | x :: r =>
      let '(h, y) := h_apply_diff h diff x in
      let '(h, ys) := h_apply_all h diff r in
      (h, y :: ys)
  end.
(** AddSDsDiff, lib/server.go:371-392; the difference itself is kept, not a copy of it (384). *)
Definition h_add_sds_diff (h : heap) (s : hserver) (diff : list nat) : heap * hserver :=
  let '(h, next) := h_apply_all h diff (hs_list s) in
  let '(h, cur) := h_apply_diff h diff (hs_current s) in
  let next := (next ++ [[]]) ++ [diff] in
  let n := length next in
  let next := if ((0 <? hs_keep s) && (hs_keep s <? Z.of_nat n))%Z then skipn (n - Z.to_nat (hs_keep s)) next else next in
  let serial := match hs_current s with [] => hs_serial s | _ => u32add (hs_serial s) 1 end in
  (h, mkHS next cur serial (hs_keep s)).
(** AddData, lib/server.go:351-369. *)
Definition h_add_data (h : heap) (s : hserver) (new : list nat) : heap * hserver * bool :=
  let '(h, (added, removed)) := h_compute_diff h new (hs_current s) in
  match added ++ removed with
  | [] => (h, s, false)
  | cur => let '(h, s) := h_add_sds_diff h s cur in (h, s, true)
  end.

(** A PDU on its way to the sender goroutine, lib/server.go:1015-1018: the slices of a router key are those of
    the record it was made from (997-1005). *)
Inductive qpdu :=
| QPlain (p : pdu)
| QKey (version flags : N) (ski : nat) (asn : N) (pubkey : nat).
(** What the sender goroutine writes later.  lib/server.go:684-708. *)
Definition q_read (h : heap) (q : qpdu) : pdu :=
  match q with
  | QPlain p => p
  | QKey v f s a k => RouterKey v f (block h s) a (block h k)
  end.
(** SendData with SendPDU, lib/server.go:974-1009, 1015-1018. *)
Definition h_send_data (h : heap) (c : client) (p : nat) : list qpdu :=
  match nth_error (h_recs h) p with
  | Some (_, HVRP x a m f) =>
      if is6 (p_addr x) then [QPlain (set_version (c_version c) (IPv6Prefix 0 f m a x))]
      else if is4 (p_addr x) then [QPlain (set_version (c_version c) (IPv4Prefix 0 f m a x))]
      else []
  | Some (_, HKey a s k f) =>
      if (c_version c =? 0) || c_noBGPsec c then [] else [QKey (c_version c) f s a k]
  | None => []
  end.
(** The loop of SendSDs, lib/server.go:922-924. *)
Fixpoint h_send_all (h : heap) (c : client) (l : list nat) : heap * list qpdu :=
  match l with
  | [] => (h, [])
  | p :: r =>
      let '(h, q) := h_copy h p in
      let o := h_send_data h c q in
      let '(h, os) := h_send_all h c r in
      (h, o ++ os)
  end.
(** SendSDs, lib/server.go:917-934. *)
Definition h_send_sds (h : heap) (c : client) (sessionId serial : N) (l : list nat) : heap * list qpdu :=
  let '(h, o) := h_send_all h c l in
  (h, [QPlain (set_version (c_version c) (CacheResponse 0 sessionId))] ++ o ++
      [QPlain (set_version (c_version c) (EndOfData 0 sessionId serial (c_refresh c) (c_retry c) (c_expire c)))]).

(** What happens to the memory: a caller of the library makes or overwrites what is its own, the cache is updated
    with records of the caller, an answer is sent.  lib/server.go:351, 917; cmd/stayrtr/stayrtr.go:414-421. *)
Inductive hop :=
| HNewRec (r : hrec)
| HNewBlock (s : bytes)
| HSetRec (p : nat) (r : hrec)
| HSetBlock (b : nat) (s : bytes)
| HAddData (l : list nat)
| HSend (c : client) (sessionId serial : N) (l : list nat).
(** The slices of a record are there.  lib/server.go:869-874. *)
Definition rec_ok (h : heap) (r : hrec) : bool :=
  match r with HVRP _ _ _ _ => true | HKey _ s k _ => (Nat.ltb s (length (h_blocks h)) && Nat.ltb k (length (h_blocks h)))%bool end.
(** A pointer that is not nil.  lib/server.go:824, 869. *)
Definition ptr_ok (h : heap) (p : nat) : bool := Nat.ltb p (length (h_recs h)).
(** One step; [None] is what no caller can do: use a pointer it does not have, write to what is not its own.
    lib/server.go:351, 917. *)
Definition h_step (st : heap * hserver) (o : hop) : option (heap * hserver) :=
  let '(h, s) := st in
  match o with
  | HNewRec r => if rec_ok h r then Some (fst (new_rec h false r), s) else None
  | HNewBlock b => Some (fst (new_block h false b), s)
  | HSetRec p r =>
      match nth_error (h_recs h) p with
      | Some (false, _) => if rec_ok h r then Some (mkHeap (put_nth (h_recs h) p (false, r)) (h_blocks h) (p :: h_written h), s) else None
      | _ => None
      end
  | HSetBlock b x =>
      match nth_error (h_blocks h) b with
      | Some (false, _) => Some (mkHeap (h_recs h) (put_nth (h_blocks h) b (false, x)) (h_written h), s)
      | _ => None
      end
  | HAddData l => if forallb (ptr_ok h) l then Some (fst (h_add_data h s l)) else None
  | HSend c sid serial l => if forallb (ptr_ok h) l then Some (fst (h_send_sds h c sid serial l), s) else None
  end.
(** Any number of steps.  lib/server.go:351, 917. *)
Fixpoint h_run (st : heap * hserver) (ops : list hop) : option (heap * hserver) :=
  match ops with
  | [] => Some st
  | o :: r => match h_step st o with Some st' => h_run st' r | None => None end
  end.
(** NewServer, lib/server.go:192-217. *)
Definition h_new (keep : Z) : heap * hserver := (mkHeap [] [] [], mkHS [] [] 0 keep).
