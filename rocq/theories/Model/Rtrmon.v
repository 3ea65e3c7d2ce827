(** Model of /repo/cmd/rtrmon/rtrmon.go: the object maps, the two kinds of source, the
    comparison and the thresholds flag.  HTTP and Prometheus are not modelled
    beyond the values handed to them. *)
From Verif Require Export Model.Json Model.Session.

(** Go maps with string keys: association lists with distinct keys.  The order of iteration
    is not specified by Go; nothing below depends on it. *)
Definition gmap (A : Type) := list (bytes * A).
(** Lookup in a Go map with string keys (rtrmon.go:370-660). *)
Fixpoint gget {A} (k : bytes) (m : gmap A) : option A :=
  match m with [] => None | (k', v) :: m' => if beqb k k' then Some v else gget k m' end.
(** delete in a Go map with string keys (rtrmon.go:370-660). *)
Definition gdel {A} (k : bytes) (m : gmap A) : gmap A :=
  filter (fun x => negb (beqb k (fst x))) m.
(** Assignment in a Go map with string keys (rtrmon.go:370-660). *)
Definition gset {A} (k : bytes) (v : A) (m : gmap A) : gmap A := (k, v) :: gdel k m.
(** The keys in a Go map with string keys (rtrmon.go:370-660). *)
Definition keys {A} (m : gmap A) : list bytes := map fst m.

(** VRPJsonSimple, rtrmon.go:723-731 (times are Unix seconds). *)
Record mentry := mkME {
  m_asn : N; m_length : N; m_prefix : bytes; m_first : Z; m_last : Z; m_visible : bool;
  m_key : option brkjson
}.
(** VRPMap, rtrmon.go:732.  Entries are pointers: see [rebuild_old] for the one place where
    one is written to after it was put into a map. *)
Definition vmap := gmap mentry.

(** The keys, rtrmon.go:388, 478, 497 ("%s-%d-%d") and 408, 519 ("%s-%d-%s"). *)
Definition vkey (p : prefix) (maxlen asn : N) : bytes :=
  prefix_string p ++ [c_dash] ++ dec maxlen ++ [c_dash] ++ dec asn.
(** The key of a router key, rtrmon.go:408, 519. *)
Definition kkey (ski : bytes) (asn : N) (pubkey : bytes) : bytes :=
  ski ++ [c_dash] ++ dec asn ++ [c_dash] ++ pubkey.

(** firstSeen, rtrmon.go:390-395 and 410-415. *)
Definition first_seen (cur : vmap) (now : Z) (k : bytes) : Z :=
  match gget k cur with
  | Some e => if m_visible e then m_first e else now
  | None => now
  end.
(** One iteration of the first loop of BuildNewVrpMap, rtrmon.go:375-405. *)
Definition rebuild_vrp (cur : vmap) (now : Z) (res : vmap) (v : vrpjson) : vmap :=
  match get_asn2 (vj_asn v) with
  | None => res
  | Some asn =>
      match get_prefix2 v with
      | None => res
      | Some p =>
          let k := vkey p (vj_length v) asn in
          gset k (mkME asn (vj_length v) (prefix_string p) (first_seen cur now k) now true None) res
      end
  end.
(** One iteration of the second loop, rtrmon.go:407-426. *)
Definition rebuild_key (cur : vmap) (now : Z) (res : vmap) (b : brkjson) : vmap :=
  let k := kkey (bj_ski b) (bj_asn b) (bj_pubkey b) in
  gset k (mkME (bj_asn b) 0 [] (first_seen cur now k) now true (Some b)) res.
(** oldvrp.Visible = false, rtrmon.go:434. *)
Definition set_visible (b : bool) (e : mentry) : mentry :=
  mkME (m_asn e) (m_length e) (m_prefix e) (m_first e) (m_last e) b (m_key e).
(** One iteration of the third loop, rtrmon.go:431-439: the new map and the counter.
    [grace] is int64(GracePeriod.Seconds()). *)
Definition rebuild_grace (grace now : Z) (st : vmap * N) (x : bytes * mentry) : vmap * N :=
  let '(res, n) := st in
  match gget (fst x) res with
  | Some _ => st
  | None => if (now - grace <=? m_last (snd x))%Z
            then (gset (fst x) (set_visible false (snd x)) res, n + 1) else st
  end.
(** BuildNewVrpMap, rtrmon.go:370-442. *)
Definition build_new_vrp_map (grace : Z) (cur : vmap) (vs : list vrpjson) (bs : list brkjson) (now : Z)
  : vmap * N :=
  let res := fold_left (rebuild_vrp cur now) vs [] in
  let res := fold_left (rebuild_key cur now) bs res in
  fold_left (rebuild_grace grace now) cur (res, 0).
(** What BuildNewVrpMap leaves of the map it was given: line 434 writes to the entry that
    [currentVrps] (and every map that shares the pointer, such as the difference served
    last) still refers to.  [listed] is the new map before the third loop; since the keys of
    [old] are distinct, the loop decides for each of them as here. rtrmon.go:428-440. *)
Definition rebuild_old (grace now : Z) (listed : vmap) (old : vmap) : vmap :=
  map (fun x => match gget (fst x) listed with
                | Some _ => x
                | None => if (now - grace <=? m_last (snd x))%Z
                          then (fst x, set_visible false (snd x)) else x
                end) old.

(** UpdateCurrentVrpMap, rtrmon.go:444-465. *)
Definition update_current_vrp_map (grace : Z) (cur : vmap) (now : Z) : vmap * N :=
  fold_left (fun (st : vmap * N) (x : bytes * mentry) =>
    let '(res, n) := st in
    let e := snd x in
    if negb (m_visible e) && (m_last e <? now - grace)%Z then st
    else if m_visible e
         then (gset (fst x) (mkME (m_asn e) (m_length e) (m_prefix e) (m_first e) now true (m_key e)) res, n)
         else (gset (fst x) e res, n + 1)) cur ([], 0).

(** Diff, rtrmon.go:691-701. *)
Definition mdiff (a b : vmap) : vmap :=
  fold_left (fun (res : vmap) (x : bytes * mentry) =>
    if m_visible (snd x) then
      match gget (fst x) b with
      | Some e => if m_visible e then res else gset (fst x) (snd x) res
      | None => gset (fst x) (snd x) res
      end
    else res) a [].
(** isDefinitelyVisible and isDefinitelyNotVisisble, rtrmon.go:662-668. *)
Definition def_visible (e : option mentry) (t : Z) : bool :=
  match e with Some e => m_visible e && (m_first e <=? t)%Z | None => false end.
(** isDefinitelyNotVisisble, rtrmon.go:666-668. *)
Definition def_not_visible (e : option mentry) (t : Z) : bool :=
  match e with Some e => negb (m_visible e) && (m_last e <=? t)%Z | None => true end.
(** countUnmatched, rtrmon.go:670-689. *)
Definition count_unmatched (vrps others : vmap) (t : Z) : N :=
  fold_left (fun (n : N) (x : bytes * mentry) =>
    let other := gget (fst x) others in
    if def_visible (Some (snd x)) t then (if def_not_visible other t then n + 1 else n)
    else if def_not_visible (Some (snd x)) t then (if def_visible other t then n + 1 else n)
    else n) vrps 0.

(** What one comparison publishes, rtrmon.go:775-835: both differences, both totals, and per
    threshold the two counts (only for thresholds that reach back no further than the
    start). *)
Record report := mkRep {
  r_only1 : vmap; r_only2 : vmap; r_total1 : N; r_total2 : N; r_diff1 : N; r_diff2 : N;
  r_counts : list (Z * N * N)
}.
(** Each threshold with the reading of the clock in its round of the loop, rtrmon.go:816-817. *)
Definition timed (clk : nat -> Z) (thresholds : list Z) : list (Z * Z) :=
  combine thresholds (map clk (seq 0 (length thresholds))).
(** rtrmon.go:775-835. *)
Definition compare (thresholds : list Z) (startedAt : Z) (clk : nat -> Z) (vrps1 vrps2 : vmap) : report :=
  let o1 := mdiff vrps1 vrps2 in
  let o2 := mdiff vrps2 vrps1 in
  mkRep o1 o2 (nlen vrps1) (nlen vrps2) (nlen o1) (nlen o2)
    (flat_map (fun '(t, now) => if (startedAt <=? now - t)%Z
                        then [(t, count_unmatched o1 vrps2 (now - t), count_unmatched o2 vrps1 (now - t))]
                        else []) (timed clk thresholds)).

(** * A file as source *)
(** What FetchFile gives (utils/utils.go:50-172): 304, another error (an IdenticalEtag
    included), content that is not JSON, or content. *)
Inductive fetched :=
| NotModified | FetchError | BadJson | Listing (vs : list vrpjson) (bs : list brkjson).
(** One round of Start for such a source, rtrmon.go:327-358: the new map, or [None] when the
    round is given up. *)
Definition mon_round (grace : Z) (cur : vmap) (now : Z) (r : fetched) : option (vmap * N) :=
  match r with
  | NotModified => Some (update_current_vrp_map grace cur now)
  | Listing vs bs => Some (build_new_vrp_map grace cur vs bs now)
  | FetchError | BadJson => None
  end.
(** The map after a round. rtrmon.go:328-368. *)
Definition mon_step (grace : Z) (cur : vmap) (x : Z * fetched) : vmap :=
  match mon_round grace cur (fst x) (snd x) with Some (m, _) => m | None => cur end.

(** * An RTR server as source *)
(** Client, rtrmon.go:209-243, the fields HandlePDU writes to. *)
Record mon := mkMon {
  mo_rtr : vmap; mo_vrps : vmap; mo_serial : N; mo_session : N;
  mo_refresh : N; mo_retry : N; mo_expire : N
}.
(** NewClient, rtrmon.go:245-252. *)
Definition new_mon : mon := mkMon [] [] 0 0 0 0 0.
(** No counterpart in /repo: assignment to the fields used by HandlePDU, rtrmon.go:467-567. *)
Definition mo_set_rtr (m : vmap) (c : mon) : mon :=
  mkMon m (mo_vrps c) (mo_serial c) (mo_session c) (mo_refresh c) (mo_retry c) (mo_expire c).
(** The three data cases of HandlePDU, rtrmon.go:481-485, 500-504, 522-526. *)
Definition mon_data (flags : N) (k : bytes) (e : mentry) (c : mon) : mon :=
  mo_set_rtr (if flags =? FLAG_ADDED then gset k e (mo_rtr c) else gdel k (mo_rtr c)) c.
(** HandlePDU, rtrmon.go:467-567.  [break] is BreakRTR, [now] the clock.  The boolean:
    Disconnect was called. *)
Definition mon_handle (break : bool) (now : Z) (c : mon) (p : pdu) : mon * bool :=
  match p with
  | IPv4Prefix _ f m a x | IPv6Prefix _ f m a x =>
      (mon_data f (vkey x m a) (mkME a m (prefix_string x) now 0 true None) c, false)
  | RouterKey _ f s a k =>
      (mon_data f (kkey (hex_encode s) a k)
         (mkME a 0 [] now 0 true (Some (mkBJ a None [] k (hex_encode s)))) c, false)
  | EndOfData _ _ serial r t e =>
      (mkMon (mo_rtr c) (mo_rtr c) serial (mo_session c) r t e, break)
  | CacheResponse _ s =>
      (mkMon (mo_rtr c) (mo_vrps c) (mo_serial c) s (mo_refresh c) (mo_retry c) (mo_expire c), false)
  | CacheReset _ | SerialNotify _ _ _ => (c, false)
  | _ => (c, true)
  end.
(** ClientConnected, rtrmon.go:569-578, and continuousRTR, 595-613: the query at the start of
    a session, in version 1 (277), and the one sent at every interval. *)
Definition mon_first_query : pdu := cs_send 1 (ResetQuery 0).
(** continuousRTR, rtrmon.go:595-613. *)
Definition mon_poll (version : N) (c : mon) : pdu :=
  cs_send version (SerialQuery 0 (mo_session c) (mo_serial c)).
(** PDUs received one after the other over any number of sessions: nothing is reset in
    between (Start, rtrmon.go:274-325, and ClientConnected leave the fields alone).  A PDU
    after a Disconnect is the first of the next session. *)
Definition mon_pdus (break : bool) (c : mon) (l : list (Z * pdu)) : mon :=
  fold_left (fun c x => fst (mon_handle break (fst x) c (snd x))) l c.

(** * The flag -visibility.thresholds *)
(** strings.Split(value, ","), rtrmon.go:184. *)
Definition ch_comma : N := 44.
(** strings.Split, rtrmon.go:184. *)
Fixpoint split_comma (s : bytes) : list bytes :=
  match s with
  | [] => [[]]
  | c :: s' => if c =? ch_comma then [] :: split_comma s'
               else match split_comma s' with
                    | [] => [[c]]
                    | x :: l => (c :: x) :: l
                    end
  end.
(** strconv.ParseInt(s, 10, 32), rtrmon.go:185 (standard library). *)
Definition parse_int32 (s : bytes) : option Z :=
  let signed neg r :=
    match parse_uint32 r with
    | None => None
    | Some un => if (negb neg && (2147483648 <=? un)) || (neg && (2147483648 <? un)) then None
                 else Some (if neg : bool then (- Z.of_N un)%Z else Z.of_N un)
    end in
  match s with
  | [] => None
  | c :: r => if c =? 43 then signed false r else if c =? 45 then signed true r else signed false s
  end.
(** The loop of Set, rtrmon.go:184-196. *)
Fixpoint parse_all (l : list bytes) : option (list Z) :=
  match l with
  | [] => Some []
  | s :: l' => match parse_int32 s, parse_all l' with Some z, Some r => Some (z :: r) | _, _ => None end
  end.
(** Set, rtrmon.go:178-198: the new thresholds; [None] is an error, on which package flag
    ends the program.  [sort] is sort.Slice with a strict order. *)
Definition thr_set (sort : list Z -> list Z) (value : bytes) : option (list Z) :=
  match parse_all (split_comma value) with Some l => Some (sort l) | None => None end.
(** strconv.AppendInt(_, z, 10). *)
Definition dec_int (z : Z) : bytes :=
  if (z <? 0)%Z then c_dash :: dec (Z.to_N (- z)) else dec (Z.to_N z).
(** String, rtrmon.go:166-176. *)
Fixpoint thr_string (l : list Z) : bytes :=
  match l with
  | [] => []
  | [z] => dec_int z
  | z :: l' => dec_int z ++ [ch_comma] ++ thr_string l'
  end.
(** The adjustment of the grace period in main, rtrmon.go:928-932 (in seconds; the panic on
    an empty list cannot happen, see thr_set and the default at 150). *)
Definition adjust_grace (thresholds : list Z) (grace : Z) : Z :=
  let h := last thresholds 0%Z in if (grace <? h)%Z then h else grace.
