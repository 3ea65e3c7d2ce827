(** Model of the whole of rtrmon at run time, /repo/cmd/rtrmon/rtrmon.go: the goroutines of
    the two clients (Start, 254-368, and HandlePDU, 467-567), the comparator (763-889) and the
    handler of diff.json (741-761), interleaved.

    The maps hold pointers, and one entry can be in several maps: entries live in a heap.
    One step is one critical section, or a piece of code between two of them.  The third loop
    of BuildNewVrpMap and one call of Diff are one step each, so is the publication with all
    the metrics.  Sessions are as in [mon_pdus]: what a client does between two of them changes
    nothing here. *)
From Verif Require Export Model.Rtrmon.

(** Pointers, rtrmon.go:732: VRPMap is map[string]*VRPJsonSimple. *)
Definition heap := list mentry.
(** A nil VRPJsonSimple; never reached (rtrmon.go:732). *)
Definition no_entry : mentry := mkME 0 0 [] 0 0 false None.
(** What a pointer points to (Go language; rtrmon.go:732). *)
Definition deref (h : heap) (r : nat) : mentry := nth r h no_entry.
(** The entries of a map (Go language; rtrmon.go:732). *)
Definition values (h : heap) (m : gmap nat) : vmap := map (fun x => (fst x, deref h (snd x))) m.
(** Assignment through a pointer (Go language; rtrmon.go:434). *)
Fixpoint write (h : heap) (r : nat) (e : mentry) : heap :=
  match h, r with
  | [], _ => []
  | _ :: h', O => e :: h'
  | x :: h', S r' => x :: write h' r' e
  end.
(** New entries for a map (&VRPJsonSimple{...}, rtrmon.go:397, 419, and &copy, 461). *)
Definition alloc (h : heap) (m : vmap) : heap * gmap nat :=
  (h ++ map snd m, combine (map fst m) (seq (length h) (length m))).

(** One iteration of the third loop of BuildNewVrpMap, rtrmon.go:431-439. *)
Definition grace_ref (grace now : Z) (st : heap * gmap nat * N) (x : bytes * nat) : heap * gmap nat * N :=
  let '(h, res, n) := st in
  match gget (fst x) res with
  | Some _ => st
  | None => if (now - grace <=? m_last (deref h (snd x)))%Z
            then (write h (snd x) (set_visible false (deref h (snd x))), gset (fst x) (snd x) res, n + 1) else st
  end.
(** BuildNewVrpMap, rtrmon.go:370-442. *)
Definition build_refs (grace : Z) (h : heap) (cur : gmap nat) (vs : list vrpjson) (bs : list brkjson) (now : Z)
  : heap * gmap nat * N :=
  let old := values h cur in
  let res := fold_left (rebuild_vrp old now) vs [] in
  let res := fold_left (rebuild_key old now) bs res in
  let '(h1, m1) := alloc h res in
  fold_left (grace_ref grace now) cur (h1, m1, 0).
(** UpdateCurrentVrpMap, rtrmon.go:444-465. *)
Definition update_refs (grace : Z) (h : heap) (cur : gmap nat) (now : Z) : heap * gmap nat * N :=
  let '(m, n) := update_current_vrp_map grace (values h cur) now in
  let '(h1, m1) := alloc h m in (h1, m1, n).
(** Diff, rtrmon.go:691-701. *)
Definition diff_refs (h : heap) (a b : gmap nat) : gmap nat :=
  fold_left (fun (res : gmap nat) (x : bytes * nat) =>
    if m_visible (deref h (snd x)) then
      match gget (fst x) b with
      | Some r => if m_visible (deref h r) then res else gset (fst x) (snd x) res
      | None => gset (fst x) (snd x) res
      end
    else res) a [].

(** The two sources, rtrmon.go:896-903. *)
Inductive side := Pri | Sec.
(** Where a client is: at the top of its loop or between two PDUs; a new map was made and not
    yet assigned (rtrmon.go:343-352); End of Data after its first critical section (530-537);
    at the send on the channel of the comparator (357, 552). *)
Inductive cphase :=
| MIdle
| MBuilt (m : gmap nat) (n : N) (t : Z)
| MEod (m : gmap nat) (refresh retry expire : N)
| MSending.
(** time.Time{}.UnixNano() / 1e9 (rtrmon.go:630): the year 1 is outside of what 64 bits of
    nanoseconds can hold, and the product wraps around. *)
Definition zero_time : Z := ((((-62135596800) * 1000000000 + 2 ^ 63) mod 2 ^ 64 - 2 ^ 63) ÷ 1000000000)%Z.
(** Client, rtrmon.go:209-243.  [mc_ingrace] is the gauge VRPInGracePeriod; [mc_last] is
    lastUpdate.UnixNano() / 1e9 (630), for times between 1678 and 2262 the Unix time. *)
Record mclient := mkMC {
  mc_vrps : gmap nat; mc_last : Z; mc_ingrace : N;
  mc_rtr : gmap nat; mc_serial : N; mc_session : N; mc_refresh : N; mc_retry : N; mc_expire : N;
  mc_phase : cphase
}.
(** NewClient, rtrmon.go:245-252. *)
Definition new_mclient : mclient := mkMC [] zero_time 0 [] 0 0 0 0 0 MIdle.
(** diffMetadata, rtrmon.go:711-721, without the URL. *)
Record mdata := mkMD {
  md_last : Z; md_serial : N; md_session : N; md_count : N; md_refresh : N; md_retry : N; md_expire : N
}.
(** GetData, rtrmon.go:615-634. *)
Definition get_data (c : mclient) : gmap nat * mdata :=
  (mc_vrps c, mkMD (mc_last c) (mc_serial c) (mc_session c) (nlen (mc_vrps c)) (mc_refresh c) (mc_retry c) (mc_expire c)).

(** Where Compare is, rtrmon.go:767-785: waiting; an id was received; one, both GetData done;
    the first Diff done. *)
Inductive kphase :=
| KIdle
| KGot (id : side)
| KHave1 (id : side) (v1 : gmap nat) (d1 : mdata)
| KHave2 (id : side) (v1 : gmap nat) (d1 : mdata) (v2 : gmap nat) (d2 : mdata)
| KDiff (id : side) (v1 : gmap nat) (d1 : mdata) (v2 : gmap nat) (d2 : mdata) (o1 : gmap nat).
(** What a comparison leaves: onlyIn1, onlyIn2, md1, md2 (rtrmon.go:787-792) and the gauges
    VRPCount and VRPDifferenceForDuration (794-842); RTRSerial and RTRSession (844-866) are
    copies of the metadata. *)
Record pub := mkPub {
  pb_only1 : gmap nat; pb_only2 : gmap nat; pb_md1 : mdata; pb_md2 : mdata;
  pb_total1 : N; pb_total2 : N; pb_diff1 : N; pb_diff2 : N; pb_counts : list (Z * N * N)
}.
(** The process.  [ms_upd1], [ms_upd2]: the gauge LastUpdate (rtrmon.go:870-886), [None] before
    it is set. *)
Record mstate := mkMS {
  ms_heap : heap; ms_c1 : mclient; ms_c2 : mclient; ms_comp : kphase; ms_pub : option pub;
  ms_upd1 : option Z; ms_upd2 : option Z
}.
(** Start, rtrmon.go:891-912. *)
Definition ms_init : mstate := mkMS [] new_mclient new_mclient KIdle None None None.
(** The flags: grace period and thresholds (rtrmon.go:150, 928-932), the start (766), and for
    each source whether it is a file or URL (274) and -*.rtr.break. *)
Record mcfg := mkMCfg {
  k_grace : Z; k_thresholds : list Z; k_started : Z; k_file : side -> bool; k_break : side -> bool
}.

(** No counterpart in /repo: access to one of the two clients (rtrmon.go:636-647). *)
Definition ms_c (i : side) (s : mstate) : mclient := match i with Pri => ms_c1 s | Sec => ms_c2 s end.
(** No counterpart in /repo: assignment to one of the two clients (rtrmon.go:636-647). *)
Definition set_c (i : side) (c : mclient) (h : heap) (s : mstate) : mstate :=
  match i with
  | Pri => mkMS h c (ms_c2 s) (ms_comp s) (ms_pub s) (ms_upd1 s) (ms_upd2 s)
  | Sec => mkMS h (ms_c1 s) c (ms_comp s) (ms_pub s) (ms_upd1 s) (ms_upd2 s)
  end.
(** No counterpart in /repo: assignment to the position of Compare (rtrmon.go:767-785). *)
Definition set_comp (k : kphase) (s : mstate) : mstate :=
  mkMS (ms_heap s) (ms_c1 s) (ms_c2 s) k (ms_pub s) (ms_upd1 s) (ms_upd2 s).
(** No counterpart in /repo: a client in another phase (rtrmon.go:254-368, 467-567). *)
Definition set_mphase (p : cphase) (c : mclient) : mclient :=
  mkMC (mc_vrps c) (mc_last c) (mc_ingrace c) (mc_rtr c) (mc_serial c) (mc_session c) (mc_refresh c) (mc_retry c) (mc_expire c) p.

(** What happens: a file source is polled at time [t] with outcome [r] (rtrmon.go:328-348); a PDU
    is handled at time [t] up to the end of its first critical section (467-567); the second
    critical section (351-354, 540-549); the rendezvous on the channel (357, 552, 772); GetData of
    the primary, of the secondary (775-776); the first Diff (778); the second Diff and the
    publication (779-886). *)
Inductive mlabel :=
| LFetch (i : side) (t : Z) (r : fetched)
| LPdu (i : side) (t : Z) (p : pdu)
| LAssign (i : side) (t : Z)
| LSend (i : side)
| LGet1 | LGet2 | LDiff
| LPublish (clk : nat -> Z).

(** One round of Start for a file source up to the lock, rtrmon.go:328-350. *)
Definition step_fetch (cfg : mcfg) (i : side) (t : Z) (r : fetched) (s : mstate) : option mstate :=
  let c := ms_c i s in
  if k_file cfg i then
    match mc_phase c, r with
    | MIdle, (FetchError | BadJson) => Some s
    | MIdle, NotModified =>
        let '(h, m, n) := update_refs (k_grace cfg) (ms_heap s) (mc_vrps c) t in
        Some (set_c i (set_mphase (MBuilt m n t) c) h s)
    | MIdle, Listing vs bs =>
        let '(h, m, n) := build_refs (k_grace cfg) (ms_heap s) (mc_vrps c) vs bs t in
        Some (set_c i (set_mphase (MBuilt m n t) c) h s)
    | _, _ => None
    end
  else None.
(** The data cases of HandlePDU, rtrmon.go:481-485, 500-504, 522-526. *)
Definition data_ref (flags : N) (k : bytes) (e : mentry) (h : heap) (c : mclient) : heap * mclient :=
  let set m := mkMC (mc_vrps c) (mc_last c) (mc_ingrace c) m (mc_serial c) (mc_session c) (mc_refresh c) (mc_retry c)
                    (mc_expire c) (mc_phase c) in
  if flags =? FLAG_ADDED then (h ++ [e], set (gset k (length h) (mc_rtr c)))
  else (h, set (gdel k (mc_rtr c))).
(** HandlePDU, rtrmon.go:467-567; for End of Data the first critical section, 530-537. *)
Definition step_pdu (cfg : mcfg) (i : side) (t : Z) (p : pdu) (s : mstate) : option mstate :=
  let c := ms_c i s in
  if k_file cfg i then None else
  match mc_phase c with
  | MIdle =>
      let '(h, c') :=
        match p with
        | IPv4Prefix _ f m a x | IPv6Prefix _ f m a x =>
            data_ref f (vkey x m a) (mkME a m (prefix_string x) t 0 true None) (ms_heap s) c
        | RouterKey _ f k a d =>
            data_ref f (kkey (hex_encode k) a d)
              (mkME a 0 [] t 0 true (Some (mkBJ a None [] d (hex_encode k)))) (ms_heap s) c
        | EndOfData _ _ serial r u e =>
            (ms_heap s, mkMC (mc_vrps c) (mc_last c) (mc_ingrace c) (mc_rtr c) serial (mc_session c) (mc_refresh c)
                             (mc_retry c) (mc_expire c) (MEod (mc_rtr c) r u e))
        | CacheResponse _ n =>
            (ms_heap s, mkMC (mc_vrps c) (mc_last c) (mc_ingrace c) (mc_rtr c) (mc_serial c) n (mc_refresh c)
                             (mc_retry c) (mc_expire c) MIdle)
        | _ => (ms_heap s, c)
        end in
      Some (set_c i c' h s)
  | _ => None
  end.
(** The second critical section, rtrmon.go:349-354 and 540-549. *)
Definition step_assign (i : side) (t : Z) (s : mstate) : option mstate :=
  let c := ms_c i s in
  match mc_phase c with
  | MBuilt m n t0 => Some (set_c i (mkMC m t0 n (mc_rtr c) (mc_serial c) (mc_session c) (mc_refresh c) (mc_retry c)
                                        (mc_expire c) MSending) (ms_heap s) s)
  | MEod m r u e => Some (set_c i (mkMC m t (mc_ingrace c) (mc_rtr c) (mc_serial c) (mc_session c) r u e MSending) (ms_heap s) s)
  | _ => None
  end.
(** The channel of the comparator has no buffer (rtrmon.go:655): 357, 552 with 772. *)
Definition step_send (i : side) (s : mstate) : option mstate :=
  let c := ms_c i s in
  match mc_phase c, ms_comp s with
  | MSending, KIdle => Some (set_comp (KGot i) (set_c i (set_mphase MIdle c) (ms_heap s) s))
  | _, _ => None
  end.
(** The counts per threshold, rtrmon.go:816-835. *)
Definition pub_counts (cfg : mcfg) (h : heap) (v1 v2 o1 o2 : gmap nat) (clk : nat -> Z) : list (Z * N * N) :=
  flat_map (fun '(u, t) => if (k_started cfg <=? t - u)%Z
                     then [(u, count_unmatched (values h o1) (values h v2) (t - u),
                               count_unmatched (values h o2) (values h v1) (t - u))]
                     else []) (timed clk (k_thresholds cfg)).
(** Compare after a receive, rtrmon.go:775-886. *)
Definition step_compare (cfg : mcfg) (l : mlabel) (s : mstate) : option mstate :=
  match ms_comp s, l with
  | KGot id, LGet1 => let '(v1, d1) := get_data (ms_c1 s) in Some (set_comp (KHave1 id v1 d1) s)
  | KHave1 id v1 d1, LGet2 => let '(v2, d2) := get_data (ms_c2 s) in Some (set_comp (KHave2 id v1 d1 v2 d2) s)
  | KHave2 id v1 d1 v2 d2, LDiff => Some (set_comp (KDiff id v1 d1 v2 d2 (diff_refs (ms_heap s) v1 v2)) s)
  | KDiff id v1 d1 v2 d2 o1, LPublish clk =>
      let o2 := diff_refs (ms_heap s) v2 v1 in
      Some (mkMS (ms_heap s) (ms_c1 s) (ms_c2 s) KIdle
              (Some (mkPub o1 o2 d1 d2 (nlen v1) (nlen v2) (nlen o1) (nlen o2) (pub_counts cfg (ms_heap s) v1 v2 o1 o2 clk)))
              (match id with Pri => Some (md_last d1) | Sec => ms_upd1 s end)
              (match id with Pri => ms_upd2 s | Sec => Some (md_last d2) end))
  | _, _ => None
  end.
(** One step of the process, rtrmon.go:891-912; [None]: not possible in this state. *)
Definition mstep (cfg : mcfg) (s : mstate) (l : mlabel) : option mstate :=
  match l with
  | LFetch i t r => step_fetch cfg i t r s
  | LPdu i t p => step_pdu cfg i t p s
  | LAssign i t => step_assign i t s
  | LSend i => step_send i s
  | _ => step_compare cfg l s
  end.
(** A schedule, from the start of the process (rtrmon.go:891-912). *)
Definition mrun (cfg : mcfg) (ls : list mlabel) : option mstate :=
  fold_left (fun o l => match o with Some s => mstep cfg s l | None => None end) ls (Some ms_init).
(** ServeDiff, rtrmon.go:741-761 with VRPArray, 703-709: only-primary and only-secondary (in no
    particular order) and the metadata, [None] for null. *)
Definition serve_diff (s : mstate) : vmap * vmap * option (mdata * mdata) :=
  match ms_pub s with
  | Some p => (values (ms_heap s) (pb_only1 p), values (ms_heap s) (pb_only2 p), Some (pb_md1 p, pb_md2 p))
  | None => ([], [], None)
  end.

(** * The loop of a client with an RTR server *)
(** What comes of connecting: dialling, TLS or the SSH handshake fails (lib/client.go:150-210), or
    all the bytes the server sends until it closes the connection. *)
Inductive contact := Unreachable | Stream (b : bytes).
(** One round of Start, rtrmon.go:274-321; [None]: log.Fatal (317-319), or Decode panicked.  One
    reading of the clock for all PDUs of the session.  The queries sent are not looked at. *)
Definition rtr_round (break : bool) (now : Z) (c : mon) (a : contact) : option mon :=
  match a with
  | Unreachable => None
  | Stream b => let o := start_rw (mon_handle break now) 1 c b in
                match o_end o with Finished => Some (o_state o) | _ => None end
  end.
(** The loop, rtrmon.go:267-365. *)
Definition rtr_rounds (break : bool) (c : mon) (l : list (Z * contact)) : option mon :=
  fold_left (fun o x => match o with Some c => rtr_round break (fst x) c (snd x) | None => None end) l (Some c).
