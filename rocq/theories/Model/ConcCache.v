(** The cache under concurrent use: query handlers and updaters of
    /repo/lib/server.go as threads.  One step of a thread is one critical section of
    sdlock (a read lock excludes the write lock, so a section sees one cache state).
    The data handed out are slices that are never modified afterwards, so they are
    values. *)
From Verif Require Export Model.Cache.

(** A goroutine and how far it has come in RequestCache (lib/server.go:61-86),
    RequestNewVersion (88-121) or AddData (351-369), lines as given below. *)
Inductive thread :=
(** RequestCache, lib/server.go:61-86: before GetCurrentSerial (66); after it. *)
| TReset
| TReset1 (serial : N)
(** RequestNewVersion for the router's serial [q], lib/server.go:88-121: before
    GetCurrentSerial (102); after it. *)
| TSerial (q : N)
| TSerial1 (q serial : N)
(** The handler sends a response with this serial and these records (85, 120). *)
| TAnswer (serial : N) (data : list sd)
(** It sends No Data (69, 105), resp. Cache Reset (117). *)
| TNoData
| TCacheReset
(** A goroutine calling AddData (351-369) for each element of [todo] in turn: before
    the call; after the RUnlock of line 361 with the non-empty diff; after the RUnlock
    of line 378 with the new diff list and the new current list. *)
| TUpd (todo : list (list sd))
| TUpd1 (diff : list sd) (todo : list (list sd))
| TUpd2 (diff : list sd) (merged : list (list sd)) (cur : list sd) (todo : list (list sd)).

(** AddSDsDiff, the part under the read lock, lib/server.go:372-378. *)
Definition sds_diff_read (s : server) (diff : list sd) : list (list sd) * list sd :=
  (map (apply_diff diff) (sdListDiff s) ++ [[]], apply_diff diff (sdCurrent s)).
(** AddSDsDiff, the part under the write lock, lib/server.go:380-391: the serial is
    computed from the state found there. *)
Definition sds_diff_write (s : server) (diff : list sd) (merged : list (list sd)) (cur : list sd) : server :=
  let nextDiff := merged ++ [diff] in
  let n := length nextDiff in
  let nextDiff := if ((0 <? keepDiff s) && (keepDiff s <? Z.of_nat n))%Z
                  then skipn (n - Z.to_nat (keepDiff s)) nextDiff else nextDiff in
  mkServer nextDiff cur (generate_serial s) (keepDiff s).

(** One critical section of a thread, lines as given at [thread]; [None] when the thread
    has finished. lib/server.go:61-121, 351-392. *)
Definition tstep (s : server) (t : thread) : option (server * thread) :=
  match t with
  | TReset =>
      let '(serial, valid) := get_current_serial s in
      Some (s, if valid then TReset1 serial else TNoData)
  | TReset1 serial => Some (s, TAnswer serial (get_current_sds s))
  | TSerial q =>
      let '(serial, valid) := get_current_serial s in
      Some (s, if valid then TSerial1 q serial else TNoData)
  | TSerial1 q serial =>
      match get_sds_serial_diff s q with
      | Ok data => Some (s, TAnswer serial data)
      | _ => Some (s, TCacheReset)
      end
  | TAnswer _ _ | TNoData | TCacheReset => None
  | TUpd [] => None
  | TUpd (new :: todo) =>
      let '(added, removed, _) := compute_diff new (sdCurrent s) false in
      match added ++ removed with
      | [] => Some (s, TUpd todo)
      | d => Some (s, TUpd1 d todo)
      end
  | TUpd1 d todo => let '(m, c) := sds_diff_read s d in Some (s, TUpd2 d m c todo)
  | TUpd2 d m c todo => Some (sds_diff_write s d m c, TUpd todo)
  end.

(** All goroutines together; a schedule is the list of threads that take a step.  A
    step of a finished or absent thread does nothing. lib/server.go:61-121, 351-392. *)
Definition world := (server * list thread)%type.
(** No counterpart in /repo: replaces an element of the list of goroutines
    (lib/server.go:61-392 runs in one of them). *)
Fixpoint set_nth {A} (l : list A) (n : nat) (x : A) : list A :=
  match l, n with
  | [], _ => []
  | _ :: l', O => x :: l'
  | y :: l', S n' => y :: set_nth l' n' x
  end.
(** One step of thread [i], lib/server.go:61-121, 351-392. *)
Definition wstep (w : world) (i : nat) : world :=
  match nth_error (snd w) i with
  | Some t => match tstep (fst w) t with
              | Some (s', t') => (s', set_nth (snd w) i t')
              | None => w
              end
  | None => w
  end.
(** Any interleaving, lib/server.go:61-121, 351-392. *)
Definition wrun (w : world) (sched : list nat) : world := fold_left wstep sched w.
