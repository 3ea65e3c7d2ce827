(** Locks and unprotected fields: what the goroutines of stayrtr and rtrmon do to the data they
    share, access by access.

    A goroutine makes any sequence of calls; a call is the list of the accesses to shared fields and
    of the lock operations in the order of the code.  Everything between them is left out: local
    computation, logging (the logger is assumed not to call back), and channel operations, none of
    which is inside a section protected by a lock.  Memory is sequentially consistent and a field is
    read or written in one step; a value matters only for [Connected]. *)
From Coq Require Import ZArith List Bool.
Import ListNotations.

(** The locks: lib/server.go:125, 139; cmd/stayrtr/stayrtr.go:682; utils/utils.go:19;
    cmd/rtrmon/rtrmon.go:231-233 (of the client [k]), 644. *)
Inductive lck := SdLock | ClientLock | JsonLock | CondLock | CompLock (k : nat) | CompRtrLock (k : nat) | DiffLock.
(** The fields that more than one goroutine uses: of Server and Client in lib/server.go:123-170,
    658-682 ([Live]: connected of a client), of state in cmd/stayrtr/stayrtr.go:660-700, of FetchConfig
    in utils/utils.go:14-23, of Client and Comparator in cmd/rtrmon/rtrmon.go:200-242, 636-655. *)
Inductive fld := SdCurrent | SdListDiff | SdSerial | Clients | Connected | MaxConn
  | Version (c : nat) | Live (c : nat)
  | Exported | LastTs | HashCache | ETags | LastMods
  | MVrps (k : nat) | MVrpsRtr (k : nat) | MSerial (k : nat) | MSession (k : nat) | MTimers (k : nat) | MLast (k : nat)
  | OnlyIn | Metas.
(** No counterpart in /repo: equality of the names of locks (lib/server.go:125) and of fields. *)
Definition lck_eq_dec (a b : lck) : {a = b} + {a <> b}. Proof. decide equality; apply Nat.eq_dec. Defined.
(** The same for fields, lib/server.go:123-170. *)
Definition fld_eq_dec (a b : fld) : {a = b} + {a <> b}. Proof. decide equality; apply Nat.eq_dec. Defined.

(** An access or an operation on a lock.  [MWrite x d] writes the value the goroutine read last, plus [d].
    sync.RWMutex of the Go library. *)
Inductive mop := MRLock (l : lck) | MRUnlock (l : lck) | MLock (l : lck) | MUnlock (l : lck) | MRead (x : fld) | MWrite (x : fld) (d : Z).

(** A read-write lock: its readers, and the writer that waits (false) or has it (true).  As in Go's RWMutex
    readers have to wait as soon as a writer waits; which of those waiting is next is left open.
    The locks of lib/server.go:125, 139. *)
Record rwmutex := mkRW { rw_readers : nat; rw_writer : option (nat * bool) }.
(** A goroutine: what it has yet to do, and the value read last.  The goroutines of lib/server.go:506, 516, 763
    and the like. *)
Record mthread := mkMT { mt_ops : list mop; mt_reg : Z }.
(** All of them, the locks and the memory: the fields of lib/server.go:123-170 and of the other structs above. *)
Record mstate := mkMS { ms_threads : list mthread; ms_lock : lck -> rwmutex; ms_mem : fld -> Z }.

(** No counterpart in /repo: updating one place (a lock of lib/server.go:125). *)
Definition set_lock (f : lck -> rwmutex) (l : lck) (v : rwmutex) : lck -> rwmutex := fun m => if lck_eq_dec m l then v else f m.
(** A field, lib/server.go:123-170. *)
Definition set_mem (f : fld -> Z) (x : fld) (v : Z) : fld -> Z := fun y => if fld_eq_dec y x then v else f y.
(** A goroutine, lib/server.go:763. *)
Fixpoint set_thread (l : list mthread) (i : nat) (t : mthread) : list mthread :=
  match l, i with
  | [], _ => []
  | _ :: r, O => t :: r
  | x :: r, S j => x :: set_thread r j t
  end.

(** One step of goroutine [i]; [None] if it cannot make one (it waits for a lock, has ended, or the runtime
    stops the program because of an unlock of what is not locked).  sync.RWMutex of the Go library. *)
Definition mx_step (s : mstate) (i : nat) : option mstate :=
  match nth_error (ms_threads s) i with
  | Some (mkMT (o :: r) reg) =>
      match o with
      | MRLock l =>
          match ms_lock s l with
          | mkRW n None => Some (mkMS (set_thread (ms_threads s) i (mkMT r reg)) (set_lock (ms_lock s) l (mkRW (S n) None)) (ms_mem s))
          | _ => None
          end
      | MRUnlock l =>
          match ms_lock s l with
          | mkRW (S n) w => Some (mkMS (set_thread (ms_threads s) i (mkMT r reg)) (set_lock (ms_lock s) l (mkRW n w)) (ms_mem s))
          | _ => None
          end
      | MLock l =>
          match ms_lock s l with
          | mkRW n None => Some (mkMS (ms_threads s) (set_lock (ms_lock s) l (mkRW n (Some (i, false)))) (ms_mem s))
          | mkRW O (Some (j, false)) =>
              if j =? i then Some (mkMS (set_thread (ms_threads s) i (mkMT r reg)) (set_lock (ms_lock s) l (mkRW 0 (Some (i, true)))) (ms_mem s))
              else None
          | _ => None
          end
      | MUnlock l =>
          match ms_lock s l with
          | mkRW n (Some (j, true)) =>
              if j =? i then Some (mkMS (set_thread (ms_threads s) i (mkMT r reg)) (set_lock (ms_lock s) l (mkRW n None)) (ms_mem s)) else None
          | _ => None
          end
      | MRead x => Some (mkMS (set_thread (ms_threads s) i (mkMT r (ms_mem s x))) (ms_lock s) (ms_mem s))
      | MWrite x d => Some (mkMS (set_thread (ms_threads s) i (mkMT r reg)) (ms_lock s) (set_mem (ms_mem s) x (reg + d)))
      end
  | _ => None
  end.
(** No counterpart in /repo: a schedule of the goroutines (lib/server.go:763). *)
Fixpoint mx_run (s : mstate) (sched : list nat) : option mstate :=
  match sched with
  | [] => Some s
  | i :: r => match mx_step s i with Some s' => mx_run s' r | None => None end
  end.
(** No counterpart in /repo: goroutines (lib/server.go:763) that have done nothing yet. *)
Definition mx_start (ps : list (list mop)) : mstate :=
  mkMS (map (fun p => mkMT p 0%Z) ps) (fun _ => mkRW 0 None) (fun _ => 0%Z).

(** The calls.  The first group is lib/server.go; the others are cmd/stayrtr/stayrtr.go with utils/utils.go,
    and cmd/rtrmon/rtrmon.go. *)
Inductive scall :=
| CGetCurrentSDs                     (* server.go:295-300 *)
| CGetDiff (branch : nat)            (* server.go:302-323, by the return reached *)
| CGetCurrentSerial                  (* server.go:325-334 *)
| CCountSDs                          (* server.go:344-349 *)
| CAddData (changed : bool)          (* server.go:351-392 *)
| CClientConnected                   (* server.go:422-431 *)
| CClientDisconnected                (* server.go:433-448 *)
| CGetClientList                     (* server.go:623-629 *)
| CDisconnect (c : nat)              (* server.go:1020-1032 *)
| CSetMaxConn (over : list nat)      (* server.go:402-416, with the clients disconnected *)
| CAccept                            (* server.go:587-593, the test of loopTCP *)
| CSshBegin                          (* server.go:517 *)
| CSshEnd                            (* server.go:570 *)
| CStart (c : nat)                   (* server.go:757-761 *)
| CLoop (c : nat)                    (* server.go:747, 766 *)
| CSetVersion (c : nat)              (* server.go:710-713 *)
| CSend (c : nat)                    (* server.go:1015-1018 *)
| CNotify (cs : list nat)            (* server.go:631-637, with the clients notified *)
| CSetExported                       (* stayrtr.go:434-443 *)
| CDropCheck                         (* stayrtr.go:614-615 *)
| CExporter                          (* stayrtr.go:631-637 *)
| CUpdateFile                        (* stayrtr.go:464, 477-486 *)
| CUpdateSlurm                       (* stayrtr.go:504, 517 *)
| CFetchAsk                          (* utils.go:84-97 *)
| CFetchBad                          (* utils.go:126-129 *)
| CFetchETag (same : bool)           (* utils.go:138-147 *)
| CFetchLast                         (* utils.go:153-159 *)
| CMonPdu (k : nat)                  (* rtrmon.go:479-487, 498-506, 520-528 *)
| CMonEod (k : nat)                  (* rtrmon.go:532-547 *)
| CMonResponse (k : nat)             (* rtrmon.go:557 *)
| CMonPoll (k : nat)                 (* rtrmon.go:610 *)
| CMonFetch (k : nat)                (* rtrmon.go:335-355 *)
| CCompare                           (* rtrmon.go:773-861, with 615-634 for both clients *)
| CServeDiff.                        (* rtrmon.go:744-750 *)

(** Accesses under a lock, for reading and for writing.  server.go:296-298, 423-426 and the like. *)
Definition rsection (l : lck) (b : list mop) : list mop := MRLock l :: b ++ [MRUnlock l].
(** For writing: server.go:423-426. *)
Definition wsection (l : lck) (b : list mop) : list mop := MLock l :: b ++ [MUnlock l].
(** [connected++], [connected--].  server.go:425, 442, 517, 570. *)
Definition bump (d : Z) : list mop := [MRead Connected; MWrite Connected d].
(** server.go:423-426 and 434-443. *)
Definition connect (d : Z) : list mop := wsection ClientLock ([MRead Clients; MWrite Clients 0] ++ bump d).
(** Disconnect, server.go:1020-1032; the version is read for the log. *)
Definition disconnect (c : nat) : list mop := [MWrite (Live c) 0; MRead (Version c)] ++ connect (-1).
(** server.go:623-629. *)
Definition client_list : list mop := rsection ClientLock [MRead Clients; MRead Clients].
(** server.go:325-334. *)
Definition current_serial : list mop := rsection SdLock [MRead SdSerial; MRead SdCurrent].
(** GetData, rtrmon.go:615-634. *)
Definition get_data (k : nat) : list mop := rsection (CompLock k) [MRead (MVrps k); MRead (MSerial k); MRead (MSession k); MRead (MTimers k); MRead (MLast k)].
(** The accesses of each call, by the lines given with [scall] (server.go:295-1032 and so on). *)
Definition body (c : scall) : list mop :=
  match c with
  | CGetCurrentSDs => rsection SdLock [MRead SdCurrent]
  | CGetDiff 0 => rsection SdLock [MRead SdSerial]
  | CGetDiff 1 => rsection SdLock [MRead SdSerial; MRead SdSerial]
  | CGetDiff 2 => rsection SdLock [MRead SdSerial; MRead SdSerial; MRead SdSerial; MRead SdListDiff]
  | CGetDiff _ => rsection SdLock [MRead SdSerial; MRead SdSerial; MRead SdSerial; MRead SdListDiff; MRead SdListDiff; MRead SdListDiff]
  | CGetCurrentSerial => current_serial
  | CCountSDs => rsection SdLock [MRead SdCurrent]
  | CAddData false => rsection SdLock [MRead SdCurrent]
  | CAddData true =>
      rsection SdLock [MRead SdCurrent] ++ rsection SdLock [MRead SdListDiff; MRead SdListDiff; MRead SdCurrent] ++
      wsection SdLock [MRead SdSerial; MRead SdCurrent; MWrite SdListDiff 0; MWrite SdCurrent 0; MWrite SdSerial 0]
  | CClientConnected => connect 1
  | CClientDisconnected => connect (-1)
  | CGetClientList => client_list
  | CDisconnect k => disconnect k
  | CSetMaxConn [] => [MRead Connected; MWrite MaxConn 0]
  | CSetMaxConn cs => [MRead Connected; MRead Connected] ++ client_list ++ flat_map disconnect cs ++ [MWrite MaxConn 0]
  | CAccept => [MRead MaxConn; MRead Connected; MRead MaxConn; MRead Connected; MRead MaxConn]
  | CSshBegin => bump 1
  | CSshEnd => bump (-1)
  | CStart k => MWrite (Live k) 0 :: connect 1
  | CLoop k => [MRead (Live k)]
  | CSetVersion k => [MWrite (Version k) 0]
  | CSend k => [MRead (Version k)]
  | CNotify cs => current_serial ++ client_list ++ flat_map (fun k => [MRead (Version k); MRead (Version k)]) cs
  | CSetExported => wsection JsonLock [MWrite Exported 0]
  | CDropCheck => [MRead Exported]
  | CExporter => rsection JsonLock [MRead Exported]
  | CUpdateFile => [MWrite LastTs 0; MRead HashCache; MRead HashCache; MWrite HashCache 0]
  | CUpdateSlurm => [MRead LastTs; MRead HashCache]
  | CFetchAsk => rsection CondLock [MRead ETags; MRead LastMods]
  | CFetchBad => wsection CondLock [MWrite ETags 0; MWrite LastMods 0]
  | CFetchETag same => MRead ETags :: if same then [] else wsection CondLock [MWrite ETags 0]
  | CFetchLast => wsection CondLock [MWrite LastMods 0]
  | CMonPdu k => wsection (CompRtrLock k) [MRead (MVrpsRtr k); MWrite (MVrpsRtr k) 0]
  | CMonEod k => wsection (CompRtrLock k) [MWrite (MSerial k) 0; MRead (MVrpsRtr k)] ++
      wsection (CompLock k) [MWrite (MVrps k) 0; MWrite (MTimers k) 0; MWrite (MLast k) 0]
  | CMonResponse k => [MWrite (MSession k) 0]
  | CMonPoll k => [MRead (MSession k); MRead (MSerial k)]
  | CMonFetch k => MRead (MVrps k) :: wsection (CompLock k) [MWrite (MVrps k) 0; MWrite (MLast k) 0]
  | CCompare => get_data 0 ++ get_data 1 ++ wsection DiffLock [MWrite OnlyIn 0; MWrite Metas 0]
  | CServeDiff => rsection DiffLock [MRead OnlyIn; MRead Metas]
  end.

(** Which goroutine may make which call.  [stayrtr]: goroutine 0 is that of the refreshes
    (stayrtr.go:539-629); the others are the connections of routers, the accept loops, the downloads and
    the HTTP handlers. *)
Definition stayrtr_may (i : nat) (c : scall) : bool :=
  match c with
  | CSetExported | CDropCheck => i =? 0
  | CMonPdu _ | CMonEod _ | CMonResponse _ | CMonPoll _ | CMonFetch _ | CCompare | CServeDiff => false
  | _ => true
  end.
(** rtrmon: goroutine [k] fetches source [k] if this is a file ([files]); the sessions of an RTR source, the
    pollers, the comparator and the HTTP handlers are the others.  rtrmon.go:254-361, 885-930. *)
Definition rtrmon_may (files : nat -> bool) (i : nat) (c : scall) : bool :=
  match c with
  | CMonFetch k => files k && (i =? k)
  | CMonPdu k | CMonEod k | CMonResponse k | CMonPoll k => negb (files k)
  | CCompare | CServeDiff => true
  | _ => false
  end.
(** No counterpart in /repo: goroutines (lib/server.go:763) that make the given calls. *)
Definition goroutines (pss : list (list scall)) : mstate := mx_start (map (flat_map body) pss).
