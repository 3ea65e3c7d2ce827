(** Model of how the daemon uses file descriptors: the accept loop, loopTCP,
    /repo/lib/server.go:577-604, beside the refreshes, which open a file or a connection
    (FetchFile, /repo/utils/utils.go:50-172).

    The kernel: accept and open fail (EMFILE) if the process has as many descriptors as it may
    have, and work otherwise; accept does so whether anybody waits or not, as it takes the
    descriptor first.  A file opened at utils.go:162 is never closed by the program; the
    finalizer of os.File closes it when the garbage collector has found that nobody has it any
    more.  What an HTTP request takes is given back at the end (113-117).  Simplified: one
    listener; FetchFile is one step; connections are counted exactly and at once (C25, C26
    have what the counter really does); a collection closes all such files in one step; HTTP
    clients and the listener's queue being full are left out. *)
From Verif Require Export Model.Main.
From Coq Require Import List.
Import ListNotations.
Local Open Scope list_scope.

(** How many descriptors there may be, how many are in use apart from clients and refreshes
    (listeners, logs), Server.maxconn, lib/server.go:587, and whether the file is no URL, utils.go:53. *)
Record dconf := mkDC { dc_limit : nat; dc_base : nat; dc_maxconn : nat; dc_local : bool }.
(** What happens, lib/server.go:577-604, utils.go:162: a connection is taken (596-597), or
    closed at once (591), Accept fails and the loop begins again (580-585); a client has gone
    and its socket is closed; a refresh opens its file, or cannot; the garbage collector runs. *)
Inductive devent := Taken | Refused | AcceptFails | Leaves | Opens | CannotOpen | Collects.
(** Connections in the listener's queue, connections being served, files that were opened and
    not closed, and the events, lib/server.go:577-604, utils.go:162. *)
Record dstate := mkDS { ds_waiting : nat; ds_open : nat; ds_files : nat; ds_log : list devent }.
(** Before the first connection, lib/server.go:577. *)
Definition ds_start : dstate := mkDS 0 0 0 [].
(** Whether one more descriptor can be had (the kernel; used at lib/server.go:579, utils.go:162). *)
Definition fd_left (c : dconf) (s : dstate) : bool := Nat.ltb (dc_base c + ds_open s + ds_files s) (dc_limit c).
(** Steps: somebody connects; a turn of the loop, lib/server.go:579-602; a client served goes;
    FetchFile, utils.go:50-172, called at stayrtr.go:465, 500; the garbage collector. *)
Inductive dstep := DConnect | DTurn | DLeave | DRefresh | DCollect.
(** No counterpart in /repo: the event [e] and the new numbers (lib/server.go:577-604). *)
Definition ds_next (w o f : nat) (e : devent) (s : dstate) : option dstate := Some (mkDS w o f (ds_log s ++ [e])).
(** One turn of the loop, lib/server.go:579-602; [None]: Accept waits. *)
Definition accept_turn (c : dconf) (s : dstate) : option dstate :=
  if fd_left c s then
    match ds_waiting s with
    | O => None
    | S w => if Nat.ltb 0 (dc_maxconn c) && Nat.leb (dc_maxconn c) (ds_open s)
             then ds_next w (ds_open s) (ds_files s) Refused s
             else ds_next w (S (ds_open s)) (ds_files s) Taken s
    end
  else ds_next (ds_waiting s) (ds_open s) (ds_files s) AcceptFails s.
(** FetchFile as far as descriptors go, utils.go:50-172: 162 without a Close. *)
Definition fetch_turn (c : dconf) (s : dstate) : option dstate :=
  if fd_left c s then ds_next (ds_waiting s) (ds_open s) (if dc_local c then S (ds_files s) else ds_files s) Opens s
  else ds_next (ds_waiting s) (ds_open s) (ds_files s) CannotOpen s.
(** One step, lib/server.go:577-604, utils.go:50-172. *)
Definition dstep_fn (c : dconf) (s : dstate) (l : dstep) : option dstate :=
  match l with
  | DConnect => Some (mkDS (S (ds_waiting s)) (ds_open s) (ds_files s) (ds_log s))
  | DTurn => accept_turn c s
  | DLeave => match ds_open s with O => None | S o => ds_next (ds_waiting s) o (ds_files s) Leaves s end
  | DRefresh => fetch_turn c s
  | DCollect => ds_next (ds_waiting s) (ds_open s) 0 Collects s
  end.
(** A schedule, lib/server.go:577-604, utils.go:50-172. *)
Fixpoint drun (c : dconf) (s : dstate) (tr : list dstep) : option dstate :=
  match tr with
  | [] => Some s
  | l :: tr' => match dstep_fn c s l with Some s' => drun c s' tr' | None => None end
  end.
(** What run makes of the flags, stayrtr.go:755-768: MaxConn, whatever -maxconn (90) says. *)
Definition daemon_fds (limit base : nat) (f : flags) (local : bool) : dconf :=
  mkDC limit base (Z.to_nat (cfg_maxConn (server_config f))) local.
