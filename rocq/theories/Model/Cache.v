(** Model of the data part of Server, /repo/lib/server.go:123-392.  Locking is not
    modelled here: each function is one atomic step (see Model/ConcCache.v for the
    interleavings). *)
From Verif Require Export Model.Data.

(** The fields of Server used by these functions, lib/server.go:139-143. *)
Record server := mkServer {
  sdListDiff : list (list sd);
  sdCurrent : list sd;
  sdCurrentSerial : N;
  keepDiff : Z
}.

(** NewServer, lib/server.go:192-217, data part (serial is Go's zero value). *)
Definition new_server (keep : Z) : server := mkServer [] [] 0 keep.

(** getCurrentSerial, lib/server.go:332-334. *)
Definition get_current_serial (s : server) : N * bool :=
  (sdCurrentSerial s, match sdCurrent s with [] => false | _ => true end).

(** GetCurrentSDs, lib/server.go:295-300. *)
Definition get_current_sds (s : server) : list sd := sdCurrent s.

(** CountSDs, lib/server.go:344-349. *)
Definition count_sds (s : server) : N := nlen (sdCurrent s).

(** generateSerial, lib/server.go:336-342 (uint32 wraps). *)
Definition generate_serial (s : server) : N :=
  match sdCurrent s with [] => sdCurrentSerial s | _ => u32add (sdCurrentSerial s) 1 end.

(** getSDsSerialDiff, lib/server.go:309-323.  [Err tt] is (nil, false). *)
Definition get_sds_serial_diff (s : server) (serial : N) : res (list sd) unit :=
  if serial =? sdCurrentSerial s then Ok []
  else if sdCurrentSerial s <? serial then Err tt
  else
    let diff := sdCurrentSerial s - serial in
    if nlen (sdListDiff s) <? diff then Err tt
    else match nth_error (sdListDiff s) (length (sdListDiff s) - N.to_nat diff) with
         | Some d => Ok d
         | None => Panic
         end.

(** AddSDsDiff, lib/server.go:371-392.  [make(.., len+1)] leaves one nil entry
    after the merged diffs, before the appended one. *)
Definition add_sds_diff (s : server) (diff : list sd) : server :=
  let nextDiff := map (apply_diff diff) (sdListDiff s) ++ [[]] in
  let nextDiff := nextDiff ++ [diff] in
  let n := length nextDiff in
  let nextDiff := if ((0 <? keepDiff s) && (keepDiff s <? Z.of_nat n))%Z
                  then skipn (n - Z.to_nat (keepDiff s)) nextDiff else nextDiff in
  mkServer nextDiff (apply_diff diff (sdCurrent s)) (generate_serial s) (keepDiff s).

(** AddData, lib/server.go:351-369. *)
Definition add_data (s : server) (new : list sd) : server * bool :=
  let '(added, removed, _) := compute_diff new (sdCurrent s) false in
  let cur := added ++ removed in
  match cur with [] => (s, false) | _ => (add_sds_diff s cur, true) end.
