(** Model of the timing of refreshes, /repo/cmd/stayrtr/stayrtr.go: updateDelay (531-537) and the
    loop of routineUpdate (543-629).  What a refresh does is in State.v, who triggers one in
    Trigger.v.

    Time is in nanoseconds.  The goroutine is never late: it takes no time from the end of a refresh
    to the select (545-553), and leaves the select as soon as it can.  time.Ticker is that of Go 1.23
    (go.mod:3): at most one tick waits to be received, ticks that find one waiting are lost, and
    Reset removes it. *)
From Verif Require Export Model.Go.
Local Open Scope Z_scope.

(** time.Second; the 30 seconds of stayrtr.go:533, 548. *)
Definition second : Z := 1000000000.
(** stayrtr.go:533, 548. *)
Definition half_minute : Z := 30 * second.
(** time.Duration(interval) * time.Second in 64 bits, stayrtr.go:535, 543, 552. *)
Definition duration (interval : Z) : Z := iwrap 64 (interval * second).

(** The head of the loop, the select, in a refresh.  stayrtr.go:545-629. *)
Inductive rpc := RHead | RSelect | RBusy.
(** The clock, whether s.lastchange is zero, initialSyncNotComplete, the ticker: its period, when
    it ticks next, whether a tick waits.  stayrtr.go:539-563, 671. *)
Record rstate := mkR {
  r_now : Z; r_zero : bool; r_flag : bool; r_period : Z; r_next : Z; r_full : bool; r_pc : rpc
}.
(** On entry to routineUpdate, stayrtr.go:543-544; [zero]: the first reading of the file failed
    (817-830).  NewTicker panics unless the interval is positive ([None]). *)
Definition rinit (interval now : Z) (zero : bool) : option rstate :=
  let p := duration interval in
  if p <=? 0 then None else Some (mkR now zero false p (now + p) false RHead).
(** Ticker.Reset, called in stayrtr.go:533, 535, 548, 552. *)
Definition reset (p : Z) (s : rstate) : rstate :=
  mkR (r_now s) (r_zero s) (r_flag s) p (r_now s + p) false (r_pc s).
(** No counterpart in /repo: where the loop is (stayrtr.go:545-629). *)
Definition at_pc (pc : rpc) (s : rstate) : rstate :=
  mkR (r_now s) (r_zero s) (r_flag s) (r_period s) (r_next s) (r_full s) pc.
(** updateDelay, stayrtr.go:531-537. *)
Definition update_delay (interval : Z) (s : rstate) : rstate :=
  reset (if r_zero s then half_minute else duration interval) s.
(** The head of the loop, stayrtr.go:546-554.  initialSyncNotComplete is never cleared. *)
Definition loop_head (interval : Z) (s : rstate) : rstate :=
  if r_zero s then
    let s := reset half_minute s in
    mkR (r_now s) (r_zero s) true (r_period s) (r_next s) (r_full s) (r_pc s)
  else if r_flag s then reset (duration interval) s else s.
(** [d] goes by, the ticker of stayrtr.go:543: the next tick after that, and whether one waits. *)
Definition pass (d : Z) (s : rstate) : rstate :=
  let now := r_now s + d in
  if r_next s <=? now
  then mkR now (r_zero s) (r_flag s) (r_period s)
           (r_next s + r_period s * ((now - r_next s) / r_period s + 1)) true (r_pc s)
  else mkR now (r_zero s) (r_flag s) (r_period s) (r_next s) (r_full s) (r_pc s).

(** Time goes by; the head of the loop; a tick, a SIGHUP, a trigger is received (556-562); a refresh
    ends, [ok]: it has read a file (492).  stayrtr.go:545-629. *)
Inductive rlabel := RPass (d : Z) | RLoop | RTick | RHup | RTrig | RDone (ok : bool).
(** stayrtr.go:545-629; [None]: not possible.  In the select no time goes by past a tick. *)
Definition rstep (interval : Z) (s : rstate) (l : rlabel) : option rstate :=
  match l, r_pc s with
  | RPass d, RSelect =>
      if (0 <=? d) && negb (r_full s) && (r_now s + d <=? r_next s) then Some (pass d s) else None
  | RPass d, RBusy => if 0 <=? d then Some (pass d s) else None
  | RLoop, RHead => Some (at_pc RSelect (loop_head interval s))
  | RTick, RSelect =>
      if r_full s
      then Some (mkR (r_now s) (r_zero s) (r_flag s) (r_period s) (r_next s) false RBusy) else None
  | RHup, RSelect | RTrig, RSelect => Some (at_pc RBusy (update_delay interval s))
  | RDone ok, RBusy =>
      Some (mkR (r_now s) (r_zero s && negb ok) (r_flag s) (r_period s) (r_next s) (r_full s) RHead)
  | _, _ => None
  end.
(** stayrtr.go:545-629. *)
Fixpoint rrun (interval : Z) (s : rstate) (sched : list rlabel) : option rstate :=
  match sched with
  | [] => Some s
  | l :: r => match rstep interval s l with Some s' => rrun interval s' r | None => None end
  end.
