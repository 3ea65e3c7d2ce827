(** Model of the polling of an RTR source by rtrmon, /repo/cmd/rtrmon/rtrmon.go: the goroutine of
    Start (262-325) with HandlePDU (467-567), ClientConnected (569-578) and ClientDisconnected
    (580-593), and the goroutines continuousRTR (595-613), one for each session, interleaved.

    Only what the Serial Queries depend on: the fields sessionID, serial, qrtr and unlock.  What
    becomes of a query once it was handed to its session is in ClientConc.v; that the call may wait
    for room there is covered by the poller taking its step late.  Time is not modelled: a timer may
    have run out whenever it is looked at. *)
From Verif Require Export Model.Pdu.
Local Open Scope nat_scope.

(** Sessions are numbered.  The channels c.qrtr and c.unlock made for a session have its number.
    rtrmon.go:309-310.

    The goroutine of Start: before the next session (268-308), dialling (315), connected (reading
    PDUs), at <-c.qrtr (321), and after log.Fatal (318). *)
Inductive spc := SBetween | SDialling | SConnected | SQuitting | SFatal.
(** continuousRTR, rtrmon.go:595-613: before and in the first select, with the channels it looked
    up ([PWait unlock qrtr]); at the top of the loop and in its select; the timer has run out;
    sessionID has been read (611); it has returned. *)
Inductive ppc := PFirst | PWait (u q : nat) | PTop | PSelect (q : nat) | PFire | PHalf (sess : N) | PEnd.
(** One continuousRTR: the number of the session it got as argument, and where it is.
    rtrmon.go:312, 595. *)
Record poller := mkPl { pl_of : nat; pl_pc : ppc }.
(** [y_cur]: the number of the session made last, which is that of the channels in the fields qrtr
    and unlock (rtrmon.go:227, 236); [y_quit], [y_unlock]: those of the channels that are closed;
    [y_sess], [y_serial]: the fields sessionID and serial (219-220). *)
Record ystate := mkY {
  y_pc : spc; y_cur : nat; y_quit : list nat; y_unlock : list nat; y_sess : N; y_serial : N; y_polls : list poller
}.
(** NewClient, rtrmon.go:245-252, and the beginning of Start. *)
Definition yinit : ystate := mkY SBetween 0 [] [] 0%N 0%N [].

(** A new session; it is connected or cannot be; a PDU is handled; the connection ends; Start goes on
    after <-c.qrtr; poller number [i] takes a step, [b]: which case of a select if there are two.
    rtrmon.go:262-325, 467-567, 595-613. *)
Inductive ylabel := YNew | YDial (ok : bool) | YPdu (p : pdu) | YEnd | YQuit | YPoll (i : nat) (b : bool).
(** A Serial Query: the number of the session, and what it carries.  rtrmon.go:611. *)
Definition query := (nat * N * N)%type.

(** No counterpart in /repo: where the goroutine of Start is (rtrmon.go:254-368). *)
Definition set_spc (pc : spc) (s : ystate) : ystate :=
  mkY pc (y_cur s) (y_quit s) (y_unlock s) (y_sess s) (y_serial s) (y_polls s).
(** Is the channel closed?  (Go language; rtrmon.go:582, 600-601, 607.) *)
Definition closed (k : nat) (l : list nat) : bool := existsb (Nat.eqb k) l.
(** ClientDisconnected, rtrmon.go:580-586. *)
Definition client_disconnected (s : ystate) : ystate :=
  if closed (y_cur s) (y_quit s) then s
  else mkY (y_pc s) (y_cur s) (y_cur s :: y_quit s) (y_unlock s) (y_sess s) (y_serial s) (y_polls s).
(** HandlePDU, rtrmon.go:467-567, and where StartRW goes on (lib/client.go:111-134): it reads the next
    PDU or, after a Disconnect, returns nil. *)
Definition yhandle (brk : bool) (s : ystate) (p : pdu) : ystate :=
  match p with
  | IPv4Prefix _ _ _ _ _ | IPv6Prefix _ _ _ _ _ | RouterKey _ _ _ _ _ | CacheReset _ | SerialNotify _ _ _ => s
  | CacheResponse _ sess => mkY (y_pc s) (y_cur s) (y_quit s) (y_unlock s) sess (y_serial s) (y_polls s)
  | EndOfData _ _ serial _ _ _ =>
      let s := mkY (y_pc s) (y_cur s) (y_quit s) (y_unlock s) (y_sess s) serial (y_polls s) in
      if brk then set_spc SQuitting (client_disconnected s) else s
  | SerialQuery _ _ _ | ResetQuery _ | ErrorReport _ _ _ _ => set_spc SQuitting (client_disconnected s)
  end.
(** A step of continuousRTR and the query it sends, rtrmon.go:595-613. *)
Definition poll_step (s : ystate) (p : poller) (b : bool) : option (ppc * option query) :=
  match pl_pc p with
  | PFirst => Some (PWait (y_cur s) (y_cur s), None)
  | PWait u q =>
      if b then if closed u (y_unlock s) then Some (PTop, None) else None
      else if closed q (y_quit s) then Some (PEnd, None) else None
  | PTop => Some (PSelect (y_cur s), None)
  | PSelect q => if b then Some (PFire, None) else if closed q (y_quit s) then Some (PEnd, None) else None
  | PFire => Some (PHalf (y_sess s), None)
  | PHalf sess => Some (PTop, Some (pl_of p, sess, y_serial s))
  | PEnd => None
  end.
(** Assignment to an element (Go language); there is none if the number is too large. *)
Fixpoint set_poll (i : nat) (x : poller) (l : list poller) : list poller :=
  match l, i with
  | [], _ => []
  | _ :: l, 0 => x :: l
  | y :: l, S i => y :: set_poll i x l
  end.
(** One step and the query it sends; [None]: not possible.  [brk]: -*.rtr.break (rtrmon.go:311, 555).
    rtrmon.go:262-325, 467-613, lib/client.go:111-134. *)
Definition ystep (brk : bool) (s : ystate) (l : ylabel) : option (ystate * option query) :=
  match l, y_pc s with
  | YNew, SBetween =>
      let k := S (y_cur s) in
      Some (mkY SDialling k (y_quit s) (y_unlock s) (y_sess s) (y_serial s)
              (if brk then y_polls s else y_polls s ++ [mkPl k PFirst]), None)
  | YDial true, SDialling =>
      Some (mkY SConnected (y_cur s) (y_quit s) (y_cur s :: y_unlock s) (y_sess s) (y_serial s) (y_polls s), None)
  | YDial false, SDialling => Some (set_spc SFatal s, None)
  | YPdu p, SConnected => Some (yhandle brk s p, None)
  | YEnd, SConnected => Some (set_spc SFatal (client_disconnected s), None)
  | YQuit, SQuitting => if closed (y_cur s) (y_quit s) then Some (set_spc SBetween s, None) else None
  | YPoll i b, SFatal => None
  | YPoll i b, _ =>
      match nth_error (y_polls s) i with
      | None => None
      | Some p =>
          match poll_step s p b with
          | None => None
          | Some (pc, q) =>
              Some (mkY (y_pc s) (y_cur s) (y_quit s) (y_unlock s) (y_sess s) (y_serial s)
                      (set_poll i (mkPl (pl_of p) pc) (y_polls s)), q)
          end
      end
  | _, _ => None
  end.
(** Any interleaving; the queries sent, with the label.  rtrmon.go:262-325, 467-613. *)
Fixpoint yrun (brk : bool) (s : ystate) (sched : list ylabel) : option (ystate * list query) :=
  match sched with
  | [] => Some (s, [])
  | l :: r =>
      match ystep brk s l with
      | None => None
      | Some (s', q) =>
          match yrun brk s' r with
          | None => None
          | Some (s2, qs) => Some (s2, match q with Some q => q :: qs | None => qs end)
          end
      end
  end.
