(** A session of the client library with its goroutines, /repo/lib/client.go:55-131: the
    goroutine in StartRW, the sender (sendLoop), and other goroutines that call SendPDU (in
    rtrmon continuousRTR, cmd/rtrmon/rtrmon.go:595-613), interleaved in every possible way.
    One step is one access to shared state: c.connected, c.version or a channel.  (The
    first two are unsynchronised in the code; each access is taken as atomic.)  Connecting
    (133-210) comes before and is not modelled; c.wr is not nil then. *)
From Verif Require Export Model.Session.

(** What a handler does with the session: SendPDU or Disconnect, lib/client.go:68-71, 90-103. *)
Inductive hact := HSend (p : pdu) | HDisc.
(** These taken apart.  SendPDU: reading c.version (69), the send on the channel (74).
    Disconnect: clearing c.connected (91), ClientDisconnected of the handler (94), the
    non-blocking send on quit (96-100), closing the connection (102).
    lib/client.go:68-75, 90-103. *)
Inductive cop := CStamp (p : pdu) | CPut (p : pdu) | CFlag | CGone | CQuit | CClose.
(** lib/client.go:68-75, 90-103. *)
Definition disc_ops : list cop := [CFlag; CGone; CQuit; CClose].
(** lib/client.go:68-75, 90-103. *)
Definition cops (l : list hact) : list cop :=
  flat_map (fun a => match a with HSend p => [CStamp p] | HDisc => disc_ops end) l.

(** The sender, lib/client.go:77-88: not started; about to test c.connected (78); about to
    execute the select (79); parked in it; writing (82); returned. *)
Inductive cspc := CSNone | CSCheck | CSEnter | CSParked | CSWrite (p : pdu) | CSDone.
(** StartRW, lib/client.go:105-131: at its beginning; in the loop; disconnecting after a PDU that
    cannot be decoded (116-117); returned. *)
Inductive rpc := RBegin | RLoop | RFail (e : derr) | REnd (e : ending).

(** A session: c.version, c.connected, StartRW with what it still has to do, the state of the
    handler, what the peer will still send before it closes the connection, the PDUs other
    goroutines are about to put on the channel, the channel, the sender, the bytes written and
    whether writes still succeed.  [cc_queued] is a history variable: all PDUs ever put on the
    channel.  lib/client.go:19-33. *)
Record cc (H : Type) := mkCC {
  cc_ver : N; cc_flag : bool; cc_pc : rpc; cc_prog : list cop; cc_st : H; cc_in : bytes;
  cc_pend : list pdu; cc_queue : list pdu; cc_spc : cspc; cc_wire : bytes; cc_up : bool;
  cc_queued : list pdu
}.
Arguments mkCC {H}.
Arguments cc_ver {H}. Arguments cc_flag {H}. Arguments cc_pc {H}. Arguments cc_prog {H}.
Arguments cc_st {H}. Arguments cc_in {H}. Arguments cc_pend {H}. Arguments cc_queue {H}.
Arguments cc_spc {H}. Arguments cc_wire {H}. Arguments cc_up {H}. Arguments cc_queued {H}.
(** No counterpart in /repo: assignment to fields of ClientSession, lib/client.go:19-33. *)
Definition cc_set_read {H} v pc prog (st : H) b (x : cc H) := mkCC v (cc_flag x) pc prog st b (cc_pend x) (cc_queue x)
  (cc_spc x) (cc_wire x) (cc_up x) (cc_queued x).
(** No counterpart in /repo: as above, lib/client.go:19-33. *)
Definition cc_set_prog {H} prog (x : cc H) := cc_set_read (cc_ver x) (cc_pc x) prog (cc_st x) (cc_in x) x.
(** No counterpart in /repo: as above, lib/client.go:19-33. *)
Definition cc_set_pc {H} pc (x : cc H) := cc_set_read (cc_ver x) pc (cc_prog x) (cc_st x) (cc_in x) x.
(** No counterpart in /repo: as above, lib/client.go:19-33. *)
Definition cc_set_flag {H} b (x : cc H) := mkCC (cc_ver x) b (cc_pc x) (cc_prog x) (cc_st x) (cc_in x) (cc_pend x) (cc_queue x)
  (cc_spc x) (cc_wire x) (cc_up x) (cc_queued x).
(** No counterpart in /repo: as above, lib/client.go:19-33. *)
Definition cc_set_pend {H} l (x : cc H) := mkCC (cc_ver x) (cc_flag x) (cc_pc x) (cc_prog x) (cc_st x) (cc_in x) l (cc_queue x)
  (cc_spc x) (cc_wire x) (cc_up x) (cc_queued x).
(** No counterpart in /repo: as above, lib/client.go:19-33. *)
Definition cc_set_sender {H} q s w u (x : cc H) := mkCC (cc_ver x) (cc_flag x) (cc_pc x) (cc_prog x) (cc_st x) (cc_in x) (cc_pend x)
  q s w u (cc_queued x).

(** A new session of which the peer sends [b]: NewClientSession (45-53), StartWithConn (133-140),
    StartWithSSH (142-149).  lib/client.go:45-53, 133-149. *)
Definition new_cc {H} (v : N) (st : H) (b : bytes) : cc H :=
  mkCC v true RBegin [] st b [] [] CSNone [] true [].

(** A send on the channel transmits (capacity 256, 48): handed to the sender if it is parked,
    buffered if there is room, otherwise it blocks ([None]).  lib/client.go:73-75. *)
Definition cput {H} (x : cc H) (p : pdu) : option (cc H) :=
  let go q s := Some (mkCC (cc_ver x) (cc_flag x) (cc_pc x) (cc_prog x) (cc_st x) (cc_in x) (cc_pend x)
                        q s (cc_wire x) (cc_up x) (cc_queued x ++ [p])) in
  match cc_spc x with
  | CSParked => go (cc_queue x) (CSWrite p)
  | s => if nlen (cc_queue x) <? 256 then go (cc_queue x ++ [p]) s else None
  end.

(** The outcome of a Write (82): everything, or an error after [n] bytes, which is ignored.
    lib/client.go:82. *)
Inductive cwout := CWAll | CWFail (n : nat).
(** A step of the sender, lib/client.go:77-88. *)
Definition csender {H} (x : cc H) (o : cwout) : res (cc H) Empty_set :=
  match cc_spc x with
  | CSNone | CSParked | CSDone => Ok x
  | CSCheck => Ok (cc_set_sender (cc_queue x) (if cc_flag x then CSEnter else CSDone) (cc_wire x) (cc_up x) x)
  | CSEnter => match cc_queue x with
               | [] => Ok (cc_set_sender [] CSParked (cc_wire x) (cc_up x) x)
               | p :: q => Ok (cc_set_sender q (CSWrite p) (cc_wire x) (cc_up x) x)
               end
  | CSWrite p =>
      do b <- encode p;
      Ok (if cc_up x then
            match o with
            | CWAll => cc_set_sender (cc_queue x) CSCheck (cc_wire x ++ b) true x
            | CWFail n => cc_set_sender (cc_queue x) CSCheck (cc_wire x ++ firstn n b) false x
            end
          else cc_set_sender (cc_queue x) CSCheck (cc_wire x) false x)
  end.

(** A step of StartRW, lib/client.go:105-131.  [handle] and [hello] are HandlePDU and
    ClientConnected of the handler. *)
Definition creader {H} (handle : H -> pdu -> H * list hact) (hello : list hact) (x : cc H) : res (cc H) Empty_set :=
  match cc_prog x with
  | CStamp p :: r => Ok (cc_set_prog (CPut (cs_send (cc_ver x) p) :: r) x)
  | CPut p :: r => match cput x p with Some x' => Ok (cc_set_prog r x') | None => Ok x end
  | CFlag :: r => Ok (cc_set_prog r (cc_set_flag false x))
  | CGone :: r => Ok (cc_set_prog r x)
  | CQuit :: r => Ok (cc_set_prog r (match cc_spc x with
                    | CSParked => cc_set_sender (cc_queue x) CSDone (cc_wire x) (cc_up x) x
                    | _ => x end))
  | CClose :: r => Ok (cc_set_prog r (cc_set_sender (cc_queue x) (cc_spc x) (cc_wire x) false x))
  | [] =>
      match cc_pc x with
      | RBegin => Ok (cc_set_sender (cc_queue x) CSCheck (cc_wire x) (cc_up x)
                        (cc_set_read (cc_ver x) RLoop (cops hello) (cc_st x) (cc_in x) x))
      | RLoop =>
          if cc_flag x then
            match decode 64 (cc_in x) with
            | Panic => Panic
            | Err e => Ok (cc_set_prog disc_ops (cc_set_pc (RFail e) x))
            | Ok (dec, b) =>
                let '(st, acts) := handle (cc_st x) dec in
                Ok (cc_set_read (downgrade (cc_ver x) dec) RLoop (cops acts) st b x)
            end
          else Ok (cc_set_pc (REnd Finished) x)
      | RFail e => Ok (cc_set_pc (REnd (Failed e)) x)
      | REnd _ => Ok x
      end
  end.

(** The steps: of StartRW; of the sender; another goroutine calls SendPDU (68-71); the [n]-th
    of those inside it goes on (73-75).  lib/client.go:68-131. *)
Inductive clabel := CRead | CSend (o : cwout) | CPoll (p : pdu) | CPend (n : nat).
(** One step; a step that is not possible leaves the session unchanged.  lib/client.go:55-131. *)
Definition cstep1 {H} (handle : H -> pdu -> H * list hact) (hello : list hact) (x : cc H) (l : clabel) : res (cc H) Empty_set :=
  match l with
  | CRead => creader handle hello x
  | CSend o => csender x o
  | CPoll p => Ok (cc_set_pend (cc_pend x ++ [cs_send (cc_ver x) p]) x)
  | CPend n => match nth_error (cc_pend x) n with
      | Some p => match cput x p with
          | Some x' => Ok (cc_set_pend (firstn n (cc_pend x) ++ skipn (S n) (cc_pend x)) x')
          | None => Ok x end
      | None => Ok x end
  end.
(** Any interleaving, lib/client.go:55-131. *)
Fixpoint crun {H} (handle : H -> pdu -> H * list hact) (hello : list hact) (x : cc H) (sched : list clabel) : res (cc H) Empty_set :=
  match sched with [] => Ok x | l :: r => do x' <- cstep1 handle hello x l; crun handle hello x' r end.
