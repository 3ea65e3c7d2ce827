(** The RTR server as a whole, /repo/lib/server.go:403-822 and 1011-1032: accept loop,
    one reader and one sender goroutine per connection, and the notifier, interleaved
    in every possible way.  One step is one access to shared state: a channel operation,
    a critical section of clientlock, or a read or write of c.connected, c.version or
    s.connected.  (These last are unsynchronised in the code; each is taken as atomic.)
    The three actions of Start (c.connected = true, ClientConnected, go sendLoop, 758-763) are
    one step.  Reads of the cache are not interleaved here (see Model/ConcCache.v): a handler finds
    some cache, given in the label of its step. *)
From Verif Require Export Model.Conn Model.ConcCache.

(** What the reader goroutine still has to do for the PDU it is handling: SetVersion,
    the channel send in SendRawPDU (1011-1013), and the three parts of Disconnect
    (1020-1032): clearing c.connected, ClientDisconnected, the non-blocking send on
    quit. lib/server.go:460, 721, 1011-1032. *)
Inductive op := OSet (v : N) | OPut (p : pdu) | OFlag | ODisc | OQuit.
(** The calls of SendPDU and Disconnect, lib/server.go:1011-1032, taken apart. *)
Definition ops (a : list act) : list op :=
  flat_map (fun x => match x with Queue p => [OPut p] | Disc => [OFlag; ODisc; OQuit] end) a.

(** [process] of Model/Conn.v (lib/server.go:786-812) with the writes to c.version
    shown: by checkVersion (721) and by HandlePDU (460). *)
Definition process_ops (srv : rtrserver) (cache : server) (c : client) (dec : pdu)
  : res (client * list op) Empty_set :=
  let '(c1, a1) := if c_disableVC c then (c, []) else check_version c (get_version dec) in
  let '(c2, a2) :=
    if c_enforce c1 then
      if negb (is_correct_pdu_version dec (c_version c1))
      then let '(c', a) := disconnect c1 in (c', send_wrong_version_error c1 ++ a)
      else (c1, [])
    else (c1, []) in
  let c3 := match dec with SerialQuery _ _ serial => c_set_curserial serial c2 | _ => c2 end in
  let '(c4, a4) := server_handle_pdu srv c3 in
  do r <- pass_simple_handler srv cache c4 dec;
  Ok (fst r, OSet (c_version c1) :: ops a1 ++ ops a2 ++ ops a4 ++ OSet (c_version c4) :: ops (snd r)).

(** One iteration of the read loop, lib/server.go:766-813, as in [on_read]. *)
Definition read_ops (srv : rtrserver) (cache : server) (c : client) (chunk : bytes)
  : res (client * list op) Empty_set :=
  match chunk with
  | [] => let '(c', a) := disconnect c in Ok (c', ops a)
  | _ =>
    match decode_bytes 64 chunk with
    | Err _ => let '(c', a) := disconnect c in Ok (c', ops a)
    | Panic => Panic
    | Ok dec => process_ops srv cache c dec
    end
  end.

(** The sender goroutine, lib/server.go:744-755: not started; about to test c.connected
    (747); about to execute the select (748); parked in it, both channels empty; writing
    (750); returned, connection closed (745). *)
Inductive spc := SNone | SCheck | SEnter | SParked | SWrite (p : pdu) | SDone.
(** The connection's own goroutine: accepted, not started (506); in acceptClientSSH past
    [s.connected++] (517); in Start (757-815); Start has returned.
    lib/server.go:488-575, 757-815. *)
Inductive phase := Accepted | SshBegun | Running | Ended.

(** A connection.  [k_cli] is the client as the reader sees it after the PDU being
    handled, [k_ver] and [k_flag] the shared c.version and c.connected, [k_prog] what is
    left to do for that PDU, [k_wire] all bytes written so far, [k_up] whether writes
    still succeed.  [k_queued] is a history variable: all PDUs ever put on the channel.
    The fields of Client, lib/server.go:658-682. *)
Record conn := mkConn {
  k_tr : transport; k_phase : phase; k_cli : client; k_ver : N; k_flag : bool;
  k_prog : list op; k_queue : list pdu; k_pc : spc; k_wire : bytes; k_up : bool;
  k_queued : list pdu
}.
(** No counterpart in /repo: assignment to fields of Client, lib/server.go:658-682. *)
Definition k_set_phase ph k := mkConn (k_tr k) ph (k_cli k) (k_ver k) (k_flag k)
  (k_prog k) (k_queue k) (k_pc k) (k_wire k) (k_up k) (k_queued k).
(** No counterpart in /repo: assignment to fields of Client, lib/server.go:658-682. *)
Definition k_set_read c prog k := mkConn (k_tr k) (k_phase k) c (k_ver k) (k_flag k)
  prog (k_queue k) (k_pc k) (k_wire k) (k_up k) (k_queued k).
(** No counterpart in /repo: assignment to fields of Client, lib/server.go:658-682. *)
Definition k_set_ver v k := mkConn (k_tr k) (k_phase k) (k_cli k) v (k_flag k)
  (k_prog k) (k_queue k) (k_pc k) (k_wire k) (k_up k) (k_queued k).
(** No counterpart in /repo: assignment to fields of Client, lib/server.go:658-682. *)
Definition k_set_flag b k := mkConn (k_tr k) (k_phase k) (k_cli k) (k_ver k) b
  (k_prog k) (k_queue k) (k_pc k) (k_wire k) (k_up k) (k_queued k).
(** No counterpart in /repo: assignment to fields of Client, lib/server.go:658-682. *)
Definition k_set_prog prog k := mkConn (k_tr k) (k_phase k) (k_cli k) (k_ver k) (k_flag k)
  prog (k_queue k) (k_pc k) (k_wire k) (k_up k) (k_queued k).
(** No counterpart in /repo: assignment to fields of Client, lib/server.go:658-682. *)
Definition k_set_pc pc k := mkConn (k_tr k) (k_phase k) (k_cli k) (k_ver k) (k_flag k)
  (k_prog k) (k_queue k) pc (k_wire k) (k_up k) (k_queued k).
(** No counterpart in /repo: assignment to fields of Client, lib/server.go:658-682. *)
Definition k_set_queue q pc k := mkConn (k_tr k) (k_phase k) (k_cli k) (k_ver k) (k_flag k)
  (k_prog k) q pc (k_wire k) (k_up k) (k_queued k).
(** No counterpart in /repo: assignment to fields of Client, lib/server.go:658-682. *)
Definition k_set_wire b up k := mkConn (k_tr k) (k_phase k) (k_cli k) (k_ver k) (k_flag k)
  (k_prog k) (k_queue k) SCheck b up (k_queued k).

(** ClientFromConn, lib/server.go:639-649, and the accept functions: [accept] of
    Model/Conn.v.  c.connected is false until Start. *)
Definition new_conn (tr : transport) (srv : rtrserver) : conn :=
  let c := accept tr srv in
  mkConn tr Accepted c (c_version c) false [] [] SNone [] true [].

(** A send on the channel transmits (capacity 256, 646): handed to the sender if it is
    parked, buffered if there is room, otherwise it blocks ([None]).
    lib/server.go:1011-1013. *)
Definition put (k : conn) (p : pdu) : option conn :=
  match k_pc k with
  | SParked => Some (mkConn (k_tr k) (k_phase k) (k_cli k) (k_ver k) (k_flag k)
      (k_prog k) (k_queue k) (SWrite p) (k_wire k) (k_up k) (k_queued k ++ [p]))
  | pc => if nlen (k_queue k) <? 256
          then Some (mkConn (k_tr k) (k_phase k) (k_cli k) (k_ver k) (k_flag k)
            (k_prog k) (k_queue k ++ [p]) pc (k_wire k) (k_up k) (k_queued k ++ [p]))
          else None
  end.

(** The outcome of a Write: everything, or an error after [n] bytes.  The error is
    ignored (750); later Writes on the connection then fail too. lib/server.go:750. *)
Inductive wout := WAll | WFail (n : nat).

(** A step of the sender, lib/server.go:744-755. *)
Definition sender_step (k : conn) (o : wout) : res conn Empty_set :=
  match k_pc k with
  | SNone | SParked | SDone => Ok k
  | SCheck => Ok (k_set_pc (if k_flag k then SEnter else SDone) k)
  | SEnter => match k_queue k with
              | [] => Ok (k_set_pc SParked k)
              | p :: q => Ok (k_set_queue q (SWrite p) k)
              end
  | SWrite p =>
      do b <- encode p;
      Ok (if k_up k then
            match o with
            | WAll => k_set_wire (k_wire k ++ b) true k
            | WFail n => k_set_wire (k_wire k ++ firstn n b) false k
            end
          else k_set_wire (k_wire k) false k)
  end.

(** NotifyClientsLatest, lib/server.go:631-637 with Notify (816-822): not running; at the
    head of the loop; the session id has been looked up; the PDU has its version and is
    to be put on the channel. *)
Inductive notifier :=
| NIdle
| NLoop (serial : N) (rest : list nat)
| NSess (serial sess : N) (i : nat) (rest : list nat)
| NPut (p : pdu) (serial : N) (i : nat) (rest : list nat).

(** s.connected, s.clients (as positions in the list of all connections ever made), the
    connections and the notifier. The fields of Server, lib/server.go:123-151. *)
Record net := mkNet { n_count : Z; n_clients : list nat; n_conns : list conn; n_notif : notifier }.
(** A server without clients, lib/server.go:172-217. *)
Definition empty_net : net := mkNet 0 [] [] NIdle.

(** The steps, with the lines of lib/server.go they stand for. *)
Inductive label :=
| LAccept (tr : transport)                          (* a connection arrives, 579-603 *)
| LSshBegin (i : nat)                               (* s.connected++, 517 *)
| LStart (i : nat)                                  (* Start, 757-763 *)
| LRead (i : nat) (cache : server) (chunk : bytes)  (* Read returns, 766-813 *)
| LReader (i : nat)                                 (* next step of the reader *)
| LReturn (i : nat)                                 (* Start returns; SSH: 567-568 *)
| LSender (i : nat) (o : wout)                      (* next step of the sender *)
| LNotify (serial : N)                              (* NotifyClientsLatest is called *)
| LNotifier.                                        (* its next step *)

(** No counterpart in /repo: replaces a connection (lib/server.go:658-682). *)
Definition with_conn (w : net) (i : nat) (k : conn) : net :=
  mkNet (n_count w) (n_clients w) (set_nth (n_conns w) i k) (n_notif w).

(** ClientConnected (422-431) and ClientDisconnected (433-448): one critical section of
    clientlock each; the counter is decremented whether or not the client was listed.
    lib/server.go:422-431. *)
Definition client_connected (w : net) (i : nat) : net :=
  mkNet (n_count w + 1) (n_clients w ++ [i]) (n_conns w) (n_notif w).
(** lib/server.go:433-448. *)
Definition client_disconnected (w : net) (i : nat) : net :=
  mkNet (n_count w - 1) (filter (fun j => negb (Nat.eqb j i)) (n_clients w)) (n_conns w) (n_notif w).

(** The next operation of a reader; blocked operations leave the state unchanged.  The
    send on quit succeeds only if the sender is parked, otherwise the default branch is
    taken (1028-1031). lib/server.go:766-813, 1011-1032. *)
Definition reader_step (w : net) (i : nat) (k : conn) : net :=
  match k_prog k with
  | [] => w
  | OSet v :: r => with_conn w i (k_set_prog r (k_set_ver v k))
  | OPut p :: r => match put k p with Some k' => with_conn w i (k_set_prog r k') | None => w end
  | OFlag :: r => with_conn w i (k_set_prog r (k_set_flag false k))
  | ODisc :: r => client_disconnected (with_conn w i (k_set_prog r k)) i
  | OQuit :: r => with_conn w i (k_set_prog r
                    (match k_pc k with SParked => k_set_pc SDone k | _ => k end))
  end.

(** The next step of the notifier. lib/server.go:631-637, 816-822. *)
Definition notifier_step (srv : rtrserver) (w : net) : res net Empty_set :=
  let upd n := mkNet (n_count w) (n_clients w) (n_conns w) n in
  match n_notif w with
  | NIdle => Ok w
  | NLoop serial [] => Ok (upd NIdle)
  | NLoop serial (i :: rest) =>
      match nth_error (n_conns w) i with
      | Some k => do sess <- get_session_id srv (k_ver k); Ok (upd (NSess serial sess i rest))
      | None => Ok w
      end
  | NSess serial sess i rest =>
      match nth_error (n_conns w) i with
      | Some k => Ok (upd (NPut (SerialNotify (k_ver k) sess serial) serial i rest))
      | None => Ok w
      end
  | NPut p serial i rest =>
      match nth_error (n_conns w) i with
      | Some k => match put k p with
                  | Some k' => Ok (mkNet (n_count w) (n_clients w) (set_nth (n_conns w) i k') (NLoop serial rest))
                  | None => Ok w
                  end
      | None => Ok w
      end
  end.

(** One step of the server; a step that is not possible leaves it unchanged.
    lib/server.go:403-822, 1011-1032. *)
Definition nstep (srv : rtrserver) (w : net) (l : label) : res net Empty_set :=
  let on i f := match nth_error (n_conns w) i with Some k => f k | None => Ok w end in
  match l with
  | LAccept tr =>
      (* loopTCP, 588: the limit is compared with the counter as it is now *)
      if ((0 <? s_maxconn srv) && (s_maxconn srv <=? n_count w))%Z then Ok w
      else Ok (mkNet (n_count w) (n_clients w) (n_conns w ++ [new_conn tr srv]) (n_notif w))
  | LSshBegin i => on i (fun k =>
      match k_phase k, k_tr k with
      | Accepted, SSH => Ok (mkNet (n_count w + 1) (n_clients w)
                          (set_nth (n_conns w) i (k_set_phase SshBegun k)) (n_notif w))
      | _, _ => Ok w
      end)
  | LStart i => on i (fun k =>
      let go := Ok (client_connected (with_conn w i
                  (k_set_phase Running (k_set_pc SCheck (k_set_flag true k)))) i) in
      match k_phase k, k_tr k with
      | Accepted, TCP | Accepted, TLS | SshBegun, _ => go
      | _, _ => Ok w
      end)
  | LRead i cache chunk => on i (fun k =>
      match k_phase k, k_prog k, k_flag k with
      | Running, [], true =>
          do r <- read_ops srv cache (k_cli k) chunk;
          Ok (with_conn w i (k_set_read (fst r) (snd r) k))
      | _, _, _ => Ok w
      end)
  | LReader i => on i (fun k => Ok (reader_step w i k))
  | LReturn i => on i (fun k =>
      match k_phase k, k_prog k, k_flag k with
      | Running, [], false =>
          Ok (mkNet (match k_tr k with SSH => n_count w - 1 | _ => n_count w end) (n_clients w)
                    (set_nth (n_conns w) i (k_set_phase Ended k)) (n_notif w))
      | _, _, _ => Ok w
      end)
  | LSender i o => on i (fun k => do k' <- sender_step k o; Ok (with_conn w i k'))
  | LNotify serial =>
      (* GetCurrentSerial and GetClientList, 632-633, 623-629 *)
      match n_notif w with
      | NIdle => Ok (mkNet (n_count w) (n_clients w) (n_conns w) (NLoop serial (n_clients w)))
      | _ => Ok w
      end
  | LNotifier => notifier_step srv w
  end.

(** Any interleaving, lib/server.go:403-822, 1011-1032. *)
Fixpoint nrun (srv : rtrserver) (w : net) (sched : list label) : res net Empty_set :=
  match sched with [] => Ok w | l :: r => do w' <- nstep srv w l; nrun srv w' r end.
