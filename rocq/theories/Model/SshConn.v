(** Model of the goroutine of an SSH connection, acceptClientSSH, /repo/lib/server.go:516-571,
    after the handshake, and of the accept loop, loopTCP (577-604), with the handshake in it.

    The SSH library demultiplexes: global requests arrive on one Go channel, new SSH channels
    on another, the requests of each SSH channel on a third; all are closed when the
    connection ends.  The SSH client is the environment.  Their bounded sizes are not modelled. *)
From Coq Require Import String.
From Verif Require Export Model.Concurrent.
From Verif Require Import Lib.Str.
Local Open Scope string_scope.
Local Open Scope list_scope.
Local Open Scope N_scope.

(** A request on an SSH channel, lib/server.go:544-546: its type, its payload, and whether
    Reply (546) will succeed. *)
Record creq := mkReq { rq_type : bytes; rq_payload : bytes; rq_reply : bool }.
(** An SSH channel, lib/server.go:528-544: its type, whether Accept (536) succeeds, its requests so far, how many
    of them have been taken by the loop of line 544, and whether it is closed. *)
Record chan := mkChan { ch_type : bytes; ch_accept : bool; ch_reqs : list creq; ch_done : nat; ch_closed : bool }.
(** Where the goroutine is, lib/server.go:516-571: in the select (520), in the range over the requests of a channel
    (544), in client.Start (560), or finished (569-570). *)
Inductive sshpc := AtSelect | AtRequests (c : nat) | Serving (c : nat) | Gone.
(** What it does that the client can see: nothing or a refusal for a global request
    (lib/server.go:522-523), rejecting a channel (530), confirming a request (546), serving
    RTR (560), closing the connection (570). *)
Inductive sshout := NoReply | Denied | Rejected (c : nat) | Confirmed (c : nat) | Served (c : nat) | Closed.

(** The connection, lib/server.go:510-520.  [sv_global]: whether a reply is wanted, for each global request that has not been taken;
    [sv_next]: the number of channels taken; [sv_ended]: the connection is over. *)
Record sshserver := mkSsh {
  sv_pc : sshpc; sv_global : list bool; sv_chans : list chan; sv_next : nat; sv_ended : bool; sv_log : list sshout
}.
(** At the start of the goroutine, lib/server.go:516-519. *)
Definition ssh_start : sshserver := mkSsh AtSelect [] [] 0 false [].

(** The payload of "subsystem rpki-rtr", and the test, lib/server.go:545. *)
Definition rpki_rtr : bytes := [0; 0; 0; 8; 114; 112; 107; 105; 45; 114; 116; 114].
(** The test of lib/server.go:545. *)
Definition is_subsystem (r : creq) : bool := beqb (rq_type r) (str "subsystem") && beqb (rq_payload r) rpki_rtr.

(** Updates of fields (no counterpart in /repo): one more request taken, lib/server.go:544;
    where the goroutine is and what it did; one channel. *)
Definition ch_set_done (n : nat) (c : chan) : chan := mkChan (ch_type c) (ch_accept c) (ch_reqs c) n (ch_closed c).
(** No counterpart in /repo: where the goroutine of lib/server.go:516-571 is and what it did. *)
Definition sv_set_pc (p : sshpc) (o : list sshout) (s : sshserver) : sshserver :=
  mkSsh p (sv_global s) (sv_chans s) (sv_next s) (sv_ended s) (sv_log s ++ o).
(** No counterpart in /repo: replaces a channel (lib/server.go:528-544). *)
Definition sv_set_chan (i : nat) (c : chan) (s : sshserver) : sshserver :=
  mkSsh (sv_pc s) (sv_global s) (set_nth (sv_chans s) i c) (sv_next s) (sv_ended s) (sv_log s).

(** The case of the select for global requests, lib/server.go:521-527: [None] if nothing can be received. *)
Definition take_global (s : sshserver) : option sshserver :=
  match sv_global s with
  | w :: r => Some (mkSsh AtSelect r (sv_chans s) (sv_next s) (sv_ended s) (sv_log s ++ [if w : bool then Denied else NoReply]))
  | [] => if sv_ended s then Some (sv_set_pc Gone [Closed] s) else None
  end.
(** The case for new channels, lib/server.go:528-543. *)
Definition take_channel (s : sshserver) : option sshserver :=
  match nth_error (sv_chans s) (sv_next s) with
  | Some c =>
      let s' := mkSsh (sv_pc s) (sv_global s) (sv_chans s) (S (sv_next s)) (sv_ended s) (sv_log s) in
      Some (if negb (beqb (ch_type c) (str "session")) then sv_set_pc AtSelect [Rejected (sv_next s)] s'
            else if negb (ch_accept c) then sv_set_pc Gone [Closed] s'
            else sv_set_pc (AtRequests (sv_next s)) [] s')
  | None => if sv_ended s then Some (sv_set_pc Gone [Closed] s) else None
  end.
(** One turn of the range over the requests, lib/server.go:544-566. *)
Definition take_request (s : sshserver) (i : nat) : option sshserver :=
  match nth_error (sv_chans s) i with
  | Some c =>
      match nth_error (ch_reqs c) (ch_done c) with
      | Some r =>
          let s' := sv_set_chan i (ch_set_done (S (ch_done c)) c) s in
          Some (if is_subsystem r
                then if rq_reply r then sv_set_pc (Serving i) [Confirmed i; Served i] s' else sv_set_pc Gone [Closed] s'
                else sv_set_pc Gone [Closed] s')
      | None => if ch_closed c then Some (sv_set_pc AtSelect [] s) else None
      end
  | None => None
  end.

(** Steps, lib/server.go:520-571.  Of the client: a global request, opening a channel, a request on a channel,
    closing a channel, ending the connection (which closes all channels).  Of the goroutine:
    the two cases of the select, the next request, the return of client.Start. *)
Inductive sshstep :=
| CGlobal (want : bool) | COpen (typ : bytes) (ok : bool) | CReq (c : nat) (r : creq) | CClose (c : nat) | CEnd
| SGlobal | SChannel | SRequest | SReturn.
(** The steps of the goroutine, lib/server.go:520-571. *)
Definition own_step (l : sshstep) : bool := match l with SGlobal | SChannel | SRequest | SReturn => true | _ => false end.
(** One step, lib/server.go:519-571. *)
Definition ssh_step (s : sshserver) (l : sshstep) : sshserver :=
  let opt o := match o with Some s' => s' | None => s end in
  match l with
  | CGlobal w => if sv_ended s then s else mkSsh (sv_pc s) (sv_global s ++ [w]) (sv_chans s) (sv_next s) false (sv_log s)
  | COpen t ok => if sv_ended s then s
      else mkSsh (sv_pc s) (sv_global s) (sv_chans s ++ [mkChan t ok [] 0 false]) (sv_next s) false (sv_log s)
  | CReq i r =>
      match nth_error (sv_chans s) i with
      | Some c => if ch_closed c then s
                  else sv_set_chan i (mkChan (ch_type c) (ch_accept c) (ch_reqs c ++ [r]) (ch_done c) false) s
      | None => s
      end
  | CClose i =>
      match nth_error (sv_chans s) i with
      | Some c => sv_set_chan i (mkChan (ch_type c) (ch_accept c) (ch_reqs c) (ch_done c) true) s
      | None => s
      end
  | CEnd => mkSsh (sv_pc s) (sv_global s)
              (map (fun c => mkChan (ch_type c) (ch_accept c) (ch_reqs c) (ch_done c) true) (sv_chans s)) (sv_next s) true (sv_log s)
  | SGlobal => match sv_pc s with AtSelect => opt (take_global s) | _ => s end
  | SChannel => match sv_pc s with AtSelect => opt (take_channel s) | _ => s end
  | SRequest => match sv_pc s with AtRequests i => opt (take_request s i) | _ => s end
  | SReturn => match sv_pc s with Serving i => sv_set_pc (AtRequests i) [] s | _ => s end
  end.
(** Any interleaving, lib/server.go:519-571. *)
Definition ssh_run (s : sshserver) (l : list sshstep) : sshserver := fold_left ssh_step l s.

(** * The accept loop *)
(** Where loopTCP is, lib/server.go:577-604: in Accept (579), or in the callback for a connection (597), which for
    SSH is NewServerConn (511): it returns when the client has finished the handshake, or failed. *)
Inductive looppc := InAccept | InHandshake (i : nat).
(** lib/server.go:577-604.  [lp_waiting]: connections the kernel has queued; [lp_shook]: those whose handshake has come
    to an end (the client's doing); [lp_taken]: those whose goroutine has been started
    (506, 516).  The limit (587) is left out, see Concurrent.v, and so are failed handshakes. *)
Record loop := mkLoop { lp_pc : looppc; lp_waiting : list nat; lp_shook : list nat; lp_taken : list nat }.
(** The start of the loop, and its steps: a client connects, a client finishes its handshake
    (511), the loop makes a step (lib/server.go:578-603). *)
Definition loop_start : loop := mkLoop InAccept [] [] [].
(** The steps: a client connects (lib/server.go:579), a client finishes its handshake (511),
    the loop makes a step (578-603). *)
Inductive lstep := Arrives (i : nat) | Shakes (i : nat) | Loops.
(** One step, lib/server.go:578-603, with the callbacks of 488-573. *)
Definition loop_step (tr : transport) (s : loop) (l : lstep) : loop :=
  match l with
  | Arrives i => mkLoop (lp_pc s) (lp_waiting s ++ [i]) (lp_shook s) (lp_taken s)
  | Shakes i => mkLoop (lp_pc s) (lp_waiting s) (i :: lp_shook s) (lp_taken s)
  | Loops =>
      match lp_pc s with
      | InAccept =>
          match lp_waiting s with
          | [] => s
          | i :: r => match tr with
                      | SSH => mkLoop (InHandshake i) r (lp_shook s) (lp_taken s)
                      | _ => mkLoop InAccept r (lp_shook s) (lp_taken s ++ [i])
                      end
          end
      | InHandshake i =>
          if existsb (Nat.eqb i) (lp_shook s) then mkLoop InAccept (lp_waiting s) (lp_shook s) (lp_taken s ++ [i]) else s
      end
  end.
(** Any interleaving, lib/server.go:578-603. *)
Definition loop_run (tr : transport) (s : loop) (l : list lstep) : loop := fold_left (loop_step tr) l s.
