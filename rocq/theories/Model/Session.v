(** Model of the client library, /repo/lib/client.go: one session, from StartRW on.
    Connecting (150-210) is not modelled; goroutines other than the reader only send. *)
From Verif Require Export Model.Pdu.

(** How StartRW ends: it returns an error, it returns nil, or the process crashed in
    Decode.  [Starved] is not an outcome of the code: see [start_loop].
    lib/client.go:68-148. *)
Inductive ending := Failed (e : derr) | Finished | Crashed | Starved.

(** What is left of a session: the PDUs handed to the handler, each with c.version at that
    moment, c.version at the end, the handler's state, and how it ended.
    lib/client.go:68-148. *)
Record outcome (H : Type) := mkOut {
  o_trace : list (N * pdu); o_version : N; o_state : H; o_end : ending
}.
Arguments mkOut {H}.
Arguments o_trace {H}.
Arguments o_version {H}.
Arguments o_state {H}.
Arguments o_end {H}.

(** The version after receiving a PDU, lib/client.go:119-124. *)
Definition downgrade (version : N) (dec : pdu) : N :=
  if (version =? 1) && (get_version dec =? 0) then 0 else version.

(** SendPDU, lib/client.go:68-71: what is put on the transmit channel. *)
Definition cs_send (version : N) (p : pdu) : pdu := set_version version p.

(** The loop of StartRW, lib/client.go:110-130.  [b] is everything the peer sends before it
    closes the connection (Decode reads exactly the bytes it needs, so the sizes of the reads
    do not matter).  The handler is a function of its state; its boolean says whether it
    called Disconnect, which ends the loop with nil.  Decode never returns a nil PDU without
    an error.  Each iteration takes at least 8 bytes, so the fuel of [start_rw] is never
    used up. *)
Fixpoint start_loop {H} (w : Z) (handle : H -> pdu -> H * bool) (fuel : nat)
    (version : N) (h : H) (b : bytes) : outcome H :=
  match fuel with
  | O => mkOut [] version h Starved
  | S fuel =>
      match decode w b with
      | Panic => mkOut [] version h Crashed
      | Err e => mkOut [] version h (Failed e)
      | Ok (dec, b') =>
          let version := downgrade version dec in
          let (h', disc) := handle h dec in
          if disc : bool then mkOut [(version, dec)] version h' Finished
          else let r := start_loop w handle fuel version h' b' in
               mkOut ((version, dec) :: o_trace r) (o_version r) (o_state r) (o_end r)
      end
  end.
(** StartRW, lib/client.go:105-131, 64-bit int. *)
Definition start_rw {H} (handle : H -> pdu -> H * bool) (version : N) (h : H) (b : bytes)
  : outcome H := start_loop 64 handle (S (length b)) version h b.
