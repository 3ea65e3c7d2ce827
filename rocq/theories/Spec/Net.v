(** Vocabulary for the properties of the concurrent server. *)
From Verif Require Import Model.Concurrent Spec.Response.

(** The bytes of a list of PDUs, and the PDU being written. *)
Definition wire_of (l : list pdu) : bytes :=
  flat_map (fun p => match encode p with Ok b => b | _ => [] end) l.
Definition in_hand (k : conn) : list pdu := match k_pc k with SWrite p => [p] | _ => [] end.

(** Reachable states of a server. *)
Definition nreach (srv : rtrserver) (w : net) : Prop := exists sched, nrun srv empty_net sched = Ok w.

(** [P] holds of every step of a schedule, with the state before it. *)
Fixpoint along (srv : rtrserver) (P : net -> label -> Prop) (w : net) (sched : list label) : Prop :=
  match sched with
  | [] => True
  | l :: r => P w l /\ forall w', nstep srv w l = Ok w' -> along srv P w' r
  end.

(** The steps of the sender of connection [i] in a schedule. *)
Definition sender_steps (i : nat) (sched : list label) : nat :=
  length (filter (fun l => match l with LSender j _ => Nat.eqb j i | _ => false end) sched).

(** Number of Disconnect calls a reader makes for what it has read. *)
Definition discs (l : list op) : nat :=
  length (filter (fun o => match o with ODisc => true | _ => false end) l).

(** Connections that have been accepted but are not yet counted. *)
Definition uncounted (k : conn) : bool := match k_phase k with Accepted => true | _ => false end.

(** Schedules on which the connection counter is exact: no SSH, and no Serial Query in a
    version other than the negotiated one. *)
Definition steady (w : net) (l : label) : Prop :=
  match l with
  | LAccept SSH => False
  | LRead i _ chunk => forall k v sess n, nth_error (n_conns w) i = Some k ->
      decode_bytes 64 chunk = Ok (SerialQuery v sess n) ->
      (v = 0 \/ v = 1) /\ (c_versionset (k_cli k) = true -> v = c_version (k_cli k))
  | _ => True
  end.
(** ... and on which every accepted connection is counted before the next one is
    accepted. *)
Definition one_by_one (w : net) (l : label) : Prop :=
  match l with LAccept _ => forallb (fun k => negb (uncounted k)) (n_conns w) = true | _ => True end.

(** There is room for one more PDU on the channel of a connection. *)
Definition room (k : conn) : Prop := k_pc k = SParked \/ nlen (k_queue k) < 256.

(** Exactly one Serial Notify, in the client's version and with that version's session id,
    has been queued for a connection between two states. *)
Definition notified (s serial : N) (k k' : conn) : Prop :=
  k_queued k' = k_queued k ++ [SerialNotify (k_ver k) (session_of s (k_ver k)) serial] /\ k_ver k' = k_ver k.

(** No version change of the client being notified between the lookup of the session id
    and the construction of the Serial Notify. *)
Definition no_change (w : net) (l : label) : Prop :=
  match l, n_notif w with
  | LReader i, NSess _ _ j _ => j = i -> forall k v r, nth_error (n_conns w) i = Some k -> k_prog k = OSet v :: r -> v = k_ver k
  | _, _ => True
  end.

(** No SSH connections. *)
Definition no_ssh (l : label) : Prop := l <> LAccept SSH.

(** What is read from a connection is bytes. *)
Definition lab_ok (l : label) : Prop := match l with LRead _ _ chunk => bytes_ok chunk | _ => True end.
