(** Vocabulary for the metrics about clients. *)
From Verif Require Import Model.ClientGauge.

(** A connection on which the server is serving. *)
Definition open_conn (k : conn) : bool := match k_phase k with Running => k_flag k | _ => false end.
(** The number of such connections with local address [a]. *)
Fixpoint open_on (addr : nat -> bytes) (a : bytes) (i : nat) (l : list conn) : nat :=
  match l with
  | [] => 0
  | k :: r => (if open_conn k && beqb (addr i) a then 1 else 0) + open_on addr a (S i) r
  end.
(** Nothing is under way: no goroutine is inside the handler, every reader waits for input. *)
Definition at_rest (x : gnet) : Prop :=
  gn_owed x = [] /\ forall i k, nth_error (n_conns (gn_net x)) i = Some k -> k_prog k = [].

(** No Serial Query arrives in a version other than the client's.  SSH is allowed. *)
Definition in_version (w : net) (l : label) : Prop :=
  match l with
  | LRead i _ chunk => forall k v sess n, nth_error (n_conns w) i = Some k ->
      decode_bytes 64 chunk = Ok (SerialQuery v sess n) ->
      (v = 0 \/ v = 1) /\ (c_versionset (k_cli k) = true -> v = c_version (k_cli k))
  | _ => True
  end.
(** [P] holds of every step of the server in a schedule. *)
Fixpoint galong (addr : nat -> bytes) (srv : rtrserver) (P : net -> label -> Prop) (x : gnet) (sched : list glabel) : Prop :=
  match sched with
  | [] => True
  | g :: r => match g with GNet l => P (gn_net x) l | GMetric _ => True end /\
              forall x', gstep addr srv x g = Ok x' -> galong addr srv P x' r
  end.

(** SSH connections past [s.connected++] and not over. *)
Definition ssh_busy (k : conn) : bool :=
  match k_tr k, k_phase k with SSH, SshBegun | SSH, Running => true | _, _ => false end.

(** The reader of a connection waits for input: it serves, has nothing left to do, and is
    not inside the handler. *)
Definition waits (x : gnet) (i : nat) : bool :=
  match nth_error (n_conns (gn_net x)) i with
  | Some k => open_conn k && (match k_prog k with [] => true | _ => false end) &&
              forallb (fun p => negb (Nat.eqb (fst p) i)) (gn_owed x)
  | None => false
  end.
(** The PDUs read in the course of a schedule: the first of every segment that arrives where a
    reader waits and begins with a PDU. *)
Fixpoint pdus_read (addr : nat -> bytes) (srv : rtrserver) (x : gnet) (sched : list glabel) : list pdu :=
  match sched with
  | [] => []
  | g :: r => match g with
              | GNet (LRead i _ seg) => if waits x i then match decode_bytes 64 seg with Ok p => [p] | _ => [] end else []
              | _ => []
              end ++
              match gstep addr srv x g with Ok x' => pdus_read addr srv x' r | _ => [] end
  end.
