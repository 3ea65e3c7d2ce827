(** Vocabulary for C73 and C74: SSH connections and the accept loop. *)
From Coq Require Import String.
From Verif Require Import Lib.Str Model.SshConn.
Local Open Scope string_scope.
Local Open Scope list_scope.
Local Open Scope N_scope.

(** An SSH string (RFC 4251): its length in four bytes, then the bytes. *)
Definition ssh_string (s : bytes) : bytes :=
  let n := nlen s in [n / 16777216 mod 256; n / 65536 mod 256; n / 256 mod 256; n mod 256] ++ s.
(** A request for RPKI-RTR (RFC 6810 section 7.1) that can be answered. *)
Definition asks_rtr (r : creq) : Prop :=
  rq_type r = str "subsystem" /\ rq_payload r = ssh_string (str "rpki-rtr") /\ rq_reply r = true.

Definition out_eqb (a b : sshout) : bool :=
  match a, b with
  | NoReply, NoReply | Denied, Denied | Closed, Closed => true
  | Rejected i, Rejected j | Confirmed i, Confirmed j | Served i, Served j => Nat.eqb i j
  | _, _ => false
  end.
(** How often something was done. *)
Definition times (o : sshout) (l : list sshout) : nat := length (filter (out_eqb o) l).
(** The global requests sent that want a reply. *)
Definition wanting (l : list sshstep) : nat :=
  length (filter (fun x => match x with CGlobal true => true | _ => false end) l).
(** Steps of the goroutine that do something. *)
Fixpoint effective (s : sshserver) (l : list sshstep) : Prop :=
  match l with
  | [] => True
  | x :: r => own_step x = true /\ ssh_step s x <> s /\ effective (ssh_step s x) r
  end.

(** The connections that arrive in a schedule of the accept loop. *)
Definition arrivals (l : list lstep) : list nat :=
  flat_map (fun x => match x with Arrives i => [i] | _ => [] end) l.
(** The clients up to, and without, the first that has not finished its handshake. *)
Fixpoint ready (l : list lstep) (cs : list nat) : list nat :=
  match cs with
  | [] => []
  | i :: r => if existsb (fun x => match x with Shakes j => Nat.eqb i j | _ => false end) l then i :: ready l r else []
  end.
