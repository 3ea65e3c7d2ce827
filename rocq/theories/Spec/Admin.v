(** Vocabulary for the properties of SetMaxConnections. *)
From Verif Require Import Model.Admin Spec.Net.

Definition clients (a : anet) : list nat := n_clients (a_net a).
Definition counter (a : anet) : Z := n_count (a_net a).
Definition areach (srv : rtrserver) (a : anet) : Prop := exists sched, arun srv (empty_anet srv) sched = Ok a.

(** No SSH connections; no further call of SetMaxConnections; not a step of a client's reader. *)
Definition a_no_ssh (l : alabel) : Prop := l <> AStep (LAccept SSH).
Definition no_call (l : alabel) : Prop := forall n, l <> ACall n.
Definition not_reader (i : nat) (l : alabel) : Prop := l <> AStep (LReader i).

(** Clients started in a schedule. *)
Definition starts (sched : list alabel) : nat :=
  length (filter (fun l => match l with AStep (LStart _) => true | _ => false end) sched).

(** The clients counted out by a step (ClientDisconnected), and in a whole execution. *)
Definition out_of (a : anet) (l : alabel) : list nat :=
  match l, a_pc a with
  | AStep (LReader i), _ => match nth_error (n_conns (a_net a)) i with
                            | Some k => match k_prog k with ODisc :: _ => [i] | _ => [] end
                            | None => [] end
  | AAdmin, ACount _ i _ => [i]
  | _, _ => []
  end.
Fixpoint outs (srv : rtrserver) (a : anet) (sched : list alabel) : list nat :=
  match sched with
  | [] => []
  | l :: r => out_of a l ++ match astep srv a l with Ok a' => outs srv a' r | _ => [] end
  end.
(** How often a client was counted out that had been counted out before. *)
Definition repeats (l : list nat) : nat := (length l - length (nodup Nat.eq_dec l))%nat.

(** Still connected: listed, and its goroutines are to go on. *)
Definition connected (a : anet) (i : nat) : Prop :=
  In i (clients a) /\ exists k, nth_error (n_conns (a_net a)) i = Some k /\ k_flag k = true.
Definition disconnected (a : anet) (i : nat) : Prop :=
  ~ In i (clients a) /\ exists k, nth_error (n_conns (a_net a)) i = Some k /\ k_flag k = false.
