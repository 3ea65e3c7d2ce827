(** A notification reaches every router. *)
From Verif Require Import Model.Concurrent Spec.Response Spec.Net Spec.Conversation Spec.Answered.
Local Open Scope nat_scope.

(** A router that stays: its connection works, and it is not being disconnected. *)
Definition staying (k : conn) : Prop := k_flag k = true /\ k_up k = true /\ ~ In OFlag (k_prog k).
(** Every one of [cs] and the notifier get a turn; no second notification begins. *)
Definition turn_all (cs : list nat) (r : list label) : Prop :=
  (forall i, In i cs -> turn_each i r) /\ In LNotifier r /\ forall n, ~ In (LNotify n) r.
(** What may remain to be done for [i]. *)
Definition undone (w : net) (i : nat) : nat :=
  match nth_error (n_conns w) i with Some k => outstanding k 0 | None => 0 end.
(** The Serial Notifies among the PDUs queued. *)
Definition notes (k : conn) : list pdu := filter is_notify (k_queued k).
(** What the reader is still to queue. *)
Definition rest_of_answer (k : conn) : list pdu := flat_map (fun o => match o with OPut p => [p] | _ => [] end) (k_prog k).
Fixpoint add_up (f : nat -> nat) (l : list nat) : nat := match l with [] => 0 | x :: r => f x + add_up f r end.
(** The turns a notification may take. *)
Definition patience (w : net) : nat := add_up (undone w) (n_clients w) + 4 * (1 + 3 * length (n_clients w)).
