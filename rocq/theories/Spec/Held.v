(** What the server holds for a router. *)
From Verif Require Import Model.Concurrent Spec.Sets Spec.Net.
Local Open Scope N_scope.

(** PDUs a goroutine has yet to put on the channel. *)
Definition puts (l : list op) : list pdu := flat_map (fun o => match o with OPut p => [p] | _ => [] end) l.
(** PDUs made for a router and not yet written: in the hands of the goroutine that writes, on
    the channel, and still to be put there. *)
Definition unsent (k : conn) : list pdu := in_hand k ++ k_queue k ++ puts (k_prog k).

(** No answer from this cache has more than [n] records. *)
Definition within (n : N) (cache : server) : Prop :=
  nlen (get_current_sds cache) <= n /\ forall serial d, get_sds_serial_diff cache serial = Ok d -> nlen d <= n.
