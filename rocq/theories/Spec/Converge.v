(** Vocabulary of property C118: routers that follow the server, and a time in which one of them waits. *)
From Verif Require Import Model.Concurrent Spec.History Spec.Router Spec.Response Spec.Net Spec.Answered Spec.Reached Spec.Isolated Spec.Follow.
From Coq Require Import List.
Local Open Scope list_scope.
Local Open Scope N_scope.

(** The router of connection [i] sends nothing and takes what is written. *)
Definition waits (i : nat) (sched : list label) : Prop :=
  Forall (fun l => match l with LRead j _ _ => j <> i | LSender j o => j = i -> o = WAll | _ => True end) sched.
(** On connection [i] of a server that has been given the lists [h] there is a router of version [v]
    that has polled in time, last after the last list, and has been answered. *)
Definition follows (srv : rtrserver) (keep : Z) (h : list (list sd)) (sched : list label) (w : net) (i : nat) (v : N) (tr : transport) : Prop :=
  exists k l, nth_error (n_conns w) i = Some k /\ k_tr k = tr /\ written k /\ v <= baseVersion srv /\ acceptable (accept tr srv) v /\
    updates l = h /\ timely keep [] None (l ++ [Poll]) /\ asking srv tr v (start srv tr keep) (l ++ [Poll]) (arrives srv i empty_net sched) [].
(** The Serial Notifies sent on connection [i]. *)
Definition told (w : net) (i : nat) : list pdu := match nth_error (n_conns w) i with Some k => notes k | None => [] end.
