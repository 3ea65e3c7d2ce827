(** One connection among others. *)
From Verif Require Import Model.Concurrent Spec.Response Spec.Net Spec.Conversation Spec.Answered Spec.Reached.
Local Open Scope list_scope.

(** The reader is waiting for the router. *)
Definition waiting (k : conn) : bool := match k_phase k, k_prog k, k_flag k with Running, [], true => true | _, _, _ => false end.
(** What a schedule delivers to connection [i]: for each Read that returned, the bytes, and the cache
    the handler then found. *)
Fixpoint arrives (srv : rtrserver) (i : nat) (w : net) (sched : list label) : list (server * bytes) :=
  match sched with
  | [] => []
  | l :: r =>
      (match l, nth_error (n_conns w) i with
       | LRead j cache chunk, Some k => if (Nat.eqb j i && waiting k)%bool then [(cache, chunk)] else []
       | _, _ => []
       end) ++ match nstep srv w l with Ok w' => arrives srv i w' r | _ => [] end
  end.
(** The PDUs queued by the read loop of a connection that is alone. *)
Definition pdus_of (a : list act) : list pdu := flat_map (fun x => match x with Queue p => [p] | Disc => [] end) a.
