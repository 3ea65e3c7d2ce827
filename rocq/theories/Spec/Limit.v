(** Vocabulary for the limit on the number of connections. *)
From Verif Require Import Model.Concurrent.
Local Open Scope Z_scope.

(** Accepted, and not yet put on the list of clients. *)
Definition waits (k : conn) : bool := match k_phase k with Accepted | SshBegun => true | _ => false end.
(** How many connections there are that are or will be on the list of clients and that the counter
    does not tell of: those that are not yet counted, and those for which it was decremented
    without need. *)
Definition amiss (w : net) : Z :=
  Z.of_nat (length (filter waits (n_conns w))) + Z.of_nat (length (n_clients w)) - n_count w.
(** Whenever a connection comes, the counter misses at most [D]. *)
Definition late_by (D : Z) (w : net) (l : label) : Prop :=
  match l with LAccept _ => amiss w <= D | _ => True end.
