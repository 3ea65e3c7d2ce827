(** A channel that nobody will empty any more. *)
From Verif Require Import Model.Concurrent.

(** The channel is full, and the goroutine that writes has ended or will end before it looks at
    the channel again. *)
Definition unattended (k : conn) : Prop :=
  256 <= nlen (k_queue k) /\
  (k_pc k = SDone \/ k_flag k = false /\ (k_pc k = SCheck \/ exists q, k_pc k = SWrite q)).
