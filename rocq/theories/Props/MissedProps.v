(** Property C32: the sender that misses the signal to stop. *)
From Coq Require Import ZArith ZifyBool ZifyNat ZifyN.
From Verif Require Import Model.Concurrent Spec.Response Spec.Net Proofs.MissedP Props.ConnProps Props.ConcProps.
From Coq Require Import List.
Import ListNotations.
Local Open Scope list_scope.

(** C32, the position that [C32_ends_partial] leaves out: the sender has seen that the client is
    connected and not yet reached its select, and there is nothing for it to send.  If the last
    signal to stop comes then, it stops exactly if something more is queued for the client: as long
    as nothing is, it waits; once something has been, three more of its steps end it. *)
Theorem C32_missed_partial : forall srv w i k r, nreach srv w -> nth_error (n_conns w) i = Some k -> k_prog k = OQuit :: r -> ~ In OQuit r ->
  k_pc k = SEnter -> k_queue k = [] -> forall sched w', nrun srv w (LReader i :: sched) = Ok w' ->
  exists k', nth_error (n_conns w') i = Some k' /\
    (k_queued k' = k_queued k -> k_pc k' = SEnter \/ k_pc k' = SParked) /\
    (k_queued k' <> k_queued k -> forall sched2 w2, nrun srv w' sched2 = Ok w2 -> (3 <= sender_steps i sched2)%nat ->
       exists k2, nth_error (n_conns w2) i = Some k2 /\ k_pc k2 = SDone).
Proof. exact quit_missed. Qed.
(** A notification that was on its way ends the sender; without it it waits. *)
Definition sched32c := [LAccept TCP; LStart 0; LSender 0 WAll; LNotify 5; LNotifier; LRead 0 cacheA []; LReader 0; LReader 0].
Example C32_missed_case :
  (exists k, nth_error (n_conns (after srv1 sched32c)) 0 = Some k /\ k_prog k = [OQuit] /\ k_pc k = SEnter /\ k_queue k = [] /\ k_queued k = []) /\
  (exists k, nth_error (n_conns (after srv1 (sched32c ++ [LReader 0; LSender 0 WAll; LSender 0 WAll]))) 0 = Some k /\ k_pc k = SParked) /\
  (exists k, nth_error (n_conns (after srv1 (sched32c ++ [LReader 0; LSender 0 WAll; LNotifier; LNotifier]))) 0 = Some k /\ length (k_queued k) = 1%nat) /\
  (exists k, nth_error (n_conns (after srv1 (sched32c ++ [LReader 0; LSender 0 WAll; LNotifier; LNotifier; LSender 0 WAll; LSender 0 WAll]))) 0 = Some k /\ k_pc k = SDone).
Proof.
  repeat split; (eexists; split; [vm_compute; reflexivity|]); vm_compute; auto.
Qed.

Print Assumptions C32_missed_partial.
