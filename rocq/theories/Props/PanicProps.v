(** Property C30 for every base version: exactly when the server crashes. *)
From Coq Require Import ZArith ZifyBool ZifyNat ZifyN.
From Verif Require Import Model.Concurrent Spec.Response Spec.Net Proofs.ConnP Proofs.NetP Proofs.NetP2 Proofs.PanicP Props.ConnProps Props.ConcProps.
From Coq Require Import List.
Local Open Scope list_scope.
Local Open Scope N_scope.

(** It crashes if and only if, with base version 0 that is not enforced, NotifyClientsLatest looks
    up the session id of a client whose version is 1, its reader being about to lower it to 0.
    In every other case nothing in the server panics.  Missing: the property wants no crash at all
    (C30_refuted). *)
Theorem C30_exact_partial : forall cfg s sched, u16 s -> cfg_version cfg < 256 -> Forall lab_ok sched ->
  (nrun (new_rtr_server cfg s) empty_net sched = Panic <->
   cfg_version cfg = 0 /\ cfg_enforce cfg = false /\
   exists s1 s2 w serial i rest k r, sched = s1 ++ LNotifier :: s2 /\ nrun (new_rtr_server cfg s) empty_net s1 = Ok w /\
     n_notif w = NLoop serial (i :: rest) /\ nth_error (n_conns w) i = Some k /\ k_ver k = 1 /\ k_prog k = OSet 0 :: r) /\
  (nrun (new_rtr_server cfg s) empty_net sched <> Panic -> exists w, nrun (new_rtr_server cfg s) empty_net sched = Ok w).
Proof.
  intros cfg s sched Hs Hb HL. assert (HW : winv cfg empty_net) by (split; [apply (empty_conns (vinv cfg))|exact I]).
  destruct (panics cfg s Hs Hb sched empty_net HW HL) as [(w' & E & _)|(E & s1 & s2 & w & -> & R & A & B & serial & i & rest & k & r & F)].
  - rewrite E. split; [split; [discriminate|]|intros _; eauto].
    intros (A & B & s1 & s2 & w & serial & i & rest & k & r & -> & R & F). exfalso.
    rewrite (nrun_app _ _ _ _ _ R) in E. cbn [nrun] in E. rewrite (fault_panics cfg s Hb w) in E; [discriminate E|].
    split; [exact A|]. split; [exact B|]. exists serial, i, rest, k, r. exact F.
  - rewrite E. split; [split; [intros _|reflexivity]|intros N; now destruct N].
    split; [exact A|]. split; [exact B|]. exists s1, s2, w, serial, i, rest, k, r. split; [reflexivity|]. split; [exact R|exact F].
Qed.
(** One step of the reader later the same notification is sent, in version 0. *)
Example C30_exact_case :
  let begun := [LAccept TCP; LStart 0; LRead 0 (new_server 3) [1; 2; 0; 0; 0; 0; 0; 8]; LReader 0] in
  nrun (new_rtr_server cfg0 7) empty_net (begun ++ [LNotify 5; LNotifier]) = Panic /\
  exists w k, nrun (new_rtr_server cfg0 7) empty_net (begun ++ [LReader 0; LNotify 5; LNotifier; LNotifier; LNotifier]) = Ok w /\
    nth_error (n_conns w) 0 = Some k /\ k_queued k = [SerialNotify 0 7 5].
Proof.
  cbv zeta. split; [vm_compute; reflexivity|]. eexists _, _. split; [vm_compute; reflexivity|]. split; reflexivity.
Qed.

Print Assumptions C30_exact_partial.
