(** Property C122: what a router that does not read costs. *)
From Coq Require Import ZArith ZifyBool ZifyNat ZifyN.
From Verif Require Import Model.Concurrent Spec.Sets Spec.History Spec.Response Spec.Net Spec.Held Proofs.ConnP Proofs.GoneP Proofs.HeldP
  Props.CacheProps Props.ConnProps Props.ConcProps.
From Coq Require Import List.
Import ListNotations.
Local Open Scope N_scope.

(** C122 A router that does not read costs a bounded amount of memory: whatever the routers
    send, however slowly they read, and however the goroutines are interleaved, the PDUs made
    for one of them and not yet written are at most 256 on its channel, one being written, and
    those of one answer with at most three error reports before it. *)
Theorem C122_router : forall srv n sched w,
  (forall i cache chunk, In (LRead i cache chunk) sched -> within n cache) -> nrun srv empty_net sched = Ok w ->
  forall i k, nth_error (n_conns w) i = Some k ->
    nlen (k_queue k) <= 256 /\ nlen (in_hand k) <= 1 /\ nlen (puts (k_prog k)) <= n + 5.
Proof.
  intros srv n sched w HC R i k Hi. split; [exact (capped_run _ _ _ R i k Hi)|]. split.
  - unfold in_hand. destruct (k_pc k); cbn; discriminate.
  - eapply (slim_run srv n sched empty_net w); [|exact HC|exact R|exact Hi]. intros j kj Hj. destruct j; discriminate Hj.
Qed.
(** No answer is longer than twice the kept diffs times the largest set ever loaded, however
    many sets are loaded. *)
Theorem C122_cache : forall keep n h, (0 < keep)%Z -> Forall (Forall wf_sd) h ->
  Forall (fun l => NoDup (ids l) /\ nlen l <= n) h -> within (2 * Z.to_N keep * n) (run (new_server keep) h).
Proof. exact within_run. Qed.
Theorem C122_held : forall srv keep n h sched w, (0 < keep)%Z -> Forall (Forall wf_sd) h ->
  Forall (fun l => NoDup (ids l) /\ nlen l <= n) h ->
  (forall i cache chunk, In (LRead i cache chunk) sched -> exists m, cache = run (new_server keep) (firstn m h)) ->
  nrun srv empty_net sched = Ok w ->
  forall i k, nth_error (n_conns w) i = Some k -> nlen (unsent k) <= 2 * Z.to_N keep * n + 262.
Proof.
  intros srv keep n h sched w HK Hh HN HC R i k Hi.
  assert (W : forall i cache chunk, In (LRead i cache chunk) sched -> within (2 * Z.to_N keep * n) cache).
  { intros j cache chunk Hj. destruct (HC j cache chunk Hj) as (m & ->). apply C122_cache; [exact HK| |].
    - rewrite <- (firstn_skipn m h) in Hh. now apply Forall_app in Hh as [Hh _].
    - rewrite <- (firstn_skipn m h) in HN. now apply Forall_app in HN as [HN _]. }
  destruct (C122_router srv _ sched w W R i k Hi) as (A & B & C). unfold unsent, nlen in *. rewrite !app_length. lia.
Qed.
(** A router that reads nothing after asking for three hundred records, two hundred and
    fifty-six of them on its channel; and a diff as long as two sets. *)
Definition sched122 := [LAccept TCP; LStart 0; LRead 0 big [1; 2; 0; 0; 0; 0; 0; 8]]
  ++ many 5 [LReader 0] ++ [LSender 0 WAll; LSender 0 WAll] ++ many 300 [LReader 0].
Example C122_case : (exists k, nth_error (n_conns (after srv1 sched122)) 0 = Some k /\ nlen (k_queue k) = 256 /\ nlen (in_hand k) = 1 /\ nlen (puts (k_prog k)) = 45) /\
  within (2 * 3 * 2) (run (new_server 3) [[x1; x2]; [x3; x4]; [x1; x2]]) /\
  get_sds_serial_diff (run (new_server 3) [[x1; x2]; [x3; x4]]) 0 = Ok [set_flag 1 x3; set_flag 1 x4; set_flag 0 x1; set_flag 0 x2].
Proof.
  split; [|split].
  - assert (E : option_map (fun k => (nlen (k_queue k), nlen (in_hand k), nlen (puts (k_prog k)))) (nth_error (n_conns (after srv1 sched122)) 0) = Some (256, 1, 45)) by (vm_compute; reflexivity).
    destruct (nth_error (n_conns (after srv1 sched122)) 0) as [k|]; [|discriminate E]. injection E as E1 E2 E3. exists k. auto.
  - apply (C122_cache 3 2); [reflexivity| |].
    + pose proof x_wf as X. rewrite Forall_forall in X.
      repeat (apply Forall_cons || apply Forall_nil); apply X; cbn; auto 10.
    + repeat constructor; cbn; intuition discriminate.
  - vm_compute. reflexivity.
Qed.

Print Assumptions C122_router.
Print Assumptions C122_cache.
Print Assumptions C122_held.
