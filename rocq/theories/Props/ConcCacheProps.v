(** Properties C18 and C62: queries and updates running concurrently. *)
From Coq Require Import ZifyBool ZifyNat ZifyN.
From Verif Require Import Model.ConcCache Spec.Sets Spec.History Spec.Snapshot
  Proofs.CacheP Proofs.ConcCacheP Props.CacheProps.

(** C18 A response is one consistent snapshot: false.  The serial and the data of a
    response are read in two critical sections. *)
Definition x5 := VRP (pfx4 3405803776 24) 64500 24 1.   (* 203.0.113.0/24 AS64500 *)
Definition w_reset : world := (run (new_server 3) [[x1]], [TReset; TUpd [[x1; x2]]]).
Definition w_serial : world := (run (new_server 3) [[x1]; [x1; x2]], [TSerial 0; TUpd [[x1; x2; x5]]]).
Theorem C18_refuted :
  (exists s ts sched i serial data, (exists keep h, s = run (new_server keep) h) /\
    nth_error ts i = Some TReset /\ nth_error (snd (wrun (s, ts) sched)) i = Some (TAnswer serial data) /\
    ~ snapshot_reset (published (s, ts) sched) serial data) /\
  (exists s ts sched i q serial data, (exists keep h, s = run (new_server keep) h) /\
    nth_error ts i = Some (TSerial q) /\ nth_error (snd (wrun (s, ts) sched)) i = Some (TAnswer serial data) /\
    ~ snapshot_serial (published (s, ts) sched) q serial data).
Proof.
  split.
  - exists (fst w_reset), (snd w_reset), [0%nat; 1%nat; 1%nat; 1%nat; 0%nat], 0%nat, 0, [x1; x2].
    split; [|split; [|split]].
    + exists 3%Z, [[x1]]. reflexivity.
    + reflexivity.
    + vm_compute. reflexivity.
    + intros (s & H & A & B). vm_compute in H.
      repeat (destruct H as [<-|H]; [vm_compute in A; vm_compute in B; discriminate|]). exact H.
  - exists (fst w_serial), (snd w_serial), [0%nat; 1%nat; 1%nat; 1%nat; 0%nat], 0%nat, 0, 1, (@nil sd).
    split; [|split; [|split]].
    + exists 3%Z, [[x1]; [x1; x2]]. reflexivity.
    + reflexivity.
    + vm_compute. reflexivity.
    + intros (s & H & A & B). vm_compute in H.
      repeat (destruct H as [<-|H]; [vm_compute in A; vm_compute in B; discriminate|]). exact H.
Qed.

(** What holds under every schedule: serial and data each belong to a published state,
    the data's one being the same or a later one.  Missing: that it is the same. *)
Theorem C18_reset_partial : forall s ts sched i serial data,
  nth_error ts i = Some TReset -> nth_error (snd (wrun (s, ts) sched)) i = Some (TAnswer serial data) ->
  exists j k s1 s2, (j <= k)%nat /\
    nth_error (published (s, ts) sched) j = Some s1 /\ nth_error (published (s, ts) sched) k = Some s2 /\
    sdCurrentSerial s1 = serial /\ sdCurrent s1 <> [] /\ sdCurrent s2 = data.
Proof.
  intros s ts sched i serial data H0 H.
  destruct (rd_run i TReset sched [] (s, ts) TReset H0 I) as (t' & A & B).
  rewrite H in A. injection A as <-. exact B.
Qed.
Example C18_reset_case : nth_error (snd w_reset) 0 = Some TReset /\
  nth_error (snd (wrun w_reset [0; 1; 1; 1; 0]%nat)) 0 = Some (TAnswer 0 [x1; x2]) /\
  map (fun s => (sdCurrentSerial s, sdCurrent s)) (published w_reset [0; 1; 1; 1; 0]%nat) <> [].
Proof. split; [reflexivity|]. split; [vm_compute; reflexivity|vm_compute; discriminate]. Qed.
Theorem C18_serial_partial : forall s ts sched i q serial data,
  nth_error ts i = Some (TSerial q) -> nth_error (snd (wrun (s, ts) sched)) i = Some (TAnswer serial data) ->
  exists j k s1 s2, (j <= k)%nat /\
    nth_error (published (s, ts) sched) j = Some s1 /\ nth_error (published (s, ts) sched) k = Some s2 /\
    sdCurrentSerial s1 = serial /\ sdCurrent s1 <> [] /\ get_sds_serial_diff s2 q = Ok data.
Proof.
  intros s ts sched i q serial data H0 H.
  destruct (rd_run i (TSerial q) sched [] (s, ts) (TSerial q) H0 eq_refl) as (t' & A & B).
  rewrite H in A. injection A as <-. exact B.
Qed.
Example C18_serial_case : nth_error (snd w_serial) 0 = Some (TSerial 0) /\
  nth_error (snd (wrun w_serial [0; 1; 1; 1; 0]%nat)) 0 = Some (TAnswer 1 []) /\
  nth_error (snd (wrun w_serial [1; 1; 1; 0; 0]%nat)) 0 = Some (TAnswer 2 []).
Proof. repeat split; vm_compute; reflexivity. Qed.
(** If the cache is the same at the two reads of a handler, whatever ran in between, the
    response is the one of that cache. *)
Theorem C18_undisturbed_partial : forall w i mid,
  ~ In i mid -> fst (wrun w ([i] ++ mid)) = fst w ->
  (nth_error (snd w) i = Some TReset ->
   nth_error (snd (wrun w ([i] ++ mid ++ [i]))) i =
     Some (if is_nil (sdCurrent (fst w)) then TNoData
           else TAnswer (sdCurrentSerial (fst w)) (sdCurrent (fst w)))) /\
  (forall q, nth_error (snd w) i = Some (TSerial q) ->
   nth_error (snd (wrun w ([i] ++ mid ++ [i]))) i =
     Some (if is_nil (sdCurrent (fst w)) then TNoData
           else match get_sds_serial_diff (fst w) q with
                | Ok d => TAnswer (sdCurrentSerial (fst w)) d | _ => TCacheReset end)).
Proof.
  intros w i mid HN HF.
  assert (G : forall t1, nth_error (snd (wstep w i)) i = Some t1 ->
    nth_error (snd (wrun w ([i] ++ mid ++ [i]))) i =
    match tstep (fst w) t1 with Some (_, t2) => Some t2 | None => Some t1 end).
  { intros t1 H1. rewrite app_assoc, wrun_app.
    pose proof (wrun_skip i t1 mid (wstep w i) H1 HN) as H2.
    change (wrun (wstep w i) mid) with (wrun w ([i] ++ mid)) in H2.
    pose proof (wstep_self (wrun w ([i] ++ mid)) i t1 H2) as S. rewrite HF in S.
    change (wrun (wrun w ([i] ++ mid)) [i]) with (wstep (wrun w ([i] ++ mid)) i).
    destruct (tstep (fst w) t1) as [[s' t2]|]; [apply S|]. rewrite S. exact H2. }
  split; [intros H|intros q H]; pose proof (wstep_self w i _ H) as S; cbn in S.
  - destruct S as [_ S]. rewrite (G _ S). destruct (sdCurrent (fst w)) eqn:EC; [reflexivity|].
    cbn. unfold get_current_sds. rewrite EC. reflexivity.
  - destruct S as [_ S]. rewrite (G _ S). destruct (sdCurrent (fst w)); [reflexivity|].
    cbn. destruct (get_sds_serial_diff (fst w) q); reflexivity.
Qed.
Example C18_case : nth_error (snd (wrun w_reset [0; 1; 1; 0; 1]%nat)) 0 = Some (TAnswer 0 [x1])
  /\ nth_error (snd (wrun w_serial [1; 1; 0; 0; 1]%nat)) 0 = Some (TAnswer 1 [x2]).
Proof. split; vm_compute; reflexivity. Qed.

(** C62 Concurrent updates are serialised: false for two updaters. *)
Theorem C62_refuted : exists s a b sched, (exists keep h, s = run (new_server keep) h) /\
  let w := wrun (s, [TUpd [a]; TUpd [b]]) sched in
  snd w = [TUpd []; TUpd []] /\
  ~ same_set (sdCurrent (fst w)) (sdCurrent (run s [a; b])) /\
  ~ same_set (sdCurrent (fst w)) (sdCurrent (run s [b; a])).
Proof.
  exists (run (new_server 3) [[x1]]), [x1; x2], [x1; x5], [0; 1; 0; 0; 1; 1]%nat.
  split; [exists 3%Z, [[x1]]; reflexivity|]. cbv zeta. split; [vm_compute; reflexivity|].
  assert (E : ids (sdCurrent (fst (wrun (run (new_server 3) [[x1]], [TUpd [[x1; x2]]; TUpd [[x1; x5]]])
     [0; 1; 0; 0; 1; 1]%nat))) = ids [x1; x2; x5]) by (vm_compute; reflexivity).
  unfold same_set. split; intros H.
  - specialize (H (rid_of x2)). rewrite E in H. destruct H as [H _].
    assert (H' := H (or_intror (or_introl eq_refl))). vm_compute in H'. intuition discriminate.
  - specialize (H (rid_of x5)). rewrite E in H. destruct H as [H _].
    assert (H' := H (or_intror (or_intror (or_introl eq_refl)))). vm_compute in H'. intuition discriminate.
Qed.
(** With one updater, however it interleaves with any number of queries, the cache is at
    every moment the one reached by a prefix of the updates done one after the other,
    and at the end all of them have been done. *)
Theorem C62_one_updater_partial : forall s ts i h sched, nth_error ts i = Some (TUpd h) ->
  (forall j t, nth_error ts j = Some t -> j <> i -> is_upd t = false) ->
  exists k, (k <= length h)%nat /\ fst (wrun (s, ts) sched) = run s (firstn k h) /\
    (nth_error (snd (wrun (s, ts) sched)) i = Some (TUpd []) -> k = length h).
Proof.
  intros s ts i h sched Ht HO.
  destruct (one_updater_run s h i sched (s, ts) 0 (TUpd h) HO Ht) as (k & t' & _ & A & B1 & B2 & B3).
  { split; [lia|]. split; reflexivity. }
  exists k. split; [exact B1|]. split; [exact B2|]. intros E. rewrite E in A. injection A as <-.
  assert (L : length (skipn k h) = 0%nat) by (rewrite <- B3; reflexivity).
  rewrite skipn_length in L. lia.
Qed.
Example C62_case :
  fst (wrun (new_server 3, [TSerial 0; TUpd [[x1]; [x1; x2]; [x5]]; TReset]) [1; 1; 0; 1; 1; 2; 1; 1; 2; 1]%nat)
  = run (new_server 3) [[x1]; [x1; x2]].
Proof. vm_compute. reflexivity. Qed.

Print Assumptions C18_refuted.
Print Assumptions C18_reset_partial.
Print Assumptions C18_serial_partial.
Print Assumptions C18_undisturbed_partial.
Print Assumptions C62_refuted.
Print Assumptions C62_one_updater_partial.
