(** Property C18, exactly: which responses a query gets beside an updater. *)
From Coq Require Import ZArith ZifyBool ZifyNat ZifyN.
From Verif Require Import Model.ConcCache Spec.Snapshot Spec.History Proofs.CacheP Proofs.ConcCacheP Props.CacheProps Props.ConcCacheProps.
From Coq Require Import List Lia.
Import ListNotations.
Local Open Scope list_scope.
Local Open Scope N_scope.

(** The updater alone. *)
Lemma drive t c : forall b s, exists sched, wrun (s, [t; TUpd (b ++ c)]) sched = (run s b, [t; TUpd c]) /\ ~ In 0%nat sched.
Proof.
  induction b as [|new b IH]; intros s; [exists []; split; [reflexivity|intros []]|]. destruct (IH (step s new)) as (sched & E & N).
  change (run s (new :: b)) with (run (step s new) b). pose proof (step_diff s new) as SD. unfold diff_of in SD.
  destruct (compute_diff new (sdCurrent s) false) as [[a r] u] eqn:EC. destruct (a ++ r) as [|d0 d] eqn:ED.
  - exists ([1%nat] ++ sched). split; [|intros [X|X]; [discriminate X|contradiction]]. rewrite wrun_app.
    assert (W : wrun (s, [t; TUpd ((new :: b) ++ c)]) [1%nat] = (s, [t; TUpd (b ++ c)])) by (cbn [wrun fold_left]; unfold wstep; cbn [snd nth_error tstep app fst]; rewrite EC, ED; reflexivity).
    rewrite W, <- E, SD. reflexivity.
  - exists ([1; 1; 1]%nat ++ sched). split; [|intros [X|[X|[X|X]]]; try discriminate X; contradiction]. rewrite wrun_app.
    assert (W : wrun (s, [t; TUpd ((new :: b) ++ c)]) [1; 1; 1]%nat = (add_sds_diff s (d0 :: d), [t; TUpd (b ++ c)])).
    { cbn [wrun fold_left]. unfold wstep at 3. cbn [snd nth_error tstep app fst]. rewrite EC, ED. reflexivity. }
    rewrite W, <- E, SD. reflexivity.
Qed.
(** The states before two moments of a schedule. *)
Lemma two_moments s t us sched j k : is_upd t = false -> (j <= k)%nat ->
  forall s1 s2, nth_error (published (s, [t; TUpd us]) sched) j = Some s1 -> nth_error (published (s, [t; TUpd us]) sched) k = Some s2 ->
  exists a b c, us = a ++ b ++ c /\ s1 = run s a /\ s2 = run s (a ++ b).
Proof.
  intros HT HJ s1 s2 E1 E2.
  assert (HL : forall w sd, length (published w sd) = S (length sd)) by (intros w sd; revert w; induction sd; intros; cbn; auto).
  assert (LK : (k <= length sched)%nat). { assert (X : (k < length (published (s, [t; TUpd us]) sched))%nat) by (apply nth_error_Some; congruence). rewrite HL in X. lia. }
  rewrite published_nth in E1, E2 by lia. injection E1 as <-. injection E2 as <-.
  assert (HO : one_updater 1 (s, [t; TUpd us])).
  { intros n t0 H0 HN. cbn in H0. destruct n as [|[|n]]; [injection H0 as <-; exact HT|now elim HN|destruct n; discriminate H0]. }
  assert (HO1 : forall l w, one_updater 1 w -> one_updater 1 (wrun w l)).
  { induction l as [|x l IH]; intros w Hw; [exact Hw|]. change (wrun w (x :: l)) with (wrun (wstep w x) l). apply IH. now apply one_updater_step. }
  destruct (one_updater_run s us 1 (firstn j sched) (s, [t; TUpd us]) 0 (TUpd us) HO eq_refl) as (k1 & t1 & _ & A1 & A2).
  { split; [lia|]. split; reflexivity. }
  destruct (one_updater_run s us 1 (skipn j (firstn k sched)) _ k1 t1 (HO1 _ _ HO) A1 A2) as (k2 & t2 & K & _ & B2).
  rewrite <- wrun_app in B2. replace (firstn j sched) with (firstn j (firstn k sched)) in B2 by (rewrite firstn_firstn; f_equal; lia).
  rewrite firstn_skipn in B2. destruct A2 as (_ & A2 & _). destruct B2 as (B1 & B2 & _).
  exists (firstn k1 us), (firstn (k2 - k1) (skipn k1 us)), (skipn k2 us).
  assert (F : firstn k2 us = firstn k1 us ++ firstn (k2 - k1) (skipn k1 us)).
  { replace (firstn k1 us) with (firstn k1 (firstn k2 us)) by (rewrite firstn_firstn; f_equal; lia). rewrite firstn_skipn_comm.
    replace (k1 + (k2 - k1))%nat with k2 by lia. now rewrite firstn_skipn. }
  rewrite app_assoc, <- F, firstn_skipn. auto.
Qed.

(** A full response beside an updater: its serial is that of any moment at which there was something
    to serve, its records those of any moment from then on; all these pairs occur.  (Missing: that the
    two moments are one.) *)
Theorem C18_exact_partial : forall s us n data,
  ((exists sched, nth_error (snd (wrun (s, [TReset; TUpd us]) sched)) 0 = Some (TAnswer n data)) <->
   exists a b c, us = a ++ b ++ c /\ sdCurrent (run s a) <> [] /\ n = sdCurrentSerial (run s a) /\ data = sdCurrent (run s (a ++ b))) /\
  (forall q, (exists sched, nth_error (snd (wrun (s, [TSerial q; TUpd us]) sched)) 0 = Some (TAnswer n data)) <->
   exists a b c, us = a ++ b ++ c /\ sdCurrent (run s a) <> [] /\ n = sdCurrentSerial (run s a) /\ get_sds_serial_diff (run s (a ++ b)) q = Ok data).
Proof.
  intros s us n data. split; [|intros q]; split.
  - intros (sched & E). destruct (C18_reset_partial s [TReset; TUpd us] sched 0 n data eq_refl E) as (j & k & s1 & s2 & HJ & E1 & E2 & F1 & F2 & F3).
    destruct (two_moments s TReset us sched j k eq_refl HJ s1 s2 E1 E2) as (a & b & c & -> & -> & ->). exists a, b, c. auto.
  - intros (a & b & c & -> & NE & -> & ->). destruct (drive TReset (b ++ c) a s) as (s1 & E1 & _).
    destruct (drive (TReset1 (sdCurrentSerial (run s a))) c b (run s a)) as (s2 & E2 & _).
    exists (s1 ++ [0%nat] ++ s2 ++ [0%nat]). rewrite !wrun_app, E1.
    assert (W : wrun (run s a, [TReset; TUpd (b ++ c)]) [0%nat] = (run s a, [TReset1 (sdCurrentSerial (run s a)); TUpd (b ++ c)])).
    { cbn. unfold wstep. cbn. destruct (sdCurrent (run s a)); [contradiction|reflexivity]. }
    rewrite W, E2. cbn. unfold wstep. cbn. rewrite run_app. reflexivity.
  - intros (sched & E). destruct (C18_serial_partial s [TSerial q; TUpd us] sched 0 q n data eq_refl E) as (j & k & s1 & s2 & HJ & E1 & E2 & F1 & F2 & F3).
    destruct (two_moments s (TSerial q) us sched j k eq_refl HJ s1 s2 E1 E2) as (a & b & c & -> & -> & ->). exists a, b, c. auto.
  - intros (a & b & c & -> & NE & -> & ED). destruct (drive (TSerial q) (b ++ c) a s) as (s1 & E1 & _).
    destruct (drive (TSerial1 q (sdCurrentSerial (run s a))) c b (run s a)) as (s2 & E2 & _).
    exists (s1 ++ [0%nat] ++ s2 ++ [0%nat]). rewrite !wrun_app, E1.
    assert (W : wrun (run s a, [TSerial q; TUpd (b ++ c)]) [0%nat] = (run s a, [TSerial1 q (sdCurrentSerial (run s a)); TUpd (b ++ c)])).
    { cbn. unfold wstep. cbn. destruct (sdCurrent (run s a)); [contradiction|reflexivity]. }
    rewrite W, E2. cbn. unfold wstep. cbn. rewrite run_app in ED. rewrite ED. reflexivity.
Qed.
(** Serial of the first file, records of the third. *)
Example C18_exact_case : exists sched, nth_error (snd (wrun (new_server 3, [TReset; TUpd [[x1]; [x1; x2]; [x5]]]) sched)) 0 = Some (TAnswer 0 [x5]).
Proof. apply C18_exact_partial. exists [[x1]], [[x1; x2]; [x5]], []. split; [reflexivity|]. split; [discriminate|]. split; vm_compute; reflexivity. Qed.

Print Assumptions C18_exact_partial.
