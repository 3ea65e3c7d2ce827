From Coq Require Import ZifyBool ZifyNat ZifyN.
From Verif Require Import Model.ConcCache Spec.Sets Spec.History Spec.Snapshot.
Ltac Zify.zify_post_hook ::= Z.div_mod_to_equations.

Lemma set_nth_same {A} (l : list A) n x : (n < length l)%nat -> nth_error (set_nth l n x) n = Some x.
Proof. revert n; induction l as [|y l IH]; intros [|n] H; cbn in *; try lia; auto. apply IH. lia. Qed.
Lemma set_nth_other {A} (l : list A) n m x : n <> m -> nth_error (set_nth l n x) m = nth_error l m.
Proof. revert n m; induction l as [|y l IH]; intros [|n] [|m] H; cbn; try reflexivity; try lia; auto. Qed.
Lemma set_nth_length {A} (l : list A) n x : length (set_nth l n x) = length l.
Proof. revert n; induction l as [|y l IH]; intros [|n]; cbn; auto. Qed.

Lemma wrun_app w a b : wrun w (a ++ b) = wrun (wrun w a) b.
Proof. unfold wrun. apply fold_left_app. Qed.

(** Effect of a step on the cache and on each thread. *)
Lemma wstep_self w i t : nth_error (snd w) i = Some t ->
  match tstep (fst w) t with
  | Some (s', t') => fst (wstep w i) = s' /\ nth_error (snd (wstep w i)) i = Some t'
  | None => wstep w i = w
  end.
Proof.
  intros H. unfold wstep. rewrite H. destruct (tstep (fst w) t) as [[s' t']|] eqn:E; auto.
  cbn. split; auto. apply set_nth_same. apply nth_error_Some. congruence.
Qed.
Lemma wstep_other w i j : i <> j -> nth_error (snd (wstep w i)) j = nth_error (snd w) j.
Proof.
  intros H. unfold wstep. destruct (nth_error (snd w) i) as [t|]; auto.
  destruct (tstep (fst w) t) as [[s' t']|]; auto. cbn. apply set_nth_other; auto.
Qed.

(** A thread that is not an updater leaves the cache alone and stays one. *)
Lemma tstep_reader s t s' t' : is_upd t = false -> tstep s t = Some (s', t') -> s' = s /\ is_upd t' = false.
Proof.
  destruct t; cbn; intros U H; try discriminate.
  - destruct (sdCurrent s); inversion H; subst; auto.
  - inversion H; auto.
  - destruct (sdCurrent s); inversion H; subst; auto.
  - destruct (get_sds_serial_diff s q); inversion H; subst; auto.
Qed.

(** *** one updater *)
Definition one_updater (i : nat) (w : world) : Prop :=
  forall j t, nth_error (snd w) j = Some t -> j <> i -> is_upd t = false.

Lemma one_updater_step i w k : one_updater i w -> one_updater i (wstep w k).
Proof.
  intros H j t Hj Hne. destruct (Nat.eq_dec k j) as [->|E].
  - destruct (nth_error (snd w) j) as [t0|] eqn:E0.
    + pose proof (wstep_self w j t0 E0) as S. destruct (tstep (fst w) t0) as [[s' t']|] eqn:ET.
      * destruct S as [_ S]. rewrite S in Hj. inversion Hj; subst.
        eapply tstep_reader; [|exact ET]. eapply H; eauto.
      * rewrite S in Hj. eapply H; eauto.
    + unfold wstep in Hj. rewrite E0 in Hj. congruence.
  - rewrite wstep_other in Hj by auto. eapply H; eauto.
Qed.

(** Where the updater stands after [k] of the updates [h]. *)
Definition diff_of (s : server) (new : list sd) : list sd :=
  let '(added, removed, _) := compute_diff new (sdCurrent s) false in added ++ removed.
Definition upd_inv (s0 : server) (h : list (list sd)) (k : nat) (s : server) (t : thread) : Prop :=
  (k <= length h)%nat /\ s = run s0 (firstn k h) /\
  match t with
  | TUpd todo => todo = skipn k h
  | TUpd1 d todo => exists new, skipn k h = new :: todo /\ d = diff_of s new /\ d <> []
  | TUpd2 d m c todo => exists new, skipn k h = new :: todo /\ d = diff_of s new /\ d <> [] /\
                                    (m, c) = sds_diff_read s d
  | _ => False
  end.

Lemma skipn_cons_S {A} (l : list A) : forall k x r, skipn k l = x :: r ->
  skipn (S k) l = r /\ firstn (S k) l = firstn k l ++ [x] /\ (S k <= length l)%nat.
Proof.
  induction l as [|y l IH]; intros [|k] x r H; cbn in *; try discriminate.
  - inversion H; subst. repeat split; auto. lia.
  - destruct (IH k x r H) as (A1 & A2 & A3). repeat split; auto; [|lia].
    cbn in A2. rewrite A2. reflexivity.
Qed.

Lemma run_snoc s h x : run s (h ++ [x]) = step (run s h) x.
Proof. unfold run. rewrite fold_left_app. reflexivity. Qed.

Lemma step_diff s new : step s new = match diff_of s new with [] => s | d => add_sds_diff s d end.
Proof.
  unfold step, diff_of, add_data. destruct (compute_diff new (sdCurrent s) false) as [[a r] u].
  destruct (a ++ r); reflexivity.
Qed.

Lemma upd_step s0 h k s t s' t' : upd_inv s0 h k s t -> tstep s t = Some (s', t') ->
  exists k', (k <= k' <= S k)%nat /\ upd_inv s0 h k' s' t'.
Proof.
  intros (Hk & Hs & Ht) H. destruct t; try contradiction; cbn [tstep] in H.
  - destruct todo as [|new todo]; [discriminate|].
    symmetry in Ht. destruct (skipn_cons_S h k new todo Ht) as (A1 & A2 & A3).
    assert (D : diff_of s new = diff_of s new) by reflexivity. unfold diff_of in D at 1.
    destruct (compute_diff new (sdCurrent s) false) as [[a r] u].
    destruct (a ++ r) as [|d0 d] eqn:Ed; injection H as <- <-.
    + exists (S k). split; [lia|]. split; [lia|]. split; [|auto].
      rewrite A2, run_snoc, <- Hs, step_diff, <- D. reflexivity.
    + exists k. split; [lia|]. split; [auto|]. split; [auto|].
      exists new. repeat split; auto. discriminate.
  - destruct Ht as (new & E & Ed & Hn). injection H as <- <-.
    exists k. split; [lia|]. split; [auto|]. split; [auto|]. exists new. auto.
  - destruct Ht as (new & E & Ed & Hn & Em). injection H as <- <-.
    destruct (skipn_cons_S h k new todo E) as (A1 & A2 & A3).
    exists (S k). split; [lia|]. split; [lia|]. split; [|auto].
    rewrite A2, run_snoc, <- Hs, step_diff, <- Ed. destruct diff as [|d0 d]; [contradiction|].
    inversion Em; subst merged cur. reflexivity.
Qed.

Lemma one_updater_run s0 h i : forall sched w k t, one_updater i w ->
  nth_error (snd w) i = Some t -> upd_inv s0 h k (fst w) t ->
  exists k' t', (k <= k')%nat /\ nth_error (snd (wrun w sched)) i = Some t' /\
                upd_inv s0 h k' (fst (wrun w sched)) t'.
Proof.
  induction sched as [|j sched IH]; intros w k t HO Ht Hi.
  { exists k, t. auto. }
  change (wrun w (j :: sched)) with (wrun (wstep w j) sched).
  pose proof (one_updater_step i w j HO) as HO'.
  destruct (Nat.eq_dec j i) as [->|Hne].
  - pose proof (wstep_self w i t Ht) as S. destruct (tstep (fst w) t) as [[s' t']|] eqn:ET.
    + destruct S as [S1 S2]. destruct (upd_step _ _ _ _ _ _ _ Hi ET) as (k1 & K & I1).
      rewrite <- S1 in I1. destruct (IH _ _ _ HO' S2 I1) as (k2 & t2 & K2 & R2).
      exists k2, t2. split; [lia|auto].
    + rewrite S. apply (IH w k t); auto.
  - assert (E : fst (wstep w j) = fst w).
    { destruct (nth_error (snd w) j) as [tj|] eqn:Ej.
      - pose proof (wstep_self w j tj Ej) as S. destruct (tstep (fst w) tj) as [[s' t']|] eqn:ET.
        + destruct S as [S1 _]. rewrite S1. eapply tstep_reader; [|exact ET]. eapply HO; eauto.
        + rewrite S. reflexivity.
      - unfold wstep. rewrite Ej. reflexivity. }
    apply (IH (wstep w j) k t); auto.
    + rewrite wstep_other; auto.
    + rewrite E. exact Hi.
Qed.

(** *** readers *)
Lemma published_nth w sched : forall n, (n <= length sched)%nat ->
  nth_error (published w sched) n = Some (fst (wrun w (firstn n sched))).
Proof.
  revert w. induction sched as [|i r IH]; intros w [|n] H; cbn in *; try reflexivity; try lia.
  rewrite IH by lia. reflexivity.
Qed.

(** Facts about a reader thread, by its present state. *)
Definition rd_inv (l : list server) (t0 t : thread) : Prop :=
  match t0, t with
  | TReset, TReset => True
  | TReset, TReset1 serial => exists j s, nth_error l j = Some s /\ sdCurrentSerial s = serial /\ sdCurrent s <> []
  | TReset, TAnswer serial data => exists j k s1 s2, (j <= k)%nat /\ nth_error l j = Some s1 /\ nth_error l k = Some s2 /\
      sdCurrentSerial s1 = serial /\ sdCurrent s1 <> [] /\ sdCurrent s2 = data
  | TReset, TNoData => exists s, In s l /\ sdCurrent s = []
  | TSerial q, TSerial q' => q' = q
  | TSerial q, TSerial1 q' serial => q' = q /\ exists j s, nth_error l j = Some s /\ sdCurrentSerial s = serial /\ sdCurrent s <> []
  | TSerial q, TAnswer serial data => exists j k s1 s2, (j <= k)%nat /\ nth_error l j = Some s1 /\ nth_error l k = Some s2 /\
      sdCurrentSerial s1 = serial /\ sdCurrent s1 <> [] /\ get_sds_serial_diff s2 q = Ok data
  | TSerial q, TNoData => exists s, In s l /\ sdCurrent s = []
  | TSerial q, TCacheReset => exists s, In s l /\ forall d, get_sds_serial_diff s q <> Ok d
  | _, _ => False
  end.

Lemma rd_inv_mono l x t0 t : rd_inv l t0 t -> rd_inv (l ++ [x]) t0 t.
Proof.
  assert (M : forall j s, nth_error l j = Some s -> nth_error (l ++ [x]) j = Some s).
  { intros j s H. rewrite nth_error_app1; auto. apply nth_error_Some. congruence. }
  destruct t0, t; cbn; auto; intros H.
  - destruct H as (j & s & A & B). eauto 6.
  - destruct H as (j & k & s1 & s2 & A & B & C & D). exists j, k, s1, s2. auto 8.
  - destruct H as (s & A & B). exists s. split; auto. apply in_app_iff; auto.
  - destruct H as (Q & j & s & A & B). eauto 8.
  - destruct H as (j & k & s1 & s2 & A & B & C & D). exists j, k, s1, s2. auto 8.
  - destruct H as (s & A & B). exists s. split; auto. apply in_app_iff; auto.
  - destruct H as (s & A & B). exists s. split; auto. apply in_app_iff; auto.
Qed.

Lemma in_last_nth {A} (l : list A) x : nth_error (l ++ [x]) (length l) = Some x.
Proof. rewrite nth_error_app2 by lia. rewrite Nat.sub_diag. reflexivity. Qed.

Lemma rd_step l s t0 t s' t' : rd_inv (l ++ [s]) t0 t -> tstep s t = Some (s', t') ->
  rd_inv (l ++ [s]) t0 t'.
Proof.
  intros H E. pose proof (in_last_nth l s) as L.
  destruct t0; try (destruct t; cbn in H; contradiction).
  - destruct t; cbn in H; try contradiction; cbn in E.
    + destruct (sdCurrent s) eqn:EC; inversion E; subst; cbn.
      * exists s'. split; auto. apply in_app_iff; right; left; auto.
      * exists (length l), s'. repeat split; auto. congruence.
    + inversion E; subst; cbn. destruct H as (j & s1 & A & B & C).
      exists j, (length l), s1, s'. repeat split; auto.
      (assert (j < length (l ++ [s']))%nat by (apply nth_error_Some; congruence); rewrite app_length in *; cbn in *; lia).
    + discriminate.
    + discriminate.
  - destruct t; cbn in H; try contradiction; cbn in E.
    + subst q0. destruct (sdCurrent s) eqn:EC; inversion E; subst; cbn.
      * exists s'. split; auto. apply in_app_iff; right; left; auto.
      * split; auto. exists (length l), s'. repeat split; auto. congruence.
    + destruct H as (-> & j & s1 & A & B & C).
      destruct (get_sds_serial_diff s q) as [d| |] eqn:EG; inversion E; subst; cbn.
      * exists j, (length l), s1, s'. repeat split; auto.
        assert (j < length (l ++ [s']))%nat by (apply nth_error_Some; congruence).
        rewrite app_length in *; cbn in *; lia.
      * exists s'. split; [apply in_app_iff; right; left; auto|]. intros d; congruence.
      * exists s'. split; [apply in_app_iff; right; left; auto|]. intros d; congruence.
    + discriminate.
    + discriminate.
    + discriminate.
Qed.

Lemma rd_run i t0 : forall sched l w t, nth_error (snd w) i = Some t -> rd_inv (l ++ [fst w]) t0 t ->
  exists t', nth_error (snd (wrun w sched)) i = Some t' /\ rd_inv (l ++ published w sched) t0 t'.
Proof.
  induction sched as [|j sched IH]; intros l w t Ht Hi.
  { exists t. cbn. auto. }
  change (wrun w (j :: sched)) with (wrun (wstep w j) sched).
  change (published w (j :: sched)) with ([fst w] ++ published (wstep w j) sched).
  rewrite app_assoc.
  destruct (Nat.eq_dec j i) as [->|Hne].
  - pose proof (wstep_self w i t Ht) as S. destruct (tstep (fst w) t) as [[s' t']|] eqn:ET.
    + destruct S as [S1 S2]. apply (IH (l ++ [fst w]) (wstep w i) t' S2).
      apply rd_inv_mono. eapply rd_step; eauto.
    + rewrite S. apply (IH (l ++ [fst w]) w t Ht). apply rd_inv_mono. auto.
  - apply (IH (l ++ [fst w]) (wstep w j) t).
    + rewrite wstep_other; auto.
    + apply rd_inv_mono. auto.
Qed.

(** Other threads only leave a waiting reader where it is. *)
Lemma wrun_skip i t : forall sched w, nth_error (snd w) i = Some t -> ~ In i sched ->
  nth_error (snd (wrun w sched)) i = Some t.
Proof.
  induction sched as [|j sched IH]; intros w H N; [exact H|].
  apply (IH (wstep w j)); [|cbn in N; tauto]. rewrite wstep_other; auto. cbn in N; tauto.
Qed.
