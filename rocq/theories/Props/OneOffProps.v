(** Theorems about rtrmon -oneoff: C126. *)
From Coq Require Import ZArith ZifyBool ZifyNat ZifyN.
From Verif Require Import Spec.MonRun Spec.OneOff Proofs.MonitorP Proofs.MonitorP2 Proofs.MonProcP Proofs.MonRunP Props.MonitorProps Props.MonRunProps.
From Coq Require Import List.
Import ListNotations.
Local Open Scope N_scope.

(** * C126 -oneoff: dump as json and exit *)
Definition C126_oneoff : Prop := forall cfg ls s, orun cfg (comparator_oneoff true) ls = Some s ->
  compared Pri ls -> compared Sec ls -> written s <> [] /\ exit_status s <> None.

Lemma orun_snoc cfg o s ls l : orun_from cfg o s (ls ++ [l]) = match orun_from cfg o s ls with Some s' => ostep cfg o s' l | None => None end.
Proof. unfold orun_from. now rewrite fold_left_app. Qed.
Lemma ostep_ms cfg o s l s' : ostep cfg o s l = Some s' -> mstep cfg (os_ms s) l = Some (os_ms s').
Proof.
  unfold ostep. destruct l; try (destruct (os_stop s); [discriminate|]); destruct (mstep cfg (os_ms s) _); try discriminate; intros H; injection H as <-; reflexivity.
Qed.

(** The flag changes nothing: the same schedules, with the same states. *)
Theorem C126_ignored : forall cfg flag ls, option_map os_ms (orun cfg (comparator_oneoff flag) ls) = mrun cfg ls.
Proof.
  intros cfg flag ls.
  enough (H : match orun cfg (comparator_oneoff flag) ls with Some s => mrun cfg ls = Some (os_ms s) /\ os_stop s = false | None => mrun cfg ls = None end).
  { destruct (orun cfg (comparator_oneoff flag) ls); [destruct H as [-> _]|rewrite H]; reflexivity. }
  induction ls as [|l ls IH] using rev_ind; [split; reflexivity|].
  unfold orun in *. rewrite orun_snoc, mrun_snoc. destruct (orun_from cfg (comparator_oneoff flag) os_init ls) as [s|]; [|now rewrite IH].
  destruct IH as (-> & ES). unfold ostep. rewrite ES. destruct l; destruct (mstep cfg (os_ms s) _); (split; reflexivity) || reflexivity.
Qed.
Print Assumptions C126_ignored.

(** Both sources are compared, one even twice, and the process neither writes nor ends. *)
Theorem C126_refuted : ~ C126_oneoff.
Proof.
  intros H.
  assert (E : exists s, orun cfgR (comparator_oneoff true) ls81 = Some s) by (eexists; vm_compute; reflexivity).
  destruct E as (s & E). destruct (H cfgR ls81 s E) as (W & _).
  - exists (firstn 4 ls81), (skipn 4 ls81). eexists. split; [reflexivity|]. split; [cbn; tauto|cbn; right; right; right; right; right; right; left; reflexivity].
  - exists (firstn 12 ls81), (skipn 12 ls81). eexists. split; [reflexivity|]. split; [cbn; tauto|cbn; right; right; right; right; right; left; reflexivity].
  - apply W. reflexivity.
Qed.
Print Assumptions C126_refuted.

(** * What would happen if main passed the flag on *)
Definition done (i : side) (s : ostate) : bool := match i with Pri => os_pri s | Sec => os_sec s end.
Lemma compared_snoc i ls l : compared i (ls ++ [l]) <-> compared i ls \/ (In (LSend i) ls /\ exists clk, l = LPublish clk).
Proof.
  split.
  - intros (a & b & clk & E & HA & HB). destruct b as [|b0 b1]; [destruct HB|]. destruct (exists_last (l := b0 :: b1)) as (b' & x & EX); [discriminate|]. rewrite EX in *. clear EX b0 b1.
    rewrite app_assoc in E. apply app_inj_tail in E. destruct E as (-> & ->). apply in_app_iff in HB. destruct HB as [HB|[->|[]]].
    + left. exists a, b', clk. auto.
    + right. split; [apply in_or_app; now left|now exists clk].
  - intros [(a & b & clk & -> & HA & HB)|(HA & clk & ->)].
    + exists a, (b ++ [l]), clk. rewrite app_assoc. split; [reflexivity|]. split; [exact HA|apply in_or_app; now left].
    + exists ls, [LPublish clk], clk. split; [reflexivity|]. split; [exact HA|now left].
Qed.
Lemma working_step cfg m l m' : mstep cfg m l = Some m' ->
  match l with
  | LSend i => working (ms_comp m) = None /\ working (ms_comp m') = Some i
  | LPublish _ => working (ms_comp m) <> None /\ working (ms_comp m') = None
  | _ => working (ms_comp m') = working (ms_comp m)
  end.
Proof.
  intros H. destruct l; cbn [mstep] in H.
  - unfold step_fetch in H. destruct (k_file cfg i); [|discriminate H].
    destruct (mc_phase (ms_c i m)); try discriminate H. destruct r; try (injection H as <-; reflexivity);
      [destruct (update_refs _ _ _ _) as [[h v] n]|destruct (build_refs _ _ _ _ _ _) as [[h v] n]]; injection H as <-; now destruct i.
  - unfold step_pdu in H. destruct (k_file cfg i); [discriminate H|]. destruct (mc_phase (ms_c i m)); try discriminate H.
    destruct (match p with IPv4Prefix _ _ _ _ _ => _ | _ => _ end) as [h c']. injection H as <-. now destruct i.
  - unfold step_assign in H. destruct (mc_phase (ms_c i m)); try discriminate H; injection H as <-; now destruct i.
  - unfold step_send in H. destruct (mc_phase (ms_c i m)); try discriminate H. destruct (ms_comp m); try discriminate H. injection H as <-. split; reflexivity.
  - unfold step_compare in H. destruct (ms_comp m); try discriminate H. destruct (get_data (ms_c1 m)). injection H as <-. reflexivity.
  - unfold step_compare in H. destruct (ms_comp m); try discriminate H. destruct (get_data (ms_c2 m)). injection H as <-. reflexivity.
  - unfold step_compare in H. destruct (ms_comp m); try discriminate H. injection H as <-. reflexivity.
  - unfold step_compare in H. destruct (ms_comp m); try discriminate H. injection H as <-. split; [discriminate|reflexivity].
Qed.
Definition oinv (ls : list mlabel) (s : ostate) : Prop :=
  (forall i, In (LSend i) ls <-> done i s = true \/ working (ms_comp (os_ms s)) = Some i) /\
  (forall i, compared i ls <-> done i s = true) /\
  (os_stop s = os_pri s && os_sec s) /\ (os_stop s = true -> working (ms_comp (os_ms s)) = None).
Lemma reach_oinv cfg ls : forall s, orun cfg true ls = Some s -> oinv ls s.
Proof.
  induction ls as [|l ls IH] using rev_ind; intros s H.
  { injection H as <-. split; [|split; [|split; [reflexivity|discriminate]]].
    - intros i. split; [intros []|]. cbn. destruct i; intros [E|E]; discriminate E.
    - intros i. split; [|destruct i; intros E; discriminate E]. intros (a & b & clk & E & HA & _). destruct a; [destruct HA|discriminate E]. }
  unfold orun in *. rewrite orun_snoc in H. destruct (orun_from cfg true os_init ls) as [s0|] eqn:E; [|discriminate H].
  destruct (IH s0 eq_refl) as (I1 & I2 & I3 & I4). pose proof (ostep_ms cfg true s0 l s H) as HM. pose proof (working_step cfg _ l _ HM) as HW.
  assert (NS : forall i, In (LSend i) (ls ++ [l]) <-> In (LSend i) ls \/ l = LSend i).
  { intros i. rewrite in_app_iff. cbn [In]. intuition congruence. }
  unfold ostep in H. destruct l as [j t r|j t q|j t|j| | | |clk].
  1-3,5-7: rewrite HM in H; injection H as <-; cbn [os_ms] in HW; unfold oinv, done in *; cbn [os_ms os_pri os_sec os_stop] in *; rewrite HW;
    split; [intros i; rewrite NS, <- I1; intuition discriminate|]; split; [|split; assumption];
    intros i; rewrite compared_snoc, <- I2; (split; [intros [X|(_ & clk & X)]; [exact X|discriminate X]|tauto]).
  - destruct (os_stop s0) eqn:ES; [discriminate H|]. rewrite HM in H. injection H as <-. destruct HW as (W1 & W2). unfold oinv, done in *. cbn [os_ms os_pri os_sec os_stop] in *. rewrite W2.
    split; [|split; [|split; [exact I3|discriminate]]].
    + intros i. rewrite NS, I1, W1. split; [intros [[X|X]|X]; [now left|discriminate X|right; congruence]|intros [X|X]; [now left; left|right; congruence]].
    + intros i. rewrite compared_snoc, <- I2. split; [intros [X|(_ & clk & X)]; [exact X|discriminate X]|tauto].
  - rewrite HM in H. injection H as <-. destruct HW as (W1 & W2). unfold oinv. cbn [os_ms os_pri os_sec os_stop] in *. rewrite W2.
    destruct (working (ms_comp (os_ms s0))) as [id|] eqn:EW; [|contradiction].
    assert (ND : os_stop s0 = false) by (destruct (os_stop s0); [discriminate (I4 eq_refl)|reflexivity]).
    assert (D : forall i, done i (mkOS (os_ms s) (os_pri s0 || match id with Pri => true | Sec => false end)
                                   (os_sec s0 || match id with Sec => true | Pri => false end) (os_stop s0 || (true && (os_pri s0 || match id with Pri => true | Sec => false end) && (os_sec s0 || match id with Sec => true | Pri => false end)))) = true
                      <-> done i s0 = true \/ id = i).
    { intros i. destruct i, id; cbn [done os_pri os_sec]; rewrite ?orb_true_r, ?orb_false_r; intuition discriminate. }
    split; [|split; [|split; [rewrite ND; reflexivity|reflexivity]]].
    + intros i. rewrite NS, I1, D. split; [intros [[X|X]|X]; [now left; left|left; right; congruence|discriminate X]|intros [[X|X]|X]; [tauto|left; right; congruence|discriminate X]].
    + intros i. rewrite compared_snoc, I2, I1, D. split.
      * intros [X|([X|X] & _)]; [now left|now left|right; congruence].
      * intros [X|X]; [now left|right]. split; [right; congruence|now exists clk].
Qed.

Lemma sending_step cfg m l m' i : mstep cfg m l = Some m' -> (forall j, l <> LSend j) ->
  (mc_phase (ms_c i m) = MSending -> mc_phase (ms_c i m') = MSending /\ is_assign i l = false) /\
  (is_assign i l = true -> mc_phase (ms_c i m') = MSending).
Proof.
  intros H NS. destruct l as [j t r|j t q|j t|j| | | |clk]; cbn [mstep] in H; try (destruct (NS j eq_refl)).
  - split; [|destruct i; discriminate]. intros HP. split; [|now destruct i]. unfold step_fetch in H. destruct (k_file cfg j); [|discriminate H].
    destruct (mc_phase (ms_c j m)) eqn:EJ; try discriminate H. assert (NE : side_eqb j i = false) by (destruct i, j; try reflexivity; congruence).
    destruct r; try (injection H as <-; exact HP); [destruct (update_refs _ _ _ _) as [[h v] n]|destruct (build_refs _ _ _ _ _ _) as [[h v] n]];
      injection H as <-; now rewrite ms_c_set, NE.
  - split; [|destruct i; discriminate]. intros HP. split; [|now destruct i]. unfold step_pdu in H. destruct (k_file cfg j); [discriminate H|].
    destruct (mc_phase (ms_c j m)) eqn:EJ; try discriminate H. assert (NE : side_eqb j i = false) by (destruct i, j; try reflexivity; congruence).
    destruct (match q with IPv4Prefix _ _ _ _ _ => _ | _ => _ end) as [h c']. injection H as <-. now rewrite ms_c_set, NE.
  - unfold step_assign in H. split.
    + intros HP. assert (NE : side_eqb j i = false) by (destruct (side_dec j i) as [->|X]; [rewrite HP in H; discriminate H|now apply side_neq]).
      split; [|destruct i, j; reflexivity || discriminate NE].
      destruct (mc_phase (ms_c j m)); try discriminate H; injection H as <-; now rewrite ms_c_set, NE.
    + intros HA. assert (j = i) as -> by (destruct i, j; reflexivity || discriminate HA).
      destruct (mc_phase (ms_c i m)); try discriminate H; injection H as <-; now rewrite ms_c_set, side_refl.
  - unfold step_compare in H. destruct (ms_comp m); try discriminate H. destruct (get_data (ms_c1 m)). injection H as <-. destruct i; cbn; split; auto; discriminate.
  - unfold step_compare in H. destruct (ms_comp m); try discriminate H. destruct (get_data (ms_c2 m)). injection H as <-. destruct i; cbn; split; auto; discriminate.
  - unfold step_compare in H. destruct (ms_comp m); try discriminate H. injection H as <-. destruct i; cbn; split; auto; discriminate.
  - unfold step_compare in H. destruct (ms_comp m); try discriminate H. injection H as <-. destruct i; cbn; split; auto; discriminate.
Qed.

(** Compare ends when both have been compared; after that the comparison published stays as it is for
    ever, and each client gets no further than the announcement of one more result. *)
Theorem C126_passed_on_partial : forall cfg ls s, orun cfg true ls = Some s ->
  (os_stop s = true <-> compared Pri ls /\ compared Sec ls) /\
  (os_stop s = true -> forall ls' s', orun_from cfg true s ls' = Some s' ->
    ms_pub (os_ms s') = ms_pub (os_ms s) /\ (forall i, ~ In (LSend i) ls') /\ (forall clk, ~ In (LPublish clk) ls') /\
    forall i, (replaced i ls' <= 1)%nat).
Proof.
  intros cfg ls s HR. destruct (reach_oinv cfg ls s HR) as (_ & I2 & I3 & I4). split.
  { rewrite (I2 Pri), (I2 Sec), I3. cbn [done]. now rewrite andb_true_iff. }
  intros HS ls'. specialize (I4 HS).
  enough (K : forall s', orun_from cfg true s ls' = Some s' ->
    (ms_pub (os_ms s') = ms_pub (os_ms s) /\ (forall i, ~ In (LSend i) ls') /\ (forall clk, ~ In (LPublish clk) ls')) /\
    (os_stop s' = true /\ working (ms_comp (os_ms s')) = None) /\
    forall i, (replaced i ls' <= 1)%nat /\ (replaced i ls' = 0%nat \/ mc_phase (ms_c i (os_ms s')) = MSending)).
  { intros s' H. destruct (K s' H) as ((K1 & K2 & K3) & _ & K4). split; [exact K1|]. split; [exact K2|]. split; [exact K3|]. intros i. apply K4. }
  clear I2 I3 HR ls. induction ls' as [|l ls' IH] using rev_ind; intros s' H.
  { injection H as <-. split; [repeat split; intros x []|]. split; [split; assumption|]. intros i. split; [unfold replaced; cbn; lia|now left]. }
  rewrite orun_snoc in H. destruct (orun_from cfg true s ls') as [s0|] eqn:E; [|discriminate H].
  destruct (IH s0 eq_refl) as ((K1 & K2 & K3) & (K4 & K5) & K6).
  pose proof (ostep_ms cfg true s0 l s' H) as HM. pose proof (working_step cfg _ l _ HM) as HW.
  assert (RA : forall i, replaced i (ls' ++ [l]) = (replaced i ls' + if is_assign i l then 1 else 0)%nat).
  { intros i. unfold replaced. rewrite filter_app, app_length. cbn [filter]. now destruct (is_assign i l). }
  assert (EX : os_stop s' = true /\ (forall i, l <> LSend i) /\ forall clk, l <> LPublish clk).
  { unfold ostep in H. destruct l as [j t r|j t q|j t|j| | | |clk]; rewrite ?K4, ?HM in H; try discriminate H;
      try (injection H as <-; split; [exact K4 || reflexivity|split; intros; discriminate]).
    destruct HW as (HW & _). rewrite K5 in HW. contradiction. }
  destruct EX as (X1 & X2 & X3). split; [|split].
  - split; [rewrite <- K1; apply (step_pub cfg _ l _ HM); destruct l; try exact I; now apply (X3 clk)|].
    split; [intros i HI|intros clk HI]; apply in_app_iff in HI; destruct HI as [HI|[HI|[]]].
    + exact (K2 i HI).
    + exact (X2 i HI).
    + exact (K3 clk HI).
    + exact (X3 clk HI).
  - split; [exact X1|]. destruct l as [j t r|j t q|j t|j| | | |clk]; try (rewrite HW; exact K5); [destruct (X2 j eq_refl)|destruct (X3 clk eq_refl)].
  - intros i. rewrite RA. destruct (K6 i) as (A & B). destruct (sending_step cfg _ l _ i HM X2) as (S1 & S2).
    destruct B as [B|B]; [|destruct (S1 B) as (-> & ->); rewrite Nat.add_0_r; auto].
    rewrite B. destruct (is_assign i l); [split; [lia|right; now apply S2]|split; [lia|now left]].
Qed.
Print Assumptions C126_passed_on_partial.

(** The schedule of C81 with the field set: it ends with the second of the two sources; the next result
    of the primary can be announced to nobody. *)
Example C126_case : exists s s', orun cfgR true (firstn 17 ls81 ++ [LPublish (fun _ => 300%Z)]) = Some s /\ os_stop s = true /\ ms_pub (os_ms s) <> None /\
  ostep cfgR true s (LSend Pri) = None /\ orun_from cfgR true s [LPdu Sec 400 (CacheResponse 1 7); LPdu Sec 401 (eod 2); LAssign Sec 402] = Some s' /\
  ostep cfgR true s' (LSend Sec) = None /\
  (exists t, orun cfgR (comparator_oneoff true) ls81 = Some t /\ os_pri t = true /\ os_sec t = true /\ os_stop t = false).
Proof.
  eexists. eexists. split; [vm_compute; reflexivity|]. split; [reflexivity|]. split; [vm_compute; discriminate|]. split; [vm_compute; reflexivity|].
  split; [vm_compute; reflexivity|]. split; [vm_compute; reflexivity|]. eexists. split; [vm_compute; reflexivity|]. auto.
Qed.
