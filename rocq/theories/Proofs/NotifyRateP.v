(** The rate of notifications. *)
From Coq Require Import ZArith ZifyBool ZifyNat ZifyN.
From Verif Require Import Model.Ticker Model.State Spec.Refresh Spec.NotifyRate Proofs.TickerP Proofs.StateP.
From Coq Require Import List.
Local Open Scope Z_scope.

(** * Notifications of one refresh *)
Definition loaded (s : state) : Prop := rl_roa (st_data s) <> None -> st_changed s = true.
Lemma apply_facts c s sds v b : (length (snd (apply_update c s sds v b)) <= 1)%nat /\
  st_data (fst (apply_update c s sds v b)) = st_data s /\ st_changed (fst (apply_update c s sds v b)) = st_changed s.
Proof. unfold apply_update. destruct (add_data _ _) as [sv []]; [destruct (sc_notify c)|]; cbn; auto. Qed.
Lemma prepare_facts e s now roa : let s1 := fst (fst (fst (prepare e s now roa))) in st_data s1 = st_data s /\ st_changed s1 = st_changed s.
Proof.
  unfold prepare. destruct (slurm_step s roa) as [[[v vt] b] bt]. destruct (process_data _ _ _ _) as [[[x y] z] u]. cbn. auto.
Qed.
Lemma fetch_facts e on i s : loaded s -> loaded (fst (fetch e on i s)) /\ (st_changed s = true -> st_changed (fst (fetch e on i s)) = true).
Proof.
  intros H. unfold fetch.
  assert (S : forall f, loaded (fst (update_slurm e f s)) /\ st_changed (fst (update_slurm e f s)) = st_changed s).
  { intros f. unfold update_slurm. destruct f as [d|]; [|auto]. destruct (match st_hslurm s with Some h0 => _ | None => _ end); [auto|].
    destruct (e_dslurm e d); cbn; auto. }
  assert (F : forall f s0, loaded s0 -> loaded (fst (update_file e f s0)) /\ (st_changed s0 = true -> st_changed (fst (update_file e f s0)) = true)).
  { intros f s0 H0. unfold update_file. destruct f as [d|]; [|auto]. destruct (match st_hcache s0 with Some h0 => _ | None => _ end); [auto|].
    destruct (e_decode e d); cbn; auto. unfold loaded. auto. }
  destruct on.
  - specialize (S (i_slurm i)). destruct (update_slurm e (i_slurm i) s) as [s1 su]. cbn [fst] in S. destruct S as [S1 S2].
    specialize (F (i_file i) s1 S1). destruct (update_file e (i_file i) s1) as [s2 cu]. cbn [fst] in *. rewrite S2 in F. exact F.
  - specialize (F (i_file i) s H). destruct (update_file e (i_file i) s) as [s2 cu]. exact F.
Qed.
Definition told (s : state) (r : state * list N) : Prop :=
  (length (snd r) <= 1)%nat /\ (snd r <> [] -> st_changed (fst r) = true) /\ loaded (fst r) /\ (st_changed s = true -> st_changed (fst r) = true).
Lemma new_facts e c now proc s : loaded s -> told s (fst (update_from_new_state e c now proc s)).
Proof.
  intros H. unfold update_from_new_state. destruct (rl_roa (st_data s)) as [roa|] eqn:ER; [|cbn; unfold told; cbn; repeat split; auto; easy].
  assert (HC : st_changed s = true) by (apply H; rewrite ER; discriminate).
  destruct (time_check _ _ _ _); [unfold told; cbn; repeat split; auto; easy|].
  pose proof (prepare_facts e s proc roa) as P. destruct (prepare e s proc roa) as [[[s1 sds] v] b]. cbn in P. destruct P as [P1 P2].
  pose proof (apply_facts c s1 sds v b) as A. destruct (apply_update c s1 sds v b) as [s2 ns]. cbn [fst snd] in *. destruct A as (A1 & A2 & A3).
  unfold told, loaded. cbn [fst snd]. rewrite A3, P2, HC. auto.
Qed.
Lemma reload_facts e c now proc s : loaded s -> told s (reload_from_current_state e c now proc s).
Proof.
  intros H. unfold reload_from_current_state. destruct (rl_roa (st_data s)) as [roa|] eqn:ER; [|unfold told; cbn; repeat split; auto; easy].
  assert (HC : st_changed s = true) by (apply H; rewrite ER; discriminate).
  destruct (time_check _ _ _ _); [unfold told; cbn; repeat split; auto; easy|].
  pose proof (prepare_facts e s proc roa) as P. destruct (prepare e s proc roa) as [[[s1 sds] v] b]. cbn in P. destruct P as [P1 P2].
  destruct (negb _).
  - pose proof (apply_facts c s1 sds v b) as A. destruct (apply_update c s1 sds v b) as [s2 ns]. cbn [fst snd] in *. destruct A as (A1 & A2 & A3).
    unfold told, loaded. cbn [fst snd]. rewrite A3, P2, HC. auto.
  - unfold told, loaded. cbn [fst snd]. rewrite P2, HC. repeat split; auto; easy.
Qed.
Lemma refresh_facts e c s i : loaded s -> told s (refresh e c s i).
Proof.
  intros H. unfold refresh. pose proof (fetch_facts e (sc_slurm c && sc_slurm_refresh c) i s H) as [F1 F2].
  destruct (fetch e _ i s) as [s2 new]. cbn [fst] in *.
  assert (G : forall r, told s2 r -> told s r) by (unfold told; intros r (A & B & C & D); auto 6).
  destruct new; [|apply G, reload_facts, F1].
  pose proof (new_facts e c (i_now i) (i_proc i) s2 F1) as N. destruct (update_from_new_state e c (i_now i) (i_proc i) s2) as [[s3 ns] err]. cbn [fst] in N.
  destruct err as [[]|]; [apply G, N| |apply G, N].
  apply G. destruct N as (A & B & C & D).
  assert (E : st_data (drop_stale e (i_late i) s3) = st_data s3 /\ st_changed (drop_stale e (i_late i) s3) = st_changed s3).
  { unfold drop_stale. destruct (exported_build e s3); [destruct (_ <? _)|]; cbn; auto. }
  destruct E as [E1 E2]. unfold told, loaded in *. cbn [fst snd] in *. rewrite E1, E2. auto.
Qed.
Lemma turn_facts e c h i : told (State.after e c h) (turn e c h i) /\ loaded (State.after e c h).
Proof.
  assert (I0 : loaded init_state) by (intros X; now destruct X).
  assert (T0 : forall j, told init_state (first_refresh e c j)).
  { intros j. unfold first_refresh. pose proof (fetch_facts e (sc_slurm c) j init_state I0) as [F1 F2].
    destruct (fetch e (sc_slurm c) j init_state) as [s2 new]. cbn [fst] in *.
    pose proof (new_facts e c (i_now j) (i_proc j) s2 F1) as N. destruct (update_from_new_state e c (i_now j) (i_proc j) s2) as [[s3 ns] err]. cbn [fst] in N.
    destruct N as (A & B & C & D). split; [exact A|]. split; [exact B|]. split; [exact C|]. discriminate. }
  assert (L : loaded (State.after e c h)).
  { induction h as [|j h IH] using rev_ind; [exact I0|]. rewrite after_snoc. unfold turn. destruct h as [|k h]; [apply T0|].
    now destruct (refresh_facts e c _ j IH) as (_ & _ & X & _). }
  split; [|exact L]. unfold turn. destruct h as [|k h]; [apply T0|apply refresh_facts, L].
Qed.

(** * The invariant *)
Section Rate.
Variables (interval D : Z) (e : env) (c : scfg).
Hypothesis HP : duration interval = interval * 1000000000.
Hypothesis HD : 0 <= D.
Hypothesis HI : D + minute <= interval * 1000000000.
Let P := interval * 1000000000.
Definition fine (w : day) : Prop :=
  let s := dy_clock w in
  0 < r_period s /\ (r_flag s = false -> r_period s = P) /\
  (r_zero s = negb (st_changed (State.after e c (dy_hist w)))) /\
  (r_pc s <> RHead -> r_flag s = false -> r_zero s = false) /\
  match r_pc s with
  | RHead => r_flag s = false -> r_full s = false
  | RSelect => r_zero s = false -> r_flag s = false -> r_full s = true -> r_now s + P <= r_next s
  | RBusy => dy_began w <= r_now s /\ (r_flag s = false -> dy_began w + P <= r_next s /\ (r_full s = true -> dy_began w + P <= r_now s))
  end /\
  (forall b t ns, In (b, t, ns) (dy_log w) -> ns <> [] ->
     t <= r_now s /\ r_zero s = false /\
     match r_pc s with
     | RHead => r_flag s = false -> t + minute <= r_next s
     | RSelect => t + minute <= r_next s /\ (r_full s = true -> t + minute <= r_now s)
     | RBusy => t + minute <= dy_began w
     end).
Definition calm (w : day) : Prop := fine w /\ limited (dy_log w).
Lemma P_pos : 0 < P.
Proof. unfold P, minute in *. lia. Qed.
Lemma pass_facts d s : 0 < r_period s -> 0 <= d ->
  let s' := pass d s in r_now s' = r_now s + d /\ r_zero s' = r_zero s /\ r_flag s' = r_flag s /\ r_period s' = r_period s /\ r_pc s' = r_pc s /\
  ((r_now s' < r_next s /\ r_next s' = r_next s /\ r_full s' = r_full s) \/
   (r_next s <= r_now s' /\ r_full s' = true /\ r_next s + r_period s <= r_next s' /\ r_now s' < r_next s')).
Proof.
  intros H1 H2. unfold pass. destruct (r_next s <=? r_now s + d) eqn:E; cbn [r_now r_zero r_flag r_period r_pc r_next r_full];
    (do 5 (split; [reflexivity|])); [right|left; repeat split; lia].
  pose proof (Z.mul_succ_div_gt (r_now s + d - r_next s) (r_period s) H1) as X.
  pose proof (Z.div_pos (r_now s + d - r_next s) (r_period s) ltac:(lia) H1) as Y.
  set (q := (r_now s + d - r_next s) / r_period s) in *. clearbody q. unfold Z.succ in X.
  assert (r_period s <= r_period s * (q + 1)) by nia. repeat split; lia.
Qed.

Lemma clock_fine w l w' : fine w -> l <> RHup -> l <> RTrig -> dstep interval e c w (Clock l) = Some w' -> fine w'.
Proof.
  intros (F0 & F1 & F2 & F3 & F4 & F5) N1 N2 H. pose proof P_pos as HP0. destruct w as [s h b0 log]. cbn [dy_clock dy_hist dy_began dy_log] in *.
  assert (NM : 0 <= minute) by (unfold minute; lia). assert (LE : minute <= P) by (unfold P; lia).
  unfold dstep in H. destruct l as [d| | | | |ok]; try congruence; cbn [dy_clock dy_hist dy_began dy_log] in H; unfold rstep in H.
  - destruct (r_pc s) eqn:EP; [discriminate| |].
    + destruct ((0 <=? d) && negb (r_full s) && (r_now s + d <=? r_next s)) eqn:EG; [|discriminate].
      assert (EF : r_full s = false) by (destruct (r_full s); [rewrite andb_false_r in EG; discriminate|reflexivity]).
      assert (G1 : 0 <= d /\ r_now s + d <= r_next s) by lia. destruct G1 as [G1 G2].
      destruct (pass_facts d s F0 G1) as (Q1 & Q2 & Q3 & Q4 & Q5 & Q6). rewrite Q5, EP in H. injection H as <-.
      unfold fine. cbn [dy_clock dy_hist dy_began dy_log]. rewrite Q2, Q3, Q4, Q5, Q1, EP. rewrite EF in *.
      split; [exact F0|]. split; [exact F1|]. split; [exact F2|]. split; [intros _; apply F3; discriminate|]. split.
      * intros Z0 FL X. specialize (F1 FL). destruct Q6 as [(_ & _ & Q6)|(Q6 & _ & Q7 & _)]; [congruence|lia].
      * intros b t ns HIn Hns. destruct (F5 b t ns HIn Hns) as (A & B & C & _). split; [lia|]. split; [exact B|].
        destruct Q6 as [(Q6 & -> & ->)|(Q6 & Q6' & Q7 & _)]; [split; [lia|discriminate]|split; lia].
    + destruct (0 <=? d) eqn:EG; [|discriminate]. assert (G1 : 0 <= d) by lia.
      destruct (pass_facts d s F0 G1) as (Q1 & Q2 & Q3 & Q4 & Q5 & Q6). rewrite Q5, EP in H. injection H as <-.
      unfold fine. cbn [dy_clock dy_hist dy_began dy_log]. rewrite Q2, Q3, Q4, Q5, Q1, EP.
      split; [exact F0|]. split; [exact F1|]. split; [exact F2|]. split; [intros _; apply F3; discriminate|]. destruct F4 as [F4 F6]. split; [split|].
      * lia.
      * intros FL. destruct (F6 FL) as [X Y]. destruct Q6 as [(Q6 & -> & ->)|(Q6 & Q6' & Q7 & _)]; [split; [lia|intros Z0; specialize (Y Z0); lia]|split; lia].
      * intros b t ns HIn Hns. destruct (F5 b t ns HIn Hns) as (A & B & C). split; [lia|]. auto.
  - destruct (r_pc s) eqn:EP; try discriminate.
    cbn [at_pc r_pc] in H. injection H as <-. unfold fine, loop_head. cbn [dy_clock dy_hist dy_began dy_log at_pc r_pc r_zero r_flag r_period r_next r_full r_now].
    destruct (r_zero s) eqn:EZ; [|destruct (r_flag s) eqn:EFl];
      cbn [reset r_pc r_zero r_flag r_period r_next r_full r_now] in *.
    + split; [reflexivity|]. split; [discriminate|]. split; [congruence|]. split; [discriminate|]. split; [congruence|].
      intros b t ns HIn Hns. destruct (F5 b t ns HIn Hns) as (A & B & C). congruence.
    + split; [rewrite HP; exact HP0|]. split; [congruence|]. split; [congruence|]. split; [auto|]. split; [congruence|].
      intros b t ns HIn Hns. destruct (F5 b t ns HIn Hns) as (A & B & C). split; [lia|]. split; [auto|]. rewrite HP. fold P. split; [lia|discriminate].
    + split; [exact F0|]. split; [auto|]. split; [congruence|]. split; [auto|]. split; [rewrite F4; [discriminate|auto]|].
      intros b t ns HIn Hns. destruct (F5 b t ns HIn Hns) as (A & B & C). rewrite (F4 eq_refl). split; [exact A|]. split; [congruence|]. split; [auto|discriminate].
  - destruct (r_pc s) eqn:EP; try discriminate. destruct (r_full s) eqn:EF; [|discriminate]. injection H as <-.
    unfold fine. cbn [dy_clock dy_hist dy_began dy_log r_pc r_zero r_flag r_period r_next r_full r_now] in *.
    split; [exact F0|]. split; [exact F1|]. split; [exact F2|]. split; [intros _; apply F3; discriminate|]. split; [split; [lia|]|].
    + intros FL. split; [|discriminate]. apply F4; auto. apply F3; [discriminate|auto].
    + intros b t ns HIn Hns. destruct (F5 b t ns HIn Hns) as (A & B & C & C'). auto.
Qed.
Lemma finish_fine w i w' : fine w -> limited (dy_log w) -> (forall b t ns, In (b, t, ns) (dy_log w') -> t - b < D) ->
  dstep interval e c w (Finish i) = Some w' -> fine w' /\ limited (dy_log w').
Proof.
  intros (F0 & F1 & F2 & F3 & F4 & F5) HL HB H. pose proof P_pos as HP0. destruct w as [s h b0 log]. cbn [dy_clock dy_hist dy_began dy_log] in *.
  unfold dstep in H. cbn [dy_clock dy_hist dy_began dy_log] in H.
  destruct (turn_facts e c h i) as [(T1 & T2 & T3 & T4) _]. pose proof (after_snoc e c h i) as ES.
  destruct (turn e c h i) as [s' ns0]. cbn [fst snd] in *. unfold rstep in H. destruct (r_pc s) eqn:EP; try discriminate.
  injection H as <-. cbn [dy_log r_now] in HB. specialize (HB b0 (r_now s) ns0) as HB0.
  assert (HB1 : r_now s - b0 < D) by (apply HB0, in_or_app; right; now left). destruct F4 as [F4 F6].
  split.
  - unfold fine. cbn [dy_clock dy_hist dy_began dy_log r_pc r_zero r_flag r_period r_next r_full r_now].
    split; [exact F0|]. split; [exact F1|]. split.
    { rewrite ES, F2. destruct (st_changed (State.after e c h)) eqn:X; [rewrite (T4 eq_refl); reflexivity|]. now destruct (st_changed s'). }
    split; [congruence|]. split.
    { intros FL. destruct (F6 FL) as [X Y]. destruct (r_full s); [|reflexivity]. specialize (Y eq_refl). exfalso. unfold P, minute in *. lia. }
    intros b t ns HIn Hns. apply in_app_or in HIn as [HIn|[HIn|[]]].
    + destruct (F5 b t ns HIn Hns) as (A & B & C). split; [exact A|]. rewrite B. split; [reflexivity|]. intros FL. destruct (F6 FL) as [X _]. unfold P, minute in *. lia.
    + injection HIn as <- <- <-. split; [lia|]. rewrite (T2 Hns). rewrite andb_false_r. split; [reflexivity|]. intros FL. destruct (F6 FL) as [X _]. unfold P, minute in *. lia.
  - destruct HL as [L1 L2]. cbn [dy_log r_now]. split.
    + intros b t ns HIn. apply in_app_or in HIn as [HIn|[HIn|[]]]; [eauto|]. now injection HIn as <- <- <-.
    + intros m n b1 t1 ns1 b2 t2 ns2 HM HN1 HN2 NE1 NE2. destruct (Nat.lt_ge_cases n (length log)) as [LT|GE].
      * rewrite nth_error_app1 in HN1, HN2 by lia. exact (L2 m n b1 t1 ns1 b2 t2 ns2 HM HN1 HN2 NE1 NE2).
      * rewrite (nth_error_app2 _ _ GE) in HN2. destruct (n - length log)%nat as [|k] eqn:EK; [|destruct k; discriminate HN2].
        cbn in HN2. injection HN2 as <- <- <-. rewrite nth_error_app1 in HN1 by lia. apply nth_error_In in HN1.
        now destruct (F5 _ _ _ HN1 NE1) as (A & B & C).
Qed.
Lemma dstep_log w ev w' : dstep interval e c w ev = Some w' -> forall x, In x (dy_log w) -> In x (dy_log w').
Proof.
  unfold dstep. destruct ev as [l|i].
  - destruct l; try discriminate; (destruct (rstep _ _ _); [|discriminate]); intros [=<-]; auto.
  - destruct (turn _ _ _ _) as [s' ns]. destruct (rstep _ _ _) as [r|]; [|discriminate]. intros [=<-] x HX. cbn. apply in_or_app. auto.
Qed.
Lemma dplays_log evs : forall w w', dplays interval e c w evs = Some w' -> forall x, In x (dy_log w) -> In x (dy_log w').
Proof.
  induction evs as [|ev r IH]; cbn; intros w w' H x HX; [now injection H as <-|].
  destruct (dstep interval e c w ev) as [w1|] eqn:E; [|discriminate]. eapply IH; eauto. eapply dstep_log; eauto.
Qed.
Theorem calm_run evs : forall w w', calm w -> Forall unasked evs -> dplays interval e c w evs = Some w' ->
  (forall b t ns, In (b, t, ns) (dy_log w') -> t - b < D) -> calm w'.
Proof.
  induction evs as [|ev r IH]; cbn [dplays]; intros w w' [C1 C2] HU H HB; [injection H as <-; split; auto|].
  inversion HU as [|? ? [U1 U2] HU']; subst. destruct (dstep interval e c w ev) as [w1|] eqn:E; [|discriminate].
  apply (IH w1 w'); auto. destruct ev as [l|i].
  - split; [eapply clock_fine; eauto; congruence|].
    unfold dstep in E. destruct l; try discriminate; (destruct (rstep _ _ _); [|discriminate]); injection E as <-; exact C2.
  - eapply finish_fine; eauto. intros b t ns HIn. eapply HB, dplays_log; eauto.
Qed.
Theorem rate_limited i now evs w : played interval e c i now evs w -> Forall unasked evs ->
  (forall b t ns, In (b, t, ns) (dy_log w) -> t - b < D) -> limited (dy_log w).
Proof.
  intros (w0 & H0 & H) HU HB. eapply calm_run; eauto. pose proof P_pos as HP0.
  unfold dawn, rinit in H0. rewrite HP in H0. fold P in H0. destruct (P <=? 0); [discriminate|]. injection H0 as <-. split.
  - unfold fine. cbn [dy_clock dy_hist dy_began dy_log r_pc r_zero r_flag r_period r_next r_full r_now].
    split; [exact HP0|]. split; [auto|]. split; [reflexivity|]. split; [congruence|]. split; [auto|]. intros b t ns [].
  - split; [intros b t ns []|]. intros [|m] n b1 t1 ns1 b2 t2 ns2 _ X; discriminate X.
Qed.
End Rate.
