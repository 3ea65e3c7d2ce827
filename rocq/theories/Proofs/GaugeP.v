(** Lemmas about the gauges (C80). *)
From Coq Require Import ZifyBool ZifyNat ZifyN Permutation.
From Verif Require Import Model.Metrics Spec.Gauges Proofs.WireP Proofs.DataP Proofs.CacheP Proofs.ProcessP Proofs.StateP.
Ltac Zify.zify_post_hook ::= Z.div_mod_to_equations.

Lemma metrics_snoc e c h i : metrics_after e c (h ++ [i]) =
  match h with [] => first_metrics e c i | _ => refresh_metrics e c (after e c h) i (metrics_after e c h) end.
Proof.
  destruct h as [|j h]; [reflexivity|]. cbn [app metrics_after after]. rewrite fold_left_app. cbn [fold_left].
  set (F := fun '(s, g) j => _). assert (H : forall l s g, fst (fold_left F l (s, g)) = fold_left (fun s j => fst (refresh e c s j)) l s).
  { clear. induction l as [|x l IH]; intros s g; [reflexivity|]. cbn [fold_left]. apply IH. }
  specialize (H h (fst (first_refresh e c j)) (first_metrics e c j)).
  destruct (fold_left F h (fst (first_refresh e c j), first_metrics e c j)) as [s g]. cbn [fst] in H. rewrite <- H. reflexivity.
Qed.
Lemma metrics_eq e c h i : metrics_after e c (h ++ [i]) =
  let '(s2, new) := fetch e (slurm_on c h) i (after e c h) in
  if new || is_nil h then update_metrics e c (i_now i) (i_proc i) s2 (metrics_after e c h)
  else reload_metrics e c (i_now i) (i_proc i) s2 (metrics_after e c h).
Proof.
  rewrite metrics_snoc. destruct h as [|j h].
  - unfold first_metrics, slurm_on. cbn [is_nil orb after metrics_after]. rewrite andb_true_r.
    destruct (fetch e (sc_slurm c) i init_state) as [s2 new]. now rewrite orb_true_r.
  - unfold refresh_metrics, slurm_on. cbn [is_nil orb]. destruct (fetch _ _ _ _) as [s2 new]. now rewrite orb_false_r.
Qed.

Definition ginv (e : env) (c : scfg) (h : list input) : Prop :=
  get_current_sds (st_server (after e c h)) <> [] -> exists g, metrics_after e c h = Some g /\ gauge_ok e c h g.

Lemma number_ext {A} (P Q : A -> Prop) n : (forall x, P x <-> Q x) -> number_of P n -> number_of Q n.
Proof. intros H (l & H1 & H2 & H3). exists l. split; [exact H1|]. split; [|exact H3]. intros x. rewrite H2. apply H. Qed.
Lemma served_eq s s' : st_server s' = st_server s -> forall x, served s x <-> served s' x.
Proof. intros H x. unfold served. now rewrite H. Qed.
Lemma last_change_snoc e c h h1 i h2 j : last_change e c h h1 i h2 -> same_served (after e c h) (after e c (h ++ [j])) ->
  last_change e c (h ++ [j]) h1 i (h2 ++ [j]).
Proof.
  intros (E & H1 & H2) HS. split; [now rewrite E, <- app_assoc|]. split; [exact H1|].
  intros a k b EA. destruct b as [|x b] using rev_ind.
  - apply app_inj_tail in EA as [<- <-]. rewrite E in HS. rewrite <- app_assoc in HS. exact HS.
  - clear IHb. rewrite app_comm_cons, app_assoc in EA. apply app_inj_tail in EA as [EA _]. exact (H2 a k b EA).
Qed.
Lemma ginv_same e c h i : ginv e c h -> st_server (after e c (h ++ [i])) = st_server (after e c h) ->
  metrics_after e c (h ++ [i]) = metrics_after e c h -> ginv e c (h ++ [i]).
Proof.
  intros HG HS HM HN. rewrite HS in HN. destruct (HG HN) as (g & E & G1 & G2 & G3 & h1 & j & h2 & L & G4 & G5 & G6 & G7).
  exists g. split; [congruence|]. pose proof (served_eq (after e c h) (after e c (h ++ [i])) HS) as HV.
  split; [unfold serial_of in *; congruence|]. split; [revert G2; apply number_ext; intros x; now rewrite (HV x)|].
  split; [revert G3; apply number_ext; intros x; now rewrite (HV x)|]. exists h1, j, (h2 ++ [i]).
  split; [now apply last_change_snoc|]. cbv zeta in *. split; [exact G4|]. split; [exact G5|]. split; [|exact G7].
  intros HD. generalize (G6 HD). apply number_ext. intros x. now rewrite (HV x).
Qed.

(** The result of applyUpdateFromNewState. *)
Lemma apply_metrics_eq s vrps brks c4 c6 n g : inv (st_server s) -> Forall wf_sd (vrps ++ brks) ->
  (same_set (sdCurrent (st_server s)) (vrps ++ brks) /\ apply_metrics s vrps brks c4 c6 n g = g) \/
  (~ same_set (sdCurrent (st_server s)) (vrps ++ brks) /\
   apply_metrics s vrps brks c4 c6 n g = Some (mkG (sdCurrentSerial (step (st_server s) (vrps ++ brks))) c4 c6
     (nlen (filter vrp4 vrps)) (nlen (filter vrp6 vrps)) (nlen brks) n)).
Proof.
  intros Hi Hw. pose proof (add_data_changes _ _ Hi Hw) as (H1 & H2 & _).
  unfold apply_metrics, step. destruct (add_data (st_server s) (vrps ++ brks)) as [sv ch] eqn:EA. cbn [fst snd] in *.
  destruct ch; [right|left].
  - split; [now apply H1|reflexivity].
  - split; [|reflexivity]. rewrite <- same_setb_eq. apply not_false_is_true. intros E.
    assert (false = true) as HF; [|discriminate HF]. apply H1. rewrite <- same_setb_eq. congruence.
Qed.
Lemma brk_loop_counts now l :
  counts (fun k => exists ski, fresh now (bj_expires k) /\ is_hex_of (bj_ski k) ski) l (nlen (brk_loop now l)).
Proof.
  induction l as [|b l IH]; [constructor|]. rewrite brk_loop_cons. destruct (brk_loop_one now b) as [(ski & H1 & H2 & ->)|[H ->]].
  - replace (nlen ([BgpsecKey (bj_asn b) ski (bj_pubkey b) 0] ++ brk_loop now l)) with (nlen (brk_loop now l) + 1) by (unfold nlen; cbn [app length]; lia).
    constructor; [now exists ski|exact IH].
  - cbn [app]. constructor; [exact H|exact IH].
Qed.
(** What it is called with. *)
Lemma prepare_both e s now roa s1 sds v b : wf_env e -> sinv s -> rl_roa (st_data s) = Some roa ->
  prepare e s now roa = (s1, sds, v, b) ->
  exists vrps brks c4 c6 n, prepare_metrics e s now roa = (vrps, brks, c4, c6, n) /\ sds = vrps ++ brks /\
    Forall is_vrp vrps /\ (forall d, In d brks -> is_key (rid_of d)) /\ NoDup (ids vrps) /\
    n = nlen (entries (st_slurm s) (st_data s)) /\
    counts (fun v => exists p asn, entry_ok (now / 1000000000) v p asn /\ is4 (p_addr p) = true) (entries (st_slurm s) (st_data s)) c4 /\
    counts (fun v => exists p asn, entry_ok (now / 1000000000) v p asn /\ is4 (p_addr p) = false) (entries (st_slurm s) (st_data s)) c6 /\
    counts (fun k => exists ski, fresh (now / 1000000000) (bj_expires k) /\ is_hex_of (bj_ski k) ski) (key_entries (st_slurm s) (st_data s)) (nlen brks).
Proof.
  intros (HE & _) (_ & HD & HS) HR. unfold prepare, prepare_metrics. pose proof (slurm_step_values s roa HR) as HV.
  destruct (slurm_step s roa) as [[[v0 vt] b0] bt] eqn:EST.
  destruct (processed_wf (st_slurm s) (st_data s) HD HS) as [W1 W2]. rewrite <- HV in W1, W2. cbn [fst snd] in W1, W2.
  pose proof (process_vrps (e_sort e) (now / second) _ (read (rl_brk (st_data s)) bt b0) HE W1) as HP.
  destruct (process_data (e_sort e) (now / second) (read roa vt v0) (read (rl_brk (st_data s)) bt b0)) as [[[vrps brks] c4] c6] eqn:EP.
  destruct HP as (P1 & P2 & _ & _ & P5 & P6). intros [= _ <- _ _].
  assert (EV : read roa vt v0 = entries (st_slurm s) (st_data s)).
  { change (read roa vt v0) with (fst (read roa vt v0, read (rl_brk (st_data s)) bt b0)). rewrite HV. now destruct (st_slurm s). }
  assert (EB : brks = brk_loop (now / second) (read (rl_brk (st_data s)) bt b0)).
  { unfold process_data in EP. destruct (vrp_loop _ _) as [[[o se] k4] k6]. now injection EP as _ <- _ _. }
  exists vrps, brks, c4, c6, (nlen (read roa vt v0)). rewrite EV in *. split; [reflexivity|]. split; [reflexivity|]. split.
  { apply Forall_forall. intros d Hd. apply P1 in Hd as (w & p & a & _ & _ & ->). exact I. }
  split. { intros d Hd. rewrite EB in Hd. apply brk_loop_in in Hd as (k & ski & _ & _ & _ & ->). exact I. }
  split; [exact P2|]. split; [reflexivity|]. split; [exact P5|]. split; [exact P6|].
  assert (EK : read (rl_brk (st_data s)) bt b0 = key_entries (st_slurm s) (st_data s)).
  { apply (f_equal snd) in HV. cbn [snd] in HV. rewrite HV. now destruct (st_slurm s). }
  rewrite EB, EK. apply brk_loop_counts.
Qed.

Lemma number_vrps (f : sd -> bool) (P : rid -> Prop) vrps brks : Forall is_vrp vrps -> (forall d, In d brks -> is_key (rid_of d)) ->
  NoDup (ids vrps) -> (forall d, is_vrp d -> f d = true <-> P (rid_of d)) -> (forall d, is_key (rid_of d) -> ~ P (rid_of d)) ->
  number_of (fun x => In x (ids (vrps ++ brks)) /\ P x) (nlen (filter f vrps)).
Proof.
  intros HV HB HN HF HK. exists (ids (filter f vrps)). split; [now apply ids_filter_sub|]. split.
  - intros x. unfold ids. rewrite map_app, in_app_iff, !in_map_iff. rewrite Forall_forall in HV. split.
    + intros (d & <- & Hd). apply filter_In in Hd as [Hd Hf]. split; [left; exists d; auto|]. apply HF; auto.
    + intros [[(d & <- & Hd)|(d & <- & Hd)] HP].
      * exists d. split; [reflexivity|]. apply filter_In. split; [exact Hd|]. apply HF; auto.
      * contradiction (HK d (HB d Hd) HP).
  - unfold ids, nlen. now rewrite map_length.
Qed.
Lemma number_keys vrps brks : Forall is_vrp vrps -> (forall d, In d brks -> is_key (rid_of d)) -> NoDup (ids (vrps ++ brks)) ->
  number_of (fun x => In x (ids (vrps ++ brks)) /\ is_key x) (nlen brks).
Proof.
  intros HV HB HN. exists (ids brks). split.
  { unfold ids in *. rewrite map_app in HN. clear - HN. induction (map rid_of vrps) as [|x l IH]; [exact HN|]. inversion HN; auto. }
  split.
  - intros x. unfold ids. rewrite map_app, in_app_iff, !in_map_iff. rewrite Forall_forall in HV. split.
    + intros (d & <- & Hd). split; [right; exists d; auto|auto].
    + intros [[(d & <- & Hd)|(d & <- & Hd)] HP]; [|exists d; auto].
      specialize (HV d Hd). destruct d; [destruct HP|destruct HV].
  - unfold ids, nlen. now rewrite map_length.
Qed.

(** What one refresh does to the gauges. *)
Inductive gstep (e : env) (c : scfg) (h : list input) (i : input) : Prop :=
| G_same : st_server (after e c (h ++ [i])) = st_server (after e c h) -> metrics_after e c (h ++ [i]) = metrics_after e c h -> gstep e c h i
| G_new g : metrics_after e c (h ++ [i]) = Some g -> gauge_ok e c (h ++ [i]) g -> gstep e c h i
| G_drop : get_current_sds (st_server (after e c (h ++ [i]))) = [] -> metrics_after e c (h ++ [i]) = metrics_after e c h -> gstep e c h i.

Lemma new_gauges e c h i s2 new s' ns s1 sds v b roa vrps brks c4 c6 n g :
  wf_env e -> sinv s2 -> sinv (after e c h) -> st_server s2 = st_server (after e c h) ->
  after e c (h ++ [i]) = s' -> outcome e c h i s2 new s' ns ->
  rl_roa (st_data s2) = Some roa ->
  Forall wf_sd sds -> (no_dup_keys (st_slurm s2) (st_data s2) -> NoDup (ids sds)) ->
  prepare e s2 (i_proc i) roa = (s1, sds, v, b) -> prepare_metrics e s2 (i_proc i) roa = (vrps, brks, c4, c6, n) ->
  applied c s1 sds v b s' ns -> g = metrics_after e c h ->
  metrics_after e c (h ++ [i]) = apply_metrics s2 vrps brks c4 c6 n g -> gstep e c h i.
Proof.
  intros HE HI2 HI HS EA HO HR HW HN HP HM HA -> EM.
  destruct (prepare_both e s2 (i_proc i) roa s1 sds v b HE HI2 HR HP) as (vrps' & brks' & c4' & c6' & n' & E & -> & V1 & V2 & V3 & -> & V4 & V5 & V6).
  rewrite HM in E. injection E as <- <- <- <- ->.
  destruct (prepare_keeps _ _ _ _ _ _ _ _ HP) as (_ & KS & _).
  assert (SE : st_server s' = step (st_server (after e c h)) (vrps ++ brks)).
  { destruct HA as (_ & _ & _ & HA & _). now rewrite HA, KS, HS. }
  destruct (apply_metrics_eq s2 vrps brks c4 c6 (nlen (entries (st_slurm s2) (st_data s2))) (metrics_after e c h) (proj1 HI2) HW) as [[D1 D2]|[D1 D2]].
  - apply G_same; [|congruence]. rewrite EA, SE. rewrite HS in D1.
    pose proof (add_data_changes _ _ (proj1 HI) HW) as (A1 & A2 & _). unfold step. apply A2.
    destruct (snd (add_data (st_server (after e c h)) (vrps ++ brks))) eqn:EX; [|reflexivity]. now contradiction (proj1 A1 eq_refl).
  - eapply G_new; [rewrite EM, D2; reflexivity|]. unfold gauge_ok. cbn [g_serial g_v4 g_v6 g_eff4 g_eff6 g_keys g_count].
    assert (SV : forall x, In x (ids (vrps ++ brks)) <-> served (after e c (h ++ [i])) x).
    { intros x. unfold served, get_current_sds. rewrite EA, SE. symmetry. apply (step_set _ _ (proj1 HI) HW). }
    split. { unfold serial_of. rewrite EA, SE, HS. reflexivity. }
    split.
    { apply (number_ext (fun x => In x (ids (vrps ++ brks)) /\ is_v4 x)); [intros x; now rewrite SV|].
      apply number_vrps; auto.
      - intros d Hd. destruct d as [[[| |] ?] ? ? ?|]; cbn; intuition discriminate.
      - intros d Hd. destruct d as [[[| |] ?] ? ? ?|]; cbn in *; auto. }
    split.
    { apply (number_ext (fun x => In x (ids (vrps ++ brks)) /\ is_v6 x)); [intros x; now rewrite SV|].
      apply number_vrps; auto.
      - intros d Hd. destruct d as [[[| |] ?] ? ? ?|]; cbn; intuition discriminate.
      - intros d Hd. destruct d as [[[| |] ?] ? ? ?|]; cbn in *; auto. }
    exists h, i, []. split.
    { split; [reflexivity|]. split.
      - intros HX. apply D1. rewrite HS. intros x. rewrite SV. exact (HX x).
      - intros a j bb E. destruct a; discriminate E. }
    pose proof (outcome_keeps _ _ _ _ _ _ _ _ HO) as (K1 & K2 & _). rewrite EA, K1, K2. cbv zeta.
    split; [exact V4|]. split; [exact V5|]. split; [|split; [exact V6|reflexivity]].
    intros HD. apply (number_ext (fun x => In x (ids (vrps ++ brks)) /\ is_key x)); [intros x; rewrite <- EA; now rewrite SV|].
    apply number_keys; auto.
Qed.

Lemma gauges_step e c h i : wf_env e -> gstep e c h i.
Proof.
  intros HE.
  pose proof (after_inv e c h HE) as HI.
  pose proof (turn_outcome e c h i HE HI) as HT. pose proof (metrics_eq e c h i) as HM. pose proof (after_snoc e c h i) as EA.
  pose proof (fetch_spec e (slurm_on c h) i (after e c h)) as HF.
  pose proof (turn_eq e c h i) as HTE.
  destruct (fetch e (slurm_on c h) i (after e c h)) as [s2 new]. destruct (turn e c h i) as [s' ns]. cbn [fst] in EA.
  destruct HF as (HS & _). destruct HT as [HI2 HO].
  assert (Hno : ~ usable e c (i_now i) (st_data s2) -> metrics_after e c (h ++ [i]) = metrics_after e c h).
  { intros HU. rewrite HM. unfold usable in HU. unfold update_metrics, reload_metrics.
    destruct (rl_roa (st_data s2)) as [roa|]; [|now destruct (new || is_nil h)].
    destruct (time_check e c (i_now i) (st_data s2)) as [x|]; [now destruct (new || is_nil h)|].
    contradiction HU. split; [discriminate|reflexivity]. }
  pose proof HO as HO'.
  destruct HO as [new s1 sds v b s' ns HNW HU HW HC HN HP HA|s1 sds v b s' ns HNN HU HW HC HN HP HA|new HU|s' t HNN HU HT HR HX HL HSV HK HEX HVT HBT].
  - destruct HU as [HU1 HU2]. destruct (rl_roa (st_data s2)) as [roa|] eqn:ER; [|now elim HU1].
    assert (RO : roa_of (st_data s2) = roa) by (unfold roa_of; now rewrite ER). rewrite RO in HP.
    rewrite HNW in HM. unfold update_metrics in HM. rewrite ER, HU2 in HM.
    destruct (prepare_metrics e s2 (i_proc i) roa) as [[[[vrps brks] c4] c6] n] eqn:EPM.
    eapply new_gauges; try eassumption; reflexivity.
  - destruct HU as [HU1 HU2]. destruct (rl_roa (st_data s2)) as [roa|] eqn:ER; [|now elim HU1].
    assert (RO : roa_of (st_data s2) = roa) by (unfold roa_of; now rewrite ER). rewrite RO in HP.
    rewrite HNN in HM. cbn [orb] in HM. unfold reload_metrics in HM. rewrite ER, HU2 in HM.
    destruct (prepare_both e s2 (i_proc i) roa s1 sds v b HE HI2 ER HP) as (vrps & brks & c4 & c6 & n & EPM & ES & _).
    rewrite EPM in HM. rewrite <- ES in HM. unfold count_sds in HM.
    destruct HA as [[HD HA]|(HD & -> & ->)].
    + replace (nlen (sdCurrent (st_server s2)) =? nlen sds) with false in HM by lia. cbn [negb] in HM.
      eapply new_gauges; try eassumption; reflexivity.
    + replace (nlen (sdCurrent (st_server s2)) =? nlen sds) with true in HM by lia. cbn [negb] in HM.
      apply G_same; [|exact HM]. rewrite EA. now rewrite (proj1 (proj2 (prepare_keeps _ _ _ _ _ _ _ _ HP))).
  - apply G_same; [now rewrite EA|now apply Hno].
  - apply G_drop; [|now apply Hno]. rewrite EA, HSV. apply same_set_nil. apply step_set; [exact (proj1 HI2)|constructor].
Qed.
Lemma gauges_inv e c h : wf_env e -> ginv e c h.
Proof.
  intros HE. induction h as [|i h IH] using rev_ind; [intros HN; now elim HN|].
  destruct (gauges_step e c h i HE) as [H1 H2|g H1 H2|H1 H2].
  - now apply ginv_same.
  - intros _. exists g. now split.
  - intros HN. contradiction (HN H1).
Qed.
Lemma gauges_exact e c h : wf_env e ->
  match metrics_after e c h with
  | None => nothing_since e c [] h /\ get_current_sds (st_server (after e c [])) = []
  | Some g => exists h0 h2, h = h0 ++ h2 /\ metrics_after e c h0 = Some g /\ gauge_ok e c h0 g /\ nothing_since e c h0 h2
  end.
Proof.
  intros HE.
  assert (HX : forall h0 h2 i, nothing_since e c h0 h2 ->
    (same_served (after e c (h0 ++ h2)) (after e c (h0 ++ h2 ++ [i])) \/ get_current_sds (st_server (after e c (h0 ++ h2 ++ [i]))) = []) ->
    nothing_since e c h0 (h2 ++ [i])).
  { intros h0 h2 i HN HI a j b EQ. destruct b as [|x b] using rev_ind.
    - apply app_inj_tail in EQ as [<- <-]. exact HI.
    - clear IHb. rewrite app_comm_cons, app_assoc in EQ. apply app_inj_tail in EQ as [EQ _]. exact (HN a j b EQ). }
  induction h as [|i h IH] using rev_ind.
  { split; [|reflexivity]. intros [|? ?] j b EQ; discriminate EQ. }
  assert (HK : (same_served (after e c h) (after e c (h ++ [i])) \/ get_current_sds (st_server (after e c (h ++ [i]))) = []) ->
    metrics_after e c (h ++ [i]) = metrics_after e c h ->
    match metrics_after e c (h ++ [i]) with
    | None => nothing_since e c [] (h ++ [i]) /\ get_current_sds (st_server (after e c [])) = []
    | Some g => exists h0 h2, h ++ [i] = h0 ++ h2 /\ metrics_after e c h0 = Some g /\ gauge_ok e c h0 g /\ nothing_since e c h0 h2
    end).
  { intros HC ->. destruct (metrics_after e c h) as [g|].
    - destruct IH as (h0 & h2 & -> & H1 & H2 & H3). exists h0, (h2 ++ [i]). split; [now rewrite app_assoc|].
      split; [exact H1|]. split; [exact H2|]. apply HX; [exact H3|]. now rewrite <- app_assoc in HC.
    - split; [|reflexivity]. apply HX; [exact (proj1 IH)|exact HC]. }
  destruct (gauges_step e c h i HE) as [H1 H2|g H1 H2|H1 H2].
  - apply HK; [|exact H2]. left. intros x. unfold served. now rewrite H1.
  - rewrite H1. exists (h ++ [i]), []. split; [now rewrite app_nil_r|]. split; [exact H1|]. split; [exact H2|].
    intros [|? ?] j b EQ; discriminate EQ.
  - apply HK; [|exact H2]. now right.
Qed.
