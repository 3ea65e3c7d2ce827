(** Lemmas about the metrics of downloads and times (C105). *)
From Coq Require Import ZArith ZifyBool ZifyNat ZifyN.
From Verif Require Import Model.MetricTimes Spec.Requests Spec.Gauges Proofs.WireP Proofs.DataP Proofs.CacheP Proofs.ProcessP Proofs.StateP Proofs.GaugeP.
From Coq Require Import List.
Local Open Scope list_scope.
Local Open Scope N_scope.
Ltac Zify.zify_post_hook ::= Z.div_mod_to_equations.

(** What is returned without an error carries neither code nor flag. *)
Lemma ok_returns c s file web disk : fr_err (fetch_ret c s file web disk) = None ->
  fr_code (fetch_ret c s file web disk) = (-1)%Z /\ fr_last (fetch_ret c s file web disk) = false.
Proof.
  unfold fetch_ret, http_ret. destruct (is_http file).
  - destruct (web file _) as [|status etag lm [b|]]; [discriminate| |]; (destruct (status =? 304); [discriminate|]);
      (destruct (negb (status =? 200)); [discriminate|]); (destruct (etag_differs c s file etag); [|discriminate]); auto.
  - destruct (disk file) as [[b|]|]; auto; discriminate.
Qed.
Lemma note_nothing c s file web disk t m : note_fetch file t (fetch_ret c s file web disk) m = m.
Proof.
  unfold note_fetch. destruct (fr_err (fetch_ret c s file web disk)) eqn:E; [reflexivity|].
  destruct (ok_returns c s file web disk E) as [-> ->]. reflexivity.
Qed.
Theorem downloads_nothing c l : snd (downloads c l) = no_metrics.
Proof.
  unfold downloads. generalize new_fetch as s. induction l as [|d l IH]; intros s; [reflexivity|].
  cbn [fold_left]. unfold run_download at 2. cbn [fst snd]. rewrite note_nothing. apply IH.
Qed.
(** [fetch_ret] gives the data and errors of [fetch_file]. *)
Theorem fetch_ret_same c s file web disk :
  snd (fetch_file c s file web disk) =
  match fr_err (fetch_ret c s file web disk), fr_data (fetch_ret c s file web disk) with
  | Some x, _ => Err x | None, Some b => Ok b | None, None => Panic end.
Proof.
  unfold fetch_file, fetch_ret, fetch_http, http_ret. destruct (is_http file).
  - destruct (web file _) as [|status etag lm [b|]]; [reflexivity| |]; (destruct (status =? 304); [reflexivity|]);
      (destruct (negb (status =? 200)); [reflexivity|]); (destruct (etag_differs c s file etag); reflexivity).
  - destruct (disk file) as [[b|]|]; reflexivity.
Qed.

(** * rpki_change *)
(** Is UpdateMetrics called in the refresh [i] after the history [h]? *)
Definition called (e : env) (c : scfg) (h : list input) (i : input) : bool :=
  is_set (let '(s2, new) := fetch e (slurm_on c h) i (after e c h) in
    if new || is_nil h then update_metrics e c (i_now i) (i_proc i) s2 None else reload_metrics e c (i_now i) (i_proc i) s2 None).
Lemma times_snoc e c h i : times_after e c (h ++ [i]) =
  note_change (i_got i) (file_is_new e (slurm_on c h) i (after e c h)) (called e c h i) (times_after e c h).
Proof.
  destruct h as [|j h].
  - cbn [app times_after fold_left snd after]. unfold first_times, called, first_metrics, slurm_on. cbn [is_nil orb after]. rewrite andb_true_r.
    destruct (fetch e (sc_slurm c) i init_state) as [s2 new]. now rewrite orb_true_r.
  - cbn [app times_after]. rewrite fold_left_app. cbn [fold_left].
    set (F := fun '(s, t) j => _). assert (H : forall l s t, fst (fold_left F l (s, t)) = fold_left (fun s j => fst (refresh e c s j)) l s).
    { clear. induction l as [|x l IH]; intros s t; [reflexivity|]. cbn [fold_left]. apply IH. }
    specialize (H h (fst (first_refresh e c j)) (first_times e c j)).
    destruct (fold_left F h (fst (first_refresh e c j), first_times e c j)) as [s t]. cbn [fst] in H. cbn [snd F]. unfold refresh_times, called, refresh_metrics, slurm_on.
    cbn [is_nil orb after]. rewrite <- H. destruct (fetch _ _ i s) as [s2 new]. now rewrite orb_false_r.
Qed.

(** The call is made exactly when what is served changes, except for the drop. *)
Lemma called_spec e c h i : wf_env e ->
  (called e c h i = true -> ~ same_served (after e c h) (after e c (h ++ [i])) /\ rl_roa (st_data (after e c (h ++ [i]))) <> None) /\
  (called e c h i = false -> st_server (after e c (h ++ [i])) = st_server (after e c h) \/ get_current_sds (st_server (after e c (h ++ [i]))) = []).
Proof.
  intros HE. pose proof (after_inv e c h HE) as HI.
  pose proof (turn_outcome e c h i HE HI) as HT. unfold called. pose proof (after_snoc e c h i) as EA.
  pose proof (fetch_spec e (slurm_on c h) i (after e c h)) as HF.
  destruct (fetch e (slurm_on c h) i (after e c h)) as [s2 new]. destruct (turn e c h i) as [s' ns]. cbn [fst] in EA.
  destruct HF as (HS & _). destruct HT as [HI2 HO].
  assert (HK : st_data s' = st_data s2) by apply (outcome_keeps _ _ _ _ _ _ _ _ HO).
  assert (Hno : ~ usable e c (i_now i) (st_data s2) ->
    is_set (if new || is_nil h then update_metrics e c (i_now i) (i_proc i) s2 None else reload_metrics e c (i_now i) (i_proc i) s2 None) = false).
  { intros HU. unfold usable in HU. unfold update_metrics, reload_metrics.
    destruct (rl_roa (st_data s2)) as [roa|]; [|now destruct (new || is_nil h)].
    destruct (time_check e c (i_now i) (st_data s2)) as [x|]; [now destruct (new || is_nil h)|].
    contradiction HU. split; [discriminate|reflexivity]. }
  assert (APP : forall roa s1 sds v b vrps brks c4 c6 n, rl_roa (st_data s2) = Some roa -> Forall wf_sd sds -> prepare e s2 (i_proc i) roa = (s1, sds, v, b) ->
    prepare_metrics e s2 (i_proc i) roa = (vrps, brks, c4, c6, n) -> applied c s1 sds v b s' ns ->
    (is_set (apply_metrics s2 vrps brks c4 c6 n None) = true -> ~ same_served (after e c h) (after e c (h ++ [i])) /\ rl_roa (st_data (after e c (h ++ [i]))) <> None) /\
    (is_set (apply_metrics s2 vrps brks c4 c6 n None) = false ->
       st_server (after e c (h ++ [i])) = st_server (after e c h) \/ get_current_sds (st_server (after e c (h ++ [i]))) = [])).
  { intros roa s1 sds v b vrps brks c4 c6 n HR HW HP HM HA.
    destruct (prepare_both e s2 (i_proc i) roa s1 sds v b HE HI2 HR HP) as (vrps' & brks' & c4' & c6' & n' & E & -> & _).
    rewrite HM in E. injection E as <- <- <- <- <-.
    destruct (prepare_keeps _ _ _ _ _ _ _ _ HP) as (_ & KS & _).
    assert (SE : st_server s' = step (st_server (after e c h)) (vrps ++ brks)).
    { destruct HA as (_ & _ & _ & HA & _). now rewrite HA, KS, HS. }
    destruct (apply_metrics_eq s2 vrps brks c4 c6 n None (proj1 HI2) HW) as [[D1 D2]|[D1 D2]]; rewrite D2; cbn [is_set]; split; try discriminate; intros _.
    - left. rewrite EA, SE. rewrite HS in D1. pose proof (add_data_changes _ _ (proj1 HI) HW) as (A1 & A2 & _). unfold step. apply A2.
      destruct (snd (add_data (st_server (after e c h)) (vrps ++ brks))) eqn:EX; [|reflexivity]. now contradiction (proj1 A1 eq_refl).
    - split; [|rewrite EA, HK, HR; discriminate]. intros HX. apply D1. rewrite HS. intros x. specialize (HX x). unfold served, get_current_sds in HX. rewrite EA, SE in HX.
      rewrite HX. apply (step_set _ _ (proj1 HI) HW). }
  destruct HO as [new s1 sds v b s' ns HNW HU HW HC HN HP HA|s1 sds v b s' ns HNN HU HW HC HN HP HA|new HU|s' t HNN HU HT HR HX HL HSV HK' HEX HVT HBT].
  - destruct HU as [HU1 HU2]. destruct (rl_roa (st_data s2)) as [roa|] eqn:ER; [|now elim HU1].
    assert (RO : roa_of (st_data s2) = roa) by (unfold roa_of; now rewrite ER). rewrite RO in HP.
    rewrite HNW. unfold update_metrics. rewrite ER, HU2.
    destruct (prepare_metrics e s2 (i_proc i) roa) as [[[[vrps brks] c4] c6] n] eqn:EPM. now apply (APP roa s1 sds v b).
  - destruct HU as [HU1 HU2]. destruct (rl_roa (st_data s2)) as [roa|] eqn:ER; [|now elim HU1].
    assert (RO : roa_of (st_data s2) = roa) by (unfold roa_of; now rewrite ER). rewrite RO in HP.
    rewrite HNN. cbn [orb]. unfold reload_metrics. rewrite ER, HU2.
    destruct (prepare_both e s2 (i_proc i) roa s1 sds v b HE HI2 ER HP) as (vrps & brks & c4 & c6 & n & EPM & ES & _).
    rewrite EPM. rewrite <- ES. unfold count_sds.
    destruct HA as [[HD HA]|(HD & -> & ->)].
    + replace (nlen (sdCurrent (st_server s2)) =? nlen sds) with false by lia. cbn [negb]. now apply (APP roa s1 sds v b).
    + replace (nlen (sdCurrent (st_server s2)) =? nlen sds) with true by lia. cbn [negb is_set]. split; [discriminate|]. intros _.
      left. rewrite EA. now rewrite (proj1 (proj2 (prepare_keeps _ _ _ _ _ _ _ _ HP))).
  - rewrite (Hno HU). split; [discriminate|]. intros _. left. now rewrite EA.
  - rewrite (Hno HU). split; [discriminate|]. intros _. right. rewrite EA, HSV. apply same_set_nil. apply step_set; [exact (proj1 HI2)|constructor].
Qed.

(** New data are reported exactly when there are some. *)
Lemma file_new_spec e c h i : wf_env e -> no_collision e (files (h ++ [i])) -> no_collision e (slurm_files c (h ++ [i])) ->
  (file_is_new e (slurm_on c h) i (after e c h) = true <-> is_new (e_decode e) (files h) (i_file i)).
Proof.
  intros HE H1 H2. unfold files in H1. rewrite map_app in H1. rewrite slurm_files_snoc in H2.
  destruct (history e c h HE (no_collision_app _ _ _ H1) (no_collision_app _ _ _ H2)) as (_ & D2 & _ & _).
  unfold file_is_new. set (s1 := if slurm_on c h then _ else _).
  assert (HH : st_hcache s1 = st_hcache (after e c h)).
  { subst s1. destruct (slurm_on c h); [|reflexivity]. pose proof (update_slurm_spec e (i_slurm i) (after e c h)) as HU.
    destruct (update_slurm e (i_slurm i) (after e c h)) as [s1 u1]. apply HU. }
  rewrite D2 in HH. unfold update_file, is_new. destruct (i_file i) as [x|] eqn:EI; [|split; [discriminate|intros (x & d & E & _); discriminate E]].
  rewrite HH. destruct (last_some (files h) None) as [y|] eqn:EL; cbn [option_map].
  - destruct (beqb (e_sha e y) (e_sha e x)) eqn:EB.
    + split; [discriminate|]. intros (x' & d & [= <-] & _ & HN). contradiction HN. f_equal. apply H1; [| |now apply beqb_eq].
      * apply in_app_iff. left. now apply last_some_in.
      * apply in_app_iff. right. now left.
    + destruct (e_decode e x) as [d|] eqn:ED; cbn [snd].
      * split; [intros _|reflexivity]. exists x, d. split; [reflexivity|]. split; [exact ED|]. intros [= ->]. rewrite (proj2 (beqb_eq _ _) eq_refl) in EB. discriminate EB.
      * split; [discriminate|]. intros (x' & d & [= <-] & HD & _). congruence.
  - destruct (e_decode e x) as [d|] eqn:ED; cbn [snd].
    + split; [intros _|reflexivity]. exists x, d. split; [reflexivity|]. split; [exact ED|discriminate].
    + split; [discriminate|]. intros (x' & d & [= <-] & HD & _). congruence.
Qed.
(** lastchange is the time of the last new file. *)
Lemma lastchange_spec e c h : wf_env e -> no_collision e (files h) -> no_collision e (slurm_files c h) ->
  match fst (times_after e c h) with
  | Some t => exists h1 j h2, last_new e h h1 j h2 /\ t = i_got j
  | None => rl_roa (st_data (after e c h)) = None
  end.
Proof.
  intros HE. induction h as [|i h IH] using rev_ind; intros H1 H2; [reflexivity|].
  pose proof (file_new_spec e c h i HE H1 H2) as HN. rewrite times_snoc. cbn [note_change fst].
  destruct (file_is_new e (slurm_on c h) i (after e c h)).
  - exists h, i, []. split; [|reflexivity]. split; [reflexivity|]. split; [now apply HN|]. intros a k b E. destruct a; discriminate E.
  - assert (NN : ~ is_new (e_decode e) (files h) (i_file i)) by (rewrite <- HN; discriminate).
    pose proof H1 as N1. pose proof H2 as N2. unfold files in N1. rewrite map_app in N1. rewrite slurm_files_snoc in N2.
    apply no_collision_app in N1. apply no_collision_app in N2. specialize (IH N1 N2).
    destruct (fst (times_after e c h)) as [t|].
    + destruct IH as (h1 & j & h2 & (E & F1 & F2) & ->). exists h1, j, (h2 ++ [i]). split; [|reflexivity]. split; [now rewrite E, <- app_assoc|]. split; [exact F1|].
      intros a k b EA. destruct b as [|x b _] using rev_ind.
      * apply app_inj_tail in EA as [<- <-]. now rewrite <- E.
      * rewrite app_comm_cons, app_assoc in EA. apply app_inj_tail in EA as [EA _]. exact (F2 a k b EA).
    + destruct (history e c (h ++ [i]) HE H1 H2) as (D1 & _). destruct (history e c h HE N1 N2) as (D0 & DH & _). rewrite D1. rewrite D0 in IH.
      unfold files. rewrite map_app, last_ok_app. fold (files h). cbn [map last_ok]. destruct (i_file i) as [x|] eqn:EI; [|exact IH]. cbn [last_ok].
      destruct (e_decode e x) as [d|] eqn:ED; [|exact IH].
      (* the same content as the last file: that one is decoded already *)
      destruct (last_some (files h) None) as [y|] eqn:EL.
      * assert (y = x) as ->. { destruct (list_eq_dec N.eq_dec y x) as [E|NE]; [exact E|]. contradiction NN. exists x, d. split; [reflexivity|]. split; [exact ED|]. intros E. rewrite EL in E. congruence. }
        rewrite (last_ok_some (e_decode e) empty_list (files h) x d EL ED) in IH. exact IH.
      * contradiction NN. exists x, d. split; [reflexivity|]. split; [exact ED|]. rewrite EL. discriminate.
Qed.

Lemma files_part e h1 h2 : no_collision e (files (h1 ++ h2)) -> no_collision e (files h1).
Proof. unfold files. rewrite map_app. apply no_collision_app. Qed.
Lemma slurm_files_part e c h1 h2 : no_collision e (slurm_files c (h1 ++ h2)) -> no_collision e (slurm_files c h1).
Proof.
  unfold slurm_files. destruct (sc_slurm c); [|auto]. destruct (sc_slurm_refresh c).
  - rewrite map_app. apply no_collision_app.
  - destruct h1 as [|i h1]; [intros _ x y []|]. auto.
Qed.
Theorem change_spec e c h : wf_env e -> no_collision e (files h) -> no_collision e (slurm_files c h) ->
  get_current_sds (st_server (after e c h)) <> [] ->
  exists h1 i h2 a j b, last_change e c h h1 i h2 /\ last_new e (h1 ++ [i]) a j b /\ change_after e c h = Some (unix (i_got j)).
Proof.
  intros HE. induction h as [|i h IH] using rev_ind; intros H1 H2 HS; [now elim HS|].
  unfold change_after. rewrite times_snoc. unfold note_change. cbn [snd]. destruct (called_spec e c h i HE) as [C1 C2]. destruct (called e c h i) eqn:EC.
  - destruct (C1 eq_refl) as [D1 D2]. pose proof (lastchange_spec e c (h ++ [i]) HE H1 H2) as L. rewrite times_snoc in L. cbn [note_change fst] in L.
    destruct (if file_is_new e (slurm_on c h) i (after e c h) then Some (i_got i) else fst (times_after e c h)) as [t|]; [|contradiction].
    destruct L as (a & j & b & L & ->). exists h, i, [], a, j, b. split; [|split; [exact L|reflexivity]].
    split; [reflexivity|]. split; [exact D1|]. intros x y z E. destruct x; discriminate E.
  - destruct (C2 eq_refl) as [D|D]; [|contradiction]. rewrite D in HS.
    destruct IH as (h1 & k & h2 & a & j & b & L & N & E); [now apply files_part in H1|now apply slurm_files_part in H2|exact HS|].
    exists h1, k, (h2 ++ [i]), a, j, b. split; [|split; [exact N|exact E]]. apply last_change_snoc; [exact L|]. intros x. unfold served. now rewrite D.
Qed.
