(** Properties C43, C45 and C46 as one: what is served after any history of refreshes, exactly. *)
From Coq Require Import ZArith ZifyBool ZifyNat ZifyN Bool Lia.
From Verif Require Import Lib.Str Model.State Spec.Sets Spec.History Spec.Input Spec.Refresh Spec.Daemon
  Proofs.DataP Proofs.CacheP Proofs.StateP Props.InputProps Props.StateProps.
From Coq Require Import List.
Import ListNotations.
Local Open Scope list_scope.
Local Open Scope N_scope.

Lemma too_old_iff e c now d : time_check e c now d = Some ETooOld <-> sc_check c = true /\ exists b, built e d = Some b /\ (b + day < now)%Z.
Proof.
  unfold time_check. change build_time with built. change hours24 with day. destruct (sc_check c); [|split; [discriminate|intros [E _]; discriminate E]].
  destruct (built e d) as [b|]; [|split; [discriminate|intros [_ (b & E & _)]; discriminate E]].
  destruct (b + day <? now)%Z eqn:E.
  - split; [intros _; split; [reflexivity|]; exists b; split; [reflexivity|lia]|reflexivity].
  - split; [discriminate|]. intros [_ (b' & E' & L)]. injection E' as <-. lia.
Qed.
Lemma exported_dated e s : exported_build e s = dated e (ex_build (st_exported s)).
Proof. reflexivity. Qed.
Lemma now_is e c h : wf_env e -> no_collision e (files h) -> no_collision e (slurm_files c h) ->
  st_data (after e c h) = file_now e h /\ st_slurm (after e c h) = slurm_now e c h.
Proof. intros HE N1 N2. destruct (history e c h HE N1 N2) as (D1 & _ & D3 & _). split; [exact D1|exact D3]. Qed.
Lemma files_app h h2 : files (h ++ h2) = files h ++ files h2.
Proof. apply map_app. Qed.
Lemma slurm_files_app c h1 : forall h2, exists l, slurm_files c (h1 ++ h2) = slurm_files c h1 ++ l.
Proof.
  induction h2 as [|i h2 (l & IH)] using rev_ind; [exists []; now rewrite !app_nil_r|]. rewrite app_assoc, slurm_files_snoc, IH. eexists. now rewrite <- app_assoc.
Qed.
Lemma nc_prefix e c h1 h2 : no_collision e (files (h1 ++ h2)) -> no_collision e (slurm_files c (h1 ++ h2)) ->
  no_collision e (files h1) /\ no_collision e (slurm_files c h1).
Proof.
  intros A B. rewrite files_app in A. destruct (slurm_files_app c h1 h2) as (l & E). rewrite E in B.
  split; eapply no_collision_app; eassumption.
Qed.
Lemma twice_dec e c h : key_twice e c h \/ forall h1 h2, h = h1 ++ h2 -> no_dup_keys (slurm_now e c h1) (file_now e h1).
Proof.
  assert (ND : forall s d, no_dup_keys s d \/ ~ no_dup_keys s d).
  { intros s d. unfold no_dup_keys. apply ListDec.NoDup_decidable. intros x y.
    assert (D : {x = y} + {x <> y}) by (repeat decide equality). destruct D; [now left|now right]. }
  induction h as [|i h IH] using rev_ind.
  - destruct (ND (slurm_now e c []) (file_now e [])) as [Y|N].
    + right. intros h1 h2 E. destruct h1; [exact Y|discriminate E].
    + left. exists [], []. split; [reflexivity|exact N].
  - destruct IH as [(h1 & h2 & -> & N)|IH]; [left; exists h1, (h2 ++ [i]); split; [now rewrite app_assoc|exact N]|].
    destruct (ND (slurm_now e c (h ++ [i])) (file_now e (h ++ [i]))) as [Y|N].
    + right. intros h1 h2 E. destruct h2 as [|j h2 _] using rev_ind; [rewrite app_nil_r in E; now subst|].
      rewrite app_assoc in E. apply app_inj_tail in E as [-> _]. now apply (IH h1 h2).
    + left. exists (h ++ [i]), []. split; [now rewrite app_nil_r|exact N].
Qed.

Lemma daemon e c h : wf_env e -> ordered_h h -> no_collision e (files h) -> no_collision e (slurm_files c h) ->
  day_by_day e c h (served (after e c h)) (exported_build e (after e c h)).
Proof.
  intros HE. induction h as [|i h IH] using rev_ind; intros HO N1 N2.
  { apply (db_start e c). intros x []. }
  destruct (nc_prefix e c h [i] N1 N2) as [P1 P2]. specialize (IH (ordered_app _ _ HO) P1 P2).
  destruct (now_is e c (h ++ [i]) HE N1 N2) as [ED ES].
  assert (HUS : in_use e c h i <-> usable e c (i_now i) (st_data (after e c (h ++ [i])))).
  { unfold in_use, usable. rewrite ED. now rewrite recent_check. }
  rewrite after_snoc in *.
  pose proof (turn_outcome e c h i HE (after_inv e c h HE)) as HT.
  pose proof (fetch_spec e (slurm_on c h) i (after e c h)) as HF.
  pose proof (news_fetch e c h i HE N1 N2) as HNF.
  pose proof (fun t => too_old_dropped e c h i t HE) as HTO.
  pose proof (after_inv e c h HE) as (HIs & _).
  destruct (fetch e (slurm_on c h) i (after e c h)) as [s2 new]. cbn [snd] in HNF, HTO.
  destruct (turn e c h i) as [s' ns] eqn:ETU. cbn [fst] in *. destruct HT as [HI HT].
  destruct HF as (F1 & _ & _ & FB & F2 & _).
  pose proof (outcome_keeps _ _ _ _ _ _ _ _ HT) as (K1 & K2 & _).
  assert (SV : forall x, served s2 x <-> served (after e c h) x) by (intros x; unfold served; now rewrite F1).
  assert (EB : exported_build e s2 = exported_build e (after e c h)) by (rewrite !exported_dated, FB; reflexivity).
  (* what applyUpdateFromNewState leaves *)
  assert (APP : forall s1 sds v b, Forall wf_sd sds -> (forall x, In x (ids sds) <-> content (i_proc i) (st_slurm s2) (st_data s2) x) ->
    prepare e s2 (i_proc i) (roa_of (st_data s2)) = (s1, sds, v, b) -> applied c s1 sds v b s' ns ->
    (forall x, served s' x <-> content (i_proc i) (slurm_now e c (h ++ [i])) (file_now e (h ++ [i])) x) /\
    renewed (served (after e c h)) (served s') (exported_build e (after e c h)) (dated e (rl_build (file_now e (h ++ [i])))) (exported_build e s')).
  { intros s1 sds v b HW HIn HP HA. apply prepare_keeps in HP as ((Q1 & _) & HQ & HX).
    assert (Hi1 : inv (st_server s1)) by (rewrite HQ; apply HI).
    destruct (applied_served _ _ _ _ _ _ _ Hi1 HW HA) as (HS & HC).
    split; [intros x; now rewrite HS, HIn, <- ED, <- ES, K1, K2|].
    assert (S1 : forall x, served s1 x <-> served (after e c h) x) by (intros x; unfold served; rewrite HQ, F1; reflexivity).
    destruct HC as [(_ & SS & _ & ->)|(NS & _ & EX)].
    - split; [intros _; rewrite <- EB, !exported_dated, HX; reflexivity|]. intros N. elim N. intros x. now rewrite S1.
    - split; [intros Y; elim NS; intros x; now rewrite S1|]. intros _. rewrite exported_dated, EX. cbn [ex_build]. now rewrite Q1, <- ED, K1. }
  inversion HT as [? s1 sds v b ? ? EN HU HWs HIn HNs HP HA|s1 sds v b ? ? EH HU HWs HIn HNs HP HC|? HNU|? t EH HNU ET ER EX EL HS HK HE2]; subst.
  - destruct (APP s1 sds v b HWs HIn HP HA) as [A1 A2]. eapply db_new; [exact IH| | |exact A1|exact A2].
    + apply HUS. rewrite K1. exact HU.
    + destruct h as [|j h]; [now left|]. right. apply HNF; [discriminate|]. cbn [is_nil] in EN. now rewrite orb_false_r in EN.
  - assert (Hh : h <> []) by (intros ->; discriminate EH).
    assert (NN : ~ news e c h i) by (rewrite <- (HNF Hh); discriminate).
    assert (IU : in_use e c h i) by (apply HUS; rewrite K1; exact HU).
    destruct HC as [(_ & HA)|(HLen & -> & ->)].
    { destruct (APP s1 sds v b HWs HIn HP HA) as [A1 A2]. eapply db_again; eauto. }
    apply prepare_keeps in HP as (_ & HQ & HX).
    assert (S1 : forall x, served s1 x <-> served (after e c h) x) by (intros x; unfold served; rewrite HQ, F1; reflexivity).
    assert (B1 : exported_build e s1 = exported_build e (after e c h)) by (rewrite <- EB, !exported_dated, HX; reflexivity).
    destruct (twice_dec e c (h ++ [i])) as [T|T]; [rewrite B1; eapply db_twice; eauto|].
    eapply db_again; [exact IH|exact IU|exact Hh|exact NN| |].
    + pose proof (current_exact e c h i HE HO) as CE. cbv zeta in CE. rewrite after_snoc, ETU in CE. cbn [fst] in CE.
      rewrite <- ED, <- ES. apply CE; [|rewrite K1; exact HU]. intros h1 h2 E.
      rewrite E in N1, N2. destruct (nc_prefix e c h1 h2 N1 N2) as [X1 X2]. destruct (now_is e c h1 HE X1 X2) as [-> ->]. now apply (T h1 h2).
    + split; [intros _; exact B1|]. intros N. elim N. intros x. now rewrite S1.
  - assert (NU : ~ in_use e c h i) by (rewrite HUS; exact HNU).
    rewrite ED in HTO.
    assert (DD : (h <> [] /\ news e c h i /\ sc_check c = true /\ rl_roa (file_now e (h ++ [i])) <> None /\
       (exists b, built e (file_now e (h ++ [i])) = Some b /\ (b + day < i_now i)%Z) /\
       (exists t, exported_build e (after e c h) = Some t /\ (t + day < i_late i)%Z)) \/
      ~ (h <> [] /\ news e c h i /\ sc_check c = true /\ rl_roa (file_now e (h ++ [i])) <> None /\
       (exists b, built e (file_now e (h ++ [i])) = Some b /\ (b + day < i_now i)%Z) /\
       (exists t, exported_build e (after e c h) = Some t /\ (t + day < i_late i)%Z))).
    { destruct h as [|j h]; [right; intros [N _]; now elim N|].
      destruct new; [|right; intros (N & Y & _); apply (HNF N) in Y; discriminate Y].
      destruct (rl_roa (file_now e ((j :: h) ++ [i]))) as [roa|]; [|right; intros (_ & _ & _ & N & _); now elim N].
      destruct (time_check e c (i_now i) (file_now e ((j :: h) ++ [i]))) as [[]|] eqn:ET.
      1,3: right; intros (_ & _ & A & _ & B & _); assert (Z : time_check e c (i_now i) (file_now e ((j :: h) ++ [i])) = Some ETooOld) by (apply too_old_iff; auto); congruence.
      apply too_old_iff in ET as [A B].
      destruct (exported_build e (after e c (j :: h))) as [t|]; [|right; intros (_ & _ & _ & _ & _ & t & Z & _); discriminate Z].
      destruct (Z_lt_dec (t + day) (i_late i)) as [L|L]; [left|right; intros (_ & _ & _ & _ & _ & t' & Z & L'); injection Z as <-; contradiction].
      split; [discriminate|]. split; [now apply HNF|]. split; [exact A|]. split; [discriminate|]. split; [exact B|]. exists t. auto. }
    destruct DD as [(A1 & A2 & A3 & A4 & (b & A5 & A6) & (t & A7 & A8))|DD].
    + rewrite EB. eapply db_drop; eauto. intros x Hx. destruct (HTO t A1) as [Z _]; auto.
      * now apply HNF.
      * apply too_old_iff. eauto.
      * unfold served in Hx. rewrite Z in Hx. destruct Hx.
    + rewrite EB. eapply db_keep; eauto.
  - assert (Hh : h <> []) by (intros ->; discriminate EH).
    assert (B1 : exported_build e s' = exported_build e (after e c h)).
    { rewrite <- EB, !exported_dated, HE2. reflexivity. }
    apply too_old_iff in ET as (A & b & B & L). rewrite <- K1, ED in B, ER. rewrite B1.
    eapply (db_drop e c h i _ _ _ b t); eauto.
    + now apply HNF.
    + now rewrite <- EB.
    + intros x Hx. unfold served, get_current_sds in Hx. rewrite HS, step_nil in Hx by apply HI. destruct Hx.
Qed.

Definition drops (e : env) (c : scfg) (h : list input) (i : input) (B : option Z) : Prop :=
  h <> [] /\ news e c h i /\ sc_check c = true /\ rl_roa (file_now e (h ++ [i])) <> None /\
  (exists b, built e (file_now e (h ++ [i])) = Some b /\ (b + day < i_now i)%Z) /\
  (exists t, B = Some t /\ (t + day < i_late i)%Z).
Lemma day_inv e c h i S' B' : day_by_day e c (h ++ [i]) S' B' -> exists S B, day_by_day e c h S B /\
  ((in_use e c h i /\ (forall x, S' x <-> content (i_proc i) (slurm_now e c (h ++ [i])) (file_now e (h ++ [i])) x) /\
      renewed S S' B (dated e (rl_build (file_now e (h ++ [i])))) B') \/
   (in_use e c h i /\ key_twice e c (h ++ [i])) \/
   (drops e c h i B /\ (forall x, ~ S' x) /\ B' = B) \/
   (~ in_use e c h i /\ ~ drops e c h i B /\ (forall x, S' x <-> S x) /\ B' = B)).
Proof.
  intros H. remember (h ++ [i]) as l eqn:E. destruct H as [S HS|h0 i0 S B S' B' D U N C R|h0 i0 S B S' B' D U Hh N C R|h0 i0 S B S' D U Hh N T SS|h0 i0 S B S' b t D Hh N CK RL BU L EB L2 SE|h0 i0 S B S' D U ND SS].
  - destruct h; discriminate E.
  - apply app_inj_tail in E as [-> ->]. exists S, B. split; [exact D|]. left. auto.
  - apply app_inj_tail in E as [-> ->]. exists S, B. split; [exact D|]. left. auto.
  - apply app_inj_tail in E as [-> ->]. exists S, B. split; [exact D|]. right. left. auto.
  - apply app_inj_tail in E as [-> ->]. exists S, B. split; [exact D|]. right. right. left. split; [|auto]. unfold drops. repeat (split; [assumption|]). split; eauto.
  - apply app_inj_tail in E as [-> ->]. exists S, B. split; [exact D|]. right. right. right. auto.
Qed.
Lemma drops_unused e c h i B : drops e c h i B -> in_use e c h i -> False.
Proof.
  intros (_ & _ & CK & _ & (b & E & L) & _) (_ & R). destruct (R CK) as (b' & E' & L'). rewrite E in E'. injection E' as <-. lia.
Qed.
Lemma served_dec s s' : (forall x, served s x <-> served s' x) \/ ~ (forall x, served s x <-> served s' x).
Proof.
  assert (D : same_setb (sdCurrent (st_server s)) (sdCurrent (st_server s')) = true <-> forall x, served s x <-> served s' x) by apply same_setb_eq.
  destruct (same_setb (sdCurrent (st_server s)) (sdCurrent (st_server s'))); [left; now apply D|right; intros H; apply D in H; discriminate H].
Qed.
Lemma daemon_unique e c h : wf_env e -> ordered_h h -> no_collision e (files h) -> no_collision e (slurm_files c h) -> ~ key_twice e c h ->
  forall S B, day_by_day e c h S B -> (forall x, S x <-> served (after e c h) x) /\ B = exported_build e (after e c h).
Proof.
  intros HE. induction h as [|i h IH] using rev_ind; intros HO N1 N2 HK S B H.
  { inversion H as [S0 HS|? ? ? ? ? ? ? ? ? ? ? E|? ? ? ? ? ? ? ? ? ? ? ? E|? ? ? ? ? ? ? ? ? ? ? E|? ? ? ? ? ? ? ? ? ? ? ? ? ? ? ? ? E|? ? ? ? ? ? ? ? ? E]; subst;
      try (match goal with E : _ ++ [_] = [] |- _ => apply app_eq_nil in E as [_ E]; discriminate E end).
    split; [|reflexivity]. intros x. split; [intros X; now elim (HS x)|intros []]. }
  destruct (nc_prefix e c h [i] N1 N2) as [P1 P2].
  assert (HK' : ~ key_twice e c h).
  { intros (h1 & h2 & -> & N). apply HK. exists h1, (h2 ++ [i]). split; [now rewrite app_assoc|exact N]. }
  specialize (IH (ordered_app _ _ HO) P1 P2 HK').
  destruct (day_inv _ _ _ _ _ _ H) as (S1 & B1 & D1 & C1).
  destruct (day_inv _ _ _ _ _ _ (daemon e c (h ++ [i]) HE HO N1 N2)) as (S2 & B2 & D2 & C2).
  destruct (IH _ _ D1) as [ES1 ->]. destruct (IH _ _ D2) as [ES2 ->]. clear IH H D1 D2.
  destruct C1 as [(U1 & A1 & R1)|[(_ & T)|[(X1 & E1 & ->)|(U1 & X1 & E1 & ->)]]];
  destruct C2 as [(U2 & A2 & R2)|[(_ & T2)|[(X2 & E2 & ->)|(U2 & X2 & E2 & ->)]]];
    try contradiction; try (exfalso; eapply drops_unused; eassumption; fail).
  - split; [intros x; now rewrite A1, A2|]. destruct R1 as [R1 R1']. destruct R2 as [R2 R2'].
    destruct (served_dec (after e c h) (after e c (h ++ [i]))) as [Y|N].
    + rewrite R1, R2; [reflexivity|intros x; now rewrite ES2|intros x; rewrite ES1, A1, <- A2; apply Y].
    + rewrite R1', R2'; [reflexivity|intros Y; apply N; intros x; now rewrite <- ES2|intros Y; apply N; intros x; rewrite <- ES1, A2, <- A1; apply Y].
  - split; [|reflexivity]. intros x. split; [intros Z; now elim (E1 x)|intros Z; now elim (E2 x)].
  - split; [|reflexivity]. intros x. now rewrite E1, E2, ES1, ES2.
Qed.

(** C43 A successful refresh publishes exactly the file; C45 Stale data; C46 Expiry. What the daemon does,
    for all files, times and settings: after every history what is served is what [day_by_day] says,
    and nothing else satisfies it, unless a router key was listed twice (then what has expired may stay). *)
Theorem C43_exact_partial : forall e c h, wf_env e -> ordered_h h ->
  no_collision e (files h) -> no_collision e (slurm_files c h) ->
  (exists B, day_by_day e c h (served (after e c h)) B) /\
  (~ key_twice e c h -> forall S B, day_by_day e c h S B -> forall x, S x <-> served (after e c h) x).
Proof.
  intros e c h HE HO N1 N2. split; [eexists; now apply daemon|]. intros HK S B H. now apply (daemon_unique e c h HE HO N1 N2 HK S B).
Qed.
(** A file, then nothing for a day, then a new file that is too old: the first is served, its expiring
    record with it (the file is too old for the expiry to be looked at); then nothing is served. *)
Example C43_exact_case :
  let h := [at_h 1 [1]; at_h 30 [1]; at_h 31 [2]] in
  wf_env env45 /\ ordered_h h /\ no_collision env45 (files h) /\ no_collision env45 (slurm_files cfgS h) /\ ~ key_twice env45 cfgS h /\
  servedb (after env45 cfgS [at_h 1 [1]; at_h 30 [1]]) idw = true /\
  get_current_sds (st_server (after env45 cfgS h)) = [] /\
  drops env45 cfgS [at_h 1 [1]; at_h 30 [1]] (at_h 31 [2]) (Some (hour 0)).
Proof.
  cbv zeta. split; [wf_sample|]. split; [apply ordered_three; cbn; lia|]. split; [apply sample_nc|]. split; [apply sample_nc|]. split.
  { intros (h1 & h2 & E & N). apply N. destruct h1 as [|a [|b [|d [|z h1]]]]; try discriminate E; [constructor| | |].
    - injection E as <- _. constructor.
    - injection E as <- <- _. constructor.
    - injection E as <- <- <- _. constructor. }
  split; [vm_compute; reflexivity|]. split; [vm_compute; reflexivity|]. split; [discriminate|].
  split; [left; exists [2]; eexists; split; [reflexivity|]; split; [reflexivity|discriminate]|].
  split; [reflexivity|]. split; [discriminate|]. split; [exists (hour 2)|exists (hour 0)]; (split; [reflexivity|reflexivity]).
Qed.

(** C65 Confirmed data is not dropped: when a record that is served stops being served, exactly.  Either
    the file in use does not list it (any more), or a new file came that is too old, and so is [B],
    the time of the file from which the set served was last changed: whatever files confirmed it since. *)
Theorem C65_exact_partial : forall e c h i, wf_env e -> ordered_h (h ++ [i]) ->
  no_collision e (files (h ++ [i])) -> no_collision e (slurm_files c (h ++ [i])) -> ~ key_twice e c (h ++ [i]) ->
  forall S B, day_by_day e c h S B -> forall x, S x ->
  (~ served (after e c (h ++ [i])) x <->
   (in_use e c h i /\ ~ content (i_proc i) (slurm_now e c (h ++ [i])) (file_now e (h ++ [i])) x) \/ drops e c h i B).
Proof.
  intros e c h i HE HO N1 N2 HK S B HD x HS. destruct (nc_prefix e c h [i] N1 N2) as [P1 P2].
  assert (HK' : ~ key_twice e c h).
  { intros (h1 & h2 & -> & N). apply HK. exists h1, (h2 ++ [i]). split; [now rewrite app_assoc|exact N]. }
  destruct (daemon_unique e c h HE (ordered_app _ _ HO) P1 P2 HK' S B HD) as [ES EB]. apply ES in HS. subst B.
  destruct (day_inv _ _ _ _ _ _ (daemon e c (h ++ [i]) HE HO N1 N2)) as (S2 & B2 & D2 & C2).
  destruct (daemon_unique e c h HE (ordered_app _ _ HO) P1 P2 HK' S2 B2 D2) as [ES2 ->].
  destruct C2 as [(U & A & _)|[(_ & T)|[(X & A & _)|(U & X & A & _)]]].
  - split; [intros N; left; split; [exact U|]; now rewrite <- A|]. intros [[_ N]|D]; [now rewrite A|]. elim (drops_unused _ _ _ _ _ D U).
  - contradiction.
  - split; [intros _; now right|]. intros _. apply A.
  - split; [intros N; elim N; apply A; now apply ES2|]. intros [[U' _]|D]; contradiction.
Qed.
(** The set is listed in files built at 0 and at 20 o'clock; at 30 o'clock a file that is too old comes. *)
Example C65_exact_case :
  let h := [at_h 1 [1]; at_h 9 [2]] in let i := at_h 30 [3] in
  wf_env env65 /\ ordered_h (h ++ [i]) /\ no_collision env65 (files (h ++ [i])) /\ no_collision env65 (slurm_files cfgT (h ++ [i])) /\
  ~ key_twice env65 cfgT (h ++ [i]) /\ servedb (after env65 cfgT h) idv = true /\
  (exists S, day_by_day env65 cfgT h S (Some (hour 0)) /\ S idv) /\
  built env65 (file_now env65 h) = Some (hour 20) /\ drops env65 cfgT h i (Some (hour 0)).
Proof.
  cbv zeta. assert (HE : wf_env env65) by wf_sample.
  assert (O : ordered_h [at_h 1 [1]; at_h 9 [2]; at_h 30 [3]]) by (apply ordered_three; cbn; lia).
  split; [exact HE|]. split; [exact O|]. split; [apply sample_nc|]. split; [apply sample_nc|]. split.
  { intros (h1 & h2 & E & N). apply N. destruct h1 as [|a [|b [|d [|z h1]]]]; try discriminate E; [constructor| | |].
    - injection E as <- _. constructor.
    - injection E as <- <- _. constructor.
    - injection E as <- <- <- _. constructor. }
  split; [vm_compute; reflexivity|]. split.
  { exists (served (after env65 cfgT [at_h 1 [1]; at_h 9 [2]])). split; [|apply servedb_ok; vm_compute; reflexivity].
    apply (daemon env65 cfgT [at_h 1 [1]; at_h 9 [2]] HE); [apply ordered_two; cbn; lia|apply sample_nc|apply sample_nc]. }
  split; [vm_compute; reflexivity|]. split; [discriminate|].
  split; [left; exists [3]; eexists; split; [reflexivity|]; split; [reflexivity|discriminate]|].
  split; [reflexivity|]. split; [discriminate|]. split; [exists (hour 1)|exists (hour 0)]; (split; [reflexivity|reflexivity]).
Qed.
Print Assumptions C43_exact_partial.
Print Assumptions C65_exact_partial.
