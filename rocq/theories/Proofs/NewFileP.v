(** A new file reaches every router. *)
From Coq Require Import ZArith ZifyBool ZifyNat ZifyN.
From Verif Require Import Model.Concurrent Spec.Sets Spec.History Spec.Refresh Spec.Response Spec.Router Spec.EndToEnd Spec.Net Spec.Isolated Spec.Follow Spec.Converge Spec.NewFile
  Proofs.DataP Proofs.CacheP Proofs.ConnP Proofs.StateP Proofs.RouterP Proofs.EndToEndP.
From Coq Require Import List.
Local Open Scope list_scope.
Local Open Scope N_scope.

(** * The lists that the refreshes feed to the server *)
Definition fair_list (n : list sd) : Prop := Forall wf_sd n /\ NoDup (ids n) /\ n <> [].
Lemma turn_tells e c h i : wf_env e -> (exists x, served (State.after e c (h ++ [i])) x) ->
  no_dup_keys (st_slurm (State.after e c (h ++ [i]))) (st_data (State.after e c (h ++ [i]))) -> snd (turn e c h i) <> [] ->
  exists n, fair_list n /\ st_server (State.after e c (h ++ [i])) = run (st_server (State.after e c h)) [n] /\
    snd (turn e c h i) = [sdCurrentSerial (st_server (State.after e c (h ++ [i])))].
Proof.
  intros HE HX HN. rewrite after_snoc in *. pose proof (turn_outcome e c h i HE (after_inv e c h HE)) as HT.
  pose proof (fetch_spec e (slurm_on c h) i (State.after e c h)) as HF.
  destruct (fetch _ _ _ _) as [s2 new]. destruct (turn e c h i) as [s' ns]. cbn [fst snd] in *.
  destruct HF as (F1 & _). destruct HT as [HI HO]. pose proof (outcome_keeps _ _ _ _ _ _ _ _ HO) as (K1 & K2 & _). rewrite K1, K2 in HN.
  assert (NE : forall sds, Forall wf_sd sds -> st_server s' = step (st_server s2) sds -> sds <> []).
  { intros sds Hw E ->. destruct HX as [x HX]. unfold served, get_current_sds in HX. rewrite E in HX. rewrite step_nil in HX; [exact HX|apply HI]. }
  assert (ONE : forall sds s1 v b, Forall wf_sd sds -> NoDup (ids sds) -> st_server s1 = st_server s2 -> applied c s1 sds v b s' ns -> ns <> [] ->
    exists n, fair_list n /\ st_server s' = run (st_server (State.after e c h)) [n] /\ ns = [sdCurrentSerial (st_server s')]).
  { intros sds s1 v b Hw Hd E1 (_ & _ & _ & E & EN) N0. rewrite E1 in E. exists sds. split; [split; [exact Hw|]; split; [exact Hd|now apply NE]|].
    split; [rewrite E, F1; reflexivity|]. destruct EN as [(_ & -> & _)|(_ & _ & ->)]; [contradiction|]. destruct (sc_notify c); [reflexivity|contradiction]. }
  intros N0.
  destruct HO as [? s1 sds v b ? ? _ _ HWs _ HNs HP HA|s1 sds v b ? ? _ _ HWs _ HNs HP [(_ & HA)|(_ & _ & ->)]|?|? t _ _ _ _ _ _ HS _ _ _ _]; try contradiction.
  - apply prepare_keeps in HP as (_ & HQ & _). apply (ONE sds s1 v b); auto.
  - apply prepare_keeps in HP as (_ & HQ & _). apply (ONE sds s1 v b); auto.
Qed.
(** [us]: what each of the refreshes [is] feeds, after [h]. *)
Fixpoint feeds (e : env) (c : scfg) (h is : list input) (us : list (list (list sd))) : Prop :=
  match is, us with
  | [], [] => True
  | i :: is', u :: us' => (u = [] \/ exists n, u = [n] /\ fair_list n) /\ st_server (State.after e c (h ++ [i])) = run (st_server (State.after e c h)) u /\ feeds e c (h ++ [i]) is' us'
  | _, _ => False
  end.
Lemma feeds_ex e c is : wf_env e -> forall h, never_empty e c (h ++ is) -> keys_once e c (h ++ is) -> exists us, feeds e c h is us.
Proof.
  intros HE. induction is as [|i is IH]; intros h HN HK; [exists []; exact I|].
  destruct (turn_updates e c h i HE) as (u & U1 & U2 & U3); [apply (HN h i is); reflexivity|apply (HK (h ++ [i]) is); now rewrite <- app_assoc|].
  change (i :: is) with ([i] ++ is) in *. rewrite app_assoc in HN, HK. destruct (IH _ HN HK) as (us & H). exists (u :: us). cbn [app feeds]. split; [|auto].
  destruct U1 as [->|[n ->]]; [now left|right]. exists n. split; [reflexivity|]. now inversion U2.
Qed.
Lemma feeds_run e c is : forall h us, feeds e c h is us -> Forall fair_list (concat us) /\ st_server (State.after e c (h ++ is)) = run (st_server (State.after e c h)) (concat us).
Proof.
  induction is as [|i is IH]; intros h [|u us] H; try contradiction; [split; [constructor|now rewrite app_nil_r]|].
  destruct H as (U1 & U2 & U3). apply IH in U3 as [A B]. cbn [concat]. split.
  - apply Forall_app. split; [|exact A]. destruct U1 as [->|(n & -> & N)]; auto.
  - rewrite <- app_assoc in B. cbn [app] in B. rewrite B, U2. symmetry. apply run_app.
Qed.

(** * The conversation with the daemon as one with the server *)
Fixpoint as_events (us : list (list (list sd))) (l : list devent) : list event :=
  match l with
  | [] => []
  | Turn _ :: l' => match us with u :: us' => map Update u ++ as_events us' l' | [] => as_events [] l' end
  | Ask :: l' => Poll :: as_events us l'
  | Again :: l' => Reconnect :: as_events us l'
  end.
Lemma as_updates e c l : forall h us, feeds e c h (turns l) us -> updates (as_events us l) = concat us.
Proof.
  induction l as [|x l IH]; intros h us H; [destruct us; [reflexivity|contradiction]|]. destruct x as [i| |].
  - change (turns (Turn i :: l)) with (i :: turns l) in H. destruct us as [|u us]; [contradiction|]. destruct H as (_ & _ & H). cbn [as_events concat].
    unfold updates. rewrite flat_map_app. fold (updates (map Update u)). fold (updates (as_events us l)). rewrite updates_map. f_equal. now apply (IH _ _ H).
  - now apply (IH h us).
  - now apply (IH h us).
Qed.
Lemma as_timely e c l : forall h us, feeds e c h (turns l) us -> forall cur lag behind, (cur = [] -> lag = None) ->
  match lag, behind with Some k, Some b => k <= b | Some _, None => False | None, _ => True end ->
  prompt behind (l ++ [Ask]) -> timely 3 cur lag (as_events us l ++ [Poll]).
Proof.
  induction l as [|x l IH]; intros h us H cur lag behind HC HL HP.
  - destruct HP as [HP _]. cbn. split; [|exact I]. destruct lag as [k|]; [|exact I]. destruct behind; [left; lia|contradiction].
  - destruct x as [i| |].
    + change (turns (Turn i :: l)) with (i :: turns l) in H. destruct us as [|u us]; [contradiction|]. destruct H as (U & _ & H). cbn [as_events]. cbn [app prompt] in HP. rewrite <- app_assoc.
      destruct U as [->|(n & -> & (_ & _ & NN))].
      * cbn [map app]. apply (IH _ _ H) with (3 := HP); [exact HC|]. destruct lag, behind; cbn; auto. lia.
      * cbn [map app timely]. apply (IH _ _ H) with (3 := HP); [intros E; contradiction|]. destruct lag, behind; cbn; auto. destruct (advances cur n); lia.
    + destruct HP as [HP1 HP2]. cbn [as_events app timely]. split; [destruct lag as [k|]; [|exact I]; destruct behind; [left; lia|contradiction]|].
      destruct cur as [|d cur]; cbn [is_nil].
      * rewrite (HC eq_refl). apply (IH h us H [] None (Some 0)); auto.
      * apply (IH h us H (d :: cur) (Some 0) (Some 0)); [discriminate|lia|exact HP2].
    + exact (IH h us H cur lag behind HC HL HP).
Qed.
Lemma as_update_all srv tr v L u : forall s cl r here later, asking srv tr v (mkWo (run s u) cl r) L here later -> asking srv tr v (mkWo s cl r) (map Update u ++ L) here later.
Proof. induction u as [|n u IH]; intros s cl r here later H; [exact H|]. cbn [map app]. apply As_update. cbn [wo_cache wo_conn wo_router]. now apply IH. Qed.
Lemma as_asking e c srv tr v l : forall w us here later, feeds e c (da_turns w) (turns l) us -> dasking e c srv tr v w (l ++ [Ask]) here later ->
  asking srv tr v (seen e c w) (as_events us l ++ [Poll]) here later.
Proof.
  induction l as [|x l IH]; intros w us here later H D.
  - cbn [app as_events] in *. inversion D; subst; (match goal with X : dasking _ _ _ _ _ _ [] _ _ |- _ => inversion X; subst end).
    + eapply (As_once _ _ _ (seen e c w)); try eassumption. apply As_nil.
    + eapply (As_twice _ _ _ (seen e c w)); try eassumption. apply As_nil.
  - destruct x as [i| |]; cbn [app] in D; inversion D; subst.
    + change (turns (Turn i :: l)) with (i :: turns l) in H. destruct us as [|u us]; [contradiction|]. destruct H as (_ & U & H). cbn [as_events]. rewrite <- app_assoc.
      unfold seen. apply as_update_all. rewrite <- U. exact (IH (mkDa (da_turns w ++ [i]) (da_conn w) (da_router w)) us here later H ltac:(eassumption)).
    + eapply (As_once _ _ _ (seen e c w)); try eassumption. exact (IH (mkDa (da_turns w) cl r) us _ _ H ltac:(eassumption)).
    + eapply (As_twice _ _ _ (seen e c w)); try eassumption. exact (IH (mkDa (da_turns w) cl2 r2) us _ _ H ltac:(eassumption)).
    + apply (As_new _ _ _ (seen e c w)). exact (IH (mkDa (da_turns w) (accept tr srv) (da_router w)) us _ _ H ltac:(eassumption)).
Qed.
Lemma keeps_up_follows e c srv h us sched w j v tr : feeds e c [] h us -> keeps_up e c srv h sched w j v tr -> follows srv 3 (concat us) sched w j v tr.
Proof.
  intros H (k & l & A & B & C & D & E & F & G & K). exists k, (as_events us l). do 5 (split; [assumption|]). subst h.
  split; [now apply (as_updates e c l [])|]. split; [apply (as_timely e c l [] us H [] None None); auto|].
  exact (as_asking e c srv tr v l (dstart srv tr) us _ _ H K).
Qed.
