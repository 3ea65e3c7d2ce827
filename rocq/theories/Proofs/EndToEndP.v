(** From the files to the router. *)
From Coq Require Import ZifyBool ZifyNat ZifyN.
From Verif Require Import Model.Conn Spec.Refresh Spec.Sets Spec.History Spec.Response Spec.Router Spec.EndToEnd
  Proofs.DataP Proofs.CacheP Proofs.ConnP Proofs.StateP Proofs.RouterP.
Local Open Scope list_scope.
Local Open Scope N_scope.

(** A refresh feeds in nothing or one list. *)
Lemma turn_updates e c h i : wf_env e -> (exists x, served (State.after e c (h ++ [i])) x) ->
  no_dup_keys (st_slurm (State.after e c (h ++ [i]))) (st_data (State.after e c (h ++ [i]))) ->
  exists us, (us = [] \/ exists n, us = [n]) /\ Forall (fun n => Forall wf_sd n /\ NoDup (ids n) /\ n <> []) us /\
    st_server (State.after e c (h ++ [i])) = run (st_server (State.after e c h)) us.
Proof.
  intros HE HX HN. rewrite after_snoc in *. pose proof (turn_outcome e c h i HE (after_inv e c h HE)) as HT.
  pose proof (fetch_spec e (slurm_on c h) i (State.after e c h)) as HF.
  destruct (fetch _ _ _ _) as [s2 new]. destruct (turn e c h i) as [s' ns]. cbn [fst] in *.
  destruct HF as (F1 & _). destruct HT as [HI HO]. pose proof (outcome_keeps _ _ _ _ _ _ _ _ HO) as (K1 & K2 & _). rewrite K1, K2 in HN.
  assert (NE : forall sds, Forall wf_sd sds -> st_server s' = step (st_server s2) sds -> sds <> []).
  { intros sds Hw E ->. destruct HX as [x HX]. unfold served, get_current_sds in HX. rewrite E in HX. rewrite step_nil in HX; [exact HX|apply HI]. }
  assert (ONE : forall sds, Forall wf_sd sds -> NoDup (ids sds) -> st_server s' = step (st_server s2) sds ->
    exists us, (us = [] \/ exists n, us = [n]) /\ Forall (fun n => Forall wf_sd n /\ NoDup (ids n) /\ n <> []) us /\ st_server s' = run (st_server (State.after e c h)) us).
  { intros sds Hw Hd E. exists [sds]. split; [right; eexists; reflexivity|]. split; [constructor; [|constructor]; split; [exact Hw|]; split; [exact Hd|now apply NE]|].
    rewrite E, F1. reflexivity. }
  assert (NONE : st_server s' = st_server s2 -> exists us, (us = [] \/ exists n, us = [n]) /\ Forall (fun n => Forall wf_sd n /\ NoDup (ids n) /\ n <> []) us /\
    st_server s' = run (st_server (State.after e c h)) us).
  { intros E. exists []. split; [now left|]. split; [constructor|]. cbn. now rewrite E. }
  destruct HO as [? s1 sds v b ? ? _ _ HWs _ HNs HP (_ & _ & _ & HS & _)|s1 sds v b ? ? _ _ HWs _ HNs HP [(_ & _ & _ & _ & HS & _)|(_ & -> & _)]|?|? t _ _ _ _ _ _ HS _ _ _ _].
  - apply prepare_keeps in HP as (_ & HQ & _). rewrite HQ in HS. apply (ONE sds); auto.
  - apply prepare_keeps in HP as (_ & HQ & _). rewrite HQ in HS. apply (ONE sds); auto.
  - apply prepare_keeps in HP as (_ & HQ & _). now apply NONE.
  - now apply NONE.
  - exfalso. now apply (NE []).
Qed.

Definition seen (e : env) (c : scfg) (w : dworld) : world := mkWo (st_server (State.after e c (da_turns w))) (da_conn w) (da_router w).
Lemma play_upds srv tr v us : forall s cl r, Forall (fun _ => True) us -> play srv tr v (mkWo s cl r) (map Update us) = Some (mkWo (run s us) cl r).
Proof. induction us as [|n us IH]; intros s cl r H; [reflexivity|]. inversion H; subst. cbn. now apply IH. Qed.
Lemma updates_map us : updates (map Update us) = us.
Proof. induction us as [|n us IH]; [reflexivity|]. change (updates (map Update (n :: us))) with (n :: updates (map Update us)). now rewrite IH. Qed.
(** The conversation with the daemon is one with a server that is fed lists. *)
Lemma translate e c srv tr v l : wf_env e -> forall h, never_empty e c (h ++ turns l) -> keys_once e c (h ++ turns l) ->
  exists L, Forall (fun n => Forall wf_sd n /\ NoDup (ids n) /\ n <> []) (updates L) /\
    (forall cur lag behind, (cur = [] -> lag = None) -> match lag, behind with Some k, Some b => k <= b | Some _, None => False | None, _ => True end ->
       prompt behind (l ++ [Ask]) -> timely 3 cur lag (L ++ [Poll])) /\
    forall cl r, play srv tr v (mkWo (st_server (State.after e c h)) cl r) L = option_map (seen e c) (dplay e c srv tr v (mkDa h cl r) l).
Proof.
  intros HE. induction l as [|x l IH]; intros h HN HK.
  - exists []. split; [constructor|]. split; [|reflexivity]. intros cur lag behind HC HL [HP _]. cbn. split; [|exact I]. destruct lag as [k|]; [|exact I]. destruct behind; [left; lia|contradiction].
  - destruct x as [i| |].
    + change (turns (Turn i :: l)) with ([i] ++ turns l) in *.
      destruct (turn_updates e c h i HE) as (us & US & UF & UR); [apply (HN h i (turns l)); reflexivity|apply (HK (h ++ [i]) (turns l)); now rewrite <- app_assoc|].
      rewrite app_assoc in HN, HK. destruct (IH (h ++ [i]) HN HK) as (L & L1 & L2 & L3).
      exists (map Update us ++ L). split; [unfold updates; rewrite flat_map_app; fold (updates (map Update us)); fold (updates L); rewrite updates_map; apply Forall_app; auto|]. split.
      * intros cur lag behind HC HL HP. cbn [app prompt] in HP. rewrite <- app_assoc. destruct US as [->|[n ->]].
        -- cbn [map app]. apply (L2 cur lag _ HC) with (2 := HP). destruct lag, behind; cbn; auto. lia.
        -- inversion UF as [|? ? (_ & _ & NN) _]; subst. cbn [map app timely]. apply L2 with (3 := HP); [intros E; contradiction|].
           destruct lag, behind; cbn; auto. destruct (advances cur n); lia.
      * intros cl r. rewrite play_app, play_upds by (apply Forall_forall; auto). rewrite <- UR. cbn [dplay dhappens da_turns da_conn da_router]. apply L3.
    + change (turns (Ask :: l)) with (turns l) in *. destruct (IH h HN HK) as (L & L1 & L2 & L3). exists (Poll :: L). split; [exact L1|]. split.
      * intros cur lag behind HC HL [HP1 HP2]. cbn [timely]. split; [destruct lag as [k|]; [|exact I]; destruct behind; [left; lia|contradiction]|].
        destruct cur as [|d cur]; cbn [is_nil].
        -- rewrite (HC eq_refl). apply (L2 [] None (Some 0)); auto.
        -- apply (L2 (d :: cur) (Some 0) (Some 0)); [discriminate|lia|exact HP2].
      * intros cl r. cbn [play happens dplay dhappens wo_cache wo_conn wo_router da_turns da_conn da_router].
        destruct (poll _ _ _ _ _) as [[c1 r1]|]; [apply L3|reflexivity].
    + change (turns (Again :: l)) with (turns l) in *. destruct (IH h HN HK) as (L & L1 & L2 & L3). exists (Reconnect :: L). split; [exact L1|]. split.
      * intros cur lag behind HC HL HP. exact (L2 cur lag behind HC HL HP).
      * intros cl r. cbn [play happens dplay dhappens wo_cache wo_conn wo_router da_turns da_conn da_router]. apply L3.
Qed.
Lemma allowed_okr v nk x : okr v nk x = true <-> allowed v nk x.
Proof. destruct x; cbn; [tauto|]. destruct nk; cbn; rewrite ?andb_true_r, ?andb_false_r; rewrite ?negb_true_iff, ?N.eqb_neq; intuition discriminate. Qed.
Lemma dplay_app e c srv tr v a b : forall w, dplay e c srv tr v w (a ++ b) = match dplay e c srv tr v w a with Some w' => dplay e c srv tr v w' b | None => None end.
Proof. induction a as [|x a IH]; intros w; [reflexivity|]. cbn. destruct (dhappens _ _ _ _ _ w x); [apply IH|reflexivity]. Qed.
Lemma dplay_turns e c srv tr v l : forall w w', dplay e c srv tr v w l = Some w' -> da_turns w' = da_turns w ++ turns l.
Proof.
  induction l as [|x l IH]; intros w w' E; [cbn in E; inversion E; now rewrite app_nil_r|]. cbn [dplay] in E.
  destruct (dhappens e c srv tr v w x) as [w1|] eqn:E1; [|discriminate E]. apply IH in E. rewrite E. destruct x; cbn [dhappens] in E1.
  - inversion E1; subst. cbn [da_turns]. now rewrite <- app_assoc.
  - destruct (poll _ _ _ _ _) as [[c1 r1]|]; [|discriminate E1]. now inversion E1.
  - now inversion E1.
Qed.
(** What the router has after a poll is what the daemon serves. *)
Theorem router_served e c cfg s v tr l : wf_env e -> u16 s -> cfg_version cfg < 256 -> v <= cfg_version cfg -> acceptable (accept tr (new_rtr_server cfg s)) v ->
  turns l <> [] -> never_empty e c (turns l) -> keys_once e c (turns l) -> prompt None (l ++ [Ask]) ->
  exists w, dplay e c (new_rtr_server cfg s) tr v (dstart (new_rtr_server cfg s) tr) (l ++ [Ask]) = Some w /\
    ro_at (da_router w) = Some (session_of s v, serial_of (State.after e c (turns l))) /\
    forall x, In x (ro_set (da_router w)) <-> allowed v (keys_off tr cfg) x /\ served (State.after e c (turns l)) x.
Proof.
  intros HE Hs Hb Hv HA HT HN HK HP. destruct (translate e c (new_rtr_server cfg s) tr v l HE [] HN HK) as (L & L1 & L2 & L3).
  specialize (L2 [] None None (fun _ => eq_refl) I HP). specialize (L3 (accept tr (new_rtr_server cfg s)) fresh_router).
  set (srv := new_rtr_server cfg s) in *. change (mkDa [] (accept tr srv) fresh_router) with (dstart srv tr) in L3.
  change (mkWo (st_server (State.after e c [])) (accept tr srv) fresh_router) with (start srv tr 3) in L3.
  assert (W : Forall (Forall wf_sd) (updates L)) by (apply Forall_forall; intros n Hn; rewrite Forall_forall in L1; now apply L1).
  assert (NU : updates L <> []).
  { intros E. (* nothing fed in: nothing served *)
    destruct (dplay e c srv tr v (dstart srv tr) l) as [w|] eqn:ED; cbn [option_map] in L3.
    - destruct (play_sane cfg s v tr 3 Hs Hb Hv HA L [] (start srv tr 3) (seen e c w)) as (HC & _); [exact W|reflexivity| |exact L3|].
      { split; [|exact I]. apply (tracks_start cfg s v tr 3 HA). }
      rewrite E in HC. cbn in HC. apply dplay_turns in ED. cbn in ED.
      destruct (turns l) as [|i t _] using rev_ind; [contradiction|]. destruct (HN t i []) as [x HX]; [reflexivity|].
      rewrite ED in HC. unfold served, get_current_sds in HX. rewrite HC in HX. exact HX.
    - clear HP. assert (timely 3 [] None L) as HT'. { clear - L2. revert L2. generalize (@nil sd) (@None N). induction L as [|x L IH]; intros cur lag H; [exact I|]. destruct x; cbn in *; [auto|split; [apply H|apply IH, H]|auto]. }
      destruct (tracks_play cfg s v tr 3 Hs Hb Hv HA L [] [] None (start srv tr 3) (tracks_start cfg s v tr 3 HA) L1 HT') as (w' & E' & _). fold srv in E'. congruence. }
  destruct (poll_in_sync cfg s v tr 3 L Hs Hb Hv HA L1 NU L2) as (w & PW & RW & SW). fold srv in PW.
  rewrite play_app, L3 in PW. rewrite dplay_app. destruct (dplay e c srv tr v (dstart srv tr) l) as [w0|] eqn:ED; [|discriminate PW].
  cbn [option_map] in PW, L3. pose proof (dplay_turns _ _ _ _ _ _ _ _ ED) as ET. cbn [dstart da_turns app] in ET.
  destruct (play_sane cfg s v tr 3 Hs Hb Hv HA L [] (start srv tr 3) (seen e c w0)) as (HC & _); [exact W|reflexivity| |exact L3|].
  { split; [|exact I]. apply (tracks_start cfg s v tr 3 HA). }
  cbn [app seen wo_cache] in HC. rewrite ET in HC.
  cbn [play happens seen wo_cache wo_conn wo_router] in PW. cbn [dplay dhappens].
  destruct (poll srv v (st_server (State.after e c (da_turns w0))) (da_conn w0) (da_router w0)) as [[c1 r1]|] eqn:EP; [|discriminate PW].
  inversion PW; subst w. clear PW. cbn [wo_router] in *. exists (mkDa (da_turns w0) c1 r1). split; [reflexivity|]. cbn [da_router].
  unfold serial_of, served, get_current_sds, get_current_serial. rewrite HC. split; [exact RW|]. intros x. rewrite (SW x), <- allowed_okr.
  pose proof (last_run 3 (updates L) W x) as LR. unfold latest. rewrite LR. split.
  - intros (d & I1 & M & <-). rewrite may_okr in M. split; [exact M|now apply in_ids].
  - intros [O I]. apply ids_in in I as (d & I & <-). exists d. rewrite may_okr. auto.
Qed.

(** Without conditions on the files: a refresh still feeds in nothing or one list. *)
Lemma turn_updates_any e c h i : wf_env e ->
  exists us, Forall (Forall wf_sd) us /\ st_server (State.after e c (h ++ [i])) = run (st_server (State.after e c h)) us.
Proof.
  intros HE. rewrite after_snoc. pose proof (turn_outcome e c h i HE (after_inv e c h HE)) as HT.
  pose proof (fetch_spec e (slurm_on c h) i (State.after e c h)) as HF.
  destruct (fetch _ _ _ _) as [s2 new]. destruct (turn e c h i) as [s' ns]. cbn [fst] in *.
  destruct HF as (F1 & _). destruct HT as [HI HO].
  assert (ONE : forall sds, Forall wf_sd sds -> st_server s' = step (st_server s2) sds ->
    exists us, Forall (Forall wf_sd) us /\ st_server s' = run (st_server (State.after e c h)) us).
  { intros sds Hw E. exists [sds]. split; [repeat constructor; exact Hw|]. rewrite E, F1. reflexivity. }
  assert (NONE : st_server s' = st_server s2 -> exists us, Forall (Forall wf_sd) us /\ st_server s' = run (st_server (State.after e c h)) us).
  { intros E. exists []. split; [constructor|]. cbn. now rewrite E. }
  destruct HO as [? s1 sds v b ? ? _ _ HWs _ HNs HP (_ & _ & _ & HS & _)|s1 sds v b ? ? _ _ HWs _ HNs HP [(_ & _ & _ & _ & HS & _)|(_ & -> & _)]|?|? t _ _ _ _ _ _ HS _ _ _ _].
  - apply prepare_keeps in HP as (_ & HQ & _). rewrite HQ in HS. apply (ONE sds); auto.
  - apply prepare_keeps in HP as (_ & HQ & _). rewrite HQ in HS. apply (ONE sds); auto.
  - apply prepare_keeps in HP as (_ & HQ & _). now apply NONE.
  - now apply NONE.
  - apply (ONE []); auto.
Qed.
Lemma translate_any e c srv tr v l : wf_env e -> forall h,
  exists L, Forall (Forall wf_sd) (updates L) /\
    forall cl r, play srv tr v (mkWo (st_server (State.after e c h)) cl r) L = option_map (seen e c) (dplay e c srv tr v (mkDa h cl r) l).
Proof.
  intros HE. induction l as [|x l IH]; intros h; [exists []; split; [constructor|reflexivity]|]. destruct x as [i| |].
  - destruct (turn_updates_any e c h i HE) as (us & UF & UR). destruct (IH (h ++ [i])) as (L & L1 & L3).
    exists (map Update us ++ L). split; [unfold updates; rewrite flat_map_app; fold (updates (map Update us)); fold (updates L); rewrite updates_map; apply Forall_app; auto|].
    intros cl r. rewrite play_app, play_upds by (apply Forall_forall; auto). rewrite <- UR. cbn [dplay dhappens da_turns da_conn da_router]. apply L3.
  - destruct (IH h) as (L & L1 & L3). exists (Poll :: L). split; [exact L1|].
    intros cl r. cbn [play happens dplay dhappens wo_cache wo_conn wo_router da_turns da_conn da_router].
    destruct (poll _ _ _ _ _) as [[c1 r1]|]; [apply L3|reflexivity].
  - destruct (IH h) as (L & L1 & L3). exists (Reconnect :: L). split; [exact L1|].
    intros cl r. cbn [play happens dplay dhappens wo_cache wo_conn wo_router da_turns da_conn da_router]. apply L3.
Qed.
(** When the daemon serves nothing, a poll leaves the router as it is ... *)
Theorem ask_empty e c cfg s v tr l w : wf_env e -> u16 s -> cfg_version cfg < 256 -> v <= cfg_version cfg -> acceptable (accept tr (new_rtr_server cfg s)) v ->
  dplay e c (new_rtr_server cfg s) tr v (dstart (new_rtr_server cfg s) tr) l = Some w -> (forall x, ~ served (State.after e c (turns l)) x) ->
  exists w', dplay e c (new_rtr_server cfg s) tr v (dstart (new_rtr_server cfg s) tr) (l ++ [Ask]) = Some w' /\ da_router w' = da_router w.
Proof.
  intros HE Hs Hb Hv HA HP HN. set (srv := new_rtr_server cfg s) in *. destruct (translate_any e c srv tr v l HE []) as (L & W & L3).
  specialize (L3 (accept tr srv) fresh_router). change (mkDa [] (accept tr srv) fresh_router) with (dstart srv tr) in L3.
  change (mkWo (st_server (State.after e c [])) (accept tr srv) fresh_router) with (start srv tr 3) in L3. rewrite HP in L3. cbn [option_map] in L3.
  pose proof (dplay_turns _ _ _ _ _ _ _ _ HP) as ET. cbn [dstart da_turns app] in ET.
  destruct (play_sane cfg s v tr 3 Hs Hb Hv HA L [] (start srv tr 3) (seen e c w)) as (HC & _); [exact W|reflexivity| |exact L3|].
  { split; [|exact I]. apply (tracks_start cfg s v tr 3 HA). }
  cbn [app seen wo_cache] in HC. rewrite ET in HC.
  assert (LL : latest L = []).
  { pose proof (last_run 3 (updates L) W) as LR. unfold served, get_current_sds in HN. rewrite HC in HN. unfold latest.
    destruct (last (updates L) []) as [|d n]; [reflexivity|]. exfalso. apply (HN (rid_of d)). apply (LR (rid_of d)). now left. }
  destruct (poll_empty cfg s v tr 3 L (seen e c w) Hs Hb Hv HA W L3 LL) as (w' & PW & RW). fold srv in PW.
  rewrite play_app, L3 in PW. rewrite dplay_app, HP. cbn [play happens seen wo_cache wo_conn wo_router] in PW, RW. cbn [dplay dhappens].
  destruct (poll srv v (st_server (State.after e c (da_turns w))) (da_conn w) (da_router w)) as [[c1 r1]|] eqn:EP; [|discriminate PW].
  inversion PW; subst w'. exists (mkDa (da_turns w) c1 r1). split; [reflexivity|exact RW].
Qed.
(** ... and so do all further ones. *)
Theorem asks_empty e c cfg s v tr l w : wf_env e -> u16 s -> cfg_version cfg < 256 -> v <= cfg_version cfg -> acceptable (accept tr (new_rtr_server cfg s)) v ->
  dplay e c (new_rtr_server cfg s) tr v (dstart (new_rtr_server cfg s) tr) l = Some w -> (forall x, ~ served (State.after e c (turns l)) x) ->
  forall k, exists w', dplay e c (new_rtr_server cfg s) tr v (dstart (new_rtr_server cfg s) tr) (l ++ repeat Ask k) = Some w' /\ da_router w' = da_router w.
Proof.
  intros HE Hs Hb Hv HA HP HN k. induction k as [|k (w1 & P1 & R1)]; [exists w; cbn; rewrite app_nil_r; auto|].
  assert (ET : turns (l ++ repeat Ask k) = turns l).
  { unfold turns. rewrite flat_map_app. replace (flat_map _ (repeat Ask k)) with (@nil input); [apply app_nil_r|]. clear. induction k; auto. }
  rewrite <- ET in HN. destruct (ask_empty e c cfg s v tr _ w1 HE Hs Hb Hv HA P1 HN) as (w2 & P2 & R2).
  exists w2. cbn [repeat]. rewrite repeat_cons, app_assoc. split; [exact P2|congruence].
Qed.
