(** The router with a clock. *)
From Coq Require Import ZArith ZifyBool ZifyNat ZifyN.
From Verif Require Import Model.Conn Spec.Refresh Spec.Sets Spec.History Spec.Response Spec.Router Spec.EndToEnd Spec.Timers
  Proofs.DataP Proofs.CacheP Proofs.ConnP Proofs.StateP Proofs.RouterP Proofs.EndToEndP Props.ConnProps.
From Coq Require Import List Lia.
Local Open Scope list_scope.
Local Open Scope N_scope.

Lemma told_response v sess n a b x nk l : told_expire (response v sess n a b x nk l) = Some (if v =? 0 then 7200 else x).
Proof. unfold told_expire, response. rewrite app_assoc, last_last. reflexivity. Qed.

Section talk.
Context (cfg : config) (s v : N) (tr : transport) (keep : Z).
Context (Hs : u16 s) (Hb : cfg_version cfg < 256) (Hv : v <= cfg_version cfg).
Let srv := new_rtr_server cfg s.
Let E := life cfg v.

(** A timed query does what the query does, and sets the timer if there is something to serve. *)
Lemma task_ask h t c r te : Forall (Forall wf_sd) h -> sane cfg s v tr c r ->
  let cache := run (new_server keep) h in
  match ask srv v cache c r with
  | None => task srv v cache t c (mkTi r te) = None
  | Some (c', r') => exists te', task srv v cache t c (mkTi r te) = Some (c', mkTi r' te') /\
      ((sdCurrent cache = [] /\ r' = r /\ te' = te) \/
       (sdCurrent cache <> [] /\ ((ro_at r <> None /\ ro_at r' = None /\ te' = te) \/ (ro_at r' <> None /\ te' = Some (t + E)%Z))))
  end.
Proof.
  intros Hh [G HR] cache. pose proof G as (GR & GC & GA). assert (NV : negotiated srv v = v) by (unfold negotiated, srv; cbn; lia).
  unfold ask, task, question. cbn [ti_router ti_end]. destruct (ro_at r) as [[sess q]|] eqn:ER.
  - subst sess. destruct (C20_serial cfg s tr keep h c v (session_of s v) q Hs Hb Hh GR GC GA) as (c1 & a & HP & _ & HX).
    fold srv in HP, HX. rewrite NV in *. fold cache in HP, HX. rewrite HP. destruct HX as [(HN & _)|(_ & _ & HX)]; [now contradiction HN|]. unfold get_current_sds in HX.
    destruct HX as [(HE & ->)|[(HN & _ & ->)|(d & HN & _ & ->)]].
    + cbn. rewrite N.eqb_refl. cbn. eexists. split; [reflexivity|]. left. auto.
    + cbn. rewrite N.eqb_refl. cbn. eexists. split; [reflexivity|]. right. split; [exact HN|]. left. split; [discriminate|]. auto.
    + rewrite sent_queue, hear_response by now rewrite ER. rewrite ER. destruct (digest _ _); [|reflexivity].
      rewrite told_response. eexists. split; [reflexivity|]. right. split; [exact HN|]. right. split; [discriminate|reflexivity].
  - destruct (C19_reset cfg s tr keep h c v Hs Hb Hh GR GC GA) as (c1 & HP & _). fold srv cache in HP. rewrite NV in HP. rewrite HP, sent_queue. unfold get_current_sds.
    destruct (sdCurrent cache) as [|d l] eqn:EC; cbn [is_nil].
    + cbn. rewrite N.eqb_refl. cbn. eexists. split; [reflexivity|]. left. auto.
    + rewrite <- EC. rewrite hear_response by now rewrite ER. rewrite ER. destruct (digest _ _); [|reflexivity].
      rewrite told_response. eexists. split; [reflexivity|]. right. split; [rewrite EC; discriminate|]. right. split; [discriminate|reflexivity].
Qed.
Lemma tpoll_poll h t c r te : Forall (Forall wf_sd) h -> sane cfg s v tr c r ->
  let cache := run (new_server keep) h in
  tpoll srv v cache t c (mkTi r te) =
  option_map (fun '(c', r') => (c', mkTi r' (if is_nil (sdCurrent cache) then te else Some (t + E)%Z))) (poll srv v cache c r).
Proof.
  intros Hh HS cache. unfold tpoll, poll. pose proof (task_ask h t c r te Hh HS) as HT. cbn zeta in HT. fold cache in HT.
  destruct (ask srv v cache c r) as [[c1 r1]|] eqn:E1; [|now rewrite HT].
  destruct HT as (te1 & HT & HO). rewrite HT. cbn [ti_router]. destruct HO as [(EC & -> & ->)|(NC & HO)].
  - rewrite EC. cbn. destruct (ro_at r) as [p|]; reflexivity.
  - assert (EN : is_nil (sdCurrent cache) = false) by (destruct (sdCurrent cache); [contradiction|reflexivity]). rewrite EN.
    destruct HO as [(R0 & R1 & ->)|(R1 & ->)].
    + destruct (ro_at r) as [p|] eqn:ER; [|contradiction]. rewrite R1.
      pose proof (ask_sane _ _ _ _ _ _ _ _ _ _ Hs Hb Hv Hh HS E1) as S1.
      pose proof (task_ask h t c1 r1 te Hh S1) as HT2. cbn zeta in HT2. fold cache in HT2.
      destruct (ask srv v cache c1 r1) as [[c2 r2]|]; [|exact HT2]. destruct HT2 as (te2 & HT2 & [(EC & _)|(_ & [(R2 & _)|(_ & ->)])]); [contradiction|now contradiction R2|exact HT2].
    + destruct (ro_at r) as [p|], (ro_at r1) as [p1|]; try contradiction; reflexivity.
Qed.
Lemma poll_sane h c r c' r' : Forall (Forall wf_sd) h -> sane cfg s v tr c r ->
  poll srv v (run (new_server keep) h) c r = Some (c', r') -> sane cfg s v tr c' r'.
Proof.
  intros Hh HS EP. unfold poll in EP. destruct (ask srv v _ c r) as [[c1 r1]|] eqn:EA; [|discriminate EP].
  pose proof (ask_sane _ _ _ _ _ _ _ _ _ _ Hs Hb Hv Hh HS EA) as S1.
  destruct (ro_at r), (ro_at r1) eqn:ER; try (inversion EP; subst; exact S1).
  exact (ask_sane _ _ _ _ _ _ _ _ _ _ Hs Hb Hv Hh S1 EP).
Qed.
Lemma sane_accept r : acceptable (accept tr srv) v -> match ro_at r with Some (x, _) => x = session_of s v | None => True end ->
  sane cfg s v tr (accept tr srv) r.
Proof.
  intros HA HR. split; [|exact HR]. split; [constructor|]. split; [|exact HA]. unfold accept. destruct (s_enforce _), tr; try reflexivity; destruct (s_disableBGPSec _); reflexivity.
Qed.
Lemma sane_aged c k t : sane cfg s v tr c (ti_router k) -> sane cfg s v tr c (ti_router (aged t k)).
Proof. intros [G H]. split; [exact G|]. unfold aged. destruct (ti_end k) as [u|]; [|exact H]. destruct (u <? t)%Z; [exact I|exact H]. Qed.
End talk.

(** * Routers that poll in time *)
Definition seen_t (w : tworld) : world := mkWo (tw_cache w) (tw_conn w) (ti_router (tw_timed w)).
Definition ttracks (cfg : config) (s v : N) (tr : transport) (keep : Z) (h : list (list sd)) (cur : list sd) (lag : option (N * Z)) (w : tworld) : Prop :=
  tracks cfg s v tr keep h cur (option_map fst lag) (seen_t w) /\
  match lag with None => tw_timed w = mkTi fresh_router None | Some (_, u) => ti_end (tw_timed w) = Some u end.
Lemma tracks_sane cfg s v tr keep h cur lag w : tracks cfg s v tr keep h cur lag w -> sane cfg s v tr (wo_conn w) (wo_router w).
Proof.
  intros (_ & _ & _ & _ & _ & G & HL). split; [exact G|]. destruct lag as [k|].
  - destruct HL as (h1 & h2 & _ & _ & _ & E & _). now rewrite E.
  - now rewrite HL.
Qed.
Definition lag_at (t : Z) (lag : option (N * Z)) : option (N * Z) :=
  match lag with Some (_, u) => if (u <? t)%Z then None else lag | None => None end.
Lemma ttracks_aged cfg s v tr keep h cur lag w t : ttracks cfg s v tr keep h cur lag w ->
  ttracks cfg s v tr keep h cur (lag_at t lag) (mkTw (tw_cache w) (tw_conn w) (aged t (tw_timed w))).
Proof.
  intros [HT HL]. unfold ttracks, lag_at, aged. destruct lag as [[k u]|]; cbn [tw_timed tw_cache tw_conn seen_t].
  - rewrite HL. destruct (u <? t)%Z; [|split; [exact HT|exact HL]]. split; [|reflexivity].
    destruct HT as (H1 & H2 & H3 & H4 & H5 & H6 & _). unfold tracks. cbn in *. repeat (split; [assumption|]). reflexivity.
  - rewrite HL. cbn. split; [|reflexivity]. unfold seen_t in *. cbn. rewrite HL in HT. exact HT.
Qed.
Lemma lag_fst t (lag : option (N * Z)) (P : N -> Prop) :
  match lag_at t lag with Some (k, _) => P k | None => True end -> match option_map fst (lag_at t lag) with Some k => P k | None => True end.
Proof. destruct (lag_at t lag) as [[k u]|]; auto. Qed.
Lemma cur_current cfg s v tr keep h cur lag w : tracks cfg s v tr keep h cur lag w -> is_nil (sdCurrent (wo_cache w)) = is_nil cur.
Proof.
  intros (Hh & _ & _ & EC & ECUR & _). pose proof (last_run keep h Hh) as L. rewrite <- EC, <- ECUR in L.
  destruct cur as [|d l]; [apply same_set_nil in L; now rewrite L|]. destruct (sdCurrent (wo_cache w)); [|reflexivity].
  apply same_set_sym, same_set_nil in L. discriminate L.
Qed.
Lemma ttracks_step cfg s v tr keep h cur lag w t e : u16 s -> cfg_version cfg < 256 -> v <= cfg_version cfg -> acceptable (accept tr (new_rtr_server cfg s)) v ->
  ttracks cfg s v tr keep h cur lag w ->
  (forall new, e = Update new -> Forall wf_sd new /\ NoDup (ids new) /\ new <> []) ->
  match e with
  | Update new => exists w', thappens (new_rtr_server cfg s) tr v w (t, e) = Some w' /\
      ttracks cfg s v tr keep (h ++ [new]) new (option_map (fun '(k, u) => (k + (if advances cur new then 1 else 0), u)) lag) w'
  | Poll => match lag_at t lag with Some (k, _) => k <= 1 \/ ((0 < keep < Z.of_N k)%Z /\ k < 4294967296) | None => True end ->
      exists w', thappens (new_rtr_server cfg s) tr v w (t, e) = Some w' /\
      ttracks cfg s v tr keep h cur (if is_nil cur then lag_at t lag else Some (0, (t + life cfg v)%Z)) w'
  | Reconnect => exists w', thappens (new_rtr_server cfg s) tr v w (t, e) = Some w' /\ ttracks cfg s v tr keep h cur lag w'
  end.
Proof.
  intros Hs Hb Hv HA HT HU. destruct e as [new| |].
  - destruct HT as [HT HL]. destruct (tracks_step _ _ _ _ _ _ _ _ _ (Update new) Hs Hb Hv HA HT HU) as (w' & E & T). cbn in E. injection E as <-.
    eexists. split; [reflexivity|]. split; [|destruct lag as [[k u]|]; exact HL]. destruct lag as [[k u]|]; exact T.
  - intros HC. apply (ttracks_aged _ _ _ _ _ _ _ _ _ t) in HT. set (w0 := mkTw _ _ _) in HT.
    change (thappens _ tr v w (t, Poll)) with (match tpoll (new_rtr_server cfg s) v (tw_cache w) t (tw_conn w) (tw_timed w0) with Some (c, k) => Some (mkTw (tw_cache w) c k) | None => None end).
    destruct HT as [HT HL]. pose proof (tracks_sane _ _ _ _ _ _ _ _ _ HT) as HS. pose proof (cur_current _ _ _ _ _ _ _ _ _ HT) as HN.
    destruct (tracks_step _ _ _ _ _ _ _ _ _ Poll Hs Hb Hv HA HT ltac:(discriminate) (lag_fst _ _ _ HC)) as (w' & E & T).
    cbn [happens] in E. pose proof HT as (Hh & _ & _ & EC & _). cbn [seen_t wo_cache wo_conn wo_router] in *.
    assert (K : tw_timed w0 = mkTi (ti_router (tw_timed w0)) (ti_end (tw_timed w0))) by now destruct (tw_timed w0).
    rewrite K. change (tw_cache w) with (tw_cache w0). change (tw_conn w) with (tw_conn w0).
    rewrite EC. rewrite (tpoll_poll cfg s v tr keep Hs Hb Hv h t (tw_conn w0) (ti_router (tw_timed w0)) (ti_end (tw_timed w0)) Hh HS). rewrite <- EC, HN.
    destruct (poll (new_rtr_server cfg s) v (tw_cache w0) (tw_conn w0) (ti_router (tw_timed w0))) as [[c1 r1]|] eqn:EP; [|discriminate E]. cbn [option_map].
    eexists. split; [reflexivity|]. injection E as <-. destruct (is_nil cur) eqn:EN.
    + split; [exact T|]. destruct (lag_at t lag) as [[k u]|] eqn:EL; cbn [tw_timed ti_end]; [exact HL|].
      (* nothing to serve and nothing held *)
      rewrite HL in EP |- *. cbn [ti_router ti_end] in *. f_equal.
      destruct HT as (_ & Hd & _ & _ & _ & G & _). cbn in G.
      destruct (ask_reset cfg s v tr keep Hs Hb Hv h (tw_conn w0) fresh_router Hh Hd G eq_refl) as (c2 & r2 & HP & _ & P1 & _). rewrite <- EC in HP, P1. cbn zeta in *.
      unfold poll in EP. rewrite HP in EP. cbn [fresh_router ro_at] in EP. injection EP as _ <-. apply P1. destruct (sdCurrent (tw_cache w0)); [reflexivity|discriminate HN].
    + split; [exact T|]. reflexivity.
  - destruct HT as [HT HL]. destruct (tracks_step _ _ _ _ _ _ _ _ _ Reconnect Hs Hb Hv HA HT ltac:(discriminate)) as (w' & E & T). cbn in E. injection E as <-.
    eexists. split; [reflexivity|]. split; [exact T|exact HL].
Qed.
Lemma tplay_app srv tr v a b : forall w, tplay srv tr v w (a ++ b) = match tplay srv tr v w a with Some w' => tplay srv tr v w' b | None => None end.
Proof. induction a as [|e a IH]; intros w; [reflexivity|]. cbn. destruct (thappens srv tr v w e); [apply IH|reflexivity]. Qed.
Lemma tupdates_app a b : tupdates (a ++ b) = tupdates a ++ tupdates b.
Proof. unfold tupdates, updates. now rewrite map_app, flat_map_app. Qed.
Definition fine (n : list sd) : Prop := Forall wf_sd n /\ NoDup (ids n) /\ n <> [].
Lemma ttracks_play cfg s v tr keep : u16 s -> cfg_version cfg < 256 -> v <= cfg_version cfg -> acceptable (accept tr (new_rtr_server cfg s)) v ->
  forall l h cur lag w, ttracks cfg s v tr keep h cur lag w -> Forall fine (tupdates l) -> in_time keep (life cfg v) cur lag l ->
  exists w' lag', tplay (new_rtr_server cfg s) tr v w l = Some w' /\ ttracks cfg s v tr keep (h ++ tupdates l) (last (h ++ tupdates l) []) lag' w' /\
    forall l2, in_time keep (life cfg v) cur lag (l ++ l2) -> in_time keep (life cfg v) (last (h ++ tupdates l) []) lag' l2.
Proof.
  intros Hs Hb Hv HA. induction l as [|[t e] l IH]; intros h cur lag w HT HU HL.
  - exists w, lag. cbn. rewrite app_nil_r. pose proof HT as ((_ & _ & _ & _ & EC & _) & _). rewrite <- EC. auto.
  - assert (HE : forall new, e = Update new -> Forall wf_sd new /\ NoDup (ids new) /\ new <> []).
    { intros new E. rewrite E in HU. cbn in HU. inversion HU. assumption. }
    assert (HU' : Forall fine (tupdates l)). { destruct e; cbn in HU; [now inversion HU|exact HU|exact HU]. }
    pose proof (ttracks_step cfg s v tr keep h cur lag w t e Hs Hb Hv HA HT HE) as ST. destruct e as [new| |]; cbn [in_time] in HL.
    + destruct ST as (w1 & H1 & T1). destruct (IH _ _ _ _ T1 HU' HL) as (w2 & lag2 & P2 & T2 & I2). exists w2, lag2. cbn [tplay]. rewrite H1.
      change (tupdates ((t, Update new) :: l)) with ([new] ++ tupdates l). rewrite app_assoc. auto.
    + destruct HL as [HL1 HL2]. destruct (ST HL1) as (w1 & H1 & T1). destruct (IH _ _ _ _ T1 HU' HL2) as (w2 & lag2 & P2 & T2 & I2). exists w2, lag2. cbn [tplay]. rewrite H1.
      split; [exact P2|]. split; [exact T2|]. intros l2 [_ I]. apply I2. exact I.
    + destruct ST as (w1 & H1 & T1). destruct (IH _ _ _ _ T1 HU' HL) as (w2 & lag2 & P2 & T2 & I2). exists w2, lag2. cbn [tplay]. rewrite H1. auto.
Qed.
Lemma ttracks_start cfg s v tr keep : acceptable (accept tr (new_rtr_server cfg s)) v ->
  ttracks cfg s v tr keep [] [] None (tstart (new_rtr_server cfg s) tr keep).
Proof. intros HA. split; [|reflexivity]. exact (tracks_start cfg s v tr keep HA). Qed.
Lemma no_poll_timed srv tr v l : no_poll l -> forall w, exists w', tplay srv tr v w l = Some w' /\ tw_timed w' = tw_timed w.
Proof.
  induction l as [|[t e] l IH]; intros HN w; [exists w; auto|]. inversion HN as [|? ? H1 H2]; subst.
  destruct e as [new| |]; [| contradiction (H1 eq_refl) |]; cbn [tplay thappens];
    (edestruct (IH H2) as (w' & P & T); exists w'; split; [exact P|exact T]).
Qed.
Lemma in_time_app keep lf a b : forall cur lag, in_time keep lf cur lag (a ++ b) -> in_time keep lf cur lag a.
Proof. induction a as [|[t e] a IH]; intros cur lag H; [exact I|]. destruct e; cbn in *; [eauto|destruct H; eauto|eauto]. Qed.

(** What the router goes by after its last poll, and until when. *)
Theorem lasts cfg s v tr keep l1 t1 l2 : u16 s -> cfg_version cfg < 256 -> v <= cfg_version cfg -> acceptable (accept tr (new_rtr_server cfg s)) v ->
  Forall fine (tupdates l1) -> tupdates l1 <> [] -> in_time keep (life cfg v) [] None (l1 ++ [(t1, Poll)]) -> no_poll l2 ->
  exists w, tplay (new_rtr_server cfg s) tr v (tstart (new_rtr_server cfg s) tr keep) (l1 ++ (t1, Poll) :: l2) = Some w /\
    ti_end (tw_timed w) = Some (t1 + life cfg v)%Z /\
    in_sync v (keys_off tr cfg) (ti_router (tw_timed w)) (tlatest l1).
Proof.
  intros Hs Hb Hv HA HU HNE HT HN.
  destruct (ttracks_play cfg s v tr keep Hs Hb Hv HA l1 [] [] None _ (ttracks_start cfg s v tr keep HA) HU (in_time_app _ _ _ _ _ _ HT)) as (w0 & lag0 & P0 & T0 & I0).
  specialize (I0 _ HT). destruct I0 as [I0 _]. cbn [app] in *.
  destruct (ttracks_step cfg s v tr keep _ _ lag0 w0 t1 Poll Hs Hb Hv HA T0 ltac:(discriminate) I0) as (w1 & P1 & T1).
  assert (NL : last (tupdates l1) [] <> []).
  { destruct (tupdates l1) as [|n h _] using rev_ind; [contradiction|]. rewrite last_last. apply Forall_app in HU as [_ HU]. inversion HU as [|? ? (_ & _ & H) _]. exact H. }
  assert (EN : is_nil (last (tupdates l1) []) = false) by (destruct (last (tupdates l1) []); [contradiction|reflexivity]). rewrite EN in T1.
  destruct (no_poll_timed (new_rtr_server cfg s) tr v l2 HN w1) as (w & P2 & E2).
  exists w. rewrite tplay_app, P0. cbn [tplay]. rewrite P1. split; [exact P2|]. rewrite E2. destruct T1 as [T1 L1]. split; [exact L1|].
  destruct T1 as (Hh & _ & HF & _ & _ & _ & h1 & h2 & EH & T). cbn [seen_t wo_router] in T. cbv zeta in T. destruct T as (T1 & T2 & T3 & T4).
  rewrite EH in Hh, HF. pose proof Hh as Hh0. apply Forall_app in Hh0 as [Hh1 Hh2]. apply Forall_app in HF as [_ HF2].
  assert (E : run (new_server keep) (tupdates l1) = run (new_server keep) h1) by (rewrite EH, run_app; apply run_no_advance; auto; apply run_inv; auto using inv_new).
  intros x. rewrite (T4 x), <- E. rewrite <- EH in Hh. pose proof (last_run keep (tupdates l1) Hh x) as L. rewrite L. unfold tlatest, latest. fold (tupdates l1). split.
  - intros [O I]. apply ids_in in I as (d & I & <-). exists d. rewrite may_okr. auto.
  - intros (d & I & M & <-). rewrite may_okr in M. split; [exact M|]. now apply in_ids.
Qed.

(** * Any routers *)
(** Nothing is kept longer than [life] after [T]. *)
Definition bounded (cfg : config) (v : N) (T : Z) (k : timed) : Prop :=
  match ti_end k with None => ti_router k = fresh_router | Some u => (u <= T + life cfg v)%Z end.
Lemma bounded_aged cfg v T t k : bounded cfg v T k -> bounded cfg v T (aged t k).
Proof. unfold bounded, aged. intros H. destruct (ti_end k) as [u|] eqn:E; [|now rewrite E]. destruct (u <? t)%Z; [reflexivity|now rewrite E]. Qed.
Lemma tpoll_any cfg s v tr keep h T t c k c' k' : u16 s -> cfg_version cfg < 256 -> v <= cfg_version cfg -> Forall (Forall wf_sd) h ->
  sane cfg s v tr c (ti_router k) -> tpoll (new_rtr_server cfg s) v (run (new_server keep) h) t c (aged t k) = Some (c', k') ->
  sane cfg s v tr c' (ti_router k') /\ (bounded cfg v T k -> (t <= T)%Z -> bounded cfg v T k') /\ (sdCurrent (run (new_server keep) h) = [] -> k' = aged t k).
Proof.
  intros Hs Hb Hv Hh HS HP. apply (sane_aged _ _ _ _ _ _ t) in HS. set (k0 := aged t k) in *.
  assert (HB0 : bounded cfg v T k -> bounded cfg v T k0) by apply bounded_aged.
  clearbody k0. destruct k0 as [r te]. cbn [ti_router] in HS. rewrite (tpoll_poll cfg s v tr keep Hs Hb Hv h t c r te Hh HS) in HP.
  destruct (poll _ _ _ c r) as [[c1 r1]|] eqn:EP; [|discriminate HP]. cbn [option_map] in HP. injection HP as -> <-.
  pose proof (poll_sane cfg s v tr keep Hs Hb Hv h c r c' r1 Hh HS EP) as S1. split; [exact S1|].
  assert (EM : sdCurrent (run (new_server keep) h) = [] -> r1 = r).
  { intros EN. unfold poll in EP. pose proof (task_ask cfg s v tr keep Hs Hb Hv h t c r te Hh HS) as HT. cbn zeta in HT.
    destruct (ask _ _ _ c r) as [[c2 r2]|]; [|discriminate EP]. destruct HT as (te2 & _ & [(_ & -> & _)|(NN & _)]); [|contradiction].
    destruct (ro_at r); injection EP as _ <-; reflexivity. }
  destruct (sdCurrent (run (new_server keep) h)) as [|d l]; cbn [is_nil].
  - rewrite (EM eq_refl). split; [|auto]. intros HB _. exact (HB0 HB).
  - split; [|discriminate]. intros _ Ht. unfold bounded. cbn [ti_end]. lia.
Qed.
Lemma tplay_any cfg s v tr keep : u16 s -> cfg_version cfg < 256 -> v <= cfg_version cfg -> acceptable (accept tr (new_rtr_server cfg s)) v ->
  forall l h T w w', Forall (Forall wf_sd) (h ++ tupdates l) -> tw_cache w = run (new_server keep) h -> sane cfg s v tr (tw_conn w) (ti_router (tw_timed w)) ->
  tplay (new_rtr_server cfg s) tr v w l = Some w' ->
  tw_cache w' = run (new_server keep) (h ++ tupdates l) /\ sane cfg s v tr (tw_conn w') (ti_router (tw_timed w')) /\
  (bounded cfg v T (tw_timed w) -> Forall (fun te => (fst te <= T)%Z) l -> bounded cfg v T (tw_timed w')) /\
  (sdCurrent (tw_cache w) = [] -> Forall (fun n => n = []) (tupdates l) -> tw_timed w' = tw_timed w \/ tw_timed w' = mkTi fresh_router None).
Proof.
  intros Hs Hb Hv HA. induction l as [|[t e] l IH]; intros h T w w' Hh HC HS HP.
  - cbn in HP. injection HP as <-. cbn. rewrite app_nil_r. auto.
  - cbn [tplay] in HP. destruct (thappens _ tr v w (t, e)) as [w1|] eqn:E1; [|discriminate HP]. destruct e as [new| |]; cbn [thappens] in E1.
    + injection E1 as <-. change (tupdates ((t, Update new) :: l)) with ([new] ++ tupdates l) in *. rewrite app_assoc in *.
      destruct (IH (h ++ [new]) T (mkTw (step (tw_cache w) new) (tw_conn w) (tw_timed w)) w' Hh) with (3 := HP) as (R1 & R2 & R3 & R4); [rewrite run_app; cbn; now rewrite HC|exact HS|].
      split; [exact R1|]. split; [exact R2|]. split; [intros HB HF; inversion HF; subst; now apply R3|].
      intros EN HF. inversion HF as [|? ? EQ HF']; subst new. apply R4; [|exact HF']. cbn [tw_cache]. rewrite step_nil; [reflexivity|].
      rewrite HC. apply run_inv; [apply inv_new|]. apply Forall_app in Hh as [Hh _]. now apply Forall_app in Hh as [Hh _].
    + change (tupdates ((t, Poll) :: l)) with (tupdates l) in *. destruct (tpoll _ _ _ t _ _) as [[c1 k1]|] eqn:EP; [|discriminate E1]. injection E1 as <-.
      rewrite HC in EP. pose proof Hh as Hh0. apply Forall_app in Hh0 as [Hh0 _].
      destruct (tpoll_any cfg s v tr keep h T t (tw_conn w) (tw_timed w) c1 k1 Hs Hb Hv Hh0 HS EP) as (S1 & B1 & N1).
      destruct (IH h T (mkTw (tw_cache w) c1 k1) w' Hh HC S1 HP) as (R1 & R2 & R3 & R4). cbn [tw_timed tw_cache] in *.
      split; [exact R1|]. split; [exact R2|]. split; [intros HB HF; inversion HF as [|? ? Ht HF']; subst; apply R3; [apply B1; [exact HB|exact Ht]|exact HF']|].
      intros EN HF. rewrite HC in EN. rewrite (N1 EN) in R4. rewrite <- HC in EN. destruct (R4 EN HF) as [-> | ->]; [|now right]. unfold aged. destruct (ti_end (tw_timed w)) as [u|]; [|now left].
      destruct (u <? t)%Z; auto.
    + injection E1 as <-. change (tupdates ((t, Reconnect) :: l)) with (tupdates l) in *.
      destruct (IH h T (mkTw (tw_cache w) (accept tr (new_rtr_server cfg s)) (tw_timed w)) w' Hh HC (sane_accept cfg s v tr _ HA (proj2 HS)) HP) as (R1 & R2 & R3 & R4). cbn [tw_timed tw_cache] in *.
      split; [exact R1|]. split; [exact R2|]. split; [intros HB HF; inversion HF; subst; now apply R3|exact R4].
Qed.
Lemma bounded_gone cfg v T t k : bounded cfg v T k -> (T + life cfg v < t)%Z -> ro_set (at_time t k) = [].
Proof.
  unfold bounded, at_time, aged. intros H L. destruct (ti_end k) as [u|]; [|now rewrite H].
  destruct (u <? t)%Z eqn:E; [reflexivity|lia].
Qed.
Theorem gone cfg s v tr keep l1 l2 T t w : u16 s -> cfg_version cfg < 256 -> v <= cfg_version cfg -> acceptable (accept tr (new_rtr_server cfg s)) v ->
  Forall (Forall wf_sd) (tupdates l1) -> Forall (fun te => (fst te <= T)%Z) l1 -> tlatest l1 = [] -> Forall (fun n => n = []) (tupdates l2) ->
  tplay (new_rtr_server cfg s) tr v (tstart (new_rtr_server cfg s) tr keep) (l1 ++ l2) = Some w -> (T + life cfg v < t)%Z ->
  ro_set (at_time t (tw_timed w)) = [].
Proof.
  intros Hs Hb Hv HA Hh HT HL HE HP Ht. rewrite tplay_app in HP. destruct (tplay _ tr v _ l1) as [w1|] eqn:E1; [|discriminate HP].
  destruct (tplay_any cfg s v tr keep Hs Hb Hv HA l1 [] T (tstart (new_rtr_server cfg s) tr keep) w1 Hh eq_refl (sane_accept cfg s v tr fresh_router HA I) E1) as (C1 & S1 & B1 & _).
  specialize (B1 eq_refl HT). cbn [app] in C1.
  assert (Hh2 : Forall (Forall wf_sd) (tupdates l1 ++ tupdates l2)).
  { apply Forall_app. split; [exact Hh|]. apply (Forall_impl _ (P := fun n => n = [])); [intros n ->; constructor|exact HE]. }
  destruct (tplay_any cfg s v tr keep Hs Hb Hv HA l2 (tupdates l1) T _ w Hh2 C1 S1 HP) as (_ & _ & _ & N2).
  assert (EN : sdCurrent (tw_cache w1) = []).
  { rewrite C1. apply same_set_nil. pose proof (last_run keep (tupdates l1) Hh) as L. unfold tlatest, latest in HL. fold (tupdates l1) in HL. now rewrite HL in L. }
  destruct (N2 EN HE) as [-> | ->]; [now apply (bounded_gone cfg v T)|reflexivity].
Qed.

(** * The daemon *)
Lemma cache_run e c hs : wf_env e -> exists h, Forall (Forall wf_sd) h /\ st_server (State.after e c hs) = run (new_server 3) h.
Proof.
  intros HE. induction hs as [|i hs IH] using rev_ind; [exists []; split; [constructor|reflexivity]|].
  destruct IH as (h & Hh & EH). destruct (turn_updates_any e c hs i HE) as (us & HU & EU). exists (h ++ us). split; [now apply Forall_app|].
  now rewrite EU, EH, run_app.
Qed.
Lemma tdplay_any e c cfg s v tr : wf_env e -> u16 s -> cfg_version cfg < 256 -> v <= cfg_version cfg -> acceptable (accept tr (new_rtr_server cfg s)) v ->
  forall l T w w', sane cfg s v tr (td_conn w) (ti_router (td_timed w)) ->
  tdplay e c (new_rtr_server cfg s) tr v w l = Some w' ->
  td_turns w' = td_turns w ++ tturns l /\ sane cfg s v tr (td_conn w') (ti_router (td_timed w')) /\
  (bounded cfg v T (td_timed w) -> Forall (fun te => (fst te <= T)%Z) l -> bounded cfg v T (td_timed w')) /\
  ((forall h1 h2, tturns l = h1 ++ h2 -> forall x, ~ served (State.after e c (td_turns w ++ h1)) x) -> td_timed w' = td_timed w \/ td_timed w' = mkTi fresh_router None).
Proof.
  intros HE Hs Hb Hv HA. induction l as [|[t x] l IH]; intros T w w' HS HP.
  - cbn in HP. injection HP as <-. cbn. rewrite app_nil_r. auto.
  - cbn [tdplay] in HP. destruct (tdhappens e c _ tr v w (t, x)) as [w1|] eqn:E1; [|discriminate HP]. destruct x as [i| |]; cbn [tdhappens] in E1.
    + injection E1 as <-. change (tturns ((t, Turn i) :: l)) with ([i] ++ tturns l) in *. rewrite app_assoc in *.
      destruct (IH T (mkTd (td_turns w ++ [i]) (td_conn w) (td_timed w)) w' HS HP) as (R1 & R2 & R3 & R4). cbn [td_turns td_timed] in *.
      split; [exact R1|]. split; [exact R2|]. split; [intros HB HF; inversion HF; subst; now apply R3|].
      intros HF. apply R4. intros h1 h2 E. rewrite <- app_assoc. apply (HF ([i] ++ h1) h2). now rewrite E, app_assoc.
    + change (tturns ((t, Ask) :: l)) with (tturns l) in *. destruct (tpoll _ _ _ t _ _) as [[c1 k1]|] eqn:EP; [|discriminate E1]. injection E1 as <-.
      destruct (cache_run e c (td_turns w) HE) as (h & Hh & EH). rewrite EH in EP.
      destruct (tpoll_any cfg s v tr 3 h T t (td_conn w) (td_timed w) c1 k1 Hs Hb Hv Hh HS EP) as (S1 & B1 & N1).
      destruct (IH T (mkTd (td_turns w) c1 k1) w' S1 HP) as (R1 & R2 & R3 & R4). cbn [td_turns td_timed] in *.
      split; [exact R1|]. split; [exact R2|]. split; [intros HB HF; inversion HF as [|? ? Ht HF']; subst; apply R3; [apply B1; [exact HB|exact Ht]|exact HF']|].
      intros HF. assert (EN : sdCurrent (run (new_server 3) h) = []).
      { specialize (HF [] (tturns l) eq_refl). rewrite app_nil_r in HF. unfold served, get_current_sds in HF. rewrite EH in HF.
        destruct (sdCurrent (run (new_server 3) h)) as [|d0 l0]; [reflexivity|]. contradiction (HF (rid_of d0)). now left. }
      rewrite (N1 EN) in R4. destruct (R4 HF) as [-> | ->]; [|now right]. unfold aged. destruct (ti_end (td_timed w)) as [u|]; [|now left].
      destruct (u <? t)%Z; auto.
    + injection E1 as <-. change (tturns ((t, Again) :: l)) with (tturns l) in *.
      destruct (IH T (mkTd (td_turns w) (accept tr (new_rtr_server cfg s)) (td_timed w)) w' (sane_accept cfg s v tr _ HA (proj2 HS)) HP) as (R1 & R2 & R3 & R4). cbn [td_turns td_timed] in *.
      split; [exact R1|]. split; [exact R2|]. split; [intros HB HF; inversion HF; subst; now apply R3|exact R4].
Qed.
Lemma tdplay_app e c srv tr v a b : forall w, tdplay e c srv tr v w (a ++ b) = match tdplay e c srv tr v w a with Some w' => tdplay e c srv tr v w' b | None => None end.
Proof. induction a as [|x a IH]; intros w; [reflexivity|]. cbn. destruct (tdhappens _ _ _ _ _ w x); [apply IH|reflexivity]. Qed.
Theorem gone_daemon e c cfg s v tr l1 l2 T t w : wf_env e -> u16 s -> cfg_version cfg < 256 -> v <= cfg_version cfg -> acceptable (accept tr (new_rtr_server cfg s)) v ->
  Forall (fun te => (fst te <= T)%Z) l1 ->
  (forall h1 h2, tturns l2 = h1 ++ h2 -> forall x, ~ served (State.after e c (tturns l1 ++ h1)) x) ->
  tdplay e c (new_rtr_server cfg s) tr v (tdstart (new_rtr_server cfg s) tr) (l1 ++ l2) = Some w -> (T + life cfg v < t)%Z ->
  ro_set (at_time t (td_timed w)) = [].
Proof.
  intros HE Hs Hb Hv HA HT HN HP Ht. rewrite tdplay_app in HP. destruct (tdplay e c _ tr v _ l1) as [w1|] eqn:E1; [|discriminate HP].
  destruct (tdplay_any e c cfg s v tr HE Hs Hb Hv HA l1 T (tdstart (new_rtr_server cfg s) tr) w1 (sane_accept cfg s v tr fresh_router HA I) E1) as (C1 & S1 & B1 & _).
  specialize (B1 eq_refl HT). cbn [tdstart td_turns app] in C1.
  destruct (tdplay_any e c cfg s v tr HE Hs Hb Hv HA l2 T w1 w S1 HP) as (_ & _ & _ & N2). rewrite C1 in N2.
  destruct (N2 HN) as [-> | ->]; [now apply (bounded_gone cfg v T)|reflexivity].
Qed.

(** * Polling often enough *)
(** With polls at most [life] apart nothing expires, and the clock makes no difference. *)
Lemma tplay_play cfg s v tr keep : u16 s -> cfg_version cfg < 256 -> v <= cfg_version cfg -> acceptable (accept tr (new_rtr_server cfg s)) v ->
  forall l h t0 w w', Forall (Forall wf_sd) (h ++ tupdates l) -> Forall (fun n => n <> []) (tupdates l) ->
  tw_cache w = run (new_server keep) h -> sdCurrent (tw_cache w) <> [] -> sane cfg s v tr (tw_conn w) (ti_router (tw_timed w)) ->
  ti_end (tw_timed w) = Some (t0 + life cfg v)%Z -> spaced (life cfg v) t0 l ->
  play (new_rtr_server cfg s) tr v (seen_t w) (map snd l) = Some w' ->
  exists w2, tplay (new_rtr_server cfg s) tr v w l = Some w2 /\ seen_t w2 = w' /\ ti_end (tw_timed w2) = Some (last_poll t0 l + life cfg v)%Z.
Proof.
  intros Hs Hb Hv HA. induction l as [|[t e] l IH]; intros h t0 w w' Hh HF HC HN HS HE HP EP.
  - cbn in EP. injection EP as <-. exists w. cbn. auto.
  - cbn [map snd play] in EP. destruct (happens _ tr v (seen_t w) e) as [w1|] eqn:E1; [|discriminate EP]. destruct e as [new| |]; cbn [happens] in E1.
    + injection E1 as <-. change (tupdates ((t, Update new) :: l)) with ([new] ++ tupdates l) in *. rewrite app_assoc in Hh. inversion HF as [|? ? HF1 HF2]; subst.
      pose proof Hh as Hh0. apply Forall_app in Hh0 as [Hh0 _]. apply Forall_app in Hh0 as [Hh0 Hn]. inversion Hn as [|? ? Wn _]; subst.
      destruct (IH (h ++ [new]) t0 (mkTw (step (tw_cache w) new) (tw_conn w) (tw_timed w)) w' Hh HF2) as (w2 & P2 & R2 & E2); auto.
      { cbn. now rewrite run_app, HC. }
      { cbn. pose proof (run_nonempty [new] (tw_cache w)) as RN. cbn in RN. apply RN; [rewrite HC; apply run_inv; auto using inv_new|auto|auto|exact HN]. }
      exists w2. auto.
    + change (tupdates ((t, Poll) :: l)) with (tupdates l) in *. cbn [spaced] in HP. destruct HP as [HP1 HP2].
      cbn [seen_t wo_cache wo_conn wo_router] in E1. destruct (poll _ _ _ _ _) as [[c1 r1]|] eqn:EQ; [|discriminate E1]. injection E1 as <-.
      assert (AG : aged t (tw_timed w) = tw_timed w) by (unfold aged; rewrite HE; destruct (_ <? t)%Z eqn:EL; [lia|reflexivity]).
      pose proof Hh as Hh0. apply Forall_app in Hh0 as [Hh0 _].
      assert (TP : tpoll (new_rtr_server cfg s) v (tw_cache w) t (tw_conn w) (tw_timed w) = Some (c1, mkTi r1 (Some (t + life cfg v)%Z))).
      { replace (tw_timed w) with (mkTi (ti_router (tw_timed w)) (ti_end (tw_timed w))) by now destruct (tw_timed w).
        rewrite HC in EQ, HN |- *. rewrite (tpoll_poll cfg s v tr keep Hs Hb Hv h t _ _ _ Hh0 HS), EQ. cbn [option_map].
        destruct (sdCurrent (run (new_server keep) h)); [contradiction|reflexivity]. }
      rewrite HC in EQ. pose proof (poll_sane cfg s v tr keep Hs Hb Hv h _ _ _ _ Hh0 HS EQ) as S1.
      destruct (IH h t (mkTw (tw_cache w) c1 (mkTi r1 (Some (t + life cfg v)%Z))) w' Hh HF HC HN S1 eq_refl HP2 EP) as (w2 & P2 & R2 & E2).
      exists w2. cbn [tplay thappens]. rewrite AG, TP. auto.
    + injection E1 as <-. change (tupdates ((t, Reconnect) :: l)) with (tupdates l) in *.
      destruct (IH h t0 (mkTw (tw_cache w) (accept tr (new_rtr_server cfg s)) (tw_timed w)) w' Hh HF HC HN (sane_accept cfg s v tr _ HA (proj2 HS)) HE HP EP) as (w2 & P2 & R2 & E2).
      exists w2. auto.
Qed.
