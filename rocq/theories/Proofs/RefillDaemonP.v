(** Routers of a daemon whose store was emptied and filled again. *)
From Coq Require Import ZArith ZifyBool ZifyNat ZifyN.
From Verif Require Import Model.Conn Spec.Sets Spec.History Spec.Response Spec.Refresh Spec.Router Spec.EndToEnd
  Proofs.DataP Proofs.CacheP Proofs.ConnP Proofs.StateP Proofs.RouterP Proofs.EndToEndP Proofs.RefillP.
From Coq Require Import List.
Import ListNotations.
Local Open Scope list_scope.
Local Open Scope N_scope.

(** A refresh that takes something away is one update. *)
Lemma turn_one e c h i : wf_env e ->
  st_server (State.after e c (h ++ [i])) = st_server (State.after e c h) \/
  exists n, Forall wf_sd n /\ st_server (State.after e c (h ++ [i])) = step (st_server (State.after e c h)) n.
Proof.
  intros HE. rewrite after_snoc. pose proof (turn_outcome e c h i HE (after_inv e c h HE)) as HT.
  pose proof (fetch_spec e (slurm_on c h) i (State.after e c h)) as HF.
  destruct (fetch _ _ _ _) as [s2 new]. destruct (turn e c h i) as [s' ns]. cbn [fst] in *.
  destruct HF as (F1 & _). destruct HT as [HI HO]. rewrite <- F1.
  destruct HO as [? s1 sds v b ? ? _ _ HWs _ HNs HP (_ & _ & _ & HS & _)|s1 sds v b ? ? _ _ HWs _ HNs HP [(_ & _ & _ & _ & HS & _)|(_ & -> & _)]|?|? t _ _ _ _ _ _ HS _ _ _ _].
  - apply prepare_keeps in HP as (_ & HQ & _). rewrite HQ in HS. right. exists sds. auto.
  - apply prepare_keeps in HP as (_ & HQ & _). rewrite HQ in HS. right. exists sds. auto.
  - apply prepare_keeps in HP as (_ & HQ & _). now left.
  - now left.
  - right. exists []. auto.
Qed.
Lemma server_inv e c h : wf_env e -> CacheP.inv (st_server (State.after e c h)).
Proof. intros HE. apply (after_inv e c h HE). Qed.
Lemma server_nil e c h : (forall x, ~ served (State.after e c h) x) -> sdCurrent (st_server (State.after e c h)) = [].
Proof.
  intros H. unfold served, get_current_sds in H. destruct (sdCurrent _) as [|d l]; [reflexivity|]. exfalso. apply (H (rid_of d)). now left.
Qed.
Lemma turn_empties e c h i : wf_env e -> (exists x, served (State.after e c h) x) -> (forall x, ~ served (State.after e c (h ++ [i])) x) ->
  st_server (State.after e c (h ++ [i])) = step (st_server (State.after e c h)) [].
Proof.
  intros HE (x & HX) HN. apply server_nil in HN. destruct (turn_one e c h i HE) as [E|(n & W & E)].
  - exfalso. unfold served, get_current_sds in HX. rewrite <- E, HN in HX. exact HX.
  - pose proof (step_set _ n (server_inv e c h HE) W) as S. rewrite <- E, HN in S. apply same_set_sym, same_set_nil in S. now subst n.
Qed.

Definition plain (x : devent) : event := match x with Again => Reconnect | _ => Poll end.
Lemma quiet_turns q : Forall (fun x => x = Ask \/ x = Again) q -> turns q = [].
Proof. induction 1 as [|x q Hx _ IH]; [reflexivity|]. destruct Hx as [-> | ->]; exact IH. Qed.
Lemma quiet_plain q : Forall (fun x => x = Ask \/ x = Again) q -> Forall (fun x => x = Poll \/ x = Reconnect) (map plain q).
Proof. induction 1 as [|x q Hx _ IH]; constructor; [|exact IH]. destruct Hx as [-> | ->]; cbn; auto. Qed.

Section refill.
Context (e : env) (c : scfg) (cfg : config) (s v : N) (tr : transport) (l : list devent) (quiet : list devent) (i0 i1 : input).
Context (HE : wf_env e) (Hs : u16 s) (Hb : cfg_version cfg < 256) (Hv : v <= cfg_version cfg) (HA : acceptable (accept tr (new_rtr_server cfg s)) v).
Context (HT : turns l <> []) (HN : never_empty e c (turns l)) (HK : keys_once e c (turns l)) (HP : prompt None (l ++ [Ask])).
Context (HQ : Forall (fun x => x = Ask \/ x = Again) quiet).
Context (H0 : forall x, ~ served (State.after e c (turns l ++ [i0])) x) (H1 : exists x, served (State.after e c (turns l ++ [i0; i1])) x)
  (K1 : no_dup_keys (st_slurm (State.after e c (turns l ++ [i0; i1]))) (st_data (State.after e c (turns l ++ [i0; i1])))).
Context (HS : serial_of (State.after e c (turns l)) < 4294967290).
Let srv := new_rtr_server cfg s.

Lemma play_quiet q : Forall (fun x => x = Ask \/ x = Again) q -> forall w,
  play srv tr v (seen e c w) (map plain q) = option_map (seen e c) (dplay e c srv tr v w q).
Proof.
  induction 1 as [|x q Hx _ IH]; intros w; [reflexivity|]. destruct Hx as [-> | ->].
  - cbn [map plain play happens dplay dhappens seen wo_cache wo_conn wo_router].
    destruct (poll _ _ _ _ _) as [[cl r]|]; [apply (IH (mkDa (da_turns w) cl r))|reflexivity].
  - cbn [map plain play happens dplay dhappens seen wo_cache wo_conn wo_router]. apply (IH (mkDa (da_turns w) (accept tr srv) (da_router w))).
Qed.
Lemma same_story : exists L n, Forall (fun n => Forall wf_sd n /\ NoDup (ids n) /\ n <> []) (updates L) /\ updates L <> [] /\ timely 3 [] None (L ++ [Poll]) /\
  Forall wf_sd n /\ NoDup (ids n) /\ n <> [] /\
  run (new_server 3) (updates L) = st_server (State.after e c (turns l)) /\
  same_set (sdCurrent (st_server (State.after e c (turns l ++ [i0; i1])))) n /\
  play srv tr v (start srv tr 3) ((L ++ [Poll]) ++ (Update [] :: map plain quiet) ++ rounds [n]) =
    option_map (seen e c) (dplay e c srv tr v (dstart srv tr) (l ++ [Ask; Turn i0] ++ quiet ++ [Turn i1; Ask])).
Proof.
  destruct (translate e c srv tr v l HE [] HN HK) as (L & L1 & L2 & L3). specialize (L2 [] None None (fun _ => eq_refl) I HP).
  specialize (L3 (accept tr srv) fresh_router). change (mkDa [] (accept tr srv) fresh_router) with (dstart srv tr) in L3.
  change (mkWo (st_server (State.after e c [])) (accept tr srv) fresh_router) with (start srv tr 3) in L3.
  assert (W : Forall (Forall wf_sd) (updates L)) by (eapply Forall_impl; [|exact L1]; intros ? (H & _); exact H).
  destruct (router_served e c cfg s v tr l HE Hs Hb Hv HA HT HN HK HP) as (wp & DP & _). fold srv in DP. rewrite dplay_app in DP.
  destruct (dplay e c srv tr v (dstart srv tr) l) as [w0|] eqn:ED; [|discriminate DP]. cbn [option_map] in L3.
  pose proof (dplay_turns _ _ _ _ _ _ _ _ ED) as ET. cbn [dstart da_turns app] in ET.
  destruct (play_sane cfg s v tr 3 Hs Hb Hv HA L [] (start srv tr 3) (seen e c w0)) as (HC & _); [exact W|reflexivity| |exact L3|].
  { split; [|exact I]. apply (tracks_start cfg s v tr 3 HA). }
  cbn [app seen wo_cache] in HC. rewrite ET in HC.
  assert (X0 : exists x, served (State.after e c (turns l)) x).
  { clear - HN HT. destruct (turns l) as [|i t _] using rev_ind; [contradiction|]. now apply (HN t i []). }
  assert (NU : updates L <> []).
  { intros E. rewrite E in HC. destruct X0 as [x X0]. unfold served, get_current_sds in X0. rewrite HC in X0. exact X0. }
  pose proof (turn_empties e c (turns l) i0 HE X0 H0) as E0.
  change ([i0; i1]) with ([i0] ++ [i1]) in *. rewrite app_assoc in *.
  destruct (turn_updates e c (turns l ++ [i0]) i1 HE H1 K1) as (us & UC & UF & UR).
  destruct UC as [-> |(n & ->)].
  { exfalso. cbn in UR. destruct H1 as [x HX]. apply (H0 x). unfold served in *. now rewrite <- UR. }
  inversion UF as [|? ? (F1 & F2 & F3) _]; subst. cbn [run fold_left] in UR. exists L, n. do 3 (split; [assumption|]). do 3 (split; [assumption|]).
  split; [now symmetry|]. split; [rewrite UR; apply step_set; [now apply server_inv|exact F1]|].
  assert (EL : l ++ [Ask; Turn i0] ++ quiet ++ [Turn i1; Ask] = (l ++ [Ask]) ++ [Turn i0] ++ quiet ++ [Turn i1; Ask]) by (rewrite <- app_assoc; reflexivity).
  rewrite EL, (dplay_app e c srv tr v (l ++ [Ask])), (dplay_app e c srv tr v l), ED. rewrite (play_app srv tr v (L ++ [Poll])), (play_app srv tr v L), L3.
  change [Poll] with (map plain [Ask]). rewrite play_quiet by (repeat constructor). rewrite DP. cbn [option_map].
  pose proof (dplay_turns _ _ _ _ _ _ _ _ DP) as ET1. cbn in ET1. rewrite app_nil_r, ET in ET1.
  cbn [app play happens dplay dhappens seen wo_cache wo_conn wo_router da_turns da_conn da_router]. rewrite ET1, <- E0.
  set (w1 := mkDa (turns l ++ [i0]) (da_conn wp) (da_router wp)).
  change (mkWo (st_server (State.after e c (turns l ++ [i0]))) (da_conn wp) (da_router wp)) with (seen e c w1).
  rewrite play_app, dplay_app, play_quiet by exact HQ. destruct (dplay e c srv tr v w1 quiet) as [w2|] eqn:E2; [|reflexivity]. cbn [option_map].
  pose proof (dplay_turns _ _ _ _ _ _ _ _ E2) as ET2. cbn [w1 da_turns] in ET2.
  assert (TQ : turns quiet = []) by now apply quiet_turns. rewrite TQ, app_nil_r in ET2.
  cbn [rounds flat_map app play happens dplay dhappens seen wo_cache wo_conn wo_router da_turns da_conn da_router]. rewrite ET2, <- UR.
  destruct (poll _ _ _ _ _) as [[cl r]|]; reflexivity.
Qed.
Lemma served_latest L : Forall (fun n => Forall wf_sd n /\ NoDup (ids n) /\ n <> []) (updates L) ->
  run (new_server 3) (updates L) = st_server (State.after e c (turns l)) -> forall x, served (State.after e c (turns l)) x <-> In x (ids (latest L)).
Proof.
  intros L1 HC x. unfold served, get_current_sds. rewrite <- HC. apply last_run. eapply Forall_impl; [|exact L1]. intros ? (H & _). exact H.
Qed.
Theorem ask_refilled :
  ((forall x, served (State.after e c (turns l)) x -> ~ served (State.after e c (turns l ++ [i0; i1])) x) ->
   exists w, dplay e c srv tr v (dstart srv tr) (l ++ [Ask; Turn i0] ++ quiet ++ [Turn i1; Ask]) = Some w /\
     forall x, In x (ro_set (da_router w)) <-> allowed v (keys_off tr cfg) x /\ (served (State.after e c (turns l)) x \/ served (State.after e c (turns l ++ [i0; i1])) x)) /\
  ((exists x, allowed v (keys_off tr cfg) x /\ served (State.after e c (turns l)) x /\ served (State.after e c (turns l ++ [i0; i1])) x) ->
   dplay e c srv tr v (dstart srv tr) (l ++ [Ask; Turn i0] ++ quiet ++ [Turn i1; Ask]) = None).
Proof.
  destruct same_story as (L & n & L1 & NU & L2 & F1 & F2 & F3 & HC & SN & ST). pose proof (served_latest L L1 HC) as SL.
  assert (SV : sdCurrentSerial (run (new_server 3) (updates L)) < 4294967290) by (rewrite HC; exact HS).
  assert (QQ : Forall (fun x => x = Poll \/ x = Reconnect) (map plain quiet)).
  { now apply quiet_plain. }
  assert (S1 : forall x, served (State.after e c (turns l ++ [i0; i1])) x <-> In x (ids n)) by (intros x; apply SN). split.
  - intros DJ. destruct (refilled cfg s v tr 3 Hs Hb Hv HA L (map plain quiet) n L1 NU L2 QQ F1 F2 F3 []) as (w & PW & SW).
    { constructor. } { unfold nlen. cbn. lia. }
    { constructor; [|constructor]. intros x HX HX'. apply SL in HX. apply S1 in HX'. now apply (DJ x). }
    fold srv in PW. rewrite ST in PW. destruct (dplay e c srv tr v (dstart srv tr) _) as [w'|]; [|discriminate PW]. exists w'. split; [reflexivity|].
    cbn [option_map] in PW. injection PW as <-. cbn [seen wo_router last] in SW. intros x. rewrite (SW x), SL, S1, <- allowed_okr. split.
    + intros (d & I1 & M & <-). rewrite may_okr in M. split; [exact M|]. apply in_app_iff in I1 as [I1|I1]; apply in_ids in I1; auto.
    + intros (O & [I1|I1]); apply ids_in in I1 as (d & I1 & <-); exists d; rewrite may_okr, in_app_iff; auto.
  - intros (x & A1 & A2 & A3). apply SL, ids_in in A2 as (d & D1 & <-). apply S1, ids_in in A3 as (d' & D2 & D3).
    pose proof (refused cfg s v tr 3 Hs Hb Hv HA L (map plain quiet) n L1 NU L2 QQ F1 F2 F3 [] SV) as R. fold srv in R. rewrite ST in R.
    destruct (dplay e c srv tr v (dstart srv tr) _); [|reflexivity]. exfalso. enough (E : option_map (seen e c) (Some d0) = None) by discriminate E. apply R.
    exists d, d'. split; [exact D1|]. split; [exact D2|]. split; [now symmetry|]. rewrite may_okr. now apply allowed_okr.
Qed.
End refill.
