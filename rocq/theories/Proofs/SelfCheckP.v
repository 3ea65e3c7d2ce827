(** Lemmas for C124. *)
From Coq Require Import ZArith ZifyBool ZifyNat ZifyN.
From Verif Require Import Spec.Refresh Spec.Monitor Spec.Agree Spec.SelfCheck Proofs.DataP Proofs.CacheP Proofs.StateP Proofs.MonitorP Proofs.MonitorP2 Proofs.AgreeP.
From Coq Require Import List Lia.
Import ListNotations.
Local Open Scope N_scope.

(** A refresh gives the server at most one set. *)
Lemma turn_gives e c h i : wf_env e ->
  st_server (State.after e c (h ++ [i])) = st_server (State.after e c h) \/
  exists new, Forall wf_sd new /\ st_server (State.after e c (h ++ [i])) = step (st_server (State.after e c h)) new.
Proof.
  intros HE. rewrite after_snoc. pose proof (turn_outcome e c h i HE (after_inv e c h HE)) as HT.
  pose proof (fetch_spec e (slurm_on c h) i (State.after e c h)) as HF.
  destruct (fetch _ _ _ _) as [s2 new]. destruct (turn e c h i) as [s' ns]. cbn [fst] in *.
  destruct HF as (F1 & _). destruct HT as [HI HO].
  destruct HO as [? s1 sds v b ? ? _ _ HWs _ HNs HP (_ & _ & _ & HS & _)|s1 sds v b ? ? _ _ HWs _ HNs HP [(_ & _ & _ & _ & HS & _)|(_ & -> & _)]|?|? t _ _ _ _ _ _ HS _ _ _ _].
  - apply prepare_keeps in HP as (_ & HQ & _). rewrite HQ in HS. right. exists sds. rewrite <- F1. auto.
  - apply prepare_keeps in HP as (_ & HQ & _). rewrite HQ in HS. right. exists sds. rewrite <- F1. auto.
  - apply prepare_keeps in HP as (_ & HQ & _). left. congruence.
  - left. exact F1.
  - right. exists []. rewrite <- F1. auto.
Qed.
(** The daemon's server is the one of C55 fed these sets. *)
Lemma fed_with e c h : wf_env e -> exists hs, Forall (Forall wf_sd) hs /\ (length hs <= length h)%nat /\ run (new_server 3) hs = st_server (State.after e c h).
Proof.
  intros HE. induction h as [|i h (hs & H1 & H2 & H3)] using rev_ind.
  - exists []. repeat split. constructor. cbn. lia.
  - rewrite app_length. cbn [length]. destruct (turn_gives e c h i HE) as [E|(new & W & E)].
    + exists hs. split; [exact H1|]. split; [lia|]. congruence.
    + exists (hs ++ [new]). split; [apply Forall_app; auto|]. split; [rewrite app_length; cbn [length]; lia|].
      unfold run in *. rewrite fold_left_app, H3, E. reflexivity.
Qed.
Lemma on_watch_watched e c cfg s tr h cl m : wf_env e -> on_watch e c cfg s tr h cl m ->
  exists hs, (length hs <= length h)%nat /\ run (new_server 3) hs = st_server (State.after e c h) /\ watched cfg s tr 3 hs cl m.
Proof.
  intros HE H. induction H as [h now cl a HN HP|h i cl m HW (hs & H2 & H3 & H4) HN|h cl m now cl' a HW (hs & H2 & H3 & H4) HS HP].
  - destruct (fed_with e c h HE) as (hs & H1 & H2 & H3). exists hs. split; [exact H2|]. split; [exact H3|].
    apply watch_start; [exact H1|now rewrite H3|now rewrite H3].
  - rewrite app_length. cbn [length]. destruct (turn_gives e c h i HE) as [E|(new & W & E)].
    + exists hs. split; [lia|]. split; [congruence|exact H4].
    + exists (hs ++ [new]). split; [rewrite app_length; cbn [length]; lia|].
      split; [unfold run in *; rewrite fold_left_app, H3, E; reflexivity|]. apply watch_update; [exact H4|exact W|].
      intros ->. apply HN. rewrite E. apply same_set_nil. apply step_set; [|constructor].
      exact (proj1 (after_inv e c h HE)).
  - exists hs. split; [exact H2|]. split; [exact H3|]. apply (watch_poll cfg s tr 3 hs cl m now cl' a); [exact H4|now rewrite H3|now rewrite H3].
Qed.
Lemma on_watch_served e c cfg s tr h cl m : on_watch e c cfg s tr h cl m -> get_current_sds (st_server (State.after e c h)) <> [].
Proof. induction 1; assumption. Qed.

(** Comparing a map that shows the list with one that shows what is offered. *)
Lemma compare_sides thresholds started clk a b (P Q : obj -> Prop) : minv a -> minv b ->
  (forall o, shown a o <-> P o) -> (forall o, shown b o <-> Q o) ->
  let r := compare thresholds started clk a b in
  (forall o, (exists e, has (r_only1 r) o e) <-> P o /\ ~ Q o) /\
  (forall o, (exists e, has (r_only2 r) o e) <-> Q o /\ ~ P o) /\
  number (r_diff1 r) (fun o => P o /\ ~ Q o) /\ number (r_diff2 r) (fun o => Q o /\ ~ P o).
Proof.
  intros M1 M2 S1 S2 r.
  assert (HO : forall a b, minv a -> minv b -> forall o, (exists e, has (mdiff a b) o e) <-> shown a o /\ ~ shown b o).
  { intros x y Hx Hy o. split.
    - intros (e & HX). apply mdiff_has in HX; auto. destruct HX as (E1 & E2 & E3). split; [exists e; auto|exact E3].
    - intros ((e & E1 & E2) & E3). exists e. apply mdiff_has; auto. }
  assert (HN : forall a b, minv a -> minv b -> number (nlen (mdiff a b)) (fun o => shown a o /\ ~ shown b o)).
  { intros x y Hx Hy. apply eobjs_number; [now apply minv_mdiff|]. now apply HO. }
  unfold r. cbn [compare r_only1 r_only2 r_diff1 r_diff2].
  split; [intros o; rewrite (HO _ _ M1 M2 o), S1, S2; reflexivity|]. split; [intros o; rewrite (HO _ _ M2 M1 o), S1, S2; reflexivity|].
  split; [pose proof (HN _ _ M1 M2) as X|pose proof (HN _ _ M2 M1) as X]; destruct X as (l & X1 & X2 & X3); exists l; (split; [exact X1|]); (split; [|exact X3]); intros o; rewrite (X2 o); pose proof (S1 o); pose proof (S2 o); tauto.
Qed.
