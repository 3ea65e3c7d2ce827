(** C48: exactly when a change of what is served is announced. *)
From Coq Require Import String ZifyBool ZifyNat ZifyN.
From Verif Require Import Lib.Str Model.State Spec.Refresh Proofs.StateP Props.StateProps.
From Coq Require Import List.
Import ListNotations.
Local Open Scope list_scope.
Local Open Scope N_scope.

Lemma recent_or_not e c now d : recent e c now d \/ ~ recent e c now d.
Proof.
  unfold recent. destruct (sc_check c); [|left; discriminate]. destruct (built e d) as [b|].
  - destruct (Z.leb_spec now (b + day)) as [H|H].
    + left. intros _. exists b. split; [reflexivity|exact H].
    + right. intros K. destruct (K eq_refl) as (b' & [= <-] & K'). lia.
  - right. intros K. destruct (K eq_refl) as (b' & K' & _). discriminate.
Qed.

(** A refresh that changes what is served announces the new serial exactly if notifications are
    switched on and the file in use is recent ... *)
Theorem C48_exact_partial : forall e c h i, wf_env e -> let s' := after e c (h ++ [i]) in
  ~ same_served (after e c h) s' ->
  (snd (turn e c h i) = [serial_of s'] <-> sc_notify c = true /\ recent e c (i_now i) (st_data s')) /\
  (snd (turn e c h i) = [] <-> ~ (sc_notify c = true /\ recent e c (i_now i) (st_data s'))).
Proof.
  intros e c h i HE. cbv zeta. intros HN.
  destruct (recent_or_not e c (i_now i) (st_data (after e c (h ++ [i])))) as [HR|HR].
  - destruct (C48_announced_partial e c h i HE HR) as [_ H]. rewrite (H HN). destruct (sc_notify c).
    + split; split; intros K; try tauto; discriminate.
    + split; split; intros K; try reflexivity; try discriminate.
      * destruct K. discriminate.
      * intros [K' _]. discriminate.
  - rewrite (C48_quiet_partial e c h i HE HR). split; split; intros K; try tauto; discriminate.
Qed.
(** ... and whatever is announced is announced after a change, once, with the serial now served. *)
Theorem C48_only_partial : forall e c h i n, wf_env e -> let s' := after e c (h ++ [i]) in
  In n (snd (turn e c h i)) ->
  ~ same_served (after e c h) s' /\ snd (turn e c h i) = [serial_of s'] /\ n = serial_of s' /\
  sc_notify c = true /\ recent e c (i_now i) (st_data s').
Proof.
  intros e c h i n HE. cbv zeta. intros HI.
  destruct (recent_or_not e c (i_now i) (st_data (after e c (h ++ [i])))) as [HR|HR].
  - destruct (C48_announced_partial e c h i HE HR) as [H1 H2].
    assert (HN : ~ same_served (after e c h) (after e c (h ++ [i]))).
    { intros K. rewrite (H1 K) in HI. destruct HI. }
    specialize (H2 HN). rewrite H2 in HI |- *. destruct (sc_notify c); [|destruct HI].
    destruct HI as [<-|[]]. auto.
  - rewrite (C48_quiet_partial e c h i HE HR) in HI. destruct HI.
Qed.

(** Both sides occur: a new file an hour old is announced, one that is too old is not although
    what is served changes. *)
Example C48_exact_case :
  In 1 (snd (turn env43 cfgS [at_h 1 [1]] (mkIn (hour 2) (Some [2]) (Some [9])))) /\
  sc_notify cfgS = true /\ recent env43 cfgS (hour 2) (listing 1 [rv] [rk]) /\
  snd (turn env45 cfgS [at_h 1 [1]] (at_h 30 [2])) = [] /\
  ~ recent env45 cfgS (hour 30) (st_data (after env45 cfgS [at_h 1 [1]; at_h 30 [2]])).
Proof.
  destruct C48_case as (_ & E & _ & R). split; [rewrite E; now left|]. split; [reflexivity|].
  split; [exact R|]. split; [vm_compute; reflexivity|].
  intros K. destruct (K eq_refl) as (b & K1 & K2). vm_compute in K1. injection K1 as <-. vm_compute in K2. now apply K2.
Qed.

Print Assumptions C48_exact_partial.
Print Assumptions C48_only_partial.
Print Assumptions C48_exact_case.
