From Coq Require Import ZifyBool ZifyNat ZifyN.
From Verif Require Import Model.JsonFile Spec.Refresh Proofs.JsonFileP Proofs.JsonStateP Proofs.DataP Proofs.CacheP Proofs.StateP.
Local Open Scope list_scope.
Local Open Scope N_scope.

(** ** The records served are those of some file and some SLURM file read before *)
Lemma fetch_slurm e on i s : let s' := fst (fetch e on i s) in
  st_slurm s' = st_slurm s \/ exists x sl, i_slurm i = Some x /\ e_dslurm e x = Some sl /\ st_slurm s' = Some sl.
Proof.
  cbv zeta. unfold fetch.
  assert (HS : let s1 := fst (if on then update_slurm e (i_slurm i) s else (s, false)) in
    st_slurm s1 = st_slurm s \/ exists x sl, i_slurm i = Some x /\ e_dslurm e x = Some sl /\ st_slurm s1 = Some sl).
  { destruct on; [|now left]. cbv zeta. unfold update_slurm. destruct (i_slurm i) as [x|]; [|now left].
    destruct (match st_hslurm s with Some h0 => beqb h0 (e_sha e x) | None => false end); [now left|].
    destruct (e_dslurm e x) as [sl|] eqn:E; [|now left]. right. exists x, sl. repeat split; assumption. }
  destruct (if on then update_slurm e (i_slurm i) s else (s, false)) as [s1 u1]. cbn [fst] in HS.
  pose proof (update_file_spec e (i_file i) s1) as HF. destruct (update_file e (i_file i) s1) as [s2 u2].
  destruct HF as (_ & B2 & _). cbn [fst]. now rewrite B2.
Qed.
Definition from_file (e : env) (h : list input) (d : rpkilist) : Prop :=
  exists i x, In i h /\ i_file i = Some x /\ e_decode e x = Some d.
Definition from_slurm (e : env) (h : list input) (sl : option slurm) : Prop :=
  match sl with None => True | Some s => exists i x, In i h /\ i_slurm i = Some x /\ e_dslurm e x = Some s end.
Lemma from_file_app e h i d : from_file e h d -> from_file e (h ++ [i]) d.
Proof. intros (j & x & H1 & H2). exists j, x. split; [apply in_app_iff; now left|exact H2]. Qed.
Lemma from_slurm_app e h i sl : from_slurm e h sl -> from_slurm e (h ++ [i]) sl.
Proof. destruct sl as [s|]; [|trivial]. intros (j & x & H1 & H2). exists j, x. split; [apply in_app_iff; now left|exact H2]. Qed.
Definition origin (e : env) (h : list input) (s : state) : Prop :=
  (st_data s = empty_list \/ from_file e h (st_data s)) /\ from_slurm e h (st_slurm s) /\
  ((forall x, ~ served s x) \/
   exists i d sl, In i h /\ from_file e h d /\ from_slurm e h sl /\ forall x, served s x <-> content (i_proc i) sl d x).
Theorem after_origin e c h : wf_env e -> origin e h (after e c h).
Proof.
  intros HE. induction h as [|i h IH] using rev_ind.
  { split; [now left|]. split; [exact I|]. left. intros x []. }
  rewrite after_snoc. destruct IH as (I1 & I2 & I3).
  pose proof (turn_outcome e c h i HE (after_inv e c h HE)) as HT.
  pose proof (fetch_spec e (slurm_on c h) i (after e c h)) as HF.
  pose proof (fetch_slurm e (slurm_on c h) i (after e c h)) as HZ. cbv zeta in HZ.
  destruct (fetch _ _ _ _) as [s2 new]. destruct (turn e c h i) as [s' ns]. cbn [fst] in *.
  destruct HF as (F1 & _ & _ & _ & _ & _ & _ & F8 & _). destruct HT as [HI HO].
  pose proof (outcome_keeps _ _ _ _ _ _ _ _ HO) as (K1 & K2 & _).
  assert (D : st_data s2 = empty_list \/ from_file e (h ++ [i]) (st_data s2)).
  { destruct F8 as [(E & _)|(_ & _ & _ & x & E1 & E2)].
    - rewrite E. destruct I1 as [I1|I1]; [now left|right; now apply from_file_app].
    - right. exists i, x. split; [apply in_app_iff; right; now left|auto]. }
  assert (S : from_slurm e (h ++ [i]) (st_slurm s2)).
  { destruct HZ as [E|(x & sl & E1 & E2 & E3)].
    - rewrite E. now apply from_slurm_app.
    - rewrite E3. exists i, x. split; [apply in_app_iff; right; now left|auto]. }
  split; [now rewrite K1|]. split; [now rewrite K2|].
  assert (OLD : st_server s' = st_server (after e c h) ->
    (forall x, ~ served s' x) \/ exists i0 d sl, In i0 (h ++ [i]) /\ from_file e (h ++ [i]) d /\ from_slurm e (h ++ [i]) sl /\
      forall x, served s' x <-> content (i_proc i0) sl d x).
  { intros E. destruct I3 as [I3|(j & d & sl & J1 & J2 & J3 & J4)].
    - left. intros x Hx. apply (I3 x). unfold served in *. now rewrite <- E.
    - right. exists j, d, sl. split; [apply in_app_iff; now left|]. split; [now apply from_file_app|]. split; [now apply from_slurm_app|].
      intros x. rewrite <- J4. unfold served. now rewrite E. }
  assert (NEW : forall s1 sds, usable e c (i_now i) (st_data s2) -> Forall wf_sd sds ->
    (forall x, In x (ids sds) <-> content (i_proc i) (st_slurm s2) (st_data s2) x) -> st_server s1 = st_server s2 -> st_server s' = step (st_server s1) sds ->
    exists i0 d sl, In i0 (h ++ [i]) /\ from_file e (h ++ [i]) d /\ from_slurm e (h ++ [i]) sl /\ forall x, served s' x <-> content (i_proc i0) sl d x).
  { intros s1 sds [U _] HW HIn HQ HS. exists i, (st_data s2), (st_slurm s2). split; [apply in_app_iff; right; now left|]. split.
    - destruct D as [D|D]; [|exact D]. rewrite D in U. now elim U.
    - split; [exact S|]. intros x. rewrite <- HIn. unfold served, get_current_sds. rewrite HS. apply step_served; [rewrite HQ; apply HI|exact HW]. }
  inversion HO as [? s1 sds v b ? ? _ HU HWs HIn _ HP HA|s1 sds v b ? ? _ HU HWs HIn _ HP HCC|? _|? t _ _ _ _ _ _ HSv]; subst.
  - right. apply prepare_keeps in HP as (_ & HQ & _). destruct HA as (_ & _ & _ & HS & _). now apply (NEW s1 sds).
  - apply prepare_keeps in HP as (_ & HQ & _). destruct HCC as [(_ & (_ & _ & _ & HS & _))|(_ & -> & _)].
    + right. now apply (NEW s1 sds).
    + apply OLD. now rewrite HQ.
  - apply OLD. exact F1.
  - left. intros x Hx. unfold served, get_current_sds in Hx. rewrite HSv, step_nil in Hx by apply HI. destruct Hx.
Qed.
