(** C45, C79: files that carry no time. *)
From Coq Require Import String ZifyBool ZifyNat ZifyN.
From Verif Require Import Lib.Str Model.State Model.Chain Spec.Refresh Spec.Chain Proofs.StateP Props.StateProps Props.ChainProps.
From Coq Require Import List.
Import ListNotations.
Local Open Scope list_scope.
Local Open Scope N_scope.

(** With -checktime a file in use whose time cannot be read changes nothing: the data served
    before it, its serial included, stays, however old it is, and nobody is told. *)
Theorem C45_undated_partial : forall e c h i, wf_env e -> let s' := State.after e c (h ++ [i]) in
  sc_check c = true -> built e (st_data s') = None ->
  st_server s' = st_server (State.after e c h) /\ snd (turn e c h i) = [].
Proof.
  intros e c h i HE. cbv zeta. intros HC. rewrite after_snoc.
  pose proof (turn_outcome e c h i HE (after_inv e c h HE)) as HT.
  pose proof (fetch_spec e (slurm_on c h) i (State.after e c h)) as HF.
  destruct (fetch _ _ _ _) as [s2 new]. destruct (turn e c h i) as [s' ns]. cbn [fst snd] in *. destruct HT as [HI HT].
  destruct HF as (F1 & _). pose proof (outcome_keeps _ _ _ _ _ _ _ _ HT) as (K1 & _). rewrite K1. intros HB.
  assert (TC : time_check e c (i_now i) (st_data s2) = Some EParse).
  { unfold time_check. rewrite HC. unfold build_time. unfold built, second in *.
    destruct (rl_gen (st_data s2)); [discriminate|]. now rewrite HB. }
  inversion HT as [? s1 sds v b ? ? _ [_ HU] _ _ _ _ _|s1 sds v b ? ? EH [_ HU] _ _ _ _ _|? HNU|? t ? HNU HTC ? ? ? HS]; subst;
    try congruence. split; [exact F1|reflexivity].
Qed.

(** The data in use is what was there at the start or one of the files. *)
Lemma data_from e c h : wf_env e -> st_data (State.after e c h) = st_data init_state \/
  exists i y, In i h /\ i_file i = Some y /\ e_decode e y = Some (st_data (State.after e c h)).
Proof.
  intros HE. induction h as [|i h IH] using rev_ind; [now left|]. rewrite after_snoc.
  pose proof (turn_outcome e c h i HE (after_inv e c h HE)) as HT.
  pose proof (fetch_data e (slurm_on c h) i (State.after e c h)) as HF.
  destruct (fetch _ _ _ _) as [s2 new]. destruct (turn e c h i) as [s' ns]. cbn [fst snd] in *. destruct HT as [HI HT].
  pose proof (outcome_keeps _ _ _ _ _ _ _ _ HT) as (K1 & _). rewrite K1.
  assert (OLD : st_data s2 = st_data (State.after e c h) -> st_data s2 = st_data init_state \/
    exists i0 y, In i0 (h ++ [i]) /\ i_file i0 = Some y /\ e_decode e y = Some (st_data s2)).
  { intros E. rewrite E. destruct IH as [IH|(j & y & H1 & H2 & H3)]; [now left|]. right. exists j, y.
    split; [apply in_or_app; now left|]. now split. }
  unfold pick in HF. destruct (i_file i) as [y|] eqn:EI; [|now apply OLD].
  destruct (match st_hcache (State.after e c h) with Some _ => _ | None => _ end); [now apply OLD|].
  destruct (e_decode e y) as [d|] eqn:ED; [|now apply OLD].
  right. exists i, y. split; [apply in_or_app; right; now left|]. split; [exact EI|]. now rewrite ED, HF.
Qed.

(** A server with -checktime never serves anything however often and whenever it is given files
    without a time ... *)
Theorem C45_never_dated_partial : forall e c h, wf_env e -> sc_check c = true -> e_ptime e [] = None ->
  (forall i y d, In i h -> i_file i = Some y -> e_decode e y = Some d -> built e d = None) ->
  (forall x, ~ served (State.after e c h) x) /\ serial_of (State.after e c h) = serial_of init_state.
Proof.
  intros e c h HE HC HT HF.
  enough (E : st_server (State.after e c h) = st_server init_state).
  { unfold served, serial_of. rewrite E. split; [intros x []|reflexivity]. }
  induction h as [|i h IH] using rev_ind; [reflexivity|].
  destruct (C45_undated_partial e c h i HE HC) as [-> _].
  - destruct (data_from e c (h ++ [i]) HE) as [E|(j & y & H1 & H2 & H3)]; [now rewrite E|]. now apply (HF j y).
  - apply IH. intros j y d Hj. apply HF. apply in_or_app. now left.
Qed.
(** ... as are all the files rtrdump writes. *)
Theorem C79_dumps_refuted : forall e c h, wf_env e -> sc_check c = true -> e_ptime e [] = None ->
  (forall i y d, In i h -> i_file i = Some y -> e_decode e y = Some d -> exists sp bsp dd, d = dump_list sp bsp dd) ->
  forall x, ~ served (State.after e c h) x.
Proof.
  intros e c h HE HC HT HF. apply (C45_never_dated_partial e c h HE HC HT). intros i y d H1 H2 H3.
  destruct (HF i y d H1 H2 H3) as (sp & bsp & dd & ->). exact HT.
Qed.

(** Three refreshes with a dump: nothing; an undated file after a dated one: the first stays, a
    hundred hours later as well. *)
Definition undated : rpkilist := mkRL [] None (Some [rw]) 0 [] 0.
Definition env_und := sample_env [([1], listing 0 [rv] []); ([2], undated)] [].
Example C45_undated_case : wf_env env_und /\ sc_check checking = true /\
  built env_und (st_data (State.after env_und checking ([at_h 1 [1]] ++ [at_h 100 [2]]))) = None /\
  served (State.after env_und checking ([at_h 1 [1]] ++ [at_h 100 [2]])) idv /\
  ~ served (State.after env_und checking ([at_h 1 [1]] ++ [at_h 100 [2]])) idw.
Proof.
  split; [wf_sample|]. split; [reflexivity|]. split; [vm_compute; reflexivity|].
  split; [apply servedb_ok|apply servedb_no]; vm_compute; reflexivity.
Qed.
Example C79_dumps_case : exists d, dumpC = Some d /\ wf_env (envD d) /\ e_ptime (envD d) [] = None /\
  (forall i y l, In i [at_h 1 [5]; at_h 2 [5]; at_h 3 [5]] -> i_file i = Some y -> e_decode (envD d) y = Some l -> exists sp bsp dd, l = dump_list sp bsp dd) /\
  e_decode (envD d) [5] = Some (dump_list 4 4 d) /\ length (d_roas d) = 2%nat.
Proof.
  eexists. split; [vm_compute; reflexivity|]. split; [wf_sample|]. split; [reflexivity|]. split.
  - intros i y l HI HY HD. assert (E : y = [5]) by (repeat (destruct HI as [<-|HI]; [injection HY as <-; reflexivity|]); destruct HI).
    subst y. injection HD as <-. do 3 eexists. reflexivity.
  - split; reflexivity.
Qed.

Print Assumptions C45_undated_partial.
Print Assumptions C45_never_dated_partial.
Print Assumptions C79_dumps_refuted.
Print Assumptions C45_undated_case.
Print Assumptions C79_dumps_case.
