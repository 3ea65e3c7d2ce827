(** Property C80: the gauges about the data. *)
From Coq Require Import String ZifyBool ZifyNat ZifyN.
From Verif Require Import Lib.Str Model.Metrics Spec.Gauges Proofs.CacheP Proofs.StateP Proofs.GaugeP
  Props.CacheProps Props.InputProps Props.StateProps.
Local Open Scope string_scope.
Local Open Scope list_scope.
Local Open Scope N_scope.

(** C80 The gauges show what is served: false.  After everything was dropped because it is too
    old they still show all of it, under the old serial. *)
Theorem C80_drop_refuted : exists e c h g, wf_env e /\ ordered_h h /\ metrics_after e c h = Some g /\
  get_current_sds (st_server (after e c h)) = [] /\ g_effective g = 2 /\ g_serial g <> serial_of (after e c h).
Proof.
  exists env45, cfgS, [at_h 1 [1]; at_h 30 [2]]. eexists. split; [wf_sample|]. split; [apply ordered_two; cbn; lia|].
  split; [vm_compute; reflexivity|]. split; [vm_compute; reflexivity|]. split; [reflexivity|]. vm_compute. discriminate.
Qed.
(** A router key listed twice is counted twice. *)
Definition env80 := sample_env [([1], listing 0 [rv] [rk; rk])] [].
Theorem C80_keys_refuted : exists e c h g, wf_env e /\ ordered_h h /\ metrics_after e c h = Some g /\ g_keys g = 2 /\
  number_of (fun x => served (after e c h) x /\ is_key x) 1.
Proof.
  exists env80, cfgN, [at_h 1 [1]]. eexists. split; [wf_sample|]. split; [split; [constructor; [cbn; lia|constructor]|intros [|? [|? ?]] ? ? ? E; discriminate E]|].
  split; [vm_compute; reflexivity|]. split; [reflexivity|]. exists [RK 7 [171] [1; 2]].
  split; [repeat constructor; intros []|]. split; [|reflexivity]. intros x. unfold served.
  set (l := ids _). vm_compute in l. subst l. cbn [In]. split.
  - intros [<-|[]]. split; [right; now left|exact I].
  - intros [[<-|[<-|[<-|[]]]] H]; [destruct H| |]; now left.
Qed.
(** What holds: whenever anything is served, the gauges were set and are right, the one of
    the router keys as long as none is listed twice.  Missing: when nothing is served. *)
Theorem C80_gauges_partial : forall e c h, wf_env e -> get_current_sds (st_server (after e c h)) <> [] ->
  exists g, metrics_after e c h = Some g /\ gauge_ok e c h g.
Proof. intros e c h HE. exact (gauges_inv e c h HE). Qed.
(** Entries of both families, one of them twice, one expired, and one router key; then a file
    with one entry. *)
Definition env80c := sample_env
  [([1], listing 0 [rv; rv; rw; ej "2001:db8::/32" 48 "3" None; ej "10.2.0.0/16" 16 "4" (Some 3000%Z)] [rk]); ([2], listing 0 [rv] [])] [].
Example C80_case : wf_env env80c /\
  metrics_after env80c cfgN [at_h 1 [1]] = Some (mkG 0 3 1 2 1 1 5) /\
  metrics_after env80c cfgN [at_h 1 [1]; at_h 30 [1]] = Some (mkG 1 2 1 1 1 1 5) /\
  metrics_after env80c cfgN [at_h 1 [1]; at_h 2 [2]] = Some (mkG 1 1 0 1 0 0 1) /\
  get_current_sds (st_server (after env80c cfgN [at_h 1 [1]; at_h 2 [2]])) <> [].
Proof. split; [wf_sample|]. repeat split; vm_compute; try reflexivity. discriminate. Qed.

(** For every history, whatever is served: the gauges are exactly those of the last refresh that
    loaded another set of data, and since then what is served changed, if at all, only to nothing.
    As long as no gauge was set nothing was ever served. *)
Theorem C80_exact_partial : forall e c h, wf_env e ->
  match metrics_after e c h with
  | None => forall h1 h2, h = h1 ++ h2 -> get_current_sds (st_server (after e c h1)) = []
  | Some g => exists h0 h2, h = h0 ++ h2 /\ metrics_after e c h0 = Some g /\ gauge_ok e c h0 g /\ nothing_since e c h0 h2
  end.
Proof.
  intros e c h HE. pose proof (gauges_exact e c h HE) as H. destruct (metrics_after e c h) as [g|]; [exact H|].
  destruct H as [H H0]. intros h1 h2 ->. revert h2 H. induction h1 as [|i h1 IH] using rev_ind; intros h2 H; [exact H0|].
  destruct (H h1 i h2) as [HS|HS]; [now rewrite <- app_assoc| |exact HS]. cbn [app] in HS.
  rewrite <- app_assoc in H. specialize (IH _ H). apply same_set_nil. intros x. specialize (HS x).
  unfold served in HS. rewrite IH in HS. unfold get_current_sds in HS. symmetry. exact HS.
Qed.
(** A file, then everything dropped for its age: the gauges are still those of the file.
    Without any file no gauge is set. *)
Example C80_exact_case : wf_env env45 /\
  metrics_after env45 cfgS [at_h 1 [1]; at_h 30 [2]] = metrics_after env45 cfgS [at_h 1 [1]] /\
  metrics_after env45 cfgS [at_h 1 [1]] <> None /\
  get_current_sds (st_server (after env45 cfgS [at_h 1 [1]])) <> [] /\
  get_current_sds (st_server (after env45 cfgS [at_h 1 [1]; at_h 30 [2]])) = [] /\
  metrics_after env45 cfgS [at_h 1 [9]; at_h 2 [9]] = None.
Proof. split; [wf_sample|]. repeat split; vm_compute; try reflexivity; discriminate. Qed.

Print Assumptions C80_drop_refuted.
Print Assumptions C80_keys_refuted.
Print Assumptions C80_gauges_partial.
Print Assumptions C80_exact_partial.
