(** Properties C66, C70, C71: the flags have the effect their help texts promise. *)
From Coq Require Import ZifyBool ZifyNat ZifyN String.
From Verif Require Import Lib.Str Model.Main Spec.Wire Spec.Sets Spec.History Spec.Response Spec.Net Spec.Refresh Spec.Flags Spec.Download
  Proofs.ConnP Proofs.NetP Proofs.FetchP Proofs.StateP Props.CacheProps Props.ConnProps Props.ConcProps Props.StateProps.
Local Open Scope string_scope.
Local Open Scope list_scope.
Local Open Scope N_scope.
Ltac Zify.zify_post_hook ::= Z.div_mod_to_equations.

(** The defaults, stayrtr.go:55-93. *)
Definition defaults : flags :=
  mkFlags 1 3600 600 7200 true false false true false false true true true 600 0 false true.

Lemma runs_config f cfg sc fc : stayrtr_main f = Runs cfg sc fc ->
  cfg = server_config f /\ sc = daemon_config f /\ fc = fetch_config f.
Proof.
  unfold stayrtr_main. destruct (negb _); [discriminate|]. destruct (_ <=? 0)%Z; [discriminate|].
  intros H. injection H as <- <- <-. auto.
Qed.
Lemma protover_lt f : cfg_version (server_config f) < 256.
Proof. cbn. unfold protover_to_lib. destruct (_ =? _)%Z; lia. Qed.
Lemma protover_ok f : protocol (f_protocol f) -> Z.of_N (cfg_version (server_config f)) = f_protocol f.
Proof. intros [E|E]; cbn; unfold protover_to_lib; rewrite E; reflexivity. Qed.
Lemma interval_ok z : interval z -> to_u32 z = Z.to_N z /\ Z.to_N z <> 0.
Proof. unfold interval, to_u32. intros H. rewrite Z.mod_small by lia. split; [reflexivity|lia]. Qed.
Lemma timer_flag z d : interval z -> timer (to_u32 z) d = Z.to_N z.
Proof. intros H. destruct (interval_ok z H) as [E N]. unfold timer. rewrite E. destruct (Z.to_N z =? 0) eqn:Q; [lia|reflexivity]. Qed.

(** C66 The flags reach the server.  Protocol version: nothing is sent in a version above
    -protocol, and everything in that version with -enforce.version.  (Missing: other values
    of -protocol.) *)
Theorem C66_protocol_partial : forall f cfg sc fc s tr cache c p,
  stayrtr_main f = Runs cfg sc fc -> protocol (f_protocol f) ->
  u16 s -> reach (new_rtr_server cfg s) tr c -> c_connected c = true ->
  exists c' a, process (new_rtr_server cfg s) cache c p = Ok (c', a) /\
    (forall q, In (Queue q) a -> (Z.of_N (get_version q) <= f_protocol f)%Z) /\
    (f_enforce f = true -> forall q, In (Queue q) a -> Z.of_N (get_version q) = f_protocol f).
Proof.
  intros f cfg sc fc s tr cache c p HR HP Hs Hr Hc. destruct (runs_config _ _ _ _ HR) as (-> & _ & _).
  destruct (C22_version _ s tr cache c p Hs (protover_lt f) Hr Hc) as (c' & a & E & H1 & H2).
  exists c', a. split; [exact E|]. rewrite <- (protover_ok f HP). split.
  - intros q Hq. rewrite (H2 q Hq). lia.
  - intros He q Hq. rewrite (H2 q Hq). f_equal.
    apply (proj2 (C23_enforced (server_config f) s tr c' Hs (protover_lt f) He ltac:(econstructor; eassumption))).
Qed.
Example C66_protocol_case1 : exists cfg sc fc c', stayrtr_main defaults = Runs cfg sc fc /\ protocol (f_protocol defaults) /\
  process (new_rtr_server cfg 7) (run (new_server 3) [[x1]]) (accept TCP (new_rtr_server cfg 7)) (ResetQuery 0) =
    Ok (c', map Queue [CacheResponse 0 7; data_pdu 0 x1; EndOfData 0 7 0 3600 600 7200]).
Proof. eexists _, _, _, _. split; [vm_compute; reflexivity|]. split; [now right|vm_compute; reflexivity]. Qed.
(** Any other value, such as 2, silently means version 0. *)
Theorem C66_protocol_refuted : forall f cfg sc fc s tr cache c p,
  stayrtr_main f = Runs cfg sc fc -> f_protocol f <> 1%Z ->
  u16 s -> reach (new_rtr_server cfg s) tr c -> c_connected c = true ->
  exists c' a, process (new_rtr_server cfg s) cache c p = Ok (c', a) /\ forall q, In (Queue q) a -> get_version q = 0.
Proof.
  intros f cfg sc fc s tr cache c p HR HP Hs Hr Hc. destruct (runs_config _ _ _ _ HR) as (-> & _ & _).
  destruct (C22_version _ s tr cache c p Hs (protover_lt f) Hr Hc) as (c' & a & E & H1 & H2).
  exists c', a. split; [exact E|]. intros q Hq. rewrite (H2 q Hq).
  cbn in H1. unfold protover_to_lib in H1. destruct (_ =? _)%Z eqn:Q; lia.
Qed.
Definition with_protocol z := mkFlags z 3600 600 7200 true true false true false false true true true 600 0 false true.
Example C66_protocol_case : exists cfg sc fc c', stayrtr_main (with_protocol 2) = Runs cfg sc fc /\
  process (new_rtr_server cfg 7) cacheA (accept TCP (new_rtr_server cfg 7)) (ResetQuery 0) =
    Ok (c', map Queue [CacheResponse 0 7; IPv4Prefix 0 1 24 64496 (pfx4 3221225984 24);
       IPv6Prefix 0 1 48 64498 (mkPrefix (A6 42540766411282592856903984951653826560) (Some 32));
       EndOfData 0 7 1 3600 600 7200]).
Proof. eexists _, _, _, _. split; vm_compute; reflexivity. Qed.

(** Intervals: End of Data carries those of the flags.  (Missing: values that are not
    intervals.) *)
Theorem C66_timers_partial : forall f cfg sc fc s tr cache c p c' a v sess n r t e,
  stayrtr_main f = Runs cfg sc fc -> interval (f_rtr_refresh f) -> interval (f_rtr_retry f) -> interval (f_rtr_expire f) ->
  u16 s -> reach (new_rtr_server cfg s) tr c -> c_connected c = true ->
  process (new_rtr_server cfg s) cache c p = Ok (c', a) -> In (Queue (EndOfData v sess n r t e)) a ->
  (Z.of_N r = f_rtr_refresh f /\ Z.of_N t = f_rtr_retry f /\ Z.of_N e = f_rtr_expire f)%Z.
Proof.
  intros f cfg sc fc s tr cache c p c' a v sess n r t e HR H1 H2 H3 Hs Hr Hc HP Hq.
  destruct (runs_config _ _ _ _ HR) as (-> & _ & _).
  destruct (C28_timers _ s tr cache c p c' a v sess n r t e Hs (protover_lt f) Hr Hc HP Hq) as (-> & -> & ->).
  cbn [cfg_refresh cfg_retry cfg_expire server_config]. rewrite !timer_flag by assumption. unfold interval in *. lia.
Qed.
(** Other values are accepted all the same: 0 becomes the default, -1 136 years. *)
Theorem C66_timers_refuted : exists f cfg sc fc c',
  stayrtr_main f = Runs cfg sc fc /\ f_rtr_refresh f = 0%Z /\ f_rtr_retry f = (-1)%Z /\ f_rtr_expire f = 4294967297%Z /\
  process (new_rtr_server cfg 7) (run (new_server 3) [[x1]]) (accept TCP (new_rtr_server cfg 7)) (ResetQuery 1) =
    Ok (c', map Queue [CacheResponse 1 107; data_pdu 1 x1; EndOfData 1 107 0 3600 4294967295 1]).
Proof.
  exists (mkFlags 1 0 (-1) 4294967297 true false false true false false true true true 600 0 false true).
  eexists _, _, _, _. split; [vm_compute; reflexivity|]. repeat (split; [reflexivity|]). vm_compute. reflexivity.
Qed.
Example C66_timers_case : exists cfg sc fc c',
  stayrtr_main (mkFlags 1 60 4294967295 1 true false false true false false true true true 600 0 false true) = Runs cfg sc fc /\
  process (new_rtr_server cfg 7) (run (new_server 3) [[x1]]) (accept TCP (new_rtr_server cfg 7)) (ResetQuery 1) =
    Ok (c', map Queue [CacheResponse 1 107; data_pdu 1 x1; EndOfData 1 107 0 60 4294967295 1]).
Proof. eexists _, _, _, _. split; vm_compute; reflexivity. Qed.

(** Router keys: none with -disable.bgpsec, except over SSH (C21_ssh_refuted). *)
Theorem C66_bgpsec_partial : forall f cfg sc fc s tr cache c p c' a q,
  stayrtr_main f = Runs cfg sc fc -> f_disable_bgpsec f = true -> tr <> SSH ->
  u16 s -> reach (new_rtr_server cfg s) tr c -> c_connected c = true ->
  process (new_rtr_server cfg s) cache c p = Ok (c', a) -> In (Queue q) a -> get_type q <> PDU_ID_ROUTER_KEY.
Proof.
  intros f cfg sc fc s tr cache c p c' a q HR HD Ht Hs Hr Hc HP Hq HT.
  destruct (runs_config _ _ _ _ HR) as (-> & _ & _).
  destruct (C21_router_keys_partial _ s tr cache c p c' a q Hs (protover_lt f) Hr Hc HP Hq HT) as (_ & _ & H).
  specialize (H Ht). cbn in H. congruence.
Qed.
Example C66_bgpsec_case : exists cfg sc fc c',
  stayrtr_main (mkFlags 1 3600 600 7200 true false true true false true true true true 600 0 false true) = Runs cfg sc fc /\
  process (new_rtr_server cfg 7) cacheA (accept TCP (new_rtr_server cfg 7)) (ResetQuery 1) =
    Ok (c', map Queue [CacheResponse 1 107; IPv4Prefix 1 1 24 64496 (pfx4 3221225984 24);
       IPv6Prefix 1 1 48 64498 (mkPrefix (A6 42540766411282592856903984951653826560) (Some 32));
       EndOfData 1 107 1 3600 600 7200]).
Proof. eexists _, _, _, _. split; vm_compute; reflexivity. Qed.

(** Notifications: none with -notifications=false; otherwise see C48. *)
Lemma quiet_update c s sds v b : sc_notify c = false -> snd (apply_update c s sds v b) = [].
Proof. intros H. unfold apply_update. destruct (add_data _ _) as [sv ch]. destruct ch; [|reflexivity]. cbn [snd]. now rewrite H. Qed.
Lemma quiet_new e c now proc s : sc_notify c = false -> snd (fst (update_from_new_state e c now proc s)) = [].
Proof.
  intros H. unfold update_from_new_state. destruct (rl_roa _); [|reflexivity]. destruct (time_check _ _ _ _); [reflexivity|].
  destruct (prepare _ _ _ _) as [[[s1 sds] v] b]. pose proof (quiet_update c s1 sds v b H) as Q.
  destruct (apply_update _ _ _ _ _) as [s2 ns]. exact Q.
Qed.
Lemma quiet_reload e c now proc s : sc_notify c = false -> snd (reload_from_current_state e c now proc s) = [].
Proof.
  intros H. unfold reload_from_current_state. destruct (rl_roa _); [|reflexivity]. destruct (time_check _ _ _ _); [reflexivity|].
  destruct (prepare _ _ _ _) as [[[s1 sds] v] b]. destruct (negb _); [now apply quiet_update|reflexivity].
Qed.
Theorem C66_notifications : forall f cfg sc fc e h i,
  stayrtr_main f = Runs cfg sc fc -> f_notifications f = false -> snd (turn e sc h i) = [].
Proof.
  intros f cfg sc fc e h i HR HN. destruct (runs_config _ _ _ _ HR) as (_ & -> & _).
  assert (H : sc_notify (daemon_config f) = false) by exact HN.
  unfold turn. destruct h as [|j h].
  - unfold first_refresh. destruct (fetch _ _ _ _) as [s2 n]. pose proof (quiet_new e _ (i_now i) (i_proc i) s2 H) as Q.
    destruct (update_from_new_state _ _ _ _ _) as [[s3 ns] er]. exact Q.
  - unfold refresh. destruct (fetch _ _ _ _) as [s2 n]. destruct n; [|now apply quiet_reload].
    pose proof (quiet_new e _ (i_now i) (i_proc i) s2 H) as Q. destruct (update_from_new_state _ _ _ _ _) as [[s3 ns] er].
    cbn [fst snd] in Q. destruct er as [[|]|]; exact Q.
Qed.
Definition quietly (b : bool) := mkFlags 1 3600 600 7200 b false false true false false true true true 600 0 true true.
Example C66_notifications_case : exists cfg sc fc cfg' sc' fc',
  stayrtr_main (quietly true) = Runs cfg sc fc /\ snd (turn env45 sc [] (at_h 1 [1])) = [0] /\
  stayrtr_main (quietly false) = Runs cfg' sc' fc' /\ snd (turn env45 sc' [] (at_h 1 [1])) = [] /\
  servedb (State.after env45 sc' [at_h 1 [1]]) idv = true.
Proof. eexists _, _, _, _, _, _. repeat (split; [vm_compute; reflexivity|]). vm_compute. reflexivity. Qed.

(** -checktime=false: files of any age are used. *)
Theorem C66_checktime : forall f cfg sc fc e h i, stayrtr_main f = Runs cfg sc fc -> f_checktime f = false -> wf_env e ->
  no_collision e (files (h ++ [i])) -> no_collision e (slurm_files sc (h ++ [i])) ->
  (h = [] \/ news e sc h i) ->
  let d := last_ok (e_decode e) empty_list (files (h ++ [i])) in
  let sl := last_ok (fun x => option_map Some (e_dslurm e x)) None (slurm_files sc (h ++ [i])) in
  rl_roa d <> None -> forall x, served (State.after e sc (h ++ [i])) x <-> content (i_proc i) sl d x.
Proof.
  intros f cfg sc fc e h i HR HC HE N1 N2 HN. cbv zeta. intros H1. apply C43_publishes_partial; auto.
  destruct (runs_config _ _ _ _ HR) as (_ & -> & _). intros H2. cbn in H2. congruence.
Qed.
(** -slurm and -slurm.refresh: which SLURM files are looked at. *)
Theorem C66_slurm : forall f cfg sc fc h, stayrtr_main f = Runs cfg sc fc ->
  slurm_files sc h = if f_slurm f then if f_slurm_refresh f then map i_slurm h else firstn 1 (map i_slurm h) else [].
Proof. intros f cfg sc fc h HR. destruct (runs_config _ _ _ _ HR) as (_ & -> & _). reflexivity. Qed.
(** With -slurm.refresh=false the SLURM file of the start is used for good, and without -slurm
    none at all: whatever the SLURM files later contain, the server's state is the same. *)
Definition same_but_slurm (i j : input) : Prop := i_got i = i_got j /\ i_now i = i_now j /\ i_proc i = i_proc j /\ i_late i = i_late j /\ i_file i = i_file j.
Theorem C66_slurm_once : forall f cfg sc fc e i j h g, stayrtr_main f = Runs cfg sc fc ->
  Forall2 same_but_slurm h g -> same_but_slurm i j ->
  (f_slurm f = true -> f_slurm_refresh f = false /\ i_slurm i = i_slurm j) ->
  State.after e sc (i :: h) = State.after e sc (j :: g).
Proof.
  intros f cfg sc fc e i j h g HR HF (H1 & H2 & H3 & H4 & H5) HS. destruct (runs_config _ _ _ _ HR) as (_ & -> & _).
  assert (E : sc_slurm (daemon_config f) && sc_slurm_refresh (daemon_config f) = false).
  { cbn. destruct (f_slurm f); [now destruct (HS eq_refl) as [-> _]|reflexivity]. }
  cbn [State.after]. replace (first_refresh e (daemon_config f) j) with (first_refresh e (daemon_config f) i).
  - generalize (fst (first_refresh e (daemon_config f) i)).
    induction HF as [|a b h g (A & B & C & D & E') HF IH]; intros s; [reflexivity|]. cbn [fold_left].
    replace (refresh e (daemon_config f) s b) with (refresh e (daemon_config f) s a); [apply IH|].
    unfold refresh, fetch. now rewrite E, B, C, D, E'.
  - unfold first_refresh, fetch. rewrite H2, H3, H5. change (sc_slurm (daemon_config f)) with (f_slurm f).
    destruct (f_slurm f); [now destruct (HS eq_refl) as [_ ->]|reflexivity].
Qed.
(** The file lists 10.0.0.0/8; the SLURM file of the second refresh filters it, which counts
    exactly with -slurm.refresh. *)
Definition slurm_flags (b : bool) := mkFlags 1 3600 600 7200 true false false true false false true true true 600 0 true b.
Definition env66 := sample_env [([1], listing 0 [rv] [])] [([9], mkSlurm [mkPF (str "10.0.0.0/8") None] [] [] [])].
Example C66_slurm_case : exists cfg sc fc cfg' sc' fc', let i := mkIn (hour 1) (Some [1]) None in let j := mkIn (hour 2) (Some [1]) (Some [9]) in
  stayrtr_main (slurm_flags false) = Runs cfg sc fc /\ servedb (State.after env66 sc [i; j]) idv = true /\
  slurm_files sc [i; j] = [None] /\
  stayrtr_main (slurm_flags true) = Runs cfg' sc' fc' /\ servedb (State.after env66 sc' [i; j]) idv = false /\
  slurm_files sc' [i; j] = [None; Some [9]].
Proof. eexists _, _, _, _, _, _. cbv zeta. repeat (split; [vm_compute; reflexivity|]). vm_compute. reflexivity. Qed.
(** -etag and -last.modified: a request names the ETag and the date of the last response with
    content exactly if the flag is set. *)
Lemma put_same {A} (m : bytes -> option A) k a : put m k a k = a.
Proof. unfold put. now rewrite (proj2 (beqb_eq k k) eq_refl). Qed.
Lemma validators c file h s : downloads c file h s -> f_etags s file = last_etag h /\ (fc_lm c = true -> f_lms s file = last_lm h).
Proof.
  induction 1 as [|h s v x s' r HD [IE IL] HA HF]; [split; reflexivity|].
  unfold last_etag, last_lm in *. rewrite !fold_left_app. cbn [fold_left ev_x ev_r fst snd]. unfold fetch_http in HF.
  destruct x as [|n t l b]; [injection HF as <- <-; auto|].
  destruct (n =? 304); [injection HF as <- <-; auto|].
  destruct (n =? 200); cbn [negb] in HF; [|injection HF as <- <-; cbn; rewrite !put_same; auto].
  destruct (etag_differs c s file t) eqn:ED.
  - injection HF as <- <-. cbn. rewrite put_same. split; [reflexivity|]. intros HL. rewrite HL. destruct b; now rewrite put_same.
  - injection HF as <- <-. unfold etag_differs in ED. split; [|exact IL].
    destruct (fc_etags c); [|discriminate]. cbn in ED. destruct (f_etags s file) as [u|].
    + destruct (beqb t []); [discriminate|]. cbn in ED. apply Bool.negb_false_iff in ED. apply beqb_eq in ED. congruence.
    + destruct t; discriminate.
Qed.
Theorem C66_conditional : forall f cfg sc fc file h s, stayrtr_main f = Runs cfg sc fc -> downloads fc file h s ->
  request_of fc s file = mkRq (if f_etag f then last_etag h else None) (if f_last_modified f then last_lm h else None).
Proof.
  intros f cfg sc fc file h s HR HD. destruct (runs_config _ _ _ _ HR) as (_ & _ & ->).
  destruct (validators _ _ _ _ HD) as [HE HL]. unfold request_of. cbn. rewrite HE. cbn in HL. destruct (f_last_modified f); [rewrite HL by reflexivity|]; reflexivity.
Qed.
Example C66_conditional_case : let f := mkFlags 1 3600 600 7200 true false false true false false true false true 600 0 false true in
  exists cfg sc fc s h, stayrtr_main f = Runs cfg sc fc /\ downloads fc (str "https://a.example/x") h s /\
  (f_etag f, f_last_modified f) = (false, true) /\ request_of fc s (str "https://a.example/x") = mkRq None (Some 8%Z) /\ last_etag h = Some [34; 34].
Proof.
  cbv zeta. do 4 eexists. exists [(mkV [1] [34; 34] (Some 8%Z), Response 200 [34; 34] (Some 8%Z) (Some [1]), Ok [1])].
  split; [vm_compute; reflexivity|]. split.
  { apply (D_step _ _ [] new_fetch (mkV [1] [34; 34] (Some 8%Z))); [constructor|apply A_full|reflexivity]. }
  repeat (split; [vm_compute; reflexivity|]). reflexivity.
Qed.
Example C66_checktime_case : exists cfg sc fc,
  stayrtr_main (mkFlags 1 3600 600 7200 true false false true false false false true true 600 0 false true) = Runs cfg sc fc /\
  servedb (State.after env45 sc [at_h 1 [1]]) idv = true /\ servedb (State.after env45 sc [at_h 1000 [1]]) idv = true /\
  servedb (State.after env45 cfgS [at_h 1000 [1]]) idv = false.
Proof. eexists _, _, _. repeat (split; [vm_compute; reflexivity|]). vm_compute. reflexivity. Qed.

(** -maxconn is never passed on: whatever its value, more clients are served, even if they
    come one by one and without SSH. *)
Fixpoint crowd (n : nat) : list label := match n with O => [] | S m => crowd m ++ [LAccept TCP; LStart m] end.
Lemma along_app srv P l1 l2 w w' : nrun srv w l1 = Ok w' -> along srv P w l1 -> along srv P w' l2 -> along srv P w (l1 ++ l2).
Proof.
  revert w. induction l1 as [|l l1 IH]; intros w R H1 H2; cbn [nrun app along] in *; [now injection R as ->|].
  destruct H1 as [H1 H3]. split; [exact H1|]. intros w1 E. rewrite E in R. cbn in R. apply IH; auto.
Qed.
Lemma crowd_run srv : s_maxconn srv = 0%Z -> forall n, exists w, nrun srv empty_net (crowd n) = Ok w /\
  along srv one_by_one empty_net (crowd n) /\ n_clients w = seq 0 n /\ length (n_conns w) = n /\
  forallb (fun k => negb (uncounted k)) (n_conns w) = true.
Proof.
  intros HM. induction n as [|n (w & R & HA & HC & HL & HF)].
  - exists empty_net. repeat split.
  - set (w1 := mkNet (n_count w) (n_clients w) (n_conns w ++ [new_conn TCP srv]) (n_notif w)).
    set (k' := k_set_phase Running (k_set_pc SCheck (k_set_flag true (new_conn TCP srv)))).
    set (w2 := client_connected (with_conn w1 n k') n).
    assert (S1 : nstep srv w (LAccept TCP) = Ok w1) by (cbn [nstep]; now rewrite HM).
    assert (E : nth_error (n_conns w1) n = Some (new_conn TCP srv)).
    { cbn [w1 n_conns]. rewrite nth_error_app2 by lia. now replace (n - length (n_conns w))%nat with 0%nat by lia. }
    assert (S2 : nstep srv w1 (LStart n) = Ok w2).
    { cbn [nstep]. rewrite E. reflexivity. }
    exists w2. split.
    { cbn [crowd]. rewrite (nrun_app _ _ _ _ _ R). cbn [nrun]. rewrite S1. cbn [bind]. rewrite S2. reflexivity. }
    split.
    { cbn [crowd]. apply (along_app _ _ _ _ _ _ R HA). cbn [along]. split; [exact HF|]. intros; split; [exact I|]. intros; exact I. }
    split; [cbn [w2 n_clients client_connected with_conn w1]; rewrite HC, seq_S; reflexivity|].
    assert (G : set_nth (n_conns w ++ [new_conn TCP srv]) n k' = n_conns w ++ [k']).
    { rewrite <- HL. generalize (n_conns w). intros l. induction l as [|x l IH]; [reflexivity|]. cbn. now rewrite IH. }
    change (n_conns w2) with (set_nth (n_conns w ++ [new_conn TCP srv]) n k'). rewrite G, app_length, forallb_app, HF. cbn. split; [lia|reflexivity].
Qed.
Theorem C66_maxconn_refuted : forall f cfg sc fc s, stayrtr_main f = Runs cfg sc fc -> (0 < f_maxconn f)%Z ->
  exists sched w, nrun (new_rtr_server cfg s) empty_net sched = Ok w /\ Forall no_ssh sched /\
    along (new_rtr_server cfg s) one_by_one empty_net sched /\ (f_maxconn f < Z.of_nat (length (n_clients w)))%Z.
Proof.
  intros f cfg sc fc s HR HM. destruct (runs_config _ _ _ _ HR) as (-> & _ & _).
  destruct (crowd_run (new_rtr_server (server_config f) s) eq_refl (S (Z.to_nat (f_maxconn f)))) as (w & R & HA & HC & _).
  exists (crowd (S (Z.to_nat (f_maxconn f)))), w. split; [exact R|]. split; [|split; [exact HA|rewrite HC, seq_length; lia]].
  generalize (S (Z.to_nat (f_maxconn f))). intros n. induction n as [|n IH]; cbn [crowd]; [constructor|].
  apply Forall_app. split; [exact IH|]. repeat constructor; discriminate.
Qed.
Example C66_maxconn_case : exists cfg sc fc,
  stayrtr_main (mkFlags 1 3600 600 7200 true false false true false false true true true 600 1 false true) = Runs cfg sc fc /\
  n_clients (ConcProps.after (new_rtr_server cfg 7) (crowd 3)) = [0; 1; 2]%nat.
Proof. eexists _, _, _. split; vm_compute; reflexivity. Qed.

(** -enable.nodelay ("Force enable TCP NODELAY"): the flag changes nothing on any transport,
    a plain TCP connection never has the option, a TLS or SSH connection always. *)
Theorem C66_nodelay_refuted : (forall t, socket_nodelay true t = socket_nodelay false t) /\
  socket_nodelay true TCP = false /\ (forall flag t, t <> TCP -> socket_nodelay flag t = true).
Proof. split; [reflexivity|]. split; [reflexivity|]. intros flag [| |] H; [now destruct H|reflexivity..]. Qed.
Example C66_nodelay_case : socket_nodelay true TLS = true /\ socket_nodelay false TLS = true /\ TLS <> TCP.
Proof. repeat split. discriminate. Qed.

(** The process starts exactly with an address to listen on and an interval between
    refreshes that a ticker accepts; otherwise it exits, or crashes. *)
Theorem C66_boot : forall f, (0 <= f_refresh f <= 9223372036)%Z ->
  ((exists cfg sc fc, stayrtr_main f = Runs cfg sc fc) <->
     (f_bind f = true \/ f_bind_tls f = true \/ f_bind_ssh f = true) /\ f_refresh f <> 0%Z) /\
  (stayrtr_main f = Crashes <-> (f_bind f = true \/ f_bind_tls f = true \/ f_bind_ssh f = true) /\ f_refresh f = 0%Z).
Proof.
  intros f H. unfold stayrtr_main, iwrap. change (2 ^ (64 - 1))%Z with 9223372036854775808%Z. change (2 ^ 64)%Z with 18446744073709551616%Z.
  rewrite Z.mod_small by lia.
  set (b := (f_bind f || f_bind_tls f || f_bind_ssh f)).
  assert (HB : b = true <-> (f_bind f = true \/ f_bind_tls f = true \/ f_bind_ssh f = true))
    by (unfold b; rewrite !Bool.orb_true_iff; tauto).
  rewrite <- HB. clear HB. clearbody b. destruct b; cbn [negb].
  - destruct (_ <=? 0)%Z eqn:E.
    + split; split; [intros (a & b & c & X); discriminate X|intros [_ X]; lia|intros _; split; [reflexivity|lia]|reflexivity].
    + split; split; [intros _; split; [reflexivity|lia]|intros _; eauto|discriminate|intros [_ X]; lia].
  - split; split; [intros (a & b & c & X); discriminate X|intros [X _]; discriminate X|discriminate|intros [X _]; discriminate X].
Qed.
Example C66_boot_case : (exists cfg sc fc, stayrtr_main defaults = Runs cfg sc fc) /\
  stayrtr_main (mkFlags 1 3600 600 7200 true false false true false false true true true 0 0 false true) = Crashes /\
  stayrtr_main (mkFlags 1 3600 600 7200 true false false false false false true true true 600 0 false true) = Exits /\
  (* an interval beyond 292 years *)
  stayrtr_main (mkFlags 1 3600 600 7200 true false false true false false true true true 9223372037 0 false true) = Crashes.
Proof. split; [eexists _, _, _|]; repeat split; vm_compute; reflexivity. Qed.

(** C71 rtrdump connects to the right server with the right credential: exactly the servers
    the flags allow are accepted, with the user and credential they name; an unknown method
    ends the program. *)
Lemma method_cases f : match auth_to_id (cf_method f) with
  | Some MNone => cf_method f = str "none"
  | Some MPassword => cf_method f = str "password"
  | Some MKey => cf_method f = str "key"
  | None => ~ known_method f
  end.
Proof.
  unfold auth_to_id, known_method. destruct (beqb _ (str "none")) eqn:E1; [now apply beqb_eq|].
  destruct (beqb _ (str "password")) eqn:E2; [now apply beqb_eq|]. destruct (beqb _ (str "key")) eqn:E3; [now apply beqb_eq|].
  intros [H|[H|H]]; rewrite H in E1, E2, E3; discriminate.
Qed.
Theorem C71_dump : forall f valid fingerprint,
  match rtrdump_dial f with
  | Some d => known_method f /\
      (tls_accepts d valid = true <-> fst (right_server f valid fingerprint)) /\
      (ssh_accepts d fingerprint = true <-> snd (right_server f valid fingerprint)) /\
      dl_user d = cf_user f /\ credential f (dl_cred d)
  | None => ~ known_method f
  end.
Proof.
  intros f valid fp. unfold rtrdump_dial. pose proof (method_cases f) as HM.
  destruct (auth_to_id (cf_method f)) as [m|]; [|exact HM].
  split; [unfold known_method; destruct m; rewrite HM; tauto|]. split; [|split; [|split]].
  - unfold tls_accepts, right_server. cbn. destruct (cf_tls_validate f), valid; cbn; intuition congruence.
  - unfold ssh_accepts, right_server. cbn. destruct (cf_ssh_validate f); [rewrite beqb_eq|]; unfold sha256_text; intuition congruence.
  - reflexivity.
  - unfold credential, key_bytes. cbn. destruct m; rewrite HM.
    + left. auto.
    + right; left. split; [reflexivity|]. destruct (beqb (cf_password f) []) eqn:E.
      * right. apply beqb_eq in E. auto.
      * left. split; [|reflexivity]. intros X. rewrite X in E. discriminate E.
    + right; right. split; [reflexivity|]. destruct (beqb (cf_key f) []) eqn:E.
      * right. apply beqb_eq in E. auto.
      * left. split; [|reflexivity]. intros X. rewrite X in E. discriminate E.
Qed.
(** With no password given for method "password": the environment's. *)
Definition cf71 := mkCF true true (str "AbC") (str "password") (str "rpki") [] (str "secret") (str "id_rsa") (str "KEY") [].
Example C71_case : exists d, rtrdump_dial cf71 = Some d /\ dl_cred d = Password (str "secret") /\
  ssh_accepts d (str "SHA256:AbC") = true /\ ssh_accepts d (str "SHA256:abC") = false /\
  tls_accepts d false = false /\ tls_accepts d true = true.
Proof. eexists. split; [vm_compute; reflexivity|]. repeat split. Qed.
(** ... over the transport named by -type; any other name is an error. *)
Theorem C71_type : forall s, (forall t, dump_transport s = Some t <->
  (t = TCP /\ s = str "plain") \/ (t = TLS /\ s = str "tls") \/ (t = SSH /\ s = str "ssh")).
Proof.
  intros s t. unfold dump_transport.
  destruct (beqb s (str "plain")) eqn:E1; [apply beqb_eq in E1; subst|].
  { split; [intros [= <-]; auto|]. intros [[-> _]|[[_ H]|[_ H]]]; [reflexivity|discriminate H|discriminate H]. }
  destruct (beqb s (str "tls")) eqn:E2; [apply beqb_eq in E2; subst|].
  { split; [intros [= <-]; auto|]. intros [[_ H]|[[-> _]|[_ H]]]; [discriminate H|reflexivity|discriminate H]. }
  destruct (beqb s (str "ssh")) eqn:E3; [apply beqb_eq in E3; subst|].
  { split; [intros [= <-]; auto|]. intros [[_ H]|[[_ H]|[-> _]]]; [discriminate H|discriminate H|reflexivity]. }
  split; [discriminate|]. intros [[_ H]|[[_ H]|[_ H]]]; subst; discriminate.
Qed.
Example C71_type_case : dump_transport (str "tls") = Some TLS /\ dump_transport (str "tcp") = None.
Proof. split; reflexivity. Qed.

(** C70 rtrmon connects to the right server: refuted.  The validation flags are never
    looked at: every server is accepted, whatever the flags. *)
Theorem C70_validate_refuted : forall f c valid fingerprint,
  primary_client f = Some c \/ secondary_client f = Some c ->
  tls_accepts (mclient_dial c) valid = true /\ ssh_accepts (mclient_dial c) fingerprint = true.
Proof.
  intros f c valid fp [H|H]; unfold primary_client, secondary_client in H; destruct (auth_to_id _); try discriminate H;
    injection H as <-; split; reflexivity.
Qed.
Example C70_validate_case : exists c, primary_client cf71 = Some c /\
  ~ fst (right_server cf71 false (str "SHA256:abC")) /\ ~ snd (right_server cf71 false (str "SHA256:abC")).
Proof.
  eexists. split; [vm_compute; reflexivity|]. split; cbn; intros H; specialize (H eq_refl); discriminate H.
Qed.
(** The secondary ignores the environment's password when the one given is blank. *)
Theorem C70_secondary_refuted : exists f c, secondary_client f = Some c /\ ~ credential f (dl_cred (mclient_dial c)).
Proof.
  exists cf71. eexists. split; [vm_compute; reflexivity|].
  intros [[H _]|[[_ [[H _]|[_ H]]]|[H _]]]; try (vm_compute in H; discriminate H). now contradiction H.
Qed.
(** What holds: user and credential of the primary; of the secondary with methods other than
    "password" or with a password given. *)
Theorem C70_primary : forall f, match primary_client f with
  | Some c => known_method f /\ dl_user (mclient_dial c) = cf_user f /\ credential f (dl_cred (mclient_dial c))
  | None => ~ known_method f
  end.
Proof.
  intros f. unfold primary_client. pose proof (method_cases f) as HM.
  destruct (auth_to_id (cf_method f)) as [m|]; [|exact HM].
  split; [unfold known_method; destruct m; rewrite HM; tauto|]. split; [reflexivity|].
  unfold credential, key_bytes. cbn. destruct m; rewrite HM; cbn.
  - left. auto.
  - right; left. split; [reflexivity|]. destruct (beqb (cf_password f) []) eqn:E.
    + right. apply beqb_eq in E. auto.
    + left. split; [|reflexivity]. intros X. rewrite X in E. discriminate E.
  - right; right. split; [reflexivity|]. destruct (beqb (cf_key f) []) eqn:E.
    + right. apply beqb_eq in E. auto.
    + left. split; [|reflexivity]. intros X. rewrite X in E. discriminate E.
Qed.
Example C70_primary_case : exists c, primary_client cf71 = Some c /\ dl_user (mclient_dial c) = str "rpki" /\
  dl_cred (mclient_dial c) = Password (str "secret") /\
  primary_client (mkCF true true (str "AbC") (str "Password") (str "rpki") [] [] [] [] []) = None.
Proof. eexists. split; [vm_compute; reflexivity|]. repeat split. Qed.
Theorem C70_secondary_partial : forall f, cf_password f <> [] \/ cf_method f <> str "password" ->
  match secondary_client f with
  | Some c => known_method f /\ dl_user (mclient_dial c) = cf_user f /\ credential f (dl_cred (mclient_dial c))
  | None => ~ known_method f
  end.
Proof.
  intros f HP. unfold secondary_client. pose proof (method_cases f) as HM.
  destruct (auth_to_id (cf_method f)) as [m|]; [|exact HM].
  split; [unfold known_method; destruct m; rewrite HM; tauto|]. split; [reflexivity|].
  unfold credential, key_bytes. cbn. destruct m; rewrite HM; cbn.
  - left. auto.
  - right; left. split; [reflexivity|]. left. split; [|reflexivity]. destruct HP as [HP|HP]; [exact HP|now contradiction HP].
  - right; right. split; [reflexivity|]. destruct (beqb (cf_key f) []) eqn:E.
    + right. apply beqb_eq in E. auto.
    + left. split; [|reflexivity]. intros X. rewrite X in E. discriminate E.
Qed.
Example C70_case : option_map (fun c => dl_cred (mclient_dial c)) (primary_client cf71) = Some (Password (str "secret")) /\
  option_map (fun c => dl_cred (mclient_dial c)) (secondary_client cf71) = Some (Password []) /\
  option_map (fun c => dl_cred (mclient_dial c))
    (secondary_client (mkCF true true (str "AbC") (str "key") (str "rpki") [] (str "secret") (str "id_rsa") (str "KEY") [])) = Some (Key (str "KEY")).
Proof. repeat split. Qed.

Print Assumptions C66_protocol_partial.
Print Assumptions C66_protocol_refuted.
Print Assumptions C66_timers_partial.
Print Assumptions C66_timers_refuted.
Print Assumptions C66_bgpsec_partial.
Print Assumptions C66_notifications.
Print Assumptions C66_checktime.
Print Assumptions C66_slurm_once.
Print Assumptions C66_slurm.
Print Assumptions C66_conditional.
Print Assumptions C66_maxconn_refuted.
Print Assumptions C66_nodelay_refuted.
Print Assumptions C66_boot.
Print Assumptions C71_dump.
Print Assumptions C71_type.
Print Assumptions C70_validate_refuted.
Print Assumptions C70_secondary_refuted.
Print Assumptions C70_primary.
Print Assumptions C70_secondary_partial.
