(** Property C79: chained servers. *)
From Coq Require Import String ZifyBool ZifyNat ZifyN.
From Verif Require Import Lib.Str Model.Chain Model.Conn Spec.Chain Spec.Sets Spec.History Spec.Response Proofs.DataP Proofs.CacheP
  Proofs.JsonP Proofs.StateP Proofs.ChainP Props.CacheProps Props.ConnProps Props.ClientProps Props.InputProps Props.StateProps.
Local Open Scope string_scope.
Local Open Scope list_scope.
Local Open Scope N_scope.

Lemma vrp_ids_in l x : In x (vrp_ids l) <-> In x (ids l) /\ match x with RV _ _ _ => True | _ => False end.
Proof.
  unfold vrp_ids, ids. rewrite in_flat_map, in_map_iff. split.
  - intros ([p a m f|a s k f] & H & HX); [destruct HX as [<-|[]]|destruct HX]. split; [|exact I]. now exists (VRP p a m f).
  - intros ((d & <- & H) & HX). exists d. split; [exact H|]. destruct d; [now left|destruct HX].
Qed.
Lemma key_ids_in w off l x : In x (key_ids w off l) <-> In x (ids l) /\
  match x with RV _ _ _ => False | RK _ s _ => w <> 0 /\ off = false /\ nlen s = 20 end.
Proof.
  unfold key_ids, ids. rewrite in_flat_map, in_map_iff. split.
  - intros ([p a m f|a s k f] & H & HX); [destruct HX|]. cbn [may_send] in HX.
    destruct (negb (w =? 0) && negb off && (nlen s =? 20)) eqn:E; [|destruct HX]. destruct HX as [<-|[]].
    split; [now exists (BgpsecKey a s k f)|]. destruct off; [rewrite andb_false_r in E; discriminate E|]. lia.
  - intros ((d & <- & H) & HX). exists d. split; [exact H|]. destruct d as [p a m f|a s k f]; [destruct HX|].
    cbn [rid_of may_send] in *. destruct HX as (H1 & -> & H2).
    replace (negb (w =? 0) && negb false && (nlen s =? 20)) with true by lia. now left.
Qed.

(** C79 Chained servers.  A second server that is given the file rtrdump wrote from the first,
    and does not check its age, serves exactly the records of the first that RTR carries: all
    VRPs, and the router keys if the session has version 1, they are not switched off and their
    identifier has 20 bytes.
    (Missing: a second server with -checktime, see below; the hypotheses of
    [C57_dump_partial].) *)
Theorem C79_dump_partial : forall e c h cfg s tr f v,
  wf_env e -> u16 s -> cfg_version cfg < 256 ->
  cfg_refresh cfg < 2 ^ 32 -> cfg_retry cfg < 2 ^ 32 -> cfg_expire cfg < 2 ^ 32 ->
  let srv := new_rtr_server cfg s in
  let A := State.after e c h in
  (exists x, served A x) -> Forall key_fits (get_current_sds (st_server A)) ->
  f_serial f = false -> dump_version f = Some v -> acceptable (accept tr srv) v ->
  exists q c' a b d,
    encode (dump_query f v) = Ok q /\
    on_read srv (st_server A) (accept tr srv) q = Ok (c', a, false) /\
    encode_all (queued a) = Ok b /\
    forall rest, bytes_ok rest ->
    dump_main v (b ++ rest) = Some d /\
    forall e2 c2 now y sp bsp, wf_env e2 -> sc_check c2 = false -> sc_slurm c2 = false ->
    e_decode e2 y = Some (dump_list sp bsp d) ->
    forall x, served (second_server e2 c2 now y) x <->
              served A x /\ carried (negotiated srv v) (keys_off tr cfg) x.
Proof.
  intros e c h cfg s tr f v HE Hs Hc H1 H2 H3 srv A [x0 HX] HF Hfs Hfv HA. subst A.
  destruct (after_run e c h HE) as (H & HW & HR). rewrite HR in *.
  assert (HN : get_current_sds (run (new_server 3) H) <> []).
  { intros E. unfold served in HX. rewrite HR, E in HX. exact HX. }
  destruct (C57_dump_partial cfg s tr 3 H f v Hs Hc H1 H2 H3 HW HN HF Hfs Hfv HA) as (q & c' & a & b & d & D1 & D2 & D3 & D3' & D4).
  exists q, c', a, b, d. split; [exact D1|]. split; [exact D2|]. split; [exact D3|]. intros rest HRest.
  destruct (D4 rest HRest) as (E1 & _ & _ & _ & E2 & E3). split; [exact E1|].
  intros e2 c2 now y sp bsp HE2 HC2 HS2 HD x.
  assert (HB : bytes_ok (b ++ rest)).
  { apply Forall_app. split; assumption. }
  destruct (dump_no_expiry v (b ++ rest) d HB E1) as [X1 X2].
  assert (HSF : slurm_files c2 ([] ++ [mkIn now (Some y) None]) = []) by (unfold slurm_files; now rewrite HS2).
  pose proof (C43_publishes_partial e2 c2 [] (mkIn now (Some y) None) HE2) as HP. cbv zeta in HP. rewrite HSF in HP.
  cbn [app files map mkIn i_file i_now i_proc last_ok] in HP. rewrite HD in HP.
  unfold second_server. rewrite HP; clear HP.
  - cbn [content dump_list roa_of rl_roa rl_brk].
    rewrite (listed_clean _ _ _ _ _ E2 E3); try assumption.
    + rewrite vrp_ids_in, key_ids_in. unfold served, carried. rewrite HR. destruct x; tauto.
    + intros z Hz. apply vrp_ids_in in Hz as [Hz _]. apply (after_sane e c h z HE). unfold served. now rewrite HR.
  - intros u w [[= <-]|[]] [[= <-]|[]] _. reflexivity.
  - intros u w [].
  - now left.
  - cbn. discriminate.
  - intros E. rewrite HC2 in E. discriminate E.
Qed.
(** A server whose data holds VRPs of both families and two router keys, of which RTR carries
    one; its dump; a second server without -checktime. *)
Definition srvC : rtrserver := new_rtr_server cfg1 7.
Definition key20 : brkjson := mkBJ 9 None [] [1; 2; 3; 4] (str "000102030405060708090a0b0c0d0e0f10111213").
Definition envC := sample_env [([1], listing 0 [rv; ej "2001:db8::/32" 48 "3" None] [rk; key20])] [].
Definition stC : state := State.after envC cfgN [at_h 1 [1]].
Definition dumpC : option dump :=
  match process srvC (st_server stC) (accept TCP srvC) (dump_query (mkDF false 0 0 1) 1) with
  | Ok (_, a) => match encode_all (queued a) with Ok b => dump_main 1 b | _ => None end
  | _ => None
  end.
Definition envD (d : dump) := sample_env [([5], dump_list 4 4 d)] [].
Definition checking : scfg := mkSC true true false false.
Example C79_dump_case : exists d, dumpC = Some d /\ wf_env envC /\ wf_env (envD d) /\
  Forall key_fits (get_current_sds (st_server stC)) /\ length (get_current_sds (st_server stC)) = 4%nat /\
  ids (get_current_sds (st_server (second_server (envD d) cfgN (hour 50) [5]))) =
  [RV (mkPrefix (A6 (0x20010db8 * 2 ^ 96)) (Some 32)) 3 48; RV (pfx4 167772160 8) 1 8; RK 9 (map N.of_nat (seq 0 20)) [1; 2; 3; 4]].
Proof.
  eexists. split; [vm_compute; reflexivity|]. split; [wf_sample|]. split; [wf_sample|].
  split; [vm_compute; repeat constructor; discriminate|]. split; vm_compute; reflexivity.
Qed.

(** With -checktime, the default, it serves nothing, whatever was dumped and whenever: the file
    of rtrdump carries no time. *)
Theorem C79_dump_refuted : forall e2 c2 now y sp bsp d, wf_env e2 -> sc_check c2 = true -> e_ptime e2 [] = None ->
  e_decode e2 y = Some (dump_list sp bsp d) -> forall x, ~ served (second_server e2 c2 now y) x.
Proof.
  intros e2 c2 now y sp bsp d HE HC HT HD x. unfold second_server, State.after, first_refresh. cbn [fold_left].
  assert (HF : forall s1, st_hcache s1 = None -> let s2 := fst (update_file e2 (Some y) s1) in
    st_data s2 = dump_list sp bsp d /\ st_server s2 = st_server s1).
  { intros s1 H. unfold update_file. rewrite H, HD. split; reflexivity. }
  unfold fetch. cbn [mkIn i_file i_slurm].
  assert (HS : (if sc_slurm c2 then update_slurm e2 None init_state else (init_state, false)) = (init_state, false)) by now destruct (sc_slurm c2).
  rewrite HS. destruct (HF init_state eq_refl) as [F1 F2].
  destruct (update_file e2 (Some y) init_state) as [s2 u]. cbn [fst] in F1, F2.
  unfold update_from_new_state. rewrite F1. cbn [dump_list rl_roa]. unfold time_check, build_time. rewrite HC. cbn [dump_list rl_gen rl_build].
  rewrite HT. cbn [fst]. unfold served. rewrite F2. intros [].
Qed.
Example C79_dump_refuted_case : exists d, dumpC = Some d /\ wf_env (envD d) /\ sc_check checking = true /\ e_ptime (envD d) [] = None /\
  e_decode (envD d) [5] = Some (dump_list 4 4 d) /\ length (d_roas d) = 2%nat /\ (exists x, served stC x).
Proof.
  eexists. split; [vm_compute; reflexivity|]. split; [wf_sample|]. repeat (split; [reflexivity|]).
  exists idv. apply servedb_ok. vm_compute. reflexivity.
Qed.

(** A second server that is given the exported document of one that has records, recent enough
    for its -checktime: it serves only records of the first, and all of them as long as no entry
    expires between the last change of the first and the start of the second.
    (Missing: files that carry "generated" and no "buildtime", see below; a SLURM file that is
    refreshed when the decoder leaves room, see [C49_alias_refuted]; nothing is claimed about the
    export of a server that dropped its data.) *)
Theorem C79_export_partial : forall e c h, wf_env e -> sc_slurm_refresh c = false \/ no_spare e ->
  let A := State.after e c h in
  (exists x, served A x) ->
  exists h1 i h2, last_change e c h h1 i h2 /\
  forall e2 c2 now y sp bsp, wf_env e2 -> sc_slurm c2 = false -> (i_proc i <= now)%Z ->
  e_decode e2 y = Some (export_list sp bsp A) -> recent e2 c2 now (export_list sp bsp A) ->
  (forall x, served (second_server e2 c2 now y) x -> served A x) /\
  (none_expires (i_proc i) now (exported_roa A) (exported_brk A) ->
   forall x, served (second_server e2 c2 now y) x <-> served A x).
Proof.
  intros e c h HE HS A [x0 HX].
  destruct (C49_export_partial e c h HE HS) as [(H & _)|[(h1 & i & h2 & HL & HI)|(_ & H)]];
    [now apply H in HX| |now apply H in HX]. fold A in HI.
  exists h1, i, h2. split; [exact HL|]. intros e2 c2 now y sp bsp HE2 HS2 HT HD HR.
  assert (HB : forall x, served (second_server e2 c2 now y) x <-> listed (now / 1000000000) (exported_roa A) (exported_brk A) x).
  { intros x.
    assert (HSF : slurm_files c2 ([] ++ [mkIn now (Some y) None]) = []) by (unfold slurm_files; now rewrite HS2).
    pose proof (C43_publishes_partial e2 c2 [] (mkIn now (Some y) None) HE2) as HP. cbv zeta in HP. rewrite HSF in HP.
    cbn [app files map mkIn i_file i_now i_proc last_ok] in HP. rewrite HD in HP. unfold second_server. rewrite HP; clear HP.
    - cbn [content export_list roa_of rl_roa rl_brk i_now]. apply listed_again. now apply exported_wf.
    - intros u w [[= <-]|[]] [[= <-]|[]] _. reflexivity.
    - intros u w [].
    - now left.
    - cbn. discriminate.
    - exact HR. }
  assert (HQ : (i_proc i / second <= now / 1000000000)%Z) by (unfold second; apply Z.div_le_mono; lia).
  split.
  - intros x Hx. apply HB in Hx. apply HI. now apply (listed_mono _ _ _ _ _ HQ).
  - intros [N1 N2] x. split; intros Hx.
    + apply HB in Hx. apply HI. now apply (listed_mono _ _ _ _ _ HQ).
    + apply HB. apply HI in Hx. destruct Hx as [(v & p & a & Hv & (G1 & G2 & G3 & G4) & ->)|(b & ski & Hb & G1 & G2 & ->)].
      * left. exists v, p, a. split; [exact Hv|]. split; [|reflexivity]. repeat split; try assumption. now apply N1.
      * right. exists b, ski. split; [exact Hb|]. split; [now apply N2|]. auto.
Qed.
Definition envE (s : state) := sample_env [([6], export_list 4 4 s)] [].
(** A SLURM file removes one of two VRPs and adds another; the second server checks the time. *)
Definition envX := sample_env [([1], listing 3 [rv; rw] [rk])]
  [([9], mkSlurm [mkPF (str "10.1.0.0/16") None] [] [mkPA (str "10.9.0.0/16") 5 24 []] [])].
Definition stX : state := State.after envX cfgF [mkIn (hour 4) (Some [1]) (Some [9]); at_h 5 [1]].
Example C79_export_case : wf_env envX /\ wf_env (envE stX) /\ (exists x, served stX x) /\
  recent (envE stX) checking (hour 20) (export_list 4 4 stX) /\
  none_expires (hour 4) (hour 20) (exported_roa stX) (exported_brk stX) /\
  ids (get_current_sds (st_server (second_server (envE stX) checking (hour 20) [6]))) = ids (get_current_sds (st_server stX)) /\
  length (get_current_sds (st_server stX)) = 3%nat.
Proof.
  split; [wf_sample|]. split; [wf_sample|]. split; [exists idv; apply servedb_ok; vm_compute; reflexivity|].
  split; [intros _; exists (hour 3); split; [vm_compute; reflexivity|vm_compute; discriminate]|].
  split; [split; vm_compute; intros z HZ; repeat (destruct HZ as [<-|HZ]; [auto|]); destruct HZ|]. split; vm_compute; reflexivity.
Qed.

(** A file with "generated" and no "buildtime": the first server serves it, the export carries
    no time, and a second server with the same flags serves nothing. *)
Theorem C79_generated_refuted : exists e c h e2 now y x, wf_env e /\ wf_env e2 /\ sc_slurm c = false /\
  served (State.after e c h) x /\ (forall i, In i h -> (i_proc i <= now)%Z /\ (now <= i_got i + hour 1)%Z) /\
  e_decode e2 y = Some (export_list 0 0 (State.after e c h)) /\
  forall z, ~ served (second_server e2 c now y) z.
Proof.
  set (e := sample_env [([1], mkRL [] (Some 7200%Z) (Some [rv]) 0 [] 0)] []).
  exists e, checking, [at_h 3 [1]], (sample_env [([6], export_list 0 0 (State.after e checking [at_h 3 [1]]))] []), (hour 4), [6], idv.
  split; [wf_sample|]. split; [wf_sample|]. split; [reflexivity|]. split; [apply servedb_ok; vm_compute; reflexivity|].
  split; [intros i [<-|[]]; vm_compute; split; discriminate|]. split; [vm_compute; reflexivity|].
  intros z. unfold served. assert (E : get_current_sds (st_server (second_server (sample_env [([6], export_list 0 0 (State.after e checking [at_h 3 [1]]))] []) checking (hour 4) [6])) = []) by (vm_compute; reflexivity).
  rewrite E. intros [].
Qed.

Print Assumptions C79_dump_partial.
Print Assumptions C79_dump_refuted.
Print Assumptions C79_export_partial.
Print Assumptions C79_generated_refuted.
