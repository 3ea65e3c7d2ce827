(** Property C124: rtrmon compares a daemon with the list that daemon exports. *)
From Coq Require Import ZArith String ZifyBool ZifyNat ZifyN.
From Verif Require Import Lib.Str Model.Chain Spec.Refresh Spec.Monitor Spec.Agree Spec.SelfCheck
  Proofs.DataP Proofs.CacheP Proofs.StateP Proofs.MonitorP Proofs.MonitorP2 Proofs.AgreeP Proofs.ChainP Proofs.SelfCheckP
  Props.CacheProps Props.ConnProps Props.InputProps Props.StateProps Props.MonitorProps Props.GaugeProps.
From Coq Require Import List.
Import ListNotations.
Local Open Scope string_scope.
Local Open Scope list_scope.
Local Open Scope N_scope.

(** What the client of the daemon shows when it has the latest serial. *)
Lemma on_watch_shown e c cfg s tr h cl m : wf_env e -> nlen h < 4294967296 ->
  u16 s -> cfg_version cfg < 256 -> acceptable (accept tr (new_rtr_server cfg s)) 1 ->
  on_watch e c cfg s tr h cl m -> mo_serial m = serial_of (State.after e c h) ->
  minv (mo_vrps m) /\ forall o, shown (mo_vrps m) o <->
    exists x, served (State.after e c h) x /\ may_hold (negotiated (new_rtr_server cfg s) 1) (keys_off tr cfg) x /\ rid_obj x = o.
Proof.
  intros HE HL Hs Hb HA HW HM. destruct (on_watch_watched e c cfg s tr h cl m HE HW) as (hs & H1 & H2 & H3).
  assert (HL' : nlen hs < 4294967296) by (unfold nlen in *; lia).
  destruct (C55_watch_partial cfg s tr 3 hs cl m Hs Hb HA HL' H3) as (_ & _ & _ & _ & _ & HX). rewrite H2 in HX. specialize (HX HM).
  destruct (watched_winv cfg s tr 3 hs cl m Hs Hb HA HL' H3) as (_ & _ & _ & _ & _ & _ & W7 & h1 & h2 & _ & _ & _ & _ & F4).
  split; [rewrite W7; apply F4|]. intros o. rewrite (HX o). unfold told, as_set, served. split.
  - intros (x & (X1 & X2) & X3). exists x. auto.
  - intros (x & X1 & X2 & X3). exists x. auto.
Qed.

(** C124 A server differs from its own export in nothing.  rtrmon watches the RTR port of the daemon,
    through any refreshes, and has the latest serial; its other source read the exported list
    (the text of which is read back as [export_list]: C90_export_text).  Exactly: on the side of the
    list the report has the objects it lists and does not offer to a client of that version at
    the time it was loaded, on the side of the server those it offers and does not list in that form. *)
Theorem C124_exact_partial : forall e c h cfg s tr cl m sp bsp grace g thresholds started clk,
  wf_env e -> sc_slurm_refresh c = false \/ no_spare e -> nlen h < 4294967296 ->
  u16 s -> cfg_version cfg < 256 -> acceptable (accept tr (new_rtr_server cfg s)) 1 ->
  on_watch e c cfg s tr h cl m -> mo_serial m = serial_of (State.after e c h) ->
  let X := export_list sp bsp (State.after e c h) in
  Forall (fun x => plain_file (snd x)) g -> shows g = Some (roa_of X, rl_brk X) ->
  exists h1 i h2, last_change e c h h1 i h2 /\
  let off := offered (i_proc i / 1000000000) (roa_of X) (rl_brk X) (negotiated (new_rtr_server cfg s) 1) (keys_off tr cfg) in
  let r := compare thresholds started clk (Spec.Monitor.after grace g) (mo_vrps m) in
  (forall o, (exists e, has (r_only1 r) o e) <-> In o (file_objs (roa_of X) (rl_brk X)) /\ ~ off o) /\
  (forall o, (exists e, has (r_only2 r) o e) <-> off o /\ ~ In o (file_objs (roa_of X) (rl_brk X))) /\
  number (r_diff1 r) (fun o => In o (file_objs (roa_of X) (rl_brk X)) /\ ~ off o) /\
  number (r_diff2 r) (fun o => off o /\ ~ In o (file_objs (roa_of X) (rl_brk X))) /\
  (r_diff1 r = 0 /\ r_diff2 r = 0 <-> forall o, In o (file_objs (roa_of X) (rl_brk X)) <-> off o).
Proof.
  intros e c h cfg s tr cl m sp bsp grace g thresholds started clk HE HST HL Hs Hb HA HW HM X HP HH.
  destruct (on_watch_shown e c cfg s tr h cl m HE HL Hs Hb HA HW HM) as [M2 S2].
  pose proof (on_watch_served e c cfg s tr h cl m HW) as HN.
  destruct (C49_export_partial e c h HE HST) as [(NO & _)|[(h1 & i & h2 & LC & EX)|(_ & NO)]].
  1, 3: exfalso; destruct (get_current_sds (st_server (State.after e c h))) as [|d l] eqn:EC; [now apply HN|];
    apply (NO (rid_of d)); unfold served; rewrite EC; now left.
  exists h1, i, h2. split; [exact LC|]. intros off r.
  assert (S3 : forall o, shown (mo_vrps m) o <-> off o).
  { intros o. rewrite (S2 o). unfold off, offered, X. cbn [export_list roa_of rl_roa rl_brk].
    split; intros (x & X1 & X2 & X3); exists x; (split; [|auto]).
    - apply (listed_again _ (exported_roa (State.after e c h))); [now apply exported_wf|]. apply EX. exact X1.
    - apply EX. apply (listed_again _ (exported_roa (State.after e c h))); [now apply exported_wf|exact X1]. }
  assert (M1 : minv (Spec.Monitor.after grace g)) by exact (proj1 (MonitorP.history grace g HP)).
  pose proof (shows_map grace g _ _ HP HH) as S1.
  destruct (compare_sides thresholds started clk _ _ _ _ M1 M2 S1 S3) as (C1 & C2 & N1 & N2). fold r in C1, C2, N1, N2.
  split; [exact C1|]. split; [exact C2|]. split; [exact N1|]. split; [exact N2|]. split.
  - intros (E1 & E2) o. rewrite E1 in N1. rewrite E2 in N2. rewrite number_none in N1, N2. split; intros H.
    + pose proof (file_objs_proper _ _ o (shows_plain g _ _ HP HH) H) as PO. apply S3. apply shown_gget; [exact M2|exact PO|].
      assert (NX : ~ ~ shown (mo_vrps m) o) by (intros Z; apply (N1 o); split; [exact H|intros Y; apply Z, S3, Y]).
      rewrite (shown_gget _ _ M2 PO) in NX. destruct (gget (okey o) (mo_vrps m)) as [en|]; [destruct (m_visible en); [reflexivity|exfalso; apply NX; discriminate]|exact (NX (fun x => x))].
    + destruct (in_dec obj_dec o (file_objs (roa_of X) (rl_brk X))) as [Z|Z]; [exact Z|exfalso; exact (N2 o (conj H Z))].
  - intros H. split; (eapply number_unique; [eassumption|]); apply number_none; intros o (Z & Y); apply Y, H, Z.
Qed.
(** In particular nothing is reported when all exported entries were acceptable and not expired at
    the refresh that last changed what is served, identifiers are in small letters, and the client may
    have router keys if there are any. *)
Theorem C124_agree_partial : forall e c h cfg s tr cl m sp bsp grace g thresholds started clk,
  wf_env e -> sc_slurm_refresh c = false \/ no_spare e -> nlen h < 4294967296 ->
  u16 s -> cfg_version cfg < 256 -> acceptable (accept tr (new_rtr_server cfg s)) 1 ->
  on_watch e c cfg s tr h cl m -> mo_serial m = serial_of (State.after e c h) ->
  let X := export_list sp bsp (State.after e c h) in
  Forall (fun x => plain_file (snd x)) g -> shows g = Some (roa_of X, rl_brk X) ->
  (forall h1 i h2, last_change e c h h1 i h2 ->
     Forall (common_vrp (i_proc i / 1000000000)) (roa_of X) /\ Forall (common_key (i_proc i / 1000000000)) (rl_brk X)) ->
  rl_brk X = [] \/ (negotiated (new_rtr_server cfg s) 1 <> 0 /\ keys_off tr cfg = false) ->
  let r := compare thresholds started clk (Spec.Monitor.after grace g) (mo_vrps m) in
  r_diff1 r = 0 /\ r_diff2 r = 0 /\ r_only1 r = [] /\ r_only2 r = [].
Proof.
  intros e c h cfg s tr cl m sp bsp grace g thresholds started clk HE HST HL Hs Hb HA HW HM X HP HH HC HK r.
  destruct (C124_exact_partial e c h cfg s tr cl m sp bsp grace g thresholds started clk HE HST HL Hs Hb HA HW HM HP HH) as (h1 & i & h2 & LC & _ & _ & _ & _ & IFF).
  destruct (HC h1 i h2 LC) as [H1 H2]. fold X in IFF. fold r in IFF.
  destruct (proj2 IFF (common_offered _ _ _ _ _ H1 H2 HK)) as (E1 & E2).
  split; [exact E1|]. split; [exact E2|]. unfold r, compare in E1, E2 |- *. cbn [r_only1 r_only2 r_diff1 r_diff2] in *.
  split; [destruct (mdiff (Spec.Monitor.after grace g) (mo_vrps m))|destruct (mdiff (mo_vrps m) (Spec.Monitor.after grace g))]; try reflexivity; discriminate.
Qed.
(** As stated it is false: the export also has the entries that had expired when it was loaded, and
    identifiers in capital letters (and, with C49, everything when all was dropped for its age). *)
Definition env124 := sample_env
  [([1], listing 0 [rv; ej "10.2.0.0/16" 16 "4" (Some 3000%Z)] [bj 7 "AB" None]); ([2], listing 0 [rv; rw] [rk])] [].
Lemma watch_first e c cfg s tr h now cl a : get_current_sds (st_server (State.after e c h)) <> [] ->
  process (new_rtr_server cfg s) (st_server (State.after e c h)) (accept tr (new_rtr_server cfg s)) mon_first_query = Ok (cl, a) ->
  on_watch e c cfg s tr h cl (mon_pdus false new_mon (map (pair now) (queued a))).
Proof. intros H1 H2. now apply ow_start. Qed.
Theorem C124_refuted : exists e c h cfg s tr cl m, wf_env e /\ ordered_h h /\ (sc_slurm_refresh c = false \/ no_spare e) /\
  u16 s /\ cfg_version cfg < 256 /\ acceptable (accept tr (new_rtr_server cfg s)) 1 /\
  on_watch e c cfg s tr h cl m /\ mo_serial m = serial_of (State.after e c h) /\
  let X := export_list 0 0 (State.after e c h) in
  let r := compare [] 0 (fun _ => 5000%Z) (Spec.Monitor.after 60 [(4000%Z, Listing (roa_of X) (rl_brk X))]) (mo_vrps m) in
  r_diff1 r = 2 /\ r_diff2 r = 1.
Proof.
  exists env124, cfgN, [at_h 1 [1]], cfg1, 7, TCP. do 2 eexists. split; [wf_sample|].
  split; [split; [constructor; [cbn; lia|constructor]|intros [|? [|? ?]] ? ? ? E; discriminate E]|].
  split; [left; reflexivity|]. split; [vm_compute; reflexivity|]. split; [vm_compute; reflexivity|].
  split; [split; vm_compute; auto; discriminate|].
  split; [apply (watch_first _ _ _ _ _ _ 3900%Z); [vm_compute; discriminate|vm_compute; reflexivity]|].
  split; [vm_compute; reflexivity|]. vm_compute. auto.
Qed.
(** After another file, and a poll, the two sources agree: two VRPs and a key. *)
Example C124_case : exists cl m, let h := [at_h 1 [1]; at_h 2 [2]] in let X := export_list 0 0 (State.after env124 cfgN h) in
  wf_env env124 /\ on_watch env124 cfgN cfg1 7 TCP h cl m /\ mo_serial m = serial_of (State.after env124 cfgN h) /\
  Forall (common_vrp (hour 2 / 1000000000)) (roa_of X) /\ Forall (common_key (hour 2 / 1000000000)) (rl_brk X) /\
  plain_file (Listing (roa_of X) (rl_brk X)) /\ nlen (file_objs (roa_of X) (rl_brk X)) = 3 /\
  negotiated (new_rtr_server cfg1 7) 1 <> 0 /\ keys_off TCP cfg1 = false /\ nlen (mo_vrps m) = 3.
Proof.
  cbv zeta. do 2 eexists. split; [wf_sample|]. split.
  { eapply (ow_poll _ _ _ _ _ _ _ _ 7300%Z).
    - apply (ow_refresh _ _ _ _ _ [at_h 1 [1]]); [|vm_compute; discriminate].
      apply (watch_first _ _ _ _ _ _ 3900%Z); [vm_compute; discriminate|vm_compute; reflexivity].
    - right. vm_compute. reflexivity.
    - vm_compute. reflexivity. }
  split; [vm_compute; reflexivity|].
  split. { match goal with |- Forall _ ?l => let v := eval vm_compute in l in replace l with v by (vm_compute; reflexivity) end. apply Forall_cons; [|apply Forall_cons; [|apply Forall_nil]]; eexists; eexists; (split; [vm_compute; reflexivity|]; split; [vm_compute; reflexivity|]; split; [eexists; split; [reflexivity|]; vm_compute; auto; repeat split; discriminate|first [exact I|vm_compute; discriminate|vm_compute; reflexivity]]). }
  split. { match goal with |- Forall _ ?l => let v := eval vm_compute in l in replace l with v by (vm_compute; reflexivity) end. repeat constructor. exists [171]. split; [repeat constructor|reflexivity]. }
  split. { cbn [plain_file]. match goal with |- Forall _ ?l => let v := eval vm_compute in l in replace l with v by (vm_compute; reflexivity) end. repeat constructor; vm_compute; intuition discriminate. }
  split; [reflexivity|]. split; [vm_compute; discriminate|]. split; reflexivity.
Qed.

Print Assumptions C124_exact_partial.
Print Assumptions C124_agree_partial.
Print Assumptions C124_refuted.
