(** Property C123: rtrmon compares a server with the file that server is fed. *)
From Coq Require Import ZArith String ZifyBool ZifyNat ZifyN.
From Verif Require Import Lib.Str Spec.Refresh Spec.Monitor Spec.Agree Proofs.DataP Proofs.CacheP Proofs.StateP Proofs.MonitorP Proofs.MonitorP2 Proofs.AgreeP
  Props.CacheProps Props.ConnProps Props.InputProps Props.MonitorProps.
From Coq Require Import List.
Import ListNotations.
Local Open Scope string_scope.
Local Open Scope list_scope.
Local Open Scope N_scope.

Lemma watched_shown cfg s tr keep hs c m sort now vs bs :
  u16 s -> cfg_version cfg < 256 -> acceptable (accept tr (new_rtr_server cfg s)) 1 ->
  sorts sort -> Forall wf_vj vs -> Forall wf_bj bs -> nlen (hs ++ [fed sort now vs bs]) < 4294967296 ->
  watched cfg s tr keep (hs ++ [fed sort now vs bs]) c m ->
  mo_serial m = sdCurrentSerial (run (new_server keep) (hs ++ [fed sort now vs bs])) ->
  minv (mo_vrps m) /\ forall o, shown (mo_vrps m) o <-> offered now vs bs (negotiated (new_rtr_server cfg s) 1) (keys_off tr cfg) o.
Proof.
  intros Hs Hb HA HS HV HB HL HW HE.
  destruct (C55_watch_partial cfg s tr keep _ c m Hs Hb HA HL HW) as (_ & _ & _ & _ & _ & HM). specialize (HM HE).
  destruct (watched_winv cfg s tr keep _ c m Hs Hb HA HL HW) as (W1 & _ & _ & _ & _ & _ & W7 & h1 & h2 & _ & _ & _ & _ & F4).
  split; [rewrite W7; apply F4|]. intros o. rewrite (HM o). unfold offered, told, as_set, get_current_sds.
  destruct (fed_listed sort now vs bs HS HV HB) as [_ FL]. destruct (run_set (new_server keep) hs _ (inv_new keep) W1) as [RS _].
  split; intros (x & X1 & X2).
  - destruct X1 as [X1 X3]. exists x. split; [apply FL, RS; exact X1|auto].
  - exists x. split; [split; [apply RS, FL; exact X1|apply X2]|apply X2].
Qed.

(** C123 A server that serves its file differs from it in nothing.  rtrmon watches the server
    over one session as in C55 and has its latest serial; the other source is the file the
    server was fed from last.  Exactly: the report has on the file's side the objects that the
    file lists and does not offer to a client of that version at the time it was loaded, on
    the server's side those it offers and does not list in that form. *)
Theorem C123_exact_partial : forall cfg s tr keep hs c m sort now vs bs grace h thresholds started clk,
  u16 s -> cfg_version cfg < 256 -> acceptable (accept tr (new_rtr_server cfg s)) 1 ->
  sorts sort -> Forall wf_vj vs -> Forall wf_bj bs -> nlen (hs ++ [fed sort now vs bs]) < 4294967296 ->
  watched cfg s tr keep (hs ++ [fed sort now vs bs]) c m ->
  mo_serial m = sdCurrentSerial (run (new_server keep) (hs ++ [fed sort now vs bs])) ->
  Forall (fun x => plain_file (snd x)) h -> shows h = Some (vs, bs) ->
  let off := offered now vs bs (negotiated (new_rtr_server cfg s) 1) (keys_off tr cfg) in
  let r := compare thresholds started clk (Spec.Monitor.after grace h) (mo_vrps m) in
  (forall o, (exists e, has (r_only1 r) o e) <-> In o (file_objs vs bs) /\ ~ off o) /\
  (forall o, (exists e, has (r_only2 r) o e) <-> off o /\ ~ In o (file_objs vs bs)) /\
  number (r_diff1 r) (fun o => In o (file_objs vs bs) /\ ~ off o) /\
  number (r_diff2 r) (fun o => off o /\ ~ In o (file_objs vs bs)).
Proof.
  intros cfg s tr keep hs c m sort now vs bs grace h thresholds started clk Hs Hb HA HS HV HB HL HW HE HP HH off r.
  destruct (watched_shown cfg s tr keep hs c m sort now vs bs Hs Hb HA HS HV HB HL HW HE) as [M2 S2].
  assert (M1 : minv (Spec.Monitor.after grace h)) by exact (proj1 (MonitorP.history grace h HP)).
  pose proof (shows_map grace h vs bs HP HH) as S1.
  assert (HO : forall a b, minv a -> minv b -> forall o, (exists e, has (mdiff a b) o e) <-> shown a o /\ ~ shown b o).
  { intros a b Ha Hb' o. split.
    - intros (e & HX). apply mdiff_has in HX; auto. destruct HX as (E1 & E2 & E3). split; [exists e; auto|exact E3].
    - intros ((e & E1 & E2) & E3). exists e. apply mdiff_has; auto. }
  assert (HN : forall a b, minv a -> minv b -> number (nlen (mdiff a b)) (fun o => shown a o /\ ~ shown b o)).
  { intros a b Ha Hb'. apply eobjs_number; [now apply minv_mdiff|]. now apply HO. }
  unfold r. cbn [compare r_only1 r_only2 r_diff1 r_diff2].
  split; [intros o; rewrite (HO _ _ M1 M2 o), S1, S2; reflexivity|]. split; [intros o; rewrite (HO _ _ M2 M1 o), S1, S2; reflexivity|].
  split; [pose proof (HN _ _ M1 M2) as X|pose proof (HN _ _ M2 M1) as X]; (eapply number_ext; [|exact X]); intros o; cbv beta; pose proof (S1 o); pose proof (S2 o); tauto.
Qed.
(** Nothing is reported if and only if the file lists what it offers; in particular when all its
    entries are acceptable, none is expired, identifiers are in small letters and the client
    may have router keys if there are any. *)
Theorem C123_agree_partial : forall cfg s tr keep hs c m sort now vs bs grace h thresholds started clk,
  u16 s -> cfg_version cfg < 256 -> acceptable (accept tr (new_rtr_server cfg s)) 1 ->
  sorts sort -> Forall wf_vj vs -> Forall wf_bj bs -> nlen (hs ++ [fed sort now vs bs]) < 4294967296 ->
  watched cfg s tr keep (hs ++ [fed sort now vs bs]) c m ->
  mo_serial m = sdCurrentSerial (run (new_server keep) (hs ++ [fed sort now vs bs])) ->
  Forall (fun x => plain_file (snd x)) h -> shows h = Some (vs, bs) ->
  let w := negotiated (new_rtr_server cfg s) 1 in
  let r := compare thresholds started clk (Spec.Monitor.after grace h) (mo_vrps m) in
  (r_diff1 r = 0 /\ r_diff2 r = 0 <-> forall o, In o (file_objs vs bs) <-> offered now vs bs w (keys_off tr cfg) o) /\
  (Forall (common_vrp now) vs -> Forall (common_key now) bs -> bs = [] \/ (w <> 0 /\ keys_off tr cfg = false) ->
   r_diff1 r = 0 /\ r_diff2 r = 0 /\ r_only1 r = [] /\ r_only2 r = []).
Proof.
  intros cfg s tr keep hs c m sort now vs bs grace h thresholds started clk Hs Hb HA HS HV HB HL HW HE HP HH w r.
  destruct (C123_exact_partial cfg s tr keep hs c m sort now vs bs grace h thresholds started clk Hs Hb HA HS HV HB HL HW HE HP HH) as (_ & _ & N1 & N2).
  fold w in N1, N2. fold r in N1, N2.
  assert (D : forall o, In o (file_objs vs bs) \/ ~ In o (file_objs vs bs)) by (intros o; destruct (in_dec obj_dec o (file_objs vs bs)); auto).
  assert (IFF : r_diff1 r = 0 /\ r_diff2 r = 0 <-> forall o, In o (file_objs vs bs) <-> offered now vs bs w (keys_off tr cfg) o).
  { split.
    - intros (E1 & E2) o. rewrite E1 in N1. rewrite E2 in N2. rewrite number_none in N1, N2. split; intros H.
      + destruct (watched_shown cfg s tr keep hs c m sort now vs bs Hs Hb HA HS HV HB HL HW HE) as [M2 S2].
        pose proof (file_objs_proper vs bs o (shows_plain h vs bs HP HH) H) as PO. apply S2. apply shown_gget; [exact M2|exact PO|].
        assert (NX : ~ ~ shown (mo_vrps m) o) by (intros X; apply (N1 o); split; [exact H|intros Y; apply X, S2, Y]).
        rewrite (shown_gget _ _ M2 PO) in NX. destruct (gget (okey o) (mo_vrps m)) as [e|]; [destruct (m_visible e); [reflexivity|exfalso; apply NX; discriminate]|exact (NX (fun x => x))].
      + destruct (D o) as [X|X]; [exact X|exfalso; exact (N2 o (conj H X))].
    - intros H. split; (eapply number_unique; [eassumption|]); apply number_none; intros o (X & Y); apply Y, H, X. }
  split; [exact IFF|]. intros H1 H2 H3. destruct (proj2 IFF (common_offered now vs bs w (keys_off tr cfg) H1 H2 H3)) as (E1 & E2).
  split; [exact E1|]. split; [exact E2|]. unfold r, compare in E1, E2 |- *. cbn [r_only1 r_only2 r_diff1 r_diff2] in *.
  split; [destruct (mdiff (Spec.Monitor.after grace h) (mo_vrps m))|destruct (mdiff (mo_vrps m) (Spec.Monitor.after grace h))]; try reflexivity; discriminate.
Qed.

(** As stated it is false: rtrmon does not look at the time an entry expires, nor does it
    refuse a maximum length; it does not read identifiers, and the server sends them in small
    letters.  The first file has an entry that expired before it was loaded and is otherwise
    fine, the second a key in capital letters. *)
Definition file123 : list vrpjson := [fv "10.0.0.0/24" 24 "AS65001"; mkVJ (str "10.0.1.0/24") 24 (AsnStr (str "65002")) [] (Some 99%Z)].
Definition keys123 : list brkjson := [fk 7 "A1B2"].
Lemma watch_one cfg s tr keep l now c a : Forall wf_sd l -> get_current_sds (run (new_server keep) [l]) <> [] ->
  process (new_rtr_server cfg s) (run (new_server keep) [l]) (accept tr (new_rtr_server cfg s)) mon_first_query = Ok (c, a) ->
  watched cfg s tr keep ([] ++ [l]) c (mon_pdus false new_mon (map (pair now) (queued a))).
Proof. intros H1 H2 H3. apply watch_start; [repeat constructor; exact H1|exact H2|exact H3]. Qed.
Theorem C123_refuted : exists sort now vs bs vs' bs' c m c' m',
  sorts sort /\
  watched cfg1 7 TCP 3 [fed sort now vs bs] c m /\ mo_serial m = sdCurrentSerial (run (new_server 3) [fed sort now vs bs]) /\
  watched cfg1 7 TCP 3 [fed sort now vs' bs'] c' m' /\ mo_serial m' = sdCurrentSerial (run (new_server 3) [fed sort now vs' bs']) /\
  let r := compare [] 0 (fun _ => 200%Z) (Spec.Monitor.after 60 [(150%Z, Listing vs bs)]) (mo_vrps m) in
  let r' := compare [] 0 (fun _ => 200%Z) (Spec.Monitor.after 60 [(150%Z, Listing vs' bs')]) (mo_vrps m') in
  (r_diff1 r = 1 /\ r_diff2 r = 0) /\ (r_diff1 r' = 1 /\ r_diff2 r' = 1).
Proof.
  assert (W : Forall wf_sd (fed isort 100 file123 []) /\ Forall wf_sd (fed isort 100 [] keys123)).
  { split; apply wf_sds_ok; vm_compute; reflexivity. }
  exists isort, 100%Z, file123, [], [], keys123. do 4 eexists. split; [exact isort_sorts|].
  split; [apply (watch_one _ _ _ _ _ 120%Z); [apply W|vm_compute; discriminate|vm_compute; reflexivity]|]. split; [vm_compute; reflexivity|].
  split; [apply (watch_one _ _ _ _ _ 120%Z); [apply W|vm_compute; discriminate|vm_compute; reflexivity]|]. split; [vm_compute; reflexivity|].
  vm_compute. auto.
Qed.
(** A file of two VRPs and a key that agrees. *)
Example C123_case : exists c m, let vs := [fv "10.0.0.0/24" 24 "AS65001"; fv "10.0.1.0/24" 25 "65002"] in let bs := [fk 7 "a1b2"] in
  watched cfg1 7 TCP 3 [fed isort 100 vs bs] c m /\ mo_serial m = sdCurrentSerial (run (new_server 3) [fed isort 100 vs bs]) /\
  Forall wf_vj vs /\ Forall wf_bj bs /\ acceptable (accept TCP (new_rtr_server cfg1 7)) 1 /\
  Forall (common_vrp 100) vs /\ Forall (common_key 100) bs /\ negotiated (new_rtr_server cfg1 7) 1 <> 0 /\ keys_off TCP cfg1 = false /\
  nlen (mo_vrps m) = 3.
Proof.
  cbv zeta. do 2 eexists.
  split; [apply (watch_one _ _ _ _ _ 120%Z); [apply wf_sds_ok; vm_compute; reflexivity|vm_compute; discriminate|vm_compute; reflexivity]|].
  split; [vm_compute; reflexivity|].
  split; [repeat constructor; vm_compute; auto|]. split; [repeat constructor; vm_compute; auto|].
  split; [split; vm_compute; auto; discriminate|].
  split. { repeat constructor; eexists; eexists; (split; [vm_compute; reflexivity|]; split; [vm_compute; reflexivity|]; split; [|exact I]; eexists; split; [reflexivity|]; vm_compute; auto; repeat split; discriminate). }
  split. { repeat constructor. exists [161; 178]. split; [repeat constructor|reflexivity]. }
  split; [vm_compute; discriminate|]. split; reflexivity.
Qed.

Print Assumptions C123_exact_partial.
Print Assumptions C123_agree_partial.
Print Assumptions C123_refuted.
