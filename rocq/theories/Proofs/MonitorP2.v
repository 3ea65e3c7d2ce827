(** Lemmas about rtrmon: RTR sources and the threshold flag. *)
From Coq Require Import ZifyBool ZifyNat ZifyN Permutation Sorted.
From Verif Require Import Spec.Monitor Spec.Input Proofs.FormatP Proofs.DataP Proofs.JsonP Proofs.CacheP Proofs.ConnP Proofs.DumpP Proofs.MonitorP.
From Verif Require Import Props.CacheProps Props.ConnProps.
Ltac Zify.zify_post_hook ::= Z.div_mod_to_equations.

(** * Records *)
Definition wf_rid (x : rid) : Prop := exists d, wf_sd d /\ rid_of d = x.
Lemma hex_plain_ski s : bytes_ok s -> plain_ski (hex_encode s).
Proof.
  intros H. pose proof (hex_encode_plain s H) as P.
  split; (eapply (plain_no _ _); [|exact P]); unfold c_dash, c_slash; auto.
Qed.
Lemma rid_obj_proper x : wf_rid x -> proper (rid_obj x).
Proof.
  intros (d & W & <-). destruct d as [p a m f|a s k f]; cbn [wf_sd rid_of rid_obj proper] in *; [tauto|].
  apply hex_plain_ski. tauto.
Qed.
Lemma rid_obj_inj x y : wf_rid x -> wf_rid y -> rid_obj x = rid_obj y -> x = y.
Proof.
  intros (d & W & <-) (e & V & <-). destruct d as [p a m f|a s k f], e as [q b n g|b t l g]; cbn [rid_of rid_obj];
    intros H; try discriminate H; injection H; [congruence|].
  intros -> -> H'. f_equal. cbn [wf_sd] in *. apply hex_encode_inj; tauto.
Qed.

(** The map of the session stands for the set [R]. *)
Definition rinv (m : vmap) (R : rset) : Prop :=
  minv m /\ (forall k e, In (k, e) m -> m_visible e = true /\ m_last e = 0%Z) /\ (forall x, R x -> wf_rid x) /\
  forall x, wf_rid x -> (R x <-> gget (okey (rid_obj x)) m <> None) /\ True.
Definition rinv2 (m : vmap) (R : rset) : Prop :=
  rinv m R /\ forall k e, In (k, e) m -> exists x, R x /\ k = okey (rid_obj x).
Lemma rinv_nil : rinv2 [] (fun _ => False).
Proof.
  split; [split; [apply minv_nil|split; [intros k e []|split; [contradiction|]]]|intros k e []].
  intros x _. split; [|exact I]. cbn. split; [contradiction|congruence].
Qed.
Lemma okey_rid x y : wf_rid x -> wf_rid y -> okey (rid_obj x) = okey (rid_obj y) -> x = y.
Proof. intros HX HY HE. apply rid_obj_inj; auto. apply okey_inj; auto using rid_obj_proper. Qed.
Lemma data_step m R d e : rinv2 m R -> wf_sd d -> entry_obj e = Some (rid_obj (rid_of d)) -> m_visible e = true -> m_last e = 0%Z ->
  rinv2 (if get_flag d =? FLAG_ADDED then gset (okey (rid_obj (rid_of d))) e m else gdel (okey (rid_obj (rid_of d))) m)
        (r_apply1 R d).
Proof.
  intros ((H1 & H2 & H3 & H4) & H5) HW HE HV HL. assert (HX : wf_rid (rid_of d)) by (exists d; auto).
  unfold r_apply1. change FLAG_ADDED with 1. destruct (get_flag d =? 1).
  - split; [split; [|split; [|split]]|].
    + apply (minv_gset m _ e (rid_obj (rid_of d))); auto using rid_obj_proper.
    + intros k e' HI. apply in_gset in HI. destruct HI as [[-> ->]|HI]; eauto.
    + intros x [->|HR]; auto.
    + intros x Wx. split; [|exact I]. rewrite gget_gset. destruct (beqb (okey (rid_obj x)) (okey (rid_obj (rid_of d)))) eqn:E.
      * apply beqb_eq in E. apply okey_rid in E; auto. split; [discriminate|auto].
      * destruct (H4 x Wx) as [G _]. rewrite <- G. split; [|auto]. intros [->|HR]; [|exact HR]. now rewrite beqb_refl in E.
    + intros k e' HI. apply in_gset in HI. destruct HI as [[-> _]|HI]; [exists (rid_of d); auto|].
      destruct (H5 k e' HI) as (x & X1 & X2). exists x. auto.
  - split; [split; [|split; [|split]]|].
    + now apply minv_gdel.
    + intros k e' HI. unfold gdel in HI. apply filter_In in HI. destruct HI as [HI _]. eauto.
    + intros x [_ HR]; auto.
    + intros x Wx. split; [|exact I]. destruct (beqb (okey (rid_obj x)) (okey (rid_obj (rid_of d)))) eqn:E.
      * apply beqb_eq in E. rewrite E, gget_gdel_same. apply okey_rid in E; auto. tauto.
      * rewrite gget_gdel_other by (intros G; rewrite G, beqb_refl in E; discriminate E).
        destruct (H4 x Wx) as [G _]. rewrite <- G. split; [tauto|]. intros HR. split; [|exact HR].
        intros ->. now rewrite beqb_refl in E.
    + intros k e' HI. unfold gdel in HI. apply filter_In in HI. destruct HI as [HI HN].
      destruct (H5 k e' HI) as (x & X1 & X2). exists x. split; [|exact X2]. split; [|exact X1].
      intros ->. cbn [fst] in HN. rewrite <- X2 in HN. rewrite beqb_refl in HN. discriminate HN.
Qed.
Lemma rinv_mirrors m R : rinv2 m R -> mirrors m R.
Proof.
  intros ((H1 & H2 & H3 & H4) & H5) o. split.
  - intros (e & HH & HV). pose proof (has_proper m o e H1 HH) as HP. apply has_gget in HH; auto.
    apply gget_in in HH. destruct (H5 _ _ HH) as (x & X1 & X2). exists x. split; [exact X1|].
    apply okey_inj; auto using rid_obj_proper.
  - intros (x & X1 & <-). pose proof (rid_obj_proper x (H3 x X1)) as HP. apply shown_gget; auto.
    destruct (H4 x (H3 x X1)) as [G _]. apply G in X1.
    destruct (gget (okey (rid_obj x)) m) as [e|] eqn:E; [|congruence]. apply gget_in in E. now apply (H2 _ _ E).
Qed.

Notation ok_pdu := good_pdu (only parsing).
Lemma mon_step_pdu break now c R p : ok_pdu p -> rinv2 (mo_rtr c) R ->
  rinv2 (mo_rtr (fst (mon_handle break now c p))) (r_apply R (pdu_sd p)).
Proof.
  intros HO HR. unfold good_pdu in HO.
  destruct p as [v s n|v s n|v|v s|v f m a x|v f m a x|v s n r t e|v|v f s a k|v code orig msg];
    cbn [mon_handle fst pdu_sd mo_rtr] in *; try exact HR.
  - inversion HO as [|? ? W _]; subst. cbn [mon_data mo_set_rtr mo_rtr r_apply fold_left].
    apply (data_step (mo_rtr c) R (VRP x a m f) (mkME a m (prefix_string x) now 0 true None)); auto.
    unfold entry_obj. cbn [m_key m_prefix m_asn m_length rid_of rid_obj]. cbn [wf_sd] in W.
    rewrite parse_prefix_string by tauto. reflexivity.
  - inversion HO as [|? ? W _]; subst. cbn [mon_data mo_set_rtr mo_rtr r_apply fold_left].
    apply (data_step (mo_rtr c) R (VRP x a m f) (mkME a m (prefix_string x) now 0 true None)); auto.
    unfold entry_obj. cbn [m_key m_prefix m_asn m_length rid_of rid_obj]. cbn [wf_sd] in W.
    rewrite parse_prefix_string by tauto. reflexivity.
  - inversion HO as [|? ? W _]; subst. cbn [mon_data mo_set_rtr mo_rtr r_apply fold_left].
    apply (data_step (mo_rtr c) R (BgpsecKey a s k f)
      (mkME a 0 [] now 0 true (Some (mkBJ a None [] k (hex_encode s))))); auto.
Qed.
Lemma r_apply_app R a b : r_apply R (a ++ b) = r_apply (r_apply R a) b.
Proof. unfold r_apply. apply fold_left_app. Qed.
Lemma mon_stream break l : forall c R, Forall ok_pdu (map snd l) -> rinv2 (mo_rtr c) R ->
  rinv2 (mo_rtr (mon_pdus break c l)) (r_apply R (flat_map pdu_sd (map snd l))).
Proof.
  induction l as [|[t p] l IH]; intros c R HO HR; [exact HR|].
  cbn [map snd] in HO. inversion HO as [|? ? O1 O2]; subst.
  cbn [map snd flat_map]. rewrite r_apply_app. unfold mon_pdus. cbn [fold_left fst snd]. apply IH; [exact O2|].
  now apply mon_step_pdu.
Qed.
Lemma mon_pdus_app break c a b : mon_pdus break c (a ++ b) = mon_pdus break (mon_pdus break c a) b.
Proof. unfold mon_pdus. apply fold_left_app. Qed.

(** * One response *)
Lemma data_keeps break l : forall c, forallb is_data (map snd l) = true ->
  let c' := mon_pdus break c l in
  mo_vrps c' = mo_vrps c /\ mo_serial c' = mo_serial c /\ mo_session c' = mo_session c.
Proof.
  induction l as [|[t p] l IH]; intros c HD; [cbn; auto|]. cbn [map snd forallb] in HD. apply andb_true_iff in HD.
  destruct HD as [D1 D2]. cbv zeta. unfold mon_pdus. cbn [fold_left fst snd].
  destruct (IH (fst (mon_handle break t c p)) D2) as (I1 & I2 & I3). unfold mon_pdus in I1, I2, I3. rewrite I1, I2, I3.
  destruct p; try discriminate D1; cbn; auto.
Qed.
Lemma data_pdu_sd w d : wf_sd d -> pdu_sd (data_pdu w d) = [d] /\ is_data (data_pdu w d) = true.
Proof.
  destruct d as [[[|x|x] b] a m f|a s k f]; intros W; cbn; auto.
Qed.
Lemma sent_data w nokeys l : Forall wf_sd l ->
  let ps := map (data_pdu w) (filter (may_send w nokeys) l) in
  flat_map pdu_sd ps = filter (may_send w nokeys) l /\ forallb is_data ps = true /\ Forall ok_pdu ps.
Proof.
  intros H. cbv zeta. induction H as [|d l Hd Hl (I1 & I2 & I3)]; [cbn; auto|].
  cbn [filter]. destruct (may_send w nokeys d); [|auto]. destruct (data_pdu_sd w d Hd) as [E1 E2].
  cbn [map flat_map forallb]. rewrite E1, E2, I1. cbn [app andb]. split; [reflexivity|]. split; [exact I2|].
  constructor; [unfold good_pdu; rewrite E1; auto|exact I3].
Qed.
Lemma response_step now c R w sess n r t e nokeys l : Forall wf_sd l -> rinv2 (mo_rtr c) R ->
  let c' := mon_pdus false c (map (pair now) (response w sess n r t e nokeys l)) in
  mo_vrps c' = mo_rtr c' /\ mo_serial c' = n /\ mo_session c' = sess /\
  rinv2 (mo_rtr c') (r_apply R (filter (may_send w nokeys) l)).
Proof.
  intros HW HR. cbv zeta. unfold response. rewrite !map_app, !mon_pdus_app.
  destruct (sent_data w nokeys l HW) as (S1 & S2 & S3).
  set (ps := map (data_pdu w) (filter (may_send w nokeys) l)) in *.
  set (c1 := mon_pdus false c (map (pair now) [CacheResponse w sess])).
  assert (E : map snd (map (pair now) ps) = ps) by (rewrite map_map; cbn; apply map_id).
  assert (HR1 : rinv2 (mo_rtr c1) R) by exact HR.
  pose proof (mon_stream false (map (pair now) ps) c1 R) as G. rewrite E in G. specialize (G S3 HR1). rewrite S1 in G.
  destruct (data_keeps false (map (pair now) ps) c1) as (K1 & K2 & K3); [now rewrite E|].
  set (c2 := mon_pdus false c1 (map (pair now) ps)) in *. cbn. split; [reflexivity|]. split; [reflexivity|].
  split; [exact K3|exact G].
Qed.

(** Sets as routers of one version see them. *)
Lemma may_send_hold w nokeys d : may_send w nokeys d = true <-> may_hold w nokeys (rid_of d).
Proof.
  destruct d as [p a m f|a s k f]; cbn; [tauto|].
  destruct (N.eqb_spec w 0), nokeys; cbn; intuition congruence.
Qed.
Lemma may_send_hold_not w nokeys d : may_send w nokeys d = false <-> ~ may_hold w nokeys (rid_of d).
Proof. rewrite <- may_send_hold. destruct (may_send w nokeys d); intuition congruence. Qed.
Definition restrict (P : rid -> Prop) (R : rset) : rset := fun x => R x /\ P x.
Lemma apply_restrict w nokeys l : forall R,
  r_eq (r_apply (restrict (may_hold w nokeys) R) (filter (may_send w nokeys) l))
       (restrict (may_hold w nokeys) (r_apply R l)).
Proof.
  assert (HC : forall l A B, r_eq A B -> r_eq (r_apply A l) (r_apply B l)).
  { clear. induction l as [|d l IH]; intros A B H; [exact H|]. cbn [r_apply fold_left]. apply IH.
    intros x. unfold r_apply1. destruct (get_flag d =? 1); rewrite (H x); tauto. }
  induction l as [|d l IH]; intros R; [intros x; tauto|].
  cbn [filter]. destruct (may_send w nokeys d) eqn:E.
  - cbn [r_apply fold_left]. intros x. rewrite <- (IH (r_apply1 R d) x). apply HC.
    apply may_send_hold in E. intros y. unfold restrict, r_apply1. destruct (get_flag d =? 1).
    + split; [intros [->|[H1 H2]]; auto|intros [[->|H1] H2]; auto].
    + tauto.
  - intros x. cbn [r_apply fold_left]. rewrite <- (IH (r_apply1 R d) x). apply HC.
    apply may_send_hold_not in E. intros y. unfold restrict, r_apply1. destruct (get_flag d =? 1).
    + split; [tauto|]. intros [[->|H1] H2]; tauto.
    + split; [|tauto]. intros [H1 H2]. split; [|exact H2]. split; [|exact H1]. intros ->. contradiction.
Qed.
Lemma rinv_eq m A B : r_eq A B -> rinv2 m A -> rinv2 m B.
Proof.
  intros HE ((H1 & H2 & H3 & H4) & H5). split; [split; [exact H1|split; [exact H2|split]]|].
  - intros x HB. apply H3. now apply HE.
  - intros x Wx. split; [|exact I]. destruct (H4 x Wx) as [G _]. rewrite <- G. split; intros ?; now apply HE.
  - intros k e HI. destruct (H5 k e HI) as (x & X1 & X2). exists x. split; [now apply HE|exact X2].
Qed.
Lemma apply_cur l : (forall d, In d l -> get_flag d = 1) -> forall R,
  r_eq (r_apply R l) (fun x => as_set l x \/ R x).
Proof.
  induction l as [|d l IH]; intros HF R x; [cbn; tauto|]. cbn [r_apply fold_left].
  rewrite (IH (fun e He => HF e (or_intror He)) (r_apply1 R d) x).
  unfold r_apply1. rewrite (HF d (or_introl eq_refl)). change (1 =? 1) with true. cbn [as_set]. unfold as_set.
  cbn [ids map In]. intuition congruence.
Qed.

(** * Watching *)
Definition winv (cfg : config) (s : N) (tr : transport) (keep : Z) (h : list (list sd)) (c : client) (m : mon) : Prop :=
  let w := negotiated (new_rtr_server cfg s) 1 in
  Forall (Forall wf_sd) h /\ reach (new_rtr_server cfg s) tr c /\ c_connected c = true /\
  c_versionset c = true /\ c_version c = w /\ mo_session m = session_of s w /\ mo_vrps m = mo_rtr m /\
  exists h1 h2, h = h1 ++ h2 /\ Forall (fun n => n <> []) h2 /\
    sdCurrent (run (new_server keep) h1) <> [] /\
    sdCurrentSerial (run (new_server keep) h1) = mo_serial m /\
    rinv2 (mo_rtr m) (told w (keys_off tr cfg) (sdCurrent (run (new_server keep) h1))).
Lemma run_cur_wf keep h : Forall (Forall wf_sd) h -> Forall wf_sd (sdCurrent (run (new_server keep) h)) /\
  (forall d, In d (sdCurrent (run (new_server keep) h)) -> get_flag d = 1).
Proof. intros H. destruct (run_inv (new_server keep) h (inv_new keep) H) as (I1 & I2 & I3). auto. Qed.
Lemma acceptable_again cfg s tr c w : u16 s -> cfg_version cfg < 256 -> reach (new_rtr_server cfg s) tr c ->
  w = negotiated (new_rtr_server cfg s) 1 -> c_version c = w -> acceptable c w /\ negotiated (new_rtr_server cfg s) w = w.
Proof.
  intros Hs Hb Hr -> E. split; [split; [|congruence]|]; unfold negotiated in *; cbn [new_rtr_server baseVersion] in *; lia.
Qed.
Lemma watched_winv cfg s tr keep h c m : u16 s -> cfg_version cfg < 256 -> acceptable (accept tr (new_rtr_server cfg s)) 1 ->
  nlen h < 4294967296 -> watched cfg s tr keep h c m -> winv cfg s tr keep h c m.
Proof.
  intros Hs Hb HA HL HW. induction HW as [h now c a Hh Hne HP|h c m new HW IH Hn Hne|h c m now c' a HW IH HB HP].
  - pose proof (run_cur_wf keep h Hh) as [C1 C2].
    assert (HC : c_connected (accept tr (new_rtr_server cfg s)) = true)
      by (destruct tr; unfold accept; destruct (s_enforce (new_rtr_server cfg s)), (s_disableBGPSec (new_rtr_server cfg s)); reflexivity).
    destruct (C19_reset cfg s tr keep h (accept tr (new_rtr_server cfg s)) 1 Hs Hb Hh) as (c' & E & V1 & V2);
      [apply reach_accept|exact HC|exact HA|]. cbv zeta in E, V1.
    change mon_first_query with (ResetQuery 1) in HP. rewrite HP in E. injection E as <- ->.
    replace (is_nil (get_current_sds (run (new_server keep) h))) with false
      by (destruct (get_current_sds (run (new_server keep) h)); [congruence|reflexivity]).
    rewrite queued_map. set (w := negotiated (new_rtr_server cfg s) 1) in *.
    destruct (response_step now new_mon (fun _ => False) w (session_of s w) (sdCurrentSerial (run (new_server keep) h))
      (timer (cfg_refresh cfg) 3600) (timer (cfg_retry cfg) 600) (timer (cfg_expire cfg) 7200) (keys_off tr cfg)
      (get_current_sds (run (new_server keep) h)) C1 rinv_nil) as (R1 & R2 & R3 & R4).
    assert (HRc : reach (new_rtr_server cfg s) tr c) by (eapply reach_pdu; [apply reach_accept|exact HC|exact HP]).
    unfold winv. cbv zeta. fold w. split; [exact Hh|]. split; [exact HRc|]. split; [exact V2|]. split.
    { pose proof (reach_cinv cfg s tr _ Hs Hb (reach_accept _ tr)) as HI.
      destruct (process_total cfg s tr (run (new_server keep) h) _ (ResetQuery 1) Hs Hb HI) as (c2 & a2 & E2 & _ & _ & _ & _ & H4 & _).
      rewrite HP in E2. injection E2 as <- <-. apply H4. exact HA. }
    split; [exact V1|]. split; [exact R3|]. split; [exact R1|].
    exists h, []. rewrite app_nil_r. split; [reflexivity|]. split; [constructor|]. split; [exact Hne|]. split; [now rewrite R2|].
    eapply rinv_eq; [|exact R4]. intros x. unfold told.
    rewrite (apply_cur _ (fun d Hd => C2 d (proj1 (proj1 (filter_In _ _ _) Hd))) (fun _ => False) x).
    unfold as_set. split.
    + intros [H|[]]. unfold ids in H. apply in_map_iff in H. destruct H as (d & <- & H). apply filter_In in H.
      destruct H as [H1 H2]. split; [now apply in_map|]. now apply may_send_hold.
    + intros [H1 H2]. left. unfold ids in *. apply in_map_iff in H1. destruct H1 as (d & <- & H1). apply in_map.
      apply filter_In. split; [exact H1|]. now apply may_send_hold.
  - assert (HL' : nlen h < 4294967296) by (unfold nlen in *; rewrite app_length in HL; cbn in HL; lia).
    destruct (IH HL') as (W1 & W2 & W3 & W4 & W5 & W6 & W7 & h1 & h2 & -> & F1 & F2 & F3 & F4).
    unfold winv. cbv zeta. split; [apply Forall_app; auto|]. do 6 (split; [assumption|]).
    exists h1, (h2 ++ [new]). rewrite app_assoc. split; [reflexivity|]. split; [apply Forall_app; auto|]. auto.
  - destruct (IH HL) as (W1 & W2 & W3 & W4 & W5 & W6 & W7 & h1 & h2 & -> & F1 & F2 & F3 & F4). clear IH.
    set (w := negotiated (new_rtr_server cfg s) 1) in *.
    destruct (acceptable_again cfg s tr c w Hs Hb W2 eq_refl W5) as [A1 A2].
    unfold mon_poll, cs_send in HP. cbn [set_version] in HP.
    destruct (C20_serial cfg s tr keep (h1 ++ h2) c w (mo_session m) (mo_serial m) Hs Hb W1 W2 W3 A1) as (c2 & a2 & E & V1 & V2).
    cbv zeta in E, V1, V2. rewrite HP in E. injection E as <- <-. rewrite A2 in V1, V2.
    assert (HRc : reach (new_rtr_server cfg s) tr c') by (eapply reach_pdu; [exact W2|exact W3|exact HP]).
    apply Forall_app in W1. destruct W1 as [Wh1 Wh2].
    pose proof (run_inv (new_server keep) h1 (inv_new keep) Wh1) as I1.
    assert (HL2 : nlen h2 < 4294967296) by (unfold nlen in *; rewrite app_length in HL; lia).
    assert (HD : exists d, get_sds_serial_diff (run (new_server keep) (h1 ++ h2)) (mo_serial m) = Ok d /\
      Forall wf_sd d /\ sdCurrent (run (new_server keep) (h1 ++ h2)) <> [] /\
      r_eq (r_apply (as_set (sdCurrent (run (new_server keep) h1))) d) (as_set (sdCurrent (run (new_server keep) (h1 ++ h2))))).
    { rewrite run_app in HB |- *. cbv zeta in HB. destruct HB as [HB|HB].
      - destruct (sync_current (run (new_server keep) h1) h2 I1 Wh2 F2 HL2) as [S1 S2]; [congruence|].
        rewrite F3 in S1. exists []. split; [exact S1|]. split; [constructor|]. split.
        + intros G. rewrite G in S2. apply same_set_nil in S2. contradiction.
        + exact S2.
      - destruct (sync_one_behind (run (new_server keep) h1) h2 I1 Wh2 F2 F1 HL2) as (d & S1 & S2 & S3); [congruence|].
        rewrite F3 in S1. exists d. split; [exact S1|]. split.
        + rewrite <- run_app in S1. eapply serial_diff_wf; [|exact S1]. apply Forall_app; auto.
        + split; [|exact S3]. intros G.
          destruct h2 as [|y h2'] using rev_ind; [cbn in HB; lia|]. clear IHh2'.
          apply Forall_app in F1. destruct F1 as [_ F1]. inversion F1 as [|? ? F1' _]; subst. apply F1'.
          pose proof (run_set (run (new_server keep) h1) h2' y I1) as RS. destruct RS as [RS _]; [exact Wh2|].
          unfold get_current_sds in RS. rewrite G in RS. apply same_set_nil. apply same_set_sym. exact RS. }
    destruct HD as (d & D1 & D2 & D3 & D4).
    destruct V2 as [(V2 & _)|(V2 & V3 & V4)]; [now contradiction V2|].
    destruct V4 as [(V4 & _)|[(_ & V4 & _)|(d' & V4 & V5 & ->)]].
    + now contradiction D3.
    + exfalso. pose proof (serial_diff_err (run (new_server keep) (h1 ++ h2)) (mo_serial m)) as SE.
      assert (X : get_sds_serial_diff (run (new_server keep) (h1 ++ h2)) (mo_serial m) = Err tt) by (apply SE; lia).
      congruence.
    + assert (d' = d) by congruence. subst d'. rewrite queued_map.
      destruct (response_step now m _ w (mo_session m) (sdCurrentSerial (run (new_server keep) (h1 ++ h2)))
        (timer (cfg_refresh cfg) 3600) (timer (cfg_retry cfg) 600) (timer (cfg_expire cfg) 7200) (keys_off tr cfg) d D2 F4)
        as (R1 & R2 & R3 & R4).
      unfold winv. cbv zeta. fold w. split; [apply Forall_app; auto|]. split; [exact HRc|]. split; [exact V3|].
      split.
      { pose proof (reach_cinv cfg s tr _ Hs Hb W2) as HI.
        destruct (process_total cfg s tr (run (new_server keep) (h1 ++ h2)) c (SerialQuery w (mo_session m) (mo_serial m)) Hs Hb HI)
          as (c2 & a2 & E2 & _ & _ & _ & H3 & _).
        rewrite HP in E2. injection E2 as <- <-. now apply H3. }
      split; [exact V1|]. split; [rewrite R3; exact W6|]. split; [exact R1|].
      exists (h1 ++ h2), []. rewrite app_nil_r. split; [reflexivity|]. split; [constructor|]. split; [exact D3|].
      split; [now rewrite R2|]. eapply rinv_eq; [|exact R4]. intros x.
      transitivity (restrict (may_hold w (keys_off tr cfg)) (r_apply (as_set (sdCurrent (run (new_server keep) h1))) d) x).
      * apply apply_restrict.
      * unfold restrict, told. rewrite (D4 x). tauto.
Qed.

(** * Thresholds *)
Lemma split_nonempty s : split_comma s <> [].
Proof. induction s as [|c s IH]; [discriminate|]. cbn [split_comma]. destruct (c =? ch_comma); [discriminate|]. destruct (split_comma s); discriminate. Qed.
Lemma join_split s : join_comma (split_comma s) = s.
Proof.
  induction s as [|c s IH]; [reflexivity|]. cbn [split_comma]. destruct (N.eqb_spec c ch_comma) as [->|Hc].
  - pose proof (split_nonempty s). destruct (split_comma s) as [|x l]; [congruence|].
    change (join_comma ([] :: x :: l)) with ([] ++ [44] ++ join_comma (x :: l)). now rewrite IH.
  - destruct (split_comma s) as [|x l] eqn:E; [now apply split_nonempty in E|].
    destruct l as [|y l].
    + cbn [join_comma] in *. now rewrite IH.
    + change (join_comma ((c :: x) :: y :: l)) with (c :: (x ++ [44] ++ join_comma (y :: l))).
      change (join_comma (x :: y :: l)) with (x ++ [44] ++ join_comma (y :: l)) in IH. now rewrite IH.
Qed.
Lemma split_no_comma x : ~ In ch_comma x -> split_comma x = [x].
Proof.
  induction x as [|c x IH]; intros H; [reflexivity|]. cbn [split_comma].
  destruct (N.eqb_spec c ch_comma) as [->|Hc]; [exfalso; apply H; now left|].
  rewrite IH; [reflexivity|]. intros G. apply H. now right.
Qed.
Lemma split_app x s : ~ In ch_comma x -> split_comma (x ++ [44] ++ s) = x :: split_comma s.
Proof.
  induction x as [|c x IH]; intros H; [reflexivity|]. cbn [app split_comma].
  destruct (N.eqb_spec c ch_comma) as [->|Hc]; [exfalso; apply H; now left|].
  cbn [app] in IH. rewrite IH; [reflexivity|]. intros G. apply H. now right.
Qed.
Lemma split_join l : l <> [] -> Forall (fun x => ~ In ch_comma x) l -> split_comma (join_comma l) = l.
Proof.
  induction l as [|x l IH]; intros HN HF; [congruence|]. inversion HF as [|? ? F1 F2]; subst.
  destruct l as [|y l]; [now apply split_no_comma|].
  change (join_comma (x :: y :: l)) with (x ++ [44] ++ join_comma (y :: l)).
  rewrite split_app by exact F1. now rewrite IH.
Qed.
Lemma digits_no ds n c : digits_of ds n -> ~ (48 <= c <= 57) -> ~ In c ds.
Proof. intros (_ & H & _) Hc HI. rewrite Forall_forall in H. now apply H in HI. Qed.
Lemma digits_fun ds n m : digits_of ds n -> digits_of ds m -> n = m.
Proof. intros (_ & _ & ->) (_ & _ & ->). reflexivity. Qed.
Lemma parse_int32_spec s z : parse_int32 s = Some z <-> int_text s z.
Proof.
  unfold parse_int32, int_text. destruct s as [|c r].
  - split; [discriminate|]. intros (_ & ds & n & HD & [[E _]|[[E _]|[E _]]]); try discriminate E.
    destruct HD as (HD & _). now contradiction HD.
  - assert (HS : forall neg ds, (match parse_uint32 ds with
        | None => None
        | Some un => if (negb neg && (2147483648 <=? un)) || (neg && (2147483648 <? un)) then None
                     else Some (if neg : bool then (- Z.of_N un)%Z else Z.of_N un) end = Some z) <->
        (-2147483648 <= z < 2147483648)%Z /\ exists n, digits_of ds n /\ z = (if neg then - Z.of_N n else Z.of_N n)%Z).
    { intros neg ds. destruct (parse_uint32 ds) as [un|] eqn:E.
      - apply parse_uint32_spec in E. destruct E as [E1 E2]. change (2 ^ 32) with 4294967296 in E2.
        split.
        + intros H. destruct neg; cbn [negb andb orb] in H.
          * destruct (2147483648 <? un) eqn:E3; [discriminate H|]. injection H as <-. split; [lia|]. exists un. auto.
          * rewrite orb_false_r in H. destruct (2147483648 <=? un) eqn:E3; [discriminate H|]. injection H as <-. split; [lia|]. exists un. auto.
        + intros (HR & n & HD & ->). assert (n = un) by (eapply digits_fun; eauto). subst n.
          destruct neg; cbn [negb andb orb].
          * replace (2147483648 <? un) with false by lia. reflexivity.
          * rewrite orb_false_r. replace (2147483648 <=? un) with false by lia. reflexivity.
      - split; [discriminate|]. intros (HR & n & HD & Hz).
        assert (E2 : parse_uint32 ds = Some n).
        { apply parse_uint32_spec. split; [exact HD|]. change (2 ^ 32) with 4294967296. destruct neg; lia. }
        congruence. }
    destruct (N.eqb_spec c 43) as [->|H43].
    + rewrite HS. split.
      * intros (HR & n & HD & Hz). split; [exact HR|]. exists r, n. auto.
      * intros (HR & ds & n & HD & [[E Hz]|[[E Hz]|[E Hz]]]).
        -- exfalso. subst ds. apply (digits_no _ _ 43 HD); [lia|now left].
        -- injection E as <-. split; [exact HR|]. exists n. auto.
        -- discriminate E.
    + destruct (N.eqb_spec c 45) as [->|H45].
      * rewrite HS. split.
        -- intros (HR & n & HD & Hz). split; [exact HR|]. exists r, n. auto.
        -- intros (HR & ds & n & HD & [[E Hz]|[[E Hz]|[E Hz]]]).
           ++ exfalso. subst ds. apply (digits_no _ _ 45 HD); [lia|now left].
           ++ discriminate E.
           ++ injection E as <-. split; [exact HR|]. exists n. auto.
      * rewrite HS. split.
        -- intros (HR & n & HD & Hz). split; [exact HR|]. exists (c :: r), n. auto.
        -- intros (HR & ds & n & HD & [[E Hz]|[[E Hz]|[E Hz]]]).
           ++ subst ds. split; [exact HR|]. exists n. auto.
           ++ injection E as -> _. now contradiction H43.
           ++ injection E as -> _. now contradiction H45.
Qed.
Lemma parse_all_spec l : forall zs, parse_all l = Some zs <-> Forall2 int_text l zs.
Proof.
  induction l as [|s l IH]; intros zs; cbn [parse_all].
  - split; [intros H; injection H as <-; constructor|]. intros H. inversion H. reflexivity.
  - destruct (parse_int32 s) as [z|] eqn:E.
    + destruct (parse_all l) as [r|] eqn:ER.
      * split.
        -- intros H. injection H as <-. constructor; [now apply parse_int32_spec|now apply IH].
        -- intros H. inversion H as [|? z' ? zs' H1 H2]; subst. apply parse_int32_spec in H1. apply IH in H2. congruence.
      * split; [discriminate|]. intros H. inversion H as [|? z' ? zs' H1 H2]; subst. apply IH in H2. discriminate H2.
    + split; [discriminate|]. intros H. inversion H as [|? z' ? zs' H1 H2]; subst. apply parse_int32_spec in H1. congruence.
Qed.
Lemma int_text_no_comma s z : int_text s z -> ~ In ch_comma s.
Proof.
  intros (_ & ds & n & HD & HE). pose proof (digits_no ds n ch_comma HD ltac:(unfold ch_comma; lia)) as HN.
  destruct HE as [[-> _]|[[-> _]|[-> _]]]; [exact HN| |]; intros [G|G]; try discriminate G; contradiction.
Qed.
Lemma thr_set_spec sort value l : thr_set sort value = Some l <->
  exists parts zs, parts <> [] /\ value = join_comma parts /\ Forall2 int_text parts zs /\ l = sort zs.
Proof.
  unfold thr_set. split.
  - destruct (parse_all (split_comma value)) as [zs|] eqn:E; [|discriminate]. intros H. injection H as <-.
    apply parse_all_spec in E. exists (split_comma value), zs. split; [apply split_nonempty|]. rewrite join_split. auto.
  - intros (parts & zs & HN & -> & HF & ->). rewrite split_join; [|exact HN|].
    + apply parse_all_spec in HF. now rewrite HF.
    + clear - HF. induction HF as [|x z l l' H HF IH]; constructor; [now apply int_text_no_comma in H|exact IH].
Qed.
Lemma dec_digits n : digits_of (dec n) n.
Proof.
  pose proof (undec_dec n) as H. unfold dec in *. split; [|split].
  - intros E. apply map_eq_nil in E. now apply digits_nonempty in E.
  - apply Forall_map. eapply Forall_impl; [|apply digits_lt; lia]. intros d Hd. cbv beta in Hd. unfold decc. lia.
  - rewrite <- (digits_value 10 n) at 1 by lia. unfold undig. generalize (digits 10 n) 0.
    intros l. induction l as [|d l IH]; intros a; [reflexivity|]. cbn [fold_left map]. rewrite IH. f_equal. unfold decc. lia.
Qed.
Lemma dec_int_text z : (-2147483648 <= z < 2147483648)%Z -> int_text (dec_int z) z.
Proof.
  intros HR. split; [exact HR|]. unfold dec_int. destruct (z <? 0)%Z eqn:E.
  - exists (dec (Z.to_N (- z))), (Z.to_N (- z)). split; [apply dec_digits|]. right. right. split; [reflexivity|lia].
  - exists (dec (Z.to_N z)), (Z.to_N z). split; [apply dec_digits|]. left. split; [reflexivity|lia].
Qed.
Lemma thr_string_join l : thr_string l = join_comma (map dec_int l).
Proof.
  induction l as [|z l IH]; [reflexivity|]. destruct l as [|y l]; [reflexivity|].
  change (thr_string (z :: y :: l)) with (dec_int z ++ [ch_comma] ++ thr_string (y :: l)). now rewrite IH.
Qed.
Lemma thr_roundtrip sort l : l <> [] -> Forall (fun z => -2147483648 <= z < 2147483648)%Z l ->
  thr_set sort (thr_string l) = Some (sort l).
Proof.
  intros HN HF. apply thr_set_spec. exists (map dec_int l), l. rewrite thr_string_join.
  split; [destruct l; [congruence|discriminate]|]. split; [reflexivity|]. split; [|reflexivity].
  clear HN. induction HF as [|z l H HF IH]; constructor; [now apply dec_int_text|exact IH].
Qed.
Lemma sorted_perm (l : list Z) : Sorted Z.le l -> forall m, Sorted Z.le m -> Permutation l m -> l = m.
Proof.
  intros HL m HM HP. apply Sorted_StronglySorted in HL, HM; try (intros ? ? ?; lia).
  revert m HM HP. induction HL as [|x l HS IH HF]; intros m HM HP.
  - apply Permutation_nil in HP. now subst.
  - destruct m as [|y m]; [apply Permutation_sym, Permutation_nil in HP; discriminate HP|].
    inversion HM as [|? ? HM1 HM2]; subst.
    assert (x = y).
    { rewrite Forall_forall in HF, HM2.
      assert (HY : In y (x :: l)) by (eapply Permutation_in; [apply Permutation_sym; exact HP|now left]).
      assert (HX : In x (y :: m)) by (eapply Permutation_in; [exact HP|now left]).
      destruct HY as [HY|HY]; [exact HY|]. destruct HX as [HX|HX]; [now symmetry|].
      specialize (HF y HY). specialize (HM2 x HX). lia. }
    subst y. f_equal. apply IH; [exact HM1|]. now apply Permutation_cons_inv in HP.
Qed.
Lemma last_max l : Sorted Z.le l -> forall z, In z l -> (z <= last l 0)%Z.
Proof.
  intros HS. apply Sorted_StronglySorted in HS; [|intros ? ? ?; lia].
  induction HS as [|x l HS IH HF]; intros z HI; [contradiction|]. destruct l as [|y l].
  - destruct HI as [->|[]]. cbn. lia.
  - change (last (x :: y :: l) 0%Z) with (last (y :: l) 0%Z). destruct HI as [->|HI]; [|now apply IH].
    rewrite Forall_forall in HF. specialize (HF y (or_introl eq_refl)). specialize (IH y (or_introl eq_refl)). lia.
Qed.

(** * Sources *)
Lemma mon_vrps_minv break l : forall c, Forall ok_pdu (map snd l) -> (exists R, rinv2 (mo_rtr c) R) -> minv (mo_vrps c) ->
  minv (mo_vrps (mon_pdus break c l)).
Proof.
  induction l as [|[t p] l IH]; intros c HO (R & HR) HM; [exact HM|].
  cbn [map snd] in HO. inversion HO as [|? ? O1 O2]; subst. unfold mon_pdus. cbn [fold_left fst snd]. apply IH; [exact O2| |].
  - eexists. apply mon_step_pdu; [exact O1|exact HR].
  - destruct p; cbn [mon_handle fst mon_data mo_set_rtr mo_vrps mo_rtr]; try exact HM. apply HR.
Qed.
Lemma source_minv m : source m -> minv m.
Proof.
  intros [grace h H|break l H].
  - exact (proj1 (history grace h H)).
  - apply mon_vrps_minv; [exact H|exists (fun _ => False); apply rinv_nil|apply minv_nil].
Qed.
Lemma has_fun m o e e' : minv m -> has m o e -> has m o e' -> e = e'.
Proof.
  intros HM H1 H2. pose proof (has_proper m o e HM H1) as HP. apply has_gget in H1, H2; auto. congruence.
Qed.
Lemma file_objs_proper vs bs o : Forall (fun b => plain_ski (bj_ski b)) bs -> In o (file_objs vs bs) -> proper o.
Proof.
  intros P1 E2. unfold file_objs in E2. apply in_app_iff in E2. destruct E2 as [E2|E2].
  - apply in_flat_map in E2. destruct E2 as (v & _ & E2). destruct (parse_prefix (vj_prefix v)) as [p|] eqn:EP; [|contradiction].
    destruct (get_asn2 (vj_asn v)); [|contradiction]. destruct E2 as [<-|[]]. now apply parse_prefix_wf in EP.
  - apply in_map_iff in E2. destruct E2 as (b & <- & E2). rewrite Forall_forall in P1. exact (P1 b E2).
Qed.
Lemma listed_in cur vs bs now o : Forall (fun b => plain_ski (bj_ski b)) bs -> proper o ->
  (In o (file_objs vs bs) <-> gget (okey o) (listed_map cur vs bs now) <> None).
Proof.
  intros P1 HO. destruct (listed_filled cur vs bs now P1) as (F1 & F2 & F3).
  rewrite <- F3. split; [apply in_map|]. intros HI. apply in_map_iff in HI. destruct HI as (o' & E1 & E2).
  apply okey_inj in E1; [now subst o'| |exact HO]. now apply (file_objs_proper vs bs).
Qed.
Lemma invisible_number m : minv m -> number (nlen (filter invisible m)) (fun o => exists e, has m o e /\ m_visible e = false).
Proof.
  intros HM. apply eobjs_number; [now apply minv_filter|]. intros o. split.
  - intros (e & k & HI & HE). apply filter_In in HI. destruct HI as [HI HV]. exists e. split; [exists k; auto|].
    unfold invisible in HV. cbn [snd] in HV. now apply negb_true_iff in HV.
  - intros (e & (k & HI & HE) & HV). exists e, k. split; [|exact HE]. apply filter_In. split; [exact HI|].
    unfold invisible. cbn [snd]. now rewrite HV.
Qed.
