(** Theorems about the metrics page of rtrmon: C120. *)
From Coq Require Import String ZArith ZifyBool ZifyNat ZifyN.
From Verif Require Import Lib.Str Spec.MonPage Proofs.MonitorP Proofs.MonRunP Proofs.MonPageP Props.MonitorProps Props.MonRunProps.
From Coq Require Import List.
Import ListNotations.
Local Open Scope string_scope.
Local Open Scope list_scope.
Local Open Scope N_scope.

(** * C120 Every gauge describes the source its labels name *)
(** At rest and with something to report.  The gauges with a server label always; those with URLs
    only when the two sources have different ones (missing: always, see below). *)
Theorem C120_page_partial : forall cfg u ls s p, prun cfg u ls = Some (s, p) -> Forall good_label (steps_of ls) -> at_rest s -> ms_pub s <> None ->
  let told i := told_map cfg i (steps_of ls) in
  (forall i, let j := opposite i in
    shows_number p (SVrps i (u i) false) (fun o => exists e, has (told i) o e) /\
    shows_number p (SVrps i (u i) true) (fun o => shown (told i) o /\ ~ shown (told j) o) /\
    pget (SSerial i (u i)) p = Some (Z.of_N (if k_file cfg i then 0 else mo_serial (told_rtr cfg i (steps_of ls)))) /\
    (k_file cfg i = true \/ closed i (steps_of ls) = true ->
     pget (SSession i (u i)) p = Some (Z.of_N (if k_file cfg i then 0 else mo_session (told_rtr cfg i (steps_of ls))))) /\
    (delivered cfg i (steps_of ls) = true ->
     pget (SUpdate i (u i)) p = if k_file cfg i then newest (rounds_of i (steps_of ls)) else renewed i (steps_of ls)) /\
    pget (SState i (u i)) p = link i ls) /\
  (u Pri <> u Sec ->
    (forall i, if k_file cfg i
               then match newest (rounds_of i (steps_of ls)) with
                    | Some _ => shows_number p (SGrace (u i)) (fun o => exists e, has (told i) o e /\ m_visible e = false)
                    | None => pget (SGrace (u i)) p = None
                    end
               else pget (SGrace (u i)) p = None) /\
    (NoDup (k_thresholds cfg) -> exists clk, In (LPublish clk) (steps_of ls) /\
      forall i k t, nth_error (k_thresholds cfg) k = Some t -> (k_started cfg <= clk k - t)%Z ->
      shows_number p (SDiff (u i) (u (opposite i)) (dec_int t))
        (fun o => (exists e, has (told i) o e /\ m_visible e = true /\ (m_first e <= clk k - t)%Z) /\
                  forall e, has (told (opposite i)) o e -> m_visible e = false /\ (m_last e <= clk k - t)%Z))) /\
  (forall k, In k (map fst p) -> known cfg u k) /\ NoDup (map fst p).
Proof.
  intros cfg u ls s p HP HG HA HB. cbv zeta. destruct (reach_page cfg u ls s p HP) as (I1 & I2 & I3 & I4 & I5 & I6 & I7 & I8 & I9).
  pose proof (prun_mrun cfg u ls s p HP) as HR. destruct (ms_pub s) as [b|] eqn:EB; [clear HB|contradiction].
  cbn [option_map] in I1, I2, I3.
  destruct (C69_totals_partial cfg _ s b HG HR HA EB) as (T1 & _ & T2 & _ & T3).
  pose proof (C81_rest cfg _ s b HG HR HA EB) as HC. cbv zeta in HC. destruct (serve_diff s) as [[o1 o2] od].
  destruct HC as (_ & _ & D1 & D2 & clk & PC & PT & PN).
  split; [|split; [|split; [exact I8|exact I9]]].
  - intros i. pose proof (C82_metadata_partial cfg _ s b i HR HA EB) as (M1 & M2). fold (meta i b) in M1, M2. fold (upd i s) in M2.
    split; [exists (total i b); split; [exact (I1 i false)|destruct i; assumption]|].
    split; [exists (differ i b); split; [exact (I1 i true)|destruct i; assumption]|].
    split. { rewrite I2. do 2 f_equal. destruct (k_file cfg i); cbv zeta in M1; tauto. }
    split. { intros H. rewrite I3. do 2 f_equal. destruct (k_file cfg i); [tauto|]. destruct H as [H|H]; [discriminate H|]. cbv zeta in M1.
             destruct M1 as (_ & _ & _ & _ & _ & M1). exact (M1 H). }
    split; [|apply I5].
    intros H. rewrite I4, (M2 H). unfold delivered in H. destruct (k_file cfg i) eqn:EF.
    + destruct M1 as (_ & _ & _ & _ & _ & ->). destruct (newest (rounds_of i (steps_of ls))); [reflexivity|discriminate H].
    + cbv zeta in M1. destruct M1 as (_ & _ & _ & _ & -> & _).
      pose proof (run_placed_rtr cfg i EF _ s HR) as RP. unfold delivered in RP. rewrite EF, H in RP.
      assert (EPh : mc_phase (ms_c i s) = MIdle) by (destruct HA as (R1 & R2 & _); destruct i; assumption).
      rewrite EPh in RP. cbn [ended] in RP. rewrite orb_false_r in RP. unfold placed in RP. destruct (renewed i (steps_of ls)); [reflexivity|discriminate RP].
  - intros HU. split.
    + intros i. pose proof (I6 HU i) as I6i. pose proof (run_placed cfg i) as RP. destruct (k_file cfg i); [|exact I6i].
      specialize (RP eq_refl _ _ HR). unfold read_once in RP.
      assert (EPh : mc_phase (ms_c i s) = MIdle) by (destruct HA as (R1 & R2 & _); destruct i; assumption).
      rewrite EPh in RP. cbn [built] in RP. rewrite orb_false_r in RP. rewrite <- RP in I6i. cbn [andb] in I6i.
      destruct (newest (rounds_of i (steps_of ls))); [|exact I6i]. exists (mc_ingrace (ms_c i s)). split; [exact I6i|apply T3].
    + intros ND. exists clk. split; [exact PC|]. intros i k t EK HK.
      pose proof (nth_error_nth _ _ 0%Z EK) as EN. assert (LK : (k < length (k_thresholds cfg))%nat) by (apply nth_error_Some; congruence).
      assert (IT : In t (map (fun x => fst (fst x)) (pb_counts b))).
      { rewrite PT. apply in_map_iff. exists k. split; [exact EN|]. apply filter_In. split; [apply in_seq; lia|]. rewrite EN. lia. }
      apply in_map_iff in IT. destruct IT as (((t' & n1) & n2) & ET & IT). cbn [fst] in ET. subst t'.
      destruct (PN t n1 n2 IT) as (k' & now & EK' & -> & _ & N1 & N2).
      assert (k' = k). { apply (proj1 (NoDup_nth_error _) ND); [apply nth_error_Some; congruence|congruence]. } subst k'.
      destruct (in_split _ _ IT) as (l1 & l2 & EL).
      assert (HN : ~ In t (map (fun x => fst (fst x)) l2)).
      { assert (ND2 : NoDup (map (fun x : Z * N * N => fst (fst x)) (pb_counts b))).
        { rewrite PT. apply nodup_map_in; [|apply NoDup_filter, seq_NoDup]. intros x y HX HY E. apply filter_In in HX, HY.
          destruct HX as [HX _], HY as [HY _]. apply in_seq in HX, HY. apply (proj1 (NoDup_nth (k_thresholds cfg) 0%Z) ND); lia || exact E. }
        rewrite EL, map_app in ND2. cbn [map fst] in ND2. apply NoDup_remove_2 in ND2. intros HI. apply ND2, in_or_app. now right. }
      exists (cell i (t, n1, n2)). split; [exact (I7 HU i b l1 t n1 n2 l2 eq_refl EL HN)|]. destruct i; assumption.
Qed.
(** Before the first comparison the page shows connections and grace periods only. *)
Theorem C120_before : forall cfg u ls s p, prun cfg u ls = Some (s, p) -> ms_pub s = None ->
  forall i d, pget (SVrps i (u i) d) p = None /\ pget (SSerial i (u i)) p = None /\ pget (SSession i (u i)) p = None.
Proof.
  intros cfg u ls s p HP EB i d. destruct (reach_page cfg u ls s p HP) as (I1 & I2 & I3 & _). rewrite I1, I2, I3, EB. auto.
Qed.
(** Two sources with one URL: of the two numbers of a threshold the page shows the second for both.
    The primary has two objects the secondary has not, the page says zero. *)
Definition ls120 : list plabel := map PStep ([LFetch Pri 100 L2; LAssign Pri 100; LSend Pri] ++ cycle 100).
Theorem C120_same_url_refuted : exists x s p, prun cfgR (fun _ => x) ls120 = Some (s, p) /\ Forall good_label (steps_of ls120) /\ at_rest s /\ ms_pub s <> None /\
  pget (SDiff x x (dec_int 0)) p = Some 0%Z /\
  number 2 (fun o => (exists e, has (told_map cfgR Pri (steps_of ls120)) o e /\ m_visible e = true /\ (m_first e <= 100 - 0)%Z) /\
                     forall e, has (told_map cfgR Sec (steps_of ls120)) o e -> m_visible e = false /\ (m_last e <= 100 - 0)%Z).
Proof.
  assert (HG : Forall good_label (steps_of ls120)) by (repeat constructor; vm_compute; try reflexivity; intuition discriminate).
  exists (str "rpki:8282"). eexists. eexists. split; [vm_compute; reflexivity|]. split; [exact HG|].
  split; [vm_compute; auto|]. split; [vm_compute; discriminate|]. split; [vm_compute; reflexivity|].
  assert (HR : exists s b, mrun cfgR (steps_of ls120) = Some s /\ at_rest s /\ ms_pub s = Some b /\ pb_counts b = [(0%Z, 2, 0); (100%Z, 0, 0)]).
  { eexists. eexists. split; [vm_compute; reflexivity|]. split; [vm_compute; auto|]. split; vm_compute; reflexivity. }
  destruct HR as (s & b & HR & HA & HB & EC). pose proof (C81_rest cfgR _ s b HG HR HA HB) as HC. cbv zeta in HC.
  destruct (serve_diff s) as [[o1 o2'] od]. destruct HC as (_ & _ & _ & _ & clk & PC & _ & PN).
  destruct (PN 0%Z 2 0) as (k & now & _ & EN & _ & N1 & _); [rewrite EC; left; reflexivity|].
  assert (ECl : now = 100%Z).
  { destruct PC as [E|[E|[E|[E|[E|[E|[E|[]]]]]]]]; try discriminate E. injection E as <-. exact EN. }
  subst now. rewrite ECl in N1. exact N1.
Qed.
(** The same, with URLs that differ. *)
Definition u120 : urls := fun i => match i with Pri => str "https://a/vrps.json" | Sec => str "b:8282" end.
Definition ls120b : list plabel := PUp Sec :: map PStep ls81 ++ [PDown Sec; PUp Sec].
Example C120_case : exists s p, prun cfgR u120 ls120b = Some (s, p) /\ Forall good_label (steps_of ls120b) /\ at_rest s /\ ms_pub s <> None /\
  u120 Pri <> u120 Sec /\ NoDup (k_thresholds cfgR) /\ length p = 16%nat /\
  map (fun k => pget k p) [SVrps Pri (u120 Pri) false; SVrps Pri (u120 Pri) true; SVrps Sec (u120 Sec) true; SGrace (u120 Pri); SGrace (u120 Sec);
    SDiff (u120 Pri) (u120 Sec) (str "100"); SDiff (u120 Sec) (u120 Pri) (str "100"); SSession Sec (u120 Sec); SUpdate Pri (u120 Pri); SState Sec (u120 Sec); SState Pri (u120 Pri)] =
  [Some 3; Some 2; Some 1; Some 1; None; Some 2; Some 1; Some 7; Some 300; Some 1; None]%Z.
Proof.
  eexists. eexists. split; [vm_compute; reflexivity|]. split; [exact ls81_good|]. split; [vm_compute; auto|]. split; [vm_compute; discriminate|].
  split; [vm_compute; discriminate|]. split; [repeat constructor; cbn; intuition discriminate|]. split; vm_compute; reflexivity.
Qed.

Print Assumptions C120_page_partial.
Print Assumptions C120_before.
Print Assumptions C120_same_url_refuted.
