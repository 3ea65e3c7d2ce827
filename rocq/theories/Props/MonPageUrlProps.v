(** Theorem about rtrmon's metrics page when both sources have one URL: C120. *)
From Coq Require Import String ZArith ZifyBool ZifyNat ZifyN.
From Verif Require Import Lib.Str Spec.MonPage Proofs.MonitorP Proofs.MonitorP2 Proofs.MonProcP Proofs.MonRunP Proofs.MonPageP
  Props.MonitorProps Props.MonRunProps Props.MonPageProps.
From Coq Require Import List.
Import ListNotations.
Local Open Scope string_scope.
Local Open Scope list_scope.
Local Open Scope N_scope.

(** The file source that placed its newest map last. *)
Fixpoint last_file (cfg : mcfg) (ls : list mlabel) (o : option side) : option side :=
  match ls with
  | [] => o
  | LAssign j _ :: r => last_file cfg r (if k_file cfg j then Some j else o)
  | _ :: r => last_file cfg r o
  end.
Lemma last_file_snoc cfg ls l : forall o, last_file cfg (ls ++ [l]) o =
  match l with LAssign j _ => if k_file cfg j then Some j else last_file cfg ls o | _ => last_file cfg ls o end.
Proof.
  induction ls as [|x ls IH]; intros o; [destruct l; reflexivity|].
  destruct x; cbn [last_file app]; apply IH.
Qed.

Lemma sets_diff_sec u id p o a t n1 n2 b : pb_counts p = a ++ (t, n1, n2) :: b -> ~ In t (map (fun x => fst (fst x)) b) ->
  last_of (SDiff (u Sec) (u Pri) (dec_int t)) (compare_sets u id p) o = Some (Z.of_N n2).
Proof.
  intros E HN. unfold compare_sets. rewrite !last_app. fold (diff_sets u (pb_counts p)). rewrite E. unfold diff_sets.
  rewrite flat_map_app, last_app. cbn [flat_map]. rewrite last_app. set (o' := last_of _ _ (last_of _ _ o)). clearbody o'.
  set (k := SDiff _ _ _) in *.
  assert (T : forall o, last_of k (flat_map (fun '(t, n1, n2) => [(SDiff (u Pri) (u Sec) (dec_int t), Z.of_N n1); (SDiff (u Sec) (u Pri) (dec_int t), Z.of_N n2)]) b) o = o).
  { apply last_none. intros x HX. apply in_flat_map in HX. destruct HX as (((t' & m1) & m2) & HB & [<-|[<-|[]]]); cbn [fst]; intros EK;
      unfold k in EK; (injection EK as _ _ EK || injection EK as EK); apply dec_int_inj in EK; subst t'; apply HN;
      apply in_map_iff; exists (t, m1, m2); (split; [reflexivity|exact HB]). }
  rewrite T. clear T. unfold k.
  assert (R : forall o, last_of (SDiff (u Sec) (u Pri) (dec_int t)) [(SDiff (u Pri) (u Sec) (dec_int t), Z.of_N n1); (SDiff (u Sec) (u Pri) (dec_int t), Z.of_N n2)] o = Some (Z.of_N n2)).
  { intros o''. cbn [last_of fst snd]. kdec; reflexivity. }
  rewrite R. destruct id; cbn [last_of]; kdec; reflexivity.
Qed.

Definition url_inv (cfg : mcfg) (u : urls) (ls : list plabel) (s : mstate) (p : page) : Prop :=
  (forall b l t n1 n2 r, ms_pub s = Some b -> pb_counts b = l ++ (t, n1, n2) :: r -> ~ In t (map (fun x => fst (fst x)) r) ->
     pget (SDiff (u Sec) (u Pri) (dec_int t)) p = Some (Z.of_N n2)) /\
  (u Pri = u Sec -> forall i, pget (SGrace (u i)) p =
     match last_file cfg (steps_of ls) None with Some j => Some (Z.of_N (mc_ingrace (ms_c j s))) | None => None end).
Lemma reach_url cfg u ls : forall s p, prun cfg u ls = Some (s, p) -> url_inv cfg u ls s p.
Proof.
  induction ls as [|l ls IH] using rev_ind; intros s p H.
  { injection H as <- <-. split; [intros b l t n1 n2 r E; discriminate E|reflexivity]. }
  rewrite prun_snoc in H. unfold pstep in H. destruct (prun cfg u ls) as [[s0 p0]|] eqn:E; [|discriminate H].
  destruct (IH s0 p0 eq_refl) as (I1 & I2). unfold url_inv. rewrite steps_snoc. destruct l as [l|i|i].
  2,3: injection H as <- <-; rewrite app_nil_r; split;
    [intros b l t n1 n2 r EB EL HN; rewrite pget_set; cbn [fst]; kdec; exact (I1 b l t n1 n2 r EB EL HN)
    |intros HU j; rewrite pget_set; cbn [fst]; kdec; exact (I2 HU j)].
  destruct (mstep cfg s0 l) as [s1|] eqn:EM; [|discriminate H]. injection H as <- <-. rewrite last_file_snoc.
  destruct (silent_step l) eqn:ES.
  { replace (page_step u s0 l s1 p0) with p0 by (destruct l; try reflexivity; discriminate ES).
    assert (NP : no_publish l) by (destruct l; try exact I; discriminate ES).
    rewrite (step_pub cfg s0 l s1 EM NP). split; [exact I1|]. intros HU j. rewrite (I2 HU j).
    replace (match l with LAssign k _ => if k_file cfg k then Some k else last_file cfg (steps_of ls) None | _ => last_file cfg (steps_of ls) None end)
      with (last_file cfg (steps_of ls) None) by (destruct l; try reflexivity; discriminate ES).
    destruct (last_file cfg (steps_of ls) None) as [k|]; [|reflexivity]. now rewrite (step_grace cfg s0 l s1 EM ES k). }
  destruct l as [ | |j t| | | | |clk]; try discriminate ES.
  - rewrite (step_pub cfg s0 _ s1 EM Logic.I).
    pose proof (prun_mrun cfg u ls s0 p0 E) as HR. destruct (reach_ginv cfg _ s0 HR) as (G1 & _). destruct (G1 j) as (_ & _ & CJ).
    cbn [page_step mstep] in *. unfold step_assign in EM. destruct (mc_phase (ms_c j s0)) as [|m n t0|m r x e|] eqn:EPh; try discriminate EM.
    + assert (HF : k_file cfg j = true).
      { destruct (k_file cfg j); [reflexivity|]. unfold tinv in CJ. cbv zeta in CJ. rewrite EPh in CJ. tauto. }
      assert (EG : mc_ingrace (ms_c j s1) = n) by (injection EM as <-; rewrite ms_c_set, side_refl; reflexivity).
      rewrite HF. split.
      * intros b l t1 n1 n2 r EB EL HN. rewrite pget_set. cbn [fst]. kdec. exact (I1 b l t1 n1 n2 r EB EL HN).
      * intros HU i. rewrite pget_set. cbn [fst snd]. replace (u i) with (u j) by (destruct i, j; congruence). kdec. now rewrite EG.
    + assert (HF : k_file cfg j = false).
      { destruct (k_file cfg j); [|reflexivity]. unfold finv in CJ. cbv zeta in CJ. rewrite EPh in CJ. tauto. }
      assert (EG : forall i, mc_ingrace (ms_c i s1) = mc_ingrace (ms_c i s0)).
      { intros i. injection EM as <-. rewrite ms_c_set. destruct (side_dec j i) as [<-|NE]; [rewrite side_refl; reflexivity|now rewrite side_neq]. }
      rewrite HF. split; [exact I1|]. intros HU i. rewrite (I2 HU i). destruct (last_file cfg (steps_of ls) None); [now rewrite EG|reflexivity].
  - cbn [page_step].
    assert (HX : exists id v1 d1 v2 d2 o1 b, ms_comp s0 = KDiff id v1 d1 v2 d2 o1 /\ ms_pub s1 = Some b /\ (forall i, ms_c i s1 = ms_c i s0)).
    { cbn [mstep] in EM. unfold step_compare in EM. destruct (ms_comp s0); try discriminate EM. injection EM as <-.
      do 7 eexists. split; [reflexivity|]. split; [reflexivity|]. intros i; destruct i; reflexivity. }
    destruct HX as (id & v1 & d1 & v2 & d2 & o1 & b & EC & EB & EG). rewrite EC, EB. split.
    + intros b' l t n1 n2 r EB' EL HN. injection EB' as <-. rewrite pget_sets. exact (sets_diff_sec u id b _ l t n1 n2 r EL HN).
    + intros HU i. rewrite pget_sets, sets_other by (intros; discriminate). rewrite (I2 HU i).
      destruct (last_file cfg (steps_of ls) None); [now rewrite EG|reflexivity].
Qed.

(** * C120 What the two families of gauges without a server label show, whatever the URLs *)
(** vrp_diff with the secondary's URL first always shows what only the secondary has.  With one URL
    for both that series is also the primary's, whose number is nowhere on the page; and the gauge of
    the grace period shows the number of the file source that was read last. *)
Theorem C120_same_url_partial : forall cfg u ls s p, prun cfg u ls = Some (s, p) -> Forall good_label (steps_of ls) -> at_rest s -> ms_pub s <> None ->
  let told i := told_map cfg i (steps_of ls) in
  (NoDup (k_thresholds cfg) -> exists clk, In (LPublish clk) (steps_of ls) /\
    forall k t, nth_error (k_thresholds cfg) k = Some t -> (k_started cfg <= clk k - t)%Z ->
    shows_number p (SDiff (u Sec) (u Pri) (dec_int t))
      (fun o => (exists e, has (told Sec) o e /\ m_visible e = true /\ (m_first e <= clk k - t)%Z) /\
                forall e, has (told Pri) o e -> m_visible e = false /\ (m_last e <= clk k - t)%Z)) /\
  (u Pri = u Sec -> forall i,
    match last_file cfg (steps_of ls) None with
    | Some j => shows_number p (SGrace (u i)) (fun o => exists e, has (told j) o e /\ m_visible e = false)
    | None => pget (SGrace (u i)) p = None
    end).
Proof.
  intros cfg u ls s p HP HG HA HB told. destruct (reach_url cfg u ls s p HP) as (I1 & I2).
  pose proof (prun_mrun cfg u ls s p HP) as HR. destruct (ms_pub s) as [b|] eqn:EB; [clear HB|contradiction].
  destruct (C69_totals_partial cfg _ s b HG HR HA EB) as (T1 & _ & T2 & _ & T3).
  pose proof (C81_rest cfg _ s b HG HR HA EB) as HC. cbv zeta in HC. destruct (serve_diff s) as [[o1 o2] od].
  destruct HC as (_ & _ & D1 & D2 & clk & PC & PT & PN). split.
  - intros ND. exists clk. split; [exact PC|]. intros k t EK HK.
    pose proof (nth_error_nth _ _ 0%Z EK) as EN. assert (LK : (k < length (k_thresholds cfg))%nat) by (apply nth_error_Some; congruence).
    assert (IT : In t (map (fun x => fst (fst x)) (pb_counts b))).
    { rewrite PT. apply in_map_iff. exists k. split; [exact EN|]. apply filter_In. split; [apply in_seq; lia|]. rewrite EN. lia. }
    apply in_map_iff in IT. destruct IT as (((t' & n1) & n2) & ET & IT). cbn [fst] in ET. subst t'.
    destruct (PN t n1 n2 IT) as (k' & now & EK' & -> & _ & N1 & N2).
    assert (k' = k). { apply (proj1 (NoDup_nth_error _) ND); [apply nth_error_Some; congruence|congruence]. } subst k'.
    destruct (in_split _ _ IT) as (l1 & l2 & EL).
    assert (HN : ~ In t (map (fun x => fst (fst x)) l2)).
    { assert (ND2 : NoDup (map (fun x : Z * N * N => fst (fst x)) (pb_counts b))).
      { rewrite PT. apply nodup_map_in; [|apply NoDup_filter, seq_NoDup]. intros x y HX HY E. apply filter_In in HX, HY.
        destruct HX as [HX _], HY as [HY _]. apply in_seq in HX, HY. apply (proj1 (NoDup_nth (k_thresholds cfg) 0%Z) ND); lia || exact E. }
      rewrite EL, map_app in ND2. cbn [map fst] in ND2. apply NoDup_remove_2 in ND2. intros HI. apply ND2, in_or_app. now right. }
    exists n2. split; [exact (I1 b l1 t n1 n2 l2 eq_refl EL HN)|exact N2].
  - intros HU i. pose proof (I2 HU i) as H. destruct (last_file cfg (steps_of ls) None) as [j|]; [|exact H].
    exists (mc_ingrace (ms_c j s)). split; [exact H|apply T3].
Qed.
Print Assumptions C120_same_url_partial.

(** Both sources under one URL: two objects only the primary has, none only the secondary has. *)
Example C120_same_url_case : exists s p, prun cfgR (fun _ => str "rpki:8282") ls120 = Some (s, p) /\ Forall good_label (steps_of ls120) /\
  at_rest s /\ ms_pub s <> None /\ NoDup (k_thresholds cfgR) /\ last_file cfgR (steps_of ls120) None = Some Pri /\
  map (fun k => pget k p) [SVrps Pri (str "rpki:8282") true; SVrps Sec (str "rpki:8282") true;
    SDiff (str "rpki:8282") (str "rpki:8282") (str "0"); SGrace (str "rpki:8282")] = [Some 2; Some 0; Some 0; Some 0]%Z.
Proof.
  eexists. eexists. split; [vm_compute; reflexivity|]. split; [repeat constructor; vm_compute; try reflexivity; intuition discriminate|].
  split; [vm_compute; auto|]. split; [vm_compute; discriminate|]. split; [repeat constructor; cbn; intuition discriminate|].
  split; vm_compute; reflexivity.
Qed.
