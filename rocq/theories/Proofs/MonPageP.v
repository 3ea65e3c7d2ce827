(** Lemmas about rtrmon's metrics page. *)
From Coq Require Import ZArith ZifyBool ZifyNat ZifyN.
From Verif Require Import Lib.Str Spec.MonPage Proofs.MonitorP Proofs.MonitorP2 Proofs.MonProcP Proofs.MonRunP.
Local Open Scope N_scope.

(** * Decimal labels *)
Lemma dec_inj a b : dec a = dec b -> a = b.
Proof.
  intros E. pose proof (dec_digits a) as (_ & _ & A). pose proof (dec_digits b) as (_ & _ & B). rewrite E in A. congruence.
Qed.
Lemma dec_first a r : dec a = c_dash :: r -> False.
Proof.
  intros E. pose proof (dec_digits a) as (_ & A & _). rewrite E in A. inversion A as [|x l X _]. unfold c_dash in X. lia.
Qed.
Lemma dec_int_inj a b : dec_int a = dec_int b -> a = b.
Proof.
  unfold dec_int. destruct (a <? 0)%Z eqn:EA, (b <? 0)%Z eqn:EB; intros E.
  - injection E as E. apply dec_inj in E. lia.
  - symmetry in E. apply dec_first in E. contradiction.
  - apply dec_first in E. contradiction.
  - apply dec_inj in E. lia.
Qed.

(** * Gauges *)
Fixpoint last_of (k : series) (l : list (series * Z)) (o : option Z) : option Z :=
  match l with [] => o | (k', v) :: r => last_of k r (if series_dec k k' then Some v else o) end.
Lemma pget_filter k x p : k <> x -> pget k (filter (fun y : series * Z => if series_dec x (fst y) then false else true) p) = pget k p.
Proof.
  intros H. induction p as [|[y v] p IH]; [reflexivity|]. cbn [filter fst].
  destruct (series_dec x y) as [<-|]; cbn [pget]; [|now rewrite IH].
  destruct (series_dec k x); [contradiction|exact IH].
Qed.
Lemma pget_set k p x : pget k (pset p x) = if series_dec k (fst x) then Some (snd x) else pget k p.
Proof.
  destruct x as [y v]. unfold pset. cbn [pget fst snd]. destruct (series_dec k y); [reflexivity|]. now apply pget_filter.
Qed.
Lemma pget_sets k l : forall p, pget k (fold_left pset l p) = last_of k l (pget k p).
Proof.
  induction l as [|[y v] l IH]; intros p; [reflexivity|]. cbn [fold_left last_of]. rewrite IH, pget_set. reflexivity.
Qed.
Lemma last_app k a : forall b o, last_of k (a ++ b) o = last_of k b (last_of k a o).
Proof. induction a as [|[y v] a IH]; intros b o; [reflexivity|]. cbn [app last_of]. apply IH. Qed.
Lemma last_none k l : (forall x, In x l -> fst x <> k) -> forall o, last_of k l o = o.
Proof.
  induction l as [|[y v] l IH]; intros H o; [reflexivity|]. cbn [last_of].
  destruct (series_dec k y) as [<-|]; [exfalso; apply (H (k, v)); [left; reflexivity|reflexivity]|]. apply IH. intros x HX. apply H. now right.
Qed.
Lemma set_nodup p x : NoDup (map fst p) -> NoDup (map fst (pset p x)).
Proof.
  intros H. unfold pset. cbn [map]. constructor.
  - intros HI. apply in_map_iff in HI. destruct HI as (y & E & HI). apply filter_In in HI. destruct HI as [_ HI].
    destruct (series_dec (fst x) (fst y)); [discriminate HI|congruence].
  - induction p as [|y p IH]; [constructor|]. cbn [map] in H. apply NoDup_cons_iff in H. destruct H as [H1 H2]. cbn [filter].
    destruct (series_dec (fst x) (fst y)); [now apply IH|]. cbn [map]. constructor; [|now apply IH].
    intros HI. apply H1. apply in_map_iff in HI. destruct HI as (z & E & HI). apply filter_In in HI. rewrite <- E. apply in_map. tauto.
Qed.
Lemma set_keys (P : series -> Prop) p x : (forall y, In y (map fst p) -> P y) -> P (fst x) -> forall y, In y (map fst (pset p x)) -> P y.
Proof.
  intros H HX y [<-|HI]; [exact HX|]. apply in_map_iff in HI. destruct HI as (z & <- & HI). apply filter_In in HI. apply H, in_map. tauto.
Qed.
Lemma sets_keys (P : series -> Prop) l : forall p, (forall y, In y (map fst p) -> P y) -> (forall x, In x l -> P (fst x)) ->
  forall y, In y (map fst (fold_left pset l p)) -> P y.
Proof.
  induction l as [|x l IH]; intros p HP HL; [exact HP|]. cbn [fold_left]. apply IH; [|intros z HZ; apply HL; now right].
  apply set_keys; [exact HP|apply HL; left; reflexivity].
Qed.
Lemma sets_nodup l : forall p, NoDup (map fst p) -> NoDup (map fst (fold_left pset l p)).
Proof. induction l as [|x l IH]; intros p H; [exact H|]. cbn [fold_left]. apply IH, set_nodup, H. Qed.

(** * The gauges of a comparison *)
Definition total (i : side) (p : pub) : N := match i with Pri => pb_total1 p | Sec => pb_total2 p end.
Definition differ (i : side) (p : pub) : N := match i with Pri => pb_diff1 p | Sec => pb_diff2 p end.
Definition meta (i : side) (p : pub) : mdata := match i with Pri => pb_md1 p | Sec => pb_md2 p end.
Definition cell (i : side) (x : Z * N * N) : N := match i with Pri => snd (fst x) | Sec => snd x end.
Definition diff_sets (u : urls) (l : list (Z * N * N)) : list (series * Z) :=
  flat_map (fun '(t, n1, n2) => [(SDiff (u Pri) (u Sec) (dec_int t), Z.of_N n1); (SDiff (u Sec) (u Pri) (dec_int t), Z.of_N n2)]) l.
Lemma diff_none u l k : (forall a b c, k <> SDiff a b c) -> forall o, last_of k (diff_sets u l) o = o.
Proof.
  intros H. apply last_none. intros x HX. apply in_flat_map in HX. destruct HX as (((t & n1) & n2) & _ & [<-|[<-|[]]]); intros E; symmetry in E; apply H in E; exact E.
Qed.
Ltac kdec := repeat match goal with |- context [series_dec ?a ?b] => let H := fresh in destruct (series_dec a b) as [H|H]; [try discriminate H|try (exfalso; apply H; reflexivity)] end.
Lemma sets_other u id p k o : (forall a b c, k <> SDiff a b c) -> (forall i d, k <> SVrps i (u i) d) -> (forall i, k <> SSerial i (u i)) ->
  (forall i, k <> SSession i (u i)) -> (forall i, k <> SUpdate i (u i)) -> last_of k (compare_sets u id p) o = o.
Proof.
  intros H1 H2 H3 H4 H5. apply last_none. intros x HX E. unfold compare_sets in HX. apply in_app_or in HX. destruct HX as [HX|HX].
  - cbn [In] in HX. destruct HX as [<-|[<-|[<-|[<-|[]]]]]; symmetry in E; apply H2 in E; exact E.
  - apply in_app_or in HX. destruct HX as [HX|HX].
    + apply in_flat_map in HX. destruct HX as (((t & n1) & n2) & _ & [<-|[<-|[]]]); symmetry in E; apply H1 in E; exact E.
    + cbn [app In] in HX. destruct HX as [<-|[<-|[<-|[<-|HX]]]]; [symmetry in E; apply H3 in E; exact E..|symmetry in E; apply H4 in E; exact E|symmetry in E; apply H4 in E; exact E|].
      destruct id, HX as [<-|[]]; symmetry in E; apply H5 in E; exact E.
Qed.
Lemma sets_vrps u id p i d o : last_of (SVrps i (u i) d) (compare_sets u id p) o = Some (Z.of_N (if d then differ i p else total i p)).
Proof.
  unfold compare_sets. rewrite !last_app. fold (diff_sets u (pb_counts p)). rewrite diff_none by (intros a b c E; discriminate E).
  destruct i, d, id; cbn [last_of]; kdec; reflexivity.
Qed.
Lemma sets_serial u id p i o : last_of (SSerial i (u i)) (compare_sets u id p) o = Some (Z.of_N (md_serial (meta i p))).
Proof.
  unfold compare_sets. rewrite !last_app. fold (diff_sets u (pb_counts p)). rewrite diff_none by (intros a b c E; discriminate E).
  destruct i, id; cbn [last_of]; kdec; reflexivity.
Qed.
Lemma sets_session u id p i o : last_of (SSession i (u i)) (compare_sets u id p) o = Some (Z.of_N (md_session (meta i p))).
Proof.
  unfold compare_sets. rewrite !last_app. fold (diff_sets u (pb_counts p)). rewrite diff_none by (intros a b c E; discriminate E).
  destruct i, id; cbn [last_of]; kdec; reflexivity.
Qed.
Lemma sets_update u id p i o : last_of (SUpdate i (u i)) (compare_sets u id p) o = if side_eqb i id then Some (md_last (meta i p)) else o.
Proof.
  unfold compare_sets. rewrite !last_app. fold (diff_sets u (pb_counts p)). rewrite diff_none by (intros a b c E; discriminate E).
  destruct i, id; cbn [last_of side_eqb]; kdec; reflexivity.
Qed.
Lemma sets_diff u id p i o : u Pri <> u Sec -> forall a t n1 n2 b, pb_counts p = a ++ (t, n1, n2) :: b -> ~ In t (map (fun x => fst (fst x)) b) ->
  last_of (SDiff (u i) (u (opposite i)) (dec_int t)) (compare_sets u id p) o = Some (Z.of_N (cell i (t, n1, n2))).
Proof.
  intros HU a t n1 n2 b E HN. unfold compare_sets. rewrite !last_app. fold (diff_sets u (pb_counts p)). rewrite E. unfold diff_sets.
  rewrite flat_map_app, last_app. cbn [flat_map]. rewrite last_app. set (o' := last_of _ _ (last_of _ _ o)). clearbody o'.
  set (k := SDiff _ _ _) in *.
  assert (T : forall o, last_of k (flat_map (fun '(t, n1, n2) => [(SDiff (u Pri) (u Sec) (dec_int t), Z.of_N n1); (SDiff (u Sec) (u Pri) (dec_int t), Z.of_N n2)]) b) o = o).
  { apply last_none. intros x HX. apply in_flat_map in HX. destruct HX as (((t' & m1) & m2) & HB & [<-|[<-|[]]]); cbn [fst]; intros EK;
      unfold k in EK; injection EK as _ _ EK; apply dec_int_inj in EK; subst t'; apply HN;
      apply in_map_iff; exists (t, m1, m2); (split; [reflexivity|exact HB]). }
  rewrite T. clear T. unfold k.
  assert (R : forall o, last_of (SDiff (u i) (u (opposite i)) (dec_int t)) [(SDiff (u Pri) (u Sec) (dec_int t), Z.of_N n1); (SDiff (u Sec) (u Pri) (dec_int t), Z.of_N n2)] o = Some (Z.of_N (cell i (t, n1, n2)))).
  { intros o''. destruct i; cbn [last_of opposite cell fst snd]; kdec; try reflexivity; exfalso; congruence. }
  rewrite R. destruct id; cbn [last_of]; kdec; reflexivity.
Qed.
Lemma sets_known cfg u id p : (forall x, In x (pb_counts p) -> In (fst (fst x)) (k_thresholds cfg)) ->
  forall x, In x (compare_sets u id p) -> known cfg u (fst x).
Proof.
  intros HT x HX. unfold compare_sets in HX. apply in_app_or in HX. destruct HX as [HX|HX].
  - cbn [In] in HX. destruct HX as [<-|[<-|[<-|[<-|[]]]]]; [apply (known_vrps _ _ Pri)|apply (known_vrps _ _ Pri)|apply (known_vrps _ _ Sec)|apply (known_vrps _ _ Sec)].
  - apply in_app_or in HX. destruct HX as [HX|HX].
    + apply in_flat_map in HX. destruct HX as (((t & n1) & n2) & HC & HX). apply HT in HC. cbn [fst] in HC.
      destruct HX as [<-|[<-|[]]]; [apply (known_diff cfg u Pri t HC)|apply (known_diff cfg u Sec t HC)].
    + cbn [app In] in HX. destruct HX as [<-|[<-|[<-|[<-|HX]]]]; [apply (known_serial _ _ Pri)|apply (known_serial _ _ Sec)|apply (known_session _ _ Pri)|apply (known_session _ _ Sec)|].
      destruct id, HX as [<-|[]]; [apply (known_update _ _ Pri)|apply (known_update _ _ Sec)].
Qed.

(** * The page of a run *)
Lemma prun_snoc cfg u ls l : prun cfg u (ls ++ [l]) = pstep cfg u (prun cfg u ls) l.
Proof. unfold prun. now rewrite fold_left_app. Qed.
Lemma steps_snoc ls l : steps_of (ls ++ [l]) = steps_of ls ++ match l with PStep l => [l] | _ => [] end.
Proof. unfold steps_of. rewrite flat_map_app. cbn [flat_map]. now rewrite app_nil_r. Qed.
Lemma prun_mrun cfg u ls : forall s p, prun cfg u ls = Some (s, p) -> mrun cfg (steps_of ls) = Some s.
Proof.
  induction ls as [|l ls IH] using rev_ind; intros s p H; [injection H as <- _; reflexivity|].
  rewrite prun_snoc in H. unfold pstep in H. destruct (prun cfg u ls) as [[s0 p0]|] eqn:E; [|discriminate H].
  specialize (IH s0 p0 eq_refl). rewrite steps_snoc. destruct l as [l|i|i].
  - destruct (mstep cfg s0 l) as [s1|] eqn:EM; [|discriminate H]. injection H as <- _. now rewrite mrun_snoc, IH.
  - injection H as <- _. now rewrite app_nil_r.
  - injection H as <- _. now rewrite app_nil_r.
Qed.
Definition placed (i : side) (ls : list mlabel) : bool := match renewed i ls with Some _ => true | None => false end.
Lemma renewed_snoc i ls l : renewed i (ls ++ [l]) = match l with LAssign j t => if side_eqb i j then Some t else renewed i ls | _ => renewed i ls end.
Proof. unfold renewed. rewrite fold_left_app. reflexivity. Qed.
Lemma link_snoc i ls l : link i (ls ++ [l]) = match l with
    | PUp j => if side_eqb i j then Some 1%Z else link i ls
    | PDown j => if side_eqb i j then Some 0%Z else link i ls
    | PStep _ => link i ls end.
Proof. unfold link. rewrite fold_left_app. reflexivity. Qed.

(** What the page shows, in terms of the state of the process. *)
Definition page_inv (cfg : mcfg) (u : urls) (ls : list plabel) (s : mstate) (p : page) : Prop :=
  (forall i d, pget (SVrps i (u i) d) p = option_map (fun b => Z.of_N (if d then differ i b else total i b)) (ms_pub s)) /\
  (forall i, pget (SSerial i (u i)) p = option_map (fun b => Z.of_N (md_serial (meta i b))) (ms_pub s)) /\
  (forall i, pget (SSession i (u i)) p = option_map (fun b => Z.of_N (md_session (meta i b))) (ms_pub s)) /\
  (forall i, pget (SUpdate i (u i)) p = upd i s) /\
  (forall i, pget (SState i (u i)) p = link i ls) /\
  (u Pri <> u Sec -> forall i, pget (SGrace (u i)) p =
     if k_file cfg i && placed i (steps_of ls) then Some (Z.of_N (mc_ingrace (ms_c i s))) else None) /\
  (u Pri <> u Sec -> forall i b l t n1 n2 r, ms_pub s = Some b -> pb_counts b = l ++ (t, n1, n2) :: r ->
     ~ In t (map (fun x => fst (fst x)) r) ->
     pget (SDiff (u i) (u (opposite i)) (dec_int t)) p = Some (Z.of_N (cell i (t, n1, n2)))) /\
  (forall k, In k (map fst p) -> known cfg u k) /\ NoDup (map fst p).
(** Steps that touch neither the page nor what it shows. *)
Definition silent_step (l : mlabel) : bool := match l with LAssign _ _ | LPublish _ => false | _ => true end.
Lemma step_grace cfg s l s' : mstep cfg s l = Some s' -> silent_step l = true -> forall i,
  mc_ingrace (ms_c i s') = mc_ingrace (ms_c i s).
Proof.
  intros H HS i. destruct l as [j t r|j t q|j t|j| | | |clk]; try discriminate HS; cbn [mstep] in H.
  - unfold step_fetch in H. destruct (k_file cfg j); [|discriminate H]. destruct (mc_phase (ms_c j s)); try (destruct r; discriminate H).
    destruct r; try (destruct (update_refs _ _ _ _) as [[h m] n]); try (destruct (build_refs _ _ _ _ _ _) as [[h m] n]); injection H as <-; try reflexivity;
      rewrite ms_c_set; (destruct (side_dec j i) as [<-|E]; [rewrite side_refl; reflexivity|now rewrite side_neq]).
  - unfold step_pdu in H. destruct (k_file cfg j); [discriminate H|]. destruct (mc_phase (ms_c j s)); try discriminate H.
    assert (D : forall f k e h, mc_ingrace (snd (data_ref f k e h (ms_c j s))) = mc_ingrace (ms_c j s)) by (intros f k e h; unfold data_ref; destruct (f =? FLAG_ADDED); reflexivity).
    match type of H with (let '(_, _) := ?X in _) = _ => assert (EX : mc_ingrace (snd X) = mc_ingrace (ms_c j s)) by (destruct q; first [apply D|reflexivity]); destruct X as [h c'] end.
    injection H as <-. rewrite ms_c_set. destruct (side_dec j i) as [<-|E]; [rewrite side_refl; exact EX|now rewrite side_neq].
  - unfold step_send in H. destruct (mc_phase (ms_c j s)); try discriminate H. destruct (ms_comp s); try discriminate H. injection H as <-.
    transitivity (mc_ingrace (ms_c i (set_c j (set_mphase MIdle (ms_c j s)) (ms_heap s) s))); [now destruct i|].
    rewrite ms_c_set. destruct (side_dec j i) as [<-|E]; [rewrite side_refl; reflexivity|now rewrite side_neq].
  - unfold step_compare in H. destruct (ms_comp s); try discriminate H. destruct (get_data (ms_c1 s)). injection H as <-. now destruct i.
  - unfold step_compare in H. destruct (ms_comp s); try discriminate H. destruct (get_data (ms_c2 s)). injection H as <-. now destruct i.
  - unfold step_compare in H. destruct (ms_comp s); try discriminate H. injection H as <-. now destruct i.
Qed.
Lemma step_upd cfg s l s' : mstep cfg s l = Some s' -> no_publish l -> forall i, upd i s' = upd i s.
Proof.
  intros H HS i. destruct l as [j t r|j t q|j t|j| | | |clk]; try contradiction HS; cbn [mstep] in H.
  - unfold step_fetch in H. destruct (k_file cfg j); [|discriminate H]. destruct (mc_phase (ms_c j s)); try (destruct r; discriminate H).
    destruct r; try (destruct (update_refs _ _ _ _) as [[h m] n]); try (destruct (build_refs _ _ _ _ _ _) as [[h m] n]); injection H as <-;
      first [reflexivity|apply upd_set].
  - unfold step_pdu in H. destruct (k_file cfg j); [discriminate H|]. destruct (mc_phase (ms_c j s)); try discriminate H.
    match type of H with (let '(_, _) := ?X in _) = _ => destruct X as [h c'] end. injection H as <-. apply upd_set.
  - unfold step_assign in H. destruct (mc_phase (ms_c j s)); try discriminate H; injection H as <-; apply upd_set.
  - unfold step_send in H. destruct (mc_phase (ms_c j s)); try discriminate H. destruct (ms_comp s); try discriminate H. injection H as <-.
    transitivity (upd i (set_c j (set_mphase MIdle (ms_c j s)) (ms_heap s) s)); [now destruct i|]. apply upd_set.
  - unfold step_compare in H. destruct (ms_comp s); try discriminate H. destruct (get_data (ms_c1 s)). injection H as <-. now destruct i.
  - unfold step_compare in H. destruct (ms_comp s); try discriminate H. destruct (get_data (ms_c2 s)). injection H as <-. now destruct i.
  - unfold step_compare in H. destruct (ms_comp s); try discriminate H. injection H as <-. now destruct i.
Qed.

Lemma counts_known cfg s clk s' b : mstep cfg s (LPublish clk) = Some s' -> ms_pub s' = Some b ->
  forall x, In x (pb_counts b) -> In (fst (fst x)) (k_thresholds cfg).
Proof.
  cbn [mstep]. unfold step_compare. destruct (ms_comp s); try discriminate. intros H. injection H as <-. cbn [ms_pub]. intros H. injection H as <-.
  cbn [pb_counts]. unfold pub_counts, timed. intros x HX. apply in_flat_map in HX. destruct HX as ((t & now) & HC & HX).
  destruct (k_started cfg <=? now - t)%Z; [|contradiction HX]. destruct HX as [<-|[]]. cbn [fst]. exact (in_combine_l _ _ _ _ HC).
Qed.
Lemma inv_init cfg u : page_inv cfg u [] ms_init [].
Proof.
  split; [reflexivity|]. split; [reflexivity|]. split; [reflexivity|]. split; [intros []; reflexivity|]. split; [reflexivity|].
  split; [intros _ i; cbn [steps_of flat_map]; unfold placed, renewed; cbn [fold_left]; now rewrite andb_false_r|].
  split; [intros _ i b l t n1 n2 r H; discriminate H|]. split; [intros k []|constructor].
Qed.
(** One gauge is set that the others do not share. *)
Lemma inv_silent cfg u ls s p l s' : page_inv cfg u ls s p -> mstep cfg s l = Some s' -> silent_step l = true ->
  page_inv cfg u (ls ++ [PStep l]) s' p.
Proof.
  intros (I1 & I2 & I3 & I4 & I5 & I6 & I7 & I8 & I9) HM HS.
  assert (NP : no_publish l) by (destruct l; try exact I; discriminate HS).
  pose proof (step_pub cfg s l s' HM NP) as EP. pose proof (step_upd cfg s l s' HM NP) as EU. pose proof (step_grace cfg s l s' HM HS) as EG.
  split; [now rewrite EP|]. split; [now rewrite EP|]. split; [now rewrite EP|]. split; [intros i; rewrite EU; apply I4|].
  split; [intros i; rewrite link_snoc; apply I5|].
  split.
  { intros HU i. rewrite steps_snoc, EG. unfold placed. rewrite renewed_snoc.
    replace (match l with LAssign j t => if side_eqb i j then Some t else renewed i (steps_of ls) | _ => renewed i (steps_of ls) end)
      with (renewed i (steps_of ls)) by (destruct l; try reflexivity; discriminate HS). apply I6, HU. }
  split; [rewrite EP; exact I7|]. split; [exact I8|exact I9].
Qed.
Lemma inv_publish cfg u ls s p clk s' : page_inv cfg u ls s p -> mstep cfg s (LPublish clk) = Some s' ->
  page_inv cfg u (ls ++ [PStep (LPublish clk)]) s' (page_step u s (LPublish clk) s' p).
Proof.
  intros (I1 & I2 & I3 & I4 & I5 & I6 & I7 & I8 & I9) HM. cbn [page_step].
  pose proof (counts_known cfg s clk s') as HK.
  assert (HX : exists id v1 d1 v2 d2 o1 b, ms_comp s = KDiff id v1 d1 v2 d2 o1 /\ ms_pub s' = Some b /\
    (forall i, upd i s' = if side_eqb i id then Some (md_last (meta i b)) else upd i s) /\ (forall i, ms_c i s' = ms_c i s)).
  { clear HK. cbn [mstep] in HM. unfold step_compare in HM. destruct (ms_comp s); try discriminate HM. injection HM as <-.
    do 7 eexists. split; [reflexivity|]. split; [reflexivity|]. split; [intros i; destruct i, id; reflexivity|intros i; destruct i; reflexivity]. }
  destruct HX as (id & v1 & d1 & v2 & d2 & o1 & b & EC & EB & EU & EM). rewrite EC, EB. specialize (HK b HM EB). clear EC.
  split; [intros i d; rewrite pget_sets, sets_vrps, EB; reflexivity|].
  split; [intros i; rewrite pget_sets, sets_serial, EB; reflexivity|].
  split; [intros i; rewrite pget_sets, sets_session, EB; reflexivity|].
  split; [intros i; rewrite pget_sets, sets_update, EU, I4; reflexivity|].
  split; [intros i; rewrite pget_sets, sets_other, link_snoc by (intros; discriminate); apply I5|].
  split.
  { intros HU i. rewrite pget_sets, sets_other by (intros; discriminate). rewrite steps_snoc, EM. unfold placed. rewrite renewed_snoc. apply I6, HU. }
  split.
  { intros HU i b' l t n1 n2 r E EL HN. rewrite EB in E. injection E as <-. rewrite pget_sets. exact (sets_diff u id b i _ HU l t n1 n2 r EL HN). }
  split; [apply sets_keys; [exact I8|apply sets_known, HK]|apply sets_nodup, I9].
Qed.
Lemma inv_link cfg u ls s p i b : page_inv cfg u ls s p ->
  page_inv cfg u (ls ++ [if b : bool then PUp i else PDown i]) s (pset p (SState i (u i), if b then 1%Z else 0%Z)).
Proof.
  intros (I1 & I2 & I3 & I4 & I5 & I6 & I7 & I8 & I9).
  assert (ST : steps_of (ls ++ [if b then PUp i else PDown i]) = steps_of ls) by (rewrite steps_snoc; destruct b; apply app_nil_r).
  assert (G : forall k, k <> SState i (u i) -> pget k (pset p (SState i (u i), if b then 1%Z else 0%Z)) = pget k p).
  { intros k HK. rewrite pget_set. cbn [fst]. destruct (series_dec k (SState i (u i))); [contradiction|reflexivity]. }
  split; [intros j d; rewrite G by discriminate; apply I1|].
  split; [intros j; rewrite G by discriminate; apply I2|].
  split; [intros j; rewrite G by discriminate; apply I3|].
  split; [intros j; rewrite G by discriminate; apply I4|].
  split.
  { intros j. rewrite link_snoc. destruct (side_dec j i) as [->|E].
    - rewrite pget_set. cbn [fst snd]. destruct (series_dec (SState i (u i)) (SState i (u i))); [|contradiction]. destruct b; now rewrite side_refl.
    - rewrite G by (intros H; injection H as H _; contradiction). destruct b; rewrite (side_neq j i E); apply I5. }
  split; [intros HU j; rewrite G, ST by discriminate; apply I6, HU|].
  split; [intros HU j b' l t n1 n2 r E EL HN; rewrite G by discriminate; exact (I7 HU j b' l t n1 n2 r E EL HN)|].
  split; [apply set_keys; [exact I8|apply known_state]|apply set_nodup, I9].
Qed.
Lemma inv_assign cfg u ls s p j t s' : page_inv cfg u ls s p -> mrun cfg (steps_of ls) = Some s -> mstep cfg s (LAssign j t) = Some s' ->
  page_inv cfg u (ls ++ [PStep (LAssign j t)]) s' (page_step u s (LAssign j t) s' p).
Proof.
  intros (I1 & I2 & I3 & I4 & I5 & I6 & I7 & I8 & I9) HR HM.
  pose proof (step_pub cfg s _ s' HM Logic.I) as EP. pose proof (step_upd cfg s _ s' HM Logic.I) as EU.
  destruct (reach_ginv cfg _ s HR) as (G1 & _). destruct (G1 j) as (_ & _ & CJ).
  cbn [page_step mstep] in *. unfold step_assign in HM.
  assert (RN : forall i, placed i (steps_of (ls ++ [PStep (LAssign j t)])) = side_eqb i j || placed i (steps_of ls)).
  { intros i. rewrite steps_snoc. unfold placed. rewrite renewed_snoc. now destruct (side_eqb i j). }
  destruct (mc_phase (ms_c j s)) as [|m n t0|m r x e|] eqn:EPh; try discriminate HM.
  - assert (HF : k_file cfg j = true).
    { destruct (k_file cfg j); [reflexivity|]. unfold tinv in CJ. cbv zeta in CJ. rewrite EPh in CJ. tauto. }
    assert (EM : forall i, mc_ingrace (ms_c i s') = if side_eqb j i then n else mc_ingrace (ms_c i s)).
    { intros i. injection HM as <-. rewrite ms_c_set. now destruct (side_eqb j i). }
    assert (G : forall k, k <> SGrace (u j) -> pget k (pset p (SGrace (u j), Z.of_N n)) = pget k p).
    { intros k HK. rewrite pget_set. cbn [fst]. destruct (series_dec k (SGrace (u j))); [contradiction|reflexivity]. }
    clear HM. split; [intros i d; rewrite G, EP by discriminate; apply I1|].
    split; [intros i; rewrite G, EP by discriminate; apply I2|].
    split; [intros i; rewrite G, EP by discriminate; apply I3|].
    split; [intros i; rewrite G, EU by discriminate; apply I4|].
    split; [intros i; rewrite G, link_snoc by discriminate; apply I5|].
    split.
    { intros HU i. rewrite RN, EM. destruct (side_dec i j) as [->|E].
      - rewrite pget_set. cbn [fst snd]. destruct (series_dec (SGrace (u j)) (SGrace (u j))); [|contradiction]. rewrite side_refl, HF. reflexivity.
      - rewrite G by (intros H; injection H as H; destruct i, j; congruence). rewrite (side_neq i j E), (side_neq j i) by congruence. apply I6, HU. }
    split; [rewrite EP; intros HU i b l t1 n1 n2 r E EL HN; rewrite G by discriminate; exact (I7 HU i b l t1 n1 n2 r E EL HN)|].
    split; [apply set_keys; [exact I8|now apply known_grace]|apply set_nodup, I9].
  - assert (HF : k_file cfg j = false).
    { destruct (k_file cfg j); [|reflexivity]. unfold finv in CJ. cbv zeta in CJ. rewrite EPh in CJ. tauto. }
    assert (EM : forall i, mc_ingrace (ms_c i s') = mc_ingrace (ms_c i s)).
    { intros i. injection HM as <-. rewrite ms_c_set. destruct (side_dec j i) as [<-|E]; [rewrite side_refl; reflexivity|now rewrite side_neq]. }
    clear HM. split; [now rewrite EP|]. split; [now rewrite EP|]. split; [now rewrite EP|]. split; [intros i; rewrite EU; apply I4|].
    split; [intros i; rewrite link_snoc; apply I5|].
    split.
    { intros HU i. rewrite RN, EM. destruct (side_dec i j) as [->|E]; [|rewrite (side_neq i j E); apply I6, HU].
      rewrite (I6 HU j), HF. reflexivity. }
    split; [rewrite EP; exact I7|]. split; [exact I8|exact I9].
Qed.
Theorem reach_page cfg u ls : forall s p, prun cfg u ls = Some (s, p) -> page_inv cfg u ls s p.
Proof.
  induction ls as [|l ls IH] using rev_ind; intros s p H; [injection H as <- <-; apply inv_init|].
  rewrite prun_snoc in H. unfold pstep in H. destruct (prun cfg u ls) as [[s0 p0]|] eqn:E; [|discriminate H].
  specialize (IH s0 p0 eq_refl). destruct l as [l|i|i].
  - destruct (mstep cfg s0 l) as [s1|] eqn:EM; [|discriminate H]. injection H as <- <-.
    destruct (silent_step l) eqn:ES.
    + replace (page_step u s0 l s1 p0) with p0 by (destruct l; try reflexivity; discriminate ES). eapply inv_silent; eassumption.
    + destruct l; try discriminate ES; [|apply inv_publish; assumption]. apply inv_assign; [assumption| |assumption].
      exact (prun_mrun cfg u ls s0 p0 E).
  - injection H as <- <-. exact (inv_link cfg u ls s0 p0 i true IH).
  - injection H as <- <-. exact (inv_link cfg u ls s0 p0 i false IH).
Qed.

(** A file that gave something has its gauge. *)
Definition built (c : cphase) : bool := match c with MBuilt _ _ _ => true | _ => false end.
Definition read_once (i : side) (ls : list mlabel) : bool := match newest (rounds_of i ls) with Some _ => true | None => false end.
Lemma run_placed cfg i : k_file cfg i = true -> forall ls s, mrun cfg ls = Some s ->
  read_once i ls = placed i ls || built (mc_phase (ms_c i s)).
Proof.
  intros HF. induction ls as [|l ls IH] using rev_ind; intros s H; [injection H as <-; destruct i; reflexivity|].
  rewrite mrun_snoc in H. destruct (mrun cfg ls) as [s0|] eqn:ER; [|discriminate H]. specialize (IH s0 eq_refl).
  unfold read_once, placed in *. rewrite rounds_snoc, renewed_snoc.
  destruct l as [j t r|j t q|j t|j| | | |clk]; cbn [mstep] in H.
  - unfold step_fetch in H. destruct (k_file cfg j) eqn:EF; [|discriminate H]. destruct (mc_phase (ms_c j s0)) eqn:EP; try (destruct r; discriminate H).
    destruct (side_dec i j) as [<-|E].
    + rewrite side_refl. rewrite EP in IH. cbn [built] in IH. rewrite orb_false_r in IH.
      destruct r; try (destruct (update_refs _ _ _ _) as [[h m] n]); try (destruct (build_refs _ _ _ _ _ _) as [[h m] n]); injection H as <-; cbn [newest];
        try (rewrite EP; cbn [built]; rewrite orb_false_r; exact IH);
        rewrite ms_c_set, side_refl; cbn [set_mphase mc_phase built]; now rewrite orb_true_r.
    + rewrite (side_neq i j E). rewrite IH. f_equal.
      destruct r; try (destruct (update_refs _ _ _ _) as [[h m] n]); try (destruct (build_refs _ _ _ _ _ _) as [[h m] n]); injection H as <-;
        try reflexivity; rewrite ms_c_set, (side_neq j i) by congruence; reflexivity.
  - unfold step_pdu in H. destruct (k_file cfg j) eqn:EF; [discriminate H|]. assert (E : j <> i) by congruence.
    destruct (mc_phase (ms_c j s0)) eqn:EP; try discriminate H.
    match type of H with (let '(_, _) := ?X in _) = _ => destruct X as [h c'] end. injection H as <-. rewrite ms_c_set, (side_neq j i E). exact IH.
  - unfold step_assign in H. destruct (side_dec i j) as [<-|E].
    + rewrite side_refl. cbn [orb]. assert (EX : match newest (rounds_of i ls) with Some _ => true | None => false end = true); [|exact EX].
      rewrite IH. destruct (mc_phase (ms_c i s0)) eqn:EP; try discriminate H; [apply orb_true_r|].
      exfalso. destruct (reach_ginv cfg ls s0 ER) as (G1 & _). destruct (G1 i) as (_ & _ & C). rewrite HF in C. unfold finv in C. cbv zeta in C. rewrite EP in C. tauto.
    + rewrite (side_neq i j E), IH. f_equal. destruct (mc_phase (ms_c j s0)); try discriminate H; injection H as <-; rewrite ms_c_set, (side_neq j i) by congruence; reflexivity.
  - unfold step_send in H. destruct (mc_phase (ms_c j s0)) eqn:EP; try discriminate H. destruct (ms_comp s0); try discriminate H. injection H as <-.
    rewrite IH. f_equal. transitivity (built (mc_phase (ms_c i (set_c j (set_mphase MIdle (ms_c j s0)) (ms_heap s0) s0)))); [|now destruct i].
    rewrite ms_c_set. destruct (side_dec j i) as [<-|E]; [rewrite side_refl, EP; reflexivity|now rewrite side_neq].
  - unfold step_compare in H. destruct (ms_comp s0); try discriminate H. destruct (get_data (ms_c1 s0)). injection H as <-. rewrite IH. now destruct i.
  - unfold step_compare in H. destruct (ms_comp s0); try discriminate H. destruct (get_data (ms_c2 s0)). injection H as <-. rewrite IH. now destruct i.
  - unfold step_compare in H. destruct (ms_comp s0); try discriminate H. injection H as <-. rewrite IH. now destruct i.
  - unfold step_compare in H. destruct (ms_comp s0); try discriminate H. injection H as <-. rewrite IH. now destruct i.
Qed.
Definition ended (c : cphase) : bool := match c with MEod _ _ _ _ => true | _ => false end.
Lemma run_placed_rtr cfg i : k_file cfg i = false -> forall ls s, mrun cfg ls = Some s ->
  delivered cfg i ls = placed i ls || ended (mc_phase (ms_c i s)).
Proof.
  intros HF. unfold delivered. rewrite HF. induction ls as [|l ls IH] using rev_ind; intros s H; [injection H as <-; destruct i; reflexivity|].
  rewrite mrun_snoc in H. destruct (mrun cfg ls) as [s0|] eqn:ER; [|discriminate H]. specialize (IH s0 eq_refl).
  unfold placed in *. rewrite pdus_snoc, renewed_snoc.
  destruct l as [j t r|j t q|j t|j| | | |clk]; cbn [mstep] in H; try rewrite IH.
  - unfold step_fetch in H. destruct (k_file cfg j) eqn:EF; [|discriminate H]. assert (E : j <> i) by congruence.
    destruct (mc_phase (ms_c j s0)); try (destruct r; discriminate H). f_equal.
    destruct r; try (destruct (update_refs _ _ _ _) as [[h m] n]); try (destruct (build_refs _ _ _ _ _ _) as [[h m] n]); injection H as <-;
      try reflexivity; rewrite ms_c_set, (side_neq j i E); reflexivity.
  - unfold step_pdu in H. destruct (k_file cfg j) eqn:EF; [discriminate H|].
    destruct (mc_phase (ms_c j s0)) eqn:EP; try discriminate H.
    destruct (side_dec i j) as [<-|E].
    + rewrite side_refl, existsb_app, IH, EP. cbn [ended existsb fst snd]. rewrite !orb_false_r.
      assert (D : forall f k e h, mc_phase (snd (data_ref f k e h (ms_c i s0))) = mc_phase (ms_c i s0)) by (intros f k e h; unfold data_ref; destruct (f =? FLAG_ADDED); reflexivity).
      match type of H with (let '(_, _) := ?X in _) = _ => assert (EX : ended (mc_phase (snd X)) = (get_type q =? PDU_ID_END_OF_DATA))
        by (destruct q; first [cbn [snd]; rewrite ?EP; reflexivity|rewrite D, EP; reflexivity]); destruct X as [h c'] end.
      cbn [snd] in EX. injection H as <-. rewrite ms_c_set, side_refl, EX. reflexivity.
    + rewrite (side_neq i j E), IH. f_equal.
      match type of H with (let '(_, _) := ?X in _) = _ => destruct X as [h c'] end. injection H as <-. rewrite ms_c_set, (side_neq j i) by congruence. reflexivity.
  - unfold step_assign in H. destruct (side_dec i j) as [<-|E].
    + rewrite side_refl. cbn [orb]. destruct (mc_phase (ms_c i s0)) eqn:EP; try discriminate H; [|apply orb_true_r].
      exfalso. destruct (reach_ginv cfg ls s0 ER) as (G1 & _). destruct (G1 i) as (_ & _ & C). rewrite HF in C. unfold tinv in C. cbv zeta in C. rewrite EP in C. tauto.
    + rewrite (side_neq i j E). f_equal. destruct (mc_phase (ms_c j s0)); try discriminate H; injection H as <-; rewrite ms_c_set, (side_neq j i) by congruence; reflexivity.
  - unfold step_send in H. destruct (mc_phase (ms_c j s0)) eqn:EP; try discriminate H. destruct (ms_comp s0); try discriminate H. injection H as <-.
    f_equal. transitivity (ended (mc_phase (ms_c i (set_c j (set_mphase MIdle (ms_c j s0)) (ms_heap s0) s0)))); [|now destruct i].
    rewrite ms_c_set. destruct (side_dec j i) as [<-|E]; [rewrite side_refl, EP; reflexivity|now rewrite side_neq].
  - unfold step_compare in H. destruct (ms_comp s0); try discriminate H. destruct (get_data (ms_c1 s0)). injection H as <-. now destruct i.
  - unfold step_compare in H. destruct (ms_comp s0); try discriminate H. destruct (get_data (ms_c2 s0)). injection H as <-. now destruct i.
  - unfold step_compare in H. destruct (ms_comp s0); try discriminate H. injection H as <-. now destruct i.
  - unfold step_compare in H. destruct (ms_comp s0); try discriminate H. injection H as <-. now destruct i.
Qed.
Lemma nodup_map_in {A B} (f : A -> B) l : (forall x y, In x l -> In y l -> f x = f y -> x = y) -> NoDup l -> NoDup (map f l).
Proof.
  induction l as [|x l IH]; intros H HN; [constructor|]. apply NoDup_cons_iff in HN. destruct HN as [H1 H2]. cbn [map]. constructor.
  - intros HI. apply in_map_iff in HI. destruct HI as (y & E & HY). apply H1. rewrite (H x y); [exact HY|left; reflexivity|right; exact HY|now symmetry].
  - apply IH; [|exact H2]. intros a b HA HB. apply H; right; assumption.
Qed.
