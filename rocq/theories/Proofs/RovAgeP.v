(** Routes while a router loads everything, after any number of files. *)
From Coq Require Import ZArith ZifyBool ZifyNat ZifyN.
From Verif Require Import Model.Conn Model.Process Spec.Sets Spec.History Spec.Response Spec.Input Spec.Router Spec.Rov Spec.Arrival Spec.RovAge
  Proofs.DataP Proofs.CacheP Proofs.ConnP Proofs.ProcessP Proofs.RouterP Proofs.RovP Proofs.ArrivalP.
From Coq Require Import List Arith Lia.
Import ListNotations.
Local Open Scope list_scope.
Local Open Scope N_scope.

Lemma splits_gone {A} (P : A -> Prop) l k g x : splits P l k g -> In x g -> P x /\ In x l.
Proof.
  induction 1 as [|y l k g N S IH|y l k g N S IH]; intros H; [destruct H| |].
  - destruct (IH H). split; [assumption|now right].
  - destruct H as [<-|H]; [split; [exact N|now left]|]. destruct (IH H). split; [assumption|now right].
Qed.
Definition held (x : rid) (sets : list (list sd)) : bool := forallb (fun M => if in_dec rid_dec x (ids M) then true else false) sets.
Lemma held_all x sets : held x sets = true <-> Forall (fun M => In x (ids M)) sets.
Proof.
  unfold held. rewrite forallb_forall, Forall_forall. split; intros H M HM; specialize (H M HM); destruct (in_dec rid_dec x (ids M)); auto; discriminate H.
Qed.
Lemma age_cons x L r : age x (L :: r) = if held x (L :: r) then S (length r) else age x r.
Proof. reflexivity. Qed.
Lemma arrival_new prev sets gs x : by_arrival prev sets gs -> In x (concat gs) -> ~ (In x (ids prev) /\ Forall (fun M => In x (ids M)) sets).
Proof.
  induction 1 as [prev|prev L Ls g o gs S B IH]; intros H; [destruct H|]. cbn [concat] in H. apply in_app_iff in H as [H|H].
  - destruct (splits_gone _ _ _ _ _ S H) as [[N _] _]. tauto.
  - intros [_ F]. apply (IH H). split; [exact (Forall_inv F)|exact (Forall_inv_tail F)].
Qed.
Lemma arrival_age prev sets gs : by_arrival prev sets gs -> forall i g x, nth_error gs i = Some g -> In x g -> age x sets = (length sets - i)%nat.
Proof.
  induction 1 as [prev|prev L Ls g o gs S B IH]; intros [|i] g' x E H; try discriminate E; cbn [nth_error] in E.
  - injection E as ->. destruct (splits_gone _ _ _ _ _ S H) as [[_ F] HI]. rewrite age_cons.
    assert (Y : held x (L :: Ls) = true) by (apply held_all; constructor; assumption). rewrite Y. cbn [length]. lia.
  - rewrite age_cons. destruct (held x (L :: Ls)) eqn:Y.
    + exfalso. apply held_all in Y. apply (arrival_new L Ls gs x B); [apply in_concat; exists g'; split; [apply (nth_error_In _ _ E)|exact H]|].
      split; [exact (Forall_inv Y)|exact (Forall_inv_tail Y)].
    + rewrite (IH i g' x E H). cbn [length]. lia.
Qed.
Lemma cross {A} (gs : list (list A)) : forall a b x y, concat gs = a ++ b -> In x a -> In y b ->
  exists i j gi gj, nth_error gs i = Some gi /\ nth_error gs j = Some gj /\ In x gi /\ In y gj /\
    ((i < j)%nat \/ (i = j /\ exists a' b', gi = a' ++ b' /\ In x a' /\ In y b')).
Proof.
  induction gs as [|g gs IH]; intros a b x y E HX HY; cbn [concat] in E.
  { symmetry in E. apply app_eq_nil in E as [-> _]. destruct HX. }
  destruct (app_eq_app _ _ _ _ E) as (w & [[E1 E2]|[E1 E2]]).
  - (* the cut is in the head *)
    rewrite E2 in HY. apply in_app_iff in HY as [HY|HY].
    + exists 0%nat, 0%nat, g, g. split; [reflexivity|]. split; [reflexivity|]. split; [rewrite E1; apply in_app_iff; now left|].
      split; [rewrite E1; apply in_app_iff; now right|]. right. split; [reflexivity|]. exists a, w. auto.
    + apply in_concat in HY as (gj & HJ & HY). destruct (In_nth_error _ _ HJ) as (j & EJ). exists 0%nat, (S j), g, gj.
      split; [reflexivity|]. split; [exact EJ|]. split; [rewrite E1; apply in_app_iff; now left|]. split; [exact HY|]. left. lia.
  - rewrite E1 in HX. apply in_app_iff in HX as [HX|HX].
    + assert (HJ0 : In y (concat gs)) by (rewrite E2; apply in_app_iff; now right).
      apply in_concat in HJ0 as (gj & HJ & HY'). destruct (In_nth_error _ _ HJ) as (j & EJ). exists 0%nat, (S j), g, gj.
      split; [reflexivity|]. split; [exact EJ|]. split; [exact HX|]. split; [exact HY'|]. left. lia.
    + destruct (IH w b x y E2 HX HY) as (i & j & gi & gj & I1 & I2 & I3 & I4 & I5). exists (S i), (S j), gi, gj.
      split; [exact I1|]. split; [exact I2|]. split; [exact I3|]. split; [exact I4|]. destruct I5 as [I5|(-> & I5)]; [left; lia|right; auto].
Qed.
Lemma filter_cut {A} (f : A -> bool) l : forall a b, filter f l = a ++ b -> exists p q, l = p ++ q /\ filter f p = a /\ filter f q = b.
Proof.
  induction l as [|x l IH]; intros a b E; cbn [filter] in E.
  - symmetry in E. apply app_eq_nil in E as [-> ->]. exists [], []. auto.
  - destruct (f x) eqn:F.
    + destruct a as [|y a]; cbn [app] in E.
      * exists [], (x :: l). split; [reflexivity|]. split; [reflexivity|]. cbn [filter]. rewrite F. exact E.
      * injection E as -> E. destruct (IH a b E) as (p & q & -> & E1 & E2). exists (y :: p), q. cbn [filter app]. rewrite F, E1. auto.
    + destruct (IH a b E) as (p & q & -> & E1 & E2). exists (x :: p), q. cbn [filter app]. rewrite F. auto.
Qed.

(** What comes first is senior, or as old and for no shorter a prefix. *)
Lemma sent_order sets gs f (cur : list sd) a b d e p x m fl q y n fl' : by_arrival [] sets gs -> Forall (ForallOrdPairs ahead_of) gs -> concat gs = ids cur ->
  filter f cur = a ++ b -> In d a -> In e b -> d = VRP p x m fl -> e = VRP q y n fl' -> ~ senior sets q y n p x m.
Proof.
  intros HB HO EC EF HD HE -> -> HS. destruct (filter_cut f cur a b EF) as (P & Q & -> & E1 & E2). subst a b.
  apply filter_In in HD as [HD _]. apply filter_In in HE as [HE _]. unfold ids in EC. rewrite map_app in EC.
  destruct (cross gs _ _ (RV p x m) (RV q y n) EC) as (i & j & gi & gj & I1 & I2 & I3 & I4 & I5); [now apply (in_map rid_of) in HD|now apply (in_map rid_of) in HE|].
  pose proof (arrival_age _ _ _ HB _ _ _ I1 I3) as A1. pose proof (arrival_age _ _ _ HB _ _ _ I2 I4) as A2.
  assert (L : (length gs = length sets)%nat) by (clear - HB; induction HB; cbn [length]; congruence).
  assert (i < length gs)%nat by (apply nth_error_Some; congruence). assert (j < length gs)%nat by (apply nth_error_Some; congruence).
  unfold senior in HS. destruct I5 as [I5|(-> & a' & b' & EG & X1 & X2)]; [destruct HS as [HS|[HS _]]; lia|].
  destruct HS as [HS|[_ HS]]; [lia|]. rewrite Forall_forall in HO. specialize (HO gi (nth_error_In _ _ I1)). rewrite EG in HO.
  pose proof (ord_cross _ _ _ HO _ _ X1 X2) as B. cbn in B. lia.
Qed.
Lemma in_vrp p x m (l : list sd) : In (RV p x m) (ids l) -> exists fl, In (VRP p x m fl) l.
Proof. intros H. apply ids_in in H as ([q y n g|] & HD & E); [|discriminate E]. injection E as -> -> ->. now exists g. Qed.
Lemma load_exact sets gs f (cur : list sd) t (l := filter f cur) : by_arrival [] sets gs -> Forall (ForallOrdPairs ahead_of) gs -> concat gs = ids cur ->
  Forall (fun d => get_flag d = 1) l ->
  (long_standing sets (r_apply (fun _ => False) l) t -> forall k, ~ invalid (r_apply (fun _ => False) (firstn k l)) t) /\
  (overtaken sets (r_apply (fun _ => False) l) t -> exists k, invalid (r_apply (fun _ => False) (firstn k l)) t).
Proof.
  intros HB HO EC HF.
  assert (E : forall k y, r_apply (fun _ => False) (firstn k l) y <-> In y (ids (firstn k l))).
  { intros k y. rewrite apply_adds; [tauto|]. rewrite <- (firstn_skipn k l) in HF. now apply Forall_app in HF as [HF _]. }
  assert (E' : forall y, r_apply (fun _ => False) l y <-> In y (ids l)) by (intros y; rewrite apply_adds by exact HF; tauto).
  split.
  - intros (p & a & m & HV & HA & HS) k [(x & HX & CX) NV]. destruct x as [p' a' m'|]; [|destruct CX]. apply E in HX.
    assert (HX' : In (RV p' a' m') (ids l)) by (rewrite <- (firstn_skipn k l); unfold ids; rewrite map_app; apply in_app_iff; now left).
    destruct (HS p' a' m') as [H|H]; [now apply E'|exact CX|apply NV; exists (RV p' a' m'); split; [now apply E|exact H]|].
    apply E' in HV. rewrite <- (firstn_skipn k l) in HV. unfold ids in HV. rewrite map_app in HV. apply in_app_iff in HV as [HV|HV]; [apply NV; exists (RV p a m); split; [now apply E|exact HA]|].
    apply in_vrp in HX as (f1 & HX). apply in_vrp in HV as (f2 & HV).
    apply (sent_order sets gs f cur (firstn k l) (skipn k l) (VRP p' a' m' f1) (VRP p a m f2) p' a' m' f1 p a m f2 HB HO EC); auto. symmetry. apply firstn_skipn.
  - intros (p' & a' & m' & HX & CX & NX & HS). apply E' in HX. apply in_vrp in HX as (f1 & HX). apply in_split in HX as (l1 & l2 & EL).
    exists (S (length l1)). assert (EF : firstn (S (length l1)) l = l1 ++ [VRP p' a' m' f1]).
    { rewrite EL. replace (S (length l1)) with (length l1 + 1)%nat by lia. rewrite firstn_app_2. reflexivity. }
    split.
    + exists (RV p' a' m'). split; [|exact CX]. apply E. rewrite EF. unfold ids. rewrite map_app. apply in_app_iff. right. now left.
    + intros (x & HY & AY). destruct x as [p a m|]; [|destruct AY]. apply E in HY. rewrite EF in HY. unfold ids in HY. rewrite map_app in HY. apply in_app_iff in HY as [HY|[HY|[]]]; [|cbn in HY; injection HY as <- <- <-; contradiction].
      assert (S : senior sets p' a' m' p a m).
      { apply HS; [|exact AY]. apply E'. rewrite EL. unfold ids. rewrite map_app. apply in_app_iff. now left. }
      apply in_vrp in HY as (f2 & HY).
      apply (sent_order sets gs f cur l1 (VRP p' a' m' f1 :: l2) (VRP p a m f2) (VRP p' a' m' f1) p a m f2 p' a' m' f1 HB HO EC); auto. now left.
Qed.
