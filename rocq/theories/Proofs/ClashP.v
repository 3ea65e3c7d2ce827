(** Keys of rtrmon's maps that are the same. *)
From Coq Require Import ZArith ZifyBool ZifyNat ZifyN.
From Verif Require Import Spec.Monitor Spec.Clash Proofs.FormatP Proofs.DataP Proofs.JsonP Proofs.MonitorP.
From Coq Require Import List.
Import ListNotations.
Local Open Scope list_scope.
Local Open Scope N_scope.

Definition okp (o : obj) : Prop := match o with OV p _ _ => wf_prefix p /\ is_valid p = true | OK _ _ _ => True end.
Lemma dashes s k x p a m : wf_prefix p -> is_valid p = true ->
  (vkey p m a = kkey s x k <-> poses s x k p a m).
Proof.
  intros W V. unfold vkey, kkey, poses. cbn [app]. split.
  2:{ intros (-> & -> & ->). reflexivity. }
  intros E. destruct (app_eq_app _ _ _ _ E) as (w & [[E1 E2]|[E1 E2]]).
  - assert (w = []).
    { destruct w as [|c w]; [reflexivity|]. cbn [app] in E2. injection E2 as <- _. elim (prefix_string_no_dash p W V). rewrite E1. apply in_app_iff. right. now left. }
    subst w. rewrite app_nil_r in E1. cbn [app] in E2. injection E2 as E2.
    apply (split_first_eq c_dash) in E2 as [E2 E3]; [|apply dec_no_dash|apply dec_no_dash]. apply dec_inj in E2. auto.
  - destruct w as [|c w].
    + rewrite app_nil_r in E1. cbn [app] in E2. injection E2 as E2.
      apply (split_first_eq c_dash) in E2 as [E2 E3]; [|apply dec_no_dash|apply dec_no_dash]. apply dec_inj in E2. auto.
    + cbn [app] in E2. injection E2 as <- E2. exfalso.
      assert (N1 : forall l r, dec a = l ++ c_dash :: r -> False).
      { intros l r Z. apply (dec_no_dash a). rewrite Z. apply in_app_iff. right. now left. }
      destruct (app_eq_app _ _ _ _ E2) as (u & [[F1 F2]|[F1 F2]]).
      * destruct u as [|d u]; cbn [app] in F2; [|injection F2 as <- _; apply (dec_no_dash m); rewrite F1; apply in_app_iff; right; now left].
        injection F2 as F2. symmetry in F2. apply (N1 (dec x) k). exact F2.
      * destruct u as [|d u]; cbn [app] in F2; [injection F2 as F2; now apply (N1 (dec x) k)|].
        injection F2 as _ F2. now apply (N1 u (dec x ++ c_dash :: k)).
Qed.
Lemma longer s x k t y l w : t = s ++ c_dash :: w -> dec x ++ c_dash :: k = w ++ c_dash :: dec y ++ c_dash :: l -> extends s x k t y l.
Proof.
  intros -> E. destruct (app_eq_app _ _ _ _ E) as (u & [[F1 F2]|[F1 F2]]).
  - destruct u as [|d u]; cbn [app] in F2; [|injection F2 as <- _; exfalso; apply (dec_no_dash x); rewrite F1; apply in_app_iff; right; now left].
    rewrite app_nil_r in F1. injection F2 as F2. left. subst w. auto.
  - destruct u as [|d u]; cbn [app] in F2.
    + rewrite app_nil_r in F1. injection F2 as F2. left. subst w. auto.
    + injection F2 as <- F2. right. exists u. subst w. auto.
Qed.
Lemma key_key s x k t y l : kkey s x k = kkey t y l <-> OK s x k = OK t y l \/ extends s x k t y l \/ extends t y l s x k.
Proof.
  unfold kkey. cbn [app]. split.
  - intros E. destruct (app_eq_app _ _ _ _ E) as (w & [[E1 E2]|[E1 E2]]); destruct w as [|c w].
    1,3: rewrite app_nil_r in E1; cbn [app] in E2; injection E2 as E2; apply (split_first_eq c_dash) in E2 as [E2 E3]; [|apply dec_no_dash|apply dec_no_dash];
         apply dec_inj in E2; left; congruence.
    + cbn [app] in E2. injection E2 as <- E2. right. right. now apply (longer _ _ _ _ _ _ w).
    + cbn [app] in E2. injection E2 as <- E2. right. left. now apply (longer _ _ _ _ _ _ w).
  - assert (X : forall s x k t y l, extends s x k t y l -> s ++ c_dash :: dec x ++ c_dash :: k = t ++ c_dash :: dec y ++ c_dash :: l).
    { intros s' x' k' t' y' l' [[-> ->]|(u & -> & ->)]; unfold c_dash; repeat (rewrite <- ?app_assoc; cbn [app]); reflexivity. }
    intros [E|[E|E]]; [injection E as -> -> ->; reflexivity|now apply X|symmetry; now apply X].
Qed.
Lemma key_clash a b : okp a -> okp b -> (okey a = okey b <-> clash a b).
Proof.
  destruct a as [p v m|s x k], b as [q v' m'|t y l]; cbn [okp okey clash]; intros HA HB.
  - split; [|intros E; now injection E as -> -> ->]. intros E. apply okey_inj; auto.
  - now apply dashes.
  - rewrite <- (dashes s k x q v' m') by tauto. split; congruence.
  - apply key_key.
Qed.

(** * One round *)
(** Every entry stands for the last object listed under its key. *)
Definition right_entries (os : list obj) (now : Z) (res : vmap) : Prop :=
  NoDup (keys res) /\
  (forall k e, In (k, e) res -> m_visible e = true /\ m_last e = now /\
     exists l1 o l2, os = l1 ++ o :: l2 /\ okey o = k /\ entry_obj e = Some o /\ forall o', In o' l2 -> okey o' <> k) /\
  (forall o, In o os -> gget (okey o) res <> None).
Lemma right_set os now res o e : right_entries os now res -> entry_obj e = Some o -> m_visible e = true -> m_last e = now ->
  right_entries (os ++ [o]) now (gset (okey o) e res).
Proof.
  intros (H1 & H2 & H3) HE HV HL. split; [now apply nodup_gset|]. split.
  - intros k e' HI. unfold gset in HI. destruct HI as [HI|HI].
    + injection HI as <- <-. split; [exact HV|]. split; [exact HL|]. exists os, o, []. repeat split; auto.
    + assert (NK : k <> okey o).
      { intros ->. apply (in_map fst) in HI. cbn [fst] in HI. revert HI. apply (proj2 (keys_gdel (okey o) res H1)). }
      unfold gdel in HI. apply filter_In in HI as [HI _]. destruct (H2 _ _ HI) as (V & L & l1 & o' & l2 & E1 & E2 & E3 & E4).
      split; [exact V|]. split; [exact L|]. exists l1, o', (l2 ++ [o]). split; [rewrite E1, <- app_assoc; reflexivity|]. split; [exact E2|]. split; [exact E3|].
      intros x HX. apply in_app_iff in HX as [HX|[<-|[]]]; [now apply E4|congruence].
  - intros o' HO. rewrite gget_gset. destruct (beqb (okey o') (okey o)) eqn:E; [discriminate|].
    apply in_app_iff in HO as [HO|[<-|[]]]; [now apply H3|]. now rewrite beqb_refl in E.
Qed.
Lemma right_vrps cur now vs : forall os res, right_entries os now res ->
  right_entries (os ++ flat_map vj_objs vs) now (fold_left (rebuild_vrp cur now) vs res).
Proof.
  induction vs as [|v vs IH]; intros os res HF; [cbn; now rewrite app_nil_r|].
  cbn [fold_left flat_map]. rewrite app_assoc. apply IH. unfold rebuild_vrp, vj_objs, get_prefix2.
  destruct (get_asn2 (vj_asn v)) as [a|].
  2:{ destruct (parse_prefix (vj_prefix v)); now rewrite app_nil_r. }
  destruct (parse_prefix (vj_prefix v)) as [p|] eqn:EP; [|now rewrite app_nil_r].
  destruct (parse_prefix_wf (vj_prefix v) p EP) as [W1 W2]. rewrite W2.
  cbv zeta. change (vkey p (vj_length v) a) with (okey (OV p a (vj_length v))). apply right_set; auto.
  unfold entry_obj. cbn [m_key m_prefix m_asn m_length]. now rewrite parse_prefix_string.
Qed.
Lemma right_keys cur now bs : forall os res, right_entries os now res ->
  right_entries (os ++ map bj_obj bs) now (fold_left (rebuild_key cur now) bs res).
Proof.
  induction bs as [|b bs IH]; intros os res HF; [cbn; now rewrite app_nil_r|].
  cbn [fold_left map]. change (bj_obj b :: map bj_obj bs) with ([bj_obj b] ++ map bj_obj bs). rewrite app_assoc.
  apply IH. unfold rebuild_key. cbv zeta. change (kkey (bj_ski b) (bj_asn b) (bj_pubkey b)) with (okey (bj_obj b)). now apply right_set.
Qed.
Lemma right_listed cur vs bs now : right_entries (file_objs vs bs) now (listed_map cur vs bs now).
Proof.
  unfold listed_map, file_objs. apply (right_keys cur now bs). apply (right_vrps cur now vs [] []).
  split; [constructor|]. split; [intros k e []|intros o []].
Qed.
Lemma grace_visible grace now cur : forall res n k e, m_visible e = true ->
  (In (k, e) (fst (fold_left (rebuild_grace grace now) cur (res, n))) <-> In (k, e) res).
Proof.
  induction cur as [|[k0 e0] cur IH]; intros res n k e HV; [reflexivity|]. cbn [fold_left]. rewrite rebuild_grace_eq.
  destruct (gget k0 res) as [e1|] eqn:EG; [now apply IH|]. destruct (now - grace <=? m_last e0)%Z; [|now apply IH].
  rewrite IH by exact HV. unfold gset. rewrite gdel_id by exact EG. cbn [In]. split; [|now right].
  intros [H|H]; [|exact H]. injection H as _ <-. cbn [set_visible m_visible] in HV. discriminate HV.
Qed.
Lemma file_okp vs bs o : In o (file_objs vs bs) -> okp o.
Proof.
  intros H. unfold file_objs in H. apply in_app_iff in H as [H|H].
  - apply in_flat_map in H as (v & _ & H). destruct (parse_prefix (vj_prefix v)) as [p|] eqn:EP; [|contradiction].
    destruct (get_asn2 (vj_asn v)); [|contradiction]. destruct H as [<-|[]]. now apply parse_prefix_wf in EP.
  - apply in_map_iff in H as (b & <- & _). exact I.
Qed.
Lemma round grace cur vs bs now o e : has (fst (build_new_vrp_map grace cur vs bs now)) o e -> m_visible e = true ->
  m_last e = now /\ exists l1 l2, file_objs vs bs = l1 ++ o :: l2 /\ Forall (fun o' => ~ clash o o') l2.
Proof.
  intros (k & HI & HE) HV. unfold build_new_vrp_map in HI. fold (listed_map cur vs bs now) in HI. rewrite grace_visible in HI by exact HV.
  destruct (right_listed cur vs bs now) as (_ & R2 & _). destruct (R2 _ _ HI) as (_ & L & l1 & o' & l2 & E1 & E2 & E3 & E4).
  assert (o' = o) by congruence. subst o' k. split; [exact L|]. exists l1, l2. split; [exact E1|].
  apply Forall_forall. intros x HX C. apply (E4 x HX). symmetry. apply key_clash; [| |exact C]; apply (file_okp vs bs); rewrite E1; apply in_app_iff; right; [now left|now right].
Qed.
Lemma in_later {A} (l1 : list A) : forall o l2 l1' o' l2', l1 ++ o :: l2 = l1' ++ o' :: l2' -> In o' l2 \/ In o l2' \/ o = o'.
Proof.
  induction l1 as [|x l1 IH]; intros o l2 [|x' l1'] o' l2' E; cbn [app] in E; injection E as E1 E2.
  - auto.
  - left. rewrite E2. apply in_app_iff. right. now left.
  - right. left. rewrite <- E2. apply in_app_iff. right. now left.
  - now apply (IH o l2 l1' o' l2').
Qed.
Lemma round_back grace cur vs bs now o l1 l2 : file_objs vs bs = l1 ++ o :: l2 -> Forall (fun o' => ~ clash o o') l2 ->
  shown (fst (build_new_vrp_map grace cur vs bs now)) o.
Proof.
  intros E F. destruct (right_listed cur vs bs now) as (R1 & R2 & R3).
  assert (HIN : In o (file_objs vs bs)) by (rewrite E; apply in_app_iff; right; now left).
  specialize (R3 o HIN). destruct (gget (okey o) (listed_map cur vs bs now)) as [e|] eqn:EG; [|congruence]. apply gget_in in EG.
  destruct (R2 _ _ EG) as (V & _ & m1 & o' & m2 & E1 & E2 & E3 & E4).
  assert (o' = o).
  { rewrite E in E1. destruct (in_later _ _ _ _ _ _ E1) as [X|[X|X]]; [|now elim (E4 o X)|congruence].
    exfalso. rewrite Forall_forall in F. apply (F o' X). apply key_clash; [now apply (file_okp vs bs)| |congruence].
    apply (file_okp vs bs). rewrite E. apply in_app_iff. right. now right. }
  subst o'. exists e. split; [|exact V]. exists (okey o). split; [|exact E3].
  unfold build_new_vrp_map. fold (listed_map cur vs bs now). now apply grace_visible.
Qed.
