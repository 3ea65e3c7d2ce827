(** Routes while a response is applied. *)
From Coq Require Import ZifyBool ZifyNat ZifyN Permutation.
From Verif Require Import Model.Conn Spec.Sets Spec.History Spec.Response Spec.Input Spec.Router Spec.Rov Proofs.DataP Proofs.CacheP Proofs.ConnP Proofs.RouterP Props.ConnProps.
From Coq Require Import List.
Local Open Scope list_scope.
Local Open Scope N_scope.

(** * Announcements before withdrawals *)
Definition adds_first (d : list sd) : Prop := exists A W, d = A ++ W /\
  Forall (fun x => get_flag x = 1) A /\ Forall (fun x => get_flag x = 0) W /\ forall x, In x (ids A) -> ~ In x (ids W).
Lemma adds_first_filter f d : adds_first d -> adds_first (filter f d).
Proof.
  assert (H : forall l x, In x (ids (filter f l)) -> In x (ids l)).
  { intros l x HX. apply ids_in in HX as (e & HE & <-). apply filter_In in HE as [HE _]. now apply in_ids. }
  intros (A & W & -> & HA & HW & HD). exists (filter f A), (filter f W). split; [apply filter_app|].
  split; [|split; [|intros x H1 H2; exact (HD x (H _ _ H1) (H _ _ H2))]]; apply Forall_forall; intros e HE; apply filter_In in HE as [HE _].
  - rewrite Forall_forall in HA. auto.
  - rewrite Forall_forall in HW. auto.
Qed.
Lemma apply_adds A : Forall (fun x => get_flag x = 1) A -> forall (R : rset) x, r_apply R A x <-> R x \/ In x (ids A).
Proof.
  induction 1 as [|d A HD _ IH]; intros R x; [cbn; tauto|]. cbn [r_apply fold_left]. change (fold_left r_apply1 A ?X) with (r_apply X A).
  rewrite IH. unfold r_apply1. rewrite HD. cbn [N.eqb Pos.eqb ids map In]. change (map rid_of A) with (ids A). intuition congruence.
Qed.
Lemma apply_withdraws W : Forall (fun x => get_flag x = 0) W -> forall (R : rset) x, r_apply R W x <-> R x /\ ~ In x (ids W).
Proof.
  induction 1 as [|d W HD _ IH]; intros R x; [cbn; tauto|]. cbn [r_apply fold_left]. change (fold_left r_apply1 W ?X) with (r_apply X W).
  rewrite IH. unfold r_apply1. rewrite HD. cbn [N.eqb ids map In]. change (map rid_of W) with (ids W). intuition congruence.
Qed.
Lemma r_apply_split R a b : r_apply R (a ++ b) = r_apply (r_apply R a) b.
Proof. apply fold_left_app. Qed.
Lemma between d : adds_first d -> forall (R : rset) k,
  ((forall x, R x -> r_apply R (firstn k d) x) \/ (forall x, r_apply R d x -> r_apply R (firstn k d) x)) /\
  (forall x, r_apply R (firstn k d) x -> R x \/ r_apply R d x).
Proof.
  intros (A & W & -> & HA & HW & HD) R k. rewrite firstn_app, !r_apply_split.
  assert (FA : Forall (fun x => get_flag x = 1) (firstn k A)) by (rewrite <- (firstn_skipn k A) in HA; now apply Forall_app in HA).
  assert (FW : forall j, Forall (fun x => get_flag x = 0) (firstn j W)) by (intros j; rewrite <- (firstn_skipn j W) in HW; now apply Forall_app in HW).
  assert (IN : forall l j x, In x (ids (firstn j l)) -> In x (ids l)).
  { intros l j x H. rewrite <- (firstn_skipn j l). unfold ids. rewrite map_app. apply in_or_app. now left. }
  split.
  - destruct (Nat.le_gt_cases k (length A)) as [L|L].
    + left. replace (k - length A)%nat with 0%nat by lia. intros x H. change (r_apply R (firstn k A) x). apply (apply_adds (firstn k A) FA). now left.
    + right. rewrite firstn_all2 by lia. intros x HX. apply (apply_withdraws W HW) in HX as [H1 H2].
      apply (apply_withdraws _ (FW _)). split; [exact H1|]. intros H. apply H2. now apply (IN W (k - length A)%nat).
  - intros x HX. apply (apply_withdraws _ (FW _)) in HX as [HX _]. apply (apply_adds _ FA) in HX as [H1|H1]; [now left|].
    right. apply (apply_withdraws W HW). rewrite (apply_adds A HA). split; [|apply HD; now apply (IN A k)]. right. now apply (IN A k).
Qed.
Theorem adds_first_steady R v ps : adds_first (records v ps) -> steady R v ps.
Proof.
  intros H t k. unfold after_all, after_some. destruct (between _ H R k) as [B1 B2]. set (S := r_apply R (firstn k (records v ps))) in *.
  set (T := r_apply R (records v ps)) in *.
  assert (V : valid R t -> valid T t -> valid S t) by (intros (x & X1 & X2) (y & Y1 & Y2); destruct B1 as [B|B]; [exists x|exists y]; auto).
  assert (V' : valid S t -> valid R t \/ valid T t) by (intros (x & X1 & X2); destruct (B2 x X1); [left|right]; exists x; auto).
  assert (C : covered R t -> covered T t -> covered S t) by (intros (x & X1 & X2) (y & Y1 & Y2); destruct B1 as [B|B]; [exists x|exists y]; auto).
  assert (C' : covered S t -> covered R t \/ covered T t) by (intros (x & X1 & X2); destruct (B2 x X1); [left|right]; exists x; auto).
  unfold invalid, not_found. tauto.
Qed.

(** * What the server sends *)
Lemma records_response v sess n a b c nk l : records v (response v sess n a b c nk l) = filter (may_send v nk) l.
Proof.
  unfold response, records. rewrite !flat_map_app. cbn [flat_map data_of app]. rewrite app_nil_r.
  induction (filter (may_send v nk) l) as [|d m IH]; [reflexivity|]. cbn [map flat_map]. now rewrite data_of_pdu, IH.
Qed.
Lemma the_diff_adds_first new cur : adds_first (the_diff new cur).
Proof.
  unfold the_diff. eexists _, _. split; [reflexivity|]. split; [|split].
  - apply Forall_forall. intros d HD. apply in_map_iff in HD as (e & <- & _). now destruct e.
  - apply Forall_forall. intros d HD. apply in_map_iff in HD as (e & <- & _). now destruct e.
  - intros x. rewrite !ids_map_set. intros H1 H2. apply ids_in in H1 as (d & H1 & E1). apply ids_in in H2 as (e & H2 & E2).
    apply filter_In in H1 as [H1 H3]. apply filter_In in H2 as [H2 _]. subst x. apply negb_true_iff in H3. apply mem_not in H3. apply H3. rewrite <- E2. now apply in_ids.
Qed.
Definition last_adds (s : server) : Prop := forall d l, sdListDiff s = l ++ [d] -> adds_first d.
Lemma step_last_adds s new : inv s -> Forall wf_sd new -> last_adds s -> last_adds (step s new).
Proof.
  intros HI HN HL. unfold step. rewrite add_data_eq by (auto; apply HI). destruct (the_diff new (sdCurrent s)) as [|e d] eqn:E; [exact HL|].
  cbn [fst]. rewrite <- E. intros d' l. unfold add_sds_diff. cbn [sdListDiff].
  set (m := (map _ _ ++ [[]]) ++ [the_diff new (sdCurrent s)]).
  assert (G : forall j l, skipn j m = l ++ [d'] -> d' = the_diff new (sdCurrent s)).
  { intros j l' EJ. assert (EM : m = (firstn j m ++ l') ++ [d']) by (rewrite <- app_assoc, <- EJ, firstn_skipn; reflexivity).
    unfold m in EM at 1. apply app_inj_tail in EM as [_ EM]. now symmetry. }
  destruct (_ && _); intros EM; [apply G in EM|apply (G 0%nat) in EM]; subst d'; apply the_diff_adds_first.
Qed.
Lemma run_last_adds keep h : Forall (Forall wf_sd) h -> last_adds (run (new_server keep) h).
Proof.
  intros H. induction h as [|n h IH] using rev_ind; [intros d l E; destruct l; discriminate E|]. apply Forall_app in H as [H1 H2]. inversion_clear H2.
  rewrite run_app. apply step_last_adds; auto. apply run_inv; auto using inv_new.
Qed.
Lemma near_diff s n d : last_adds s -> sdCurrentSerial s = n \/ sdCurrentSerial s = n + 1 -> get_sds_serial_diff s n = Ok d -> adds_first d.
Proof.
  intros HL HN. unfold get_sds_serial_diff. destruct (n =? sdCurrentSerial s) eqn:E0.
  { intros [= <-]. exists [], []. repeat split; try constructor. intros x []. }
  destruct (sdCurrentSerial s <? n); [discriminate|]. replace (sdCurrentSerial s - n) with 1 by lia. destruct (nlen _ <? 1) eqn:E1; [discriminate|].
  change (N.to_nat 1) with 1%nat. destruct (sdListDiff s) as [|e l _] eqn:EL using rev_ind; [discriminate E1|].
  rewrite app_length. cbn [length]. replace (length l + 1 - 1)%nat with (length l) by lia. rewrite nth_error_app2, Nat.sub_diag by lia. cbn [nth_error].
  intros [= <-]. now apply (HL e l).
Qed.

(** * Loads from nothing *)
Lemma ord_cross {A} (P : A -> A -> Prop) a b : ForallOrdPairs P (a ++ b) -> forall x y, In x a -> In y b -> P x y.
Proof.
  induction a as [|z a IH]; intros H x y HX HY; [destruct HX|]. inversion H as [|? ? H1 H2]; subst. destruct HX as [<-|HX]; [|now apply IH].
  rewrite Forall_forall in H1. apply H1. apply in_or_app. now right.
Qed.
Lemma data_of_prefix v q p a m f : data_of v q = Some (VRP p a m f) -> pdu_prefix q = Some p.
Proof. destruct q; cbn; try discriminate; destruct (_ =? _); try discriminate; intros [= -> _ _ _]; reflexivity. Qed.
Lemma records_in v ps d : In d (records v ps) -> exists q, In q ps /\ data_of v q = Some d.
Proof. intros H. apply in_flat_map in H as (q & HQ & HD). exists q. split; [exact HQ|]. destruct (data_of v q) as [e|]; [destruct HD as [<-|[]]; reflexivity|destruct HD]. Qed.
Lemma records_longest v ps : longest_first ps ->
  ForallOrdPairs (fun d e => forall p a m f q b n g, d = VRP p a m f -> e = VRP q b n g -> (bits q <= bits p)%Z) (records v ps).
Proof.
  induction ps as [|x ps IH]; intros H; [constructor|]. inversion H as [|? ? H1 H2]; subst. unfold records. cbn [flat_map]. fold (records v ps).
  destruct (data_of v x) as [d|] eqn:E; [|now apply IH]. cbn [app]. constructor; [|now apply IH].
  apply Forall_forall. intros e HE p a m f q b n g -> ->. apply records_in in HE as (y & HY & EY). rewrite Forall_forall in H1.
  apply (H1 y HY); [now apply (data_of_prefix v x p a m f)|now apply (data_of_prefix v y q b n g)].
Qed.
Theorem longest_firm v ps t k : longest_first ps -> Forall (fun d => get_flag d = 1) (records v ps) ->
  firmly (after_all (fun _ => False) v ps) t -> ~ invalid (after_some (fun _ => False) v ps k) t.
Proof.
  intros HL HF (p & a & m & HV & HA & HO) [(x & HX & CX) NV]. unfold after_all, after_some in *. apply records_longest with (v := v) in HL. set (l := records v ps) in *.
  rewrite <- (firstn_skipn k l) in HF, HL. apply Forall_app in HF as [F1 F2].
  assert (E1 : forall y, r_apply (fun _ => False) (firstn k l) y <-> In y (ids (firstn k l))) by (intros y; rewrite (apply_adds _ F1); tauto).
  assert (E2 : forall y, r_apply (fun _ => False) l y <-> In y (ids (firstn k l)) \/ In y (ids (skipn k l))).
  { intros y. rewrite <- (firstn_skipn k l) at 1. rewrite r_apply_split, (apply_adds _ F2), (apply_adds _ F1). tauto. }
  destruct x as [p' a' m'|]; [|destruct CX]. apply E1 in HX. destruct (HO p' a' m') as [H|H]; [apply E2; now left|exact CX|apply NV; exists (RV p' a' m'); split; [now apply E1|exact H]|].
  apply E2 in HV as [HV|HV]; [apply NV; exists (RV p a m); split; [now apply E1|exact HA]|].
  apply ids_in in HX as (d & HD & ED). apply ids_in in HV as (e & HE & EE). pose proof (ord_cross _ _ _ HL d e HD HE) as B.
  destruct d as [p1 a1 m1 f1|]; [|discriminate ED]. destruct e as [p2 a2 m2 f2|]; [|discriminate EE]. injection ED as -> -> ->. injection EE as -> -> ->.
  specialize (B _ _ _ _ _ _ _ _ eq_refl eq_refl). lia.
Qed.
