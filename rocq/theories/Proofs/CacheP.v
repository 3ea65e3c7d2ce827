(** The cache: C08, C11-C15, C17. *)
From Coq Require Import ZifyBool ZifyNat ZifyN.
From Verif Require Import Model.Cache Spec.Sets Spec.History Proofs.DataP.
Ltac Zify.zify_post_hook ::= Z.div_mod_to_equations.

(** Invariant of reachable servers. *)
Definition inv (s : server) : Prop :=
  Forall wf_sd (sdCurrent s) /\ (forall d, In d (sdCurrent s) -> get_flag d = 1) /\
  u32 (sdCurrentSerial s).

Lemma inv_new k : inv (new_server k).
Proof. repeat split; cbn; try constructor; try tauto. Qed.

Lemma same_setb_eq a b : same_setb a b = true <-> same_set a b.
Proof.
  unfold same_setb, same_set. rewrite andb_true_iff, !forallb_forall. split.
  - intros [H1 H2] x. split; intros H; [apply H1 in H|apply H2 in H]; now apply mem_in.
  - intros H. split; intros x Hx; apply mem_in; now apply H.
Qed.
Lemma same_set_sym a b : same_set a b -> same_set b a.
Proof. intros H x. symmetry. apply H. Qed.
Lemma same_set_trans a b c : same_set a b -> same_set b c -> same_set a c.
Proof. intros H1 H2 x. rewrite (H1 x). apply H2. Qed.
Lemma same_set_refl a : same_set a a.
Proof. intros x. tauto. Qed.
Lemma same_set_nil a : same_set a [] -> a = [].
Proof.
  destruct a as [|d a]; [auto|]. intros H. exfalso. apply (H (rid_of d)). now left.
Qed.

(** The diff AddData computes. *)
Definition the_diff (new cur : list sd) : list sd :=
  map (set_flag 1) (filter (fun x => negb (mem (rid_of x) (ids cur))) new) ++
  map (set_flag 0) (filter (fun x => negb (mem (rid_of x) (ids new))) cur).

Lemma add_data_eq s new : Forall wf_sd new -> Forall wf_sd (sdCurrent s) ->
  add_data s new = match the_diff new (sdCurrent s) with
                   | [] => (s, false)
                   | _ => (add_sds_diff s (the_diff new (sdCurrent s)), true)
                   end.
Proof. intros H1 H2. unfold add_data. rewrite compute_diff_exact by assumption. reflexivity. Qed.

Lemma in_the_diff new cur d : In d (the_diff new cur) <->
  (exists x, In x new /\ ~ In (rid_of x) (ids cur) /\ d = set_flag 1 x) \/
  (exists x, In x cur /\ ~ In (rid_of x) (ids new) /\ d = set_flag 0 x).
Proof.
  unfold the_diff. rewrite in_app_iff, !in_map_iff. split.
  - intros [(x & E & H)|(x & E & H)]; apply filter_In in H as [H1 H2]; [left|right]; exists x;
      apply negb_true_iff, mem_not in H2; auto.
  - intros [(x & H1 & H2 & E)|(x & H1 & H2 & E)]; [left|right]; exists x; (split; [auto|]);
      apply filter_In; (split; [auto|]); apply negb_true_iff; now apply mem_not.
Qed.

Lemma the_diff_nil new cur : the_diff new cur = [] <-> same_set cur new.
Proof.
  split.
  - intros E x. split; intros H.
    + destruct (in_dec rid_dec x (ids new)) as [|N]; [assumption|].
      destruct (ids_in _ _ H) as (d & Hd & <-).
      assert (In (set_flag 0 d) (the_diff new cur)) as HI by (apply in_the_diff; right; eauto).
      rewrite E in HI. destruct HI.
    + destruct (in_dec rid_dec x (ids cur)) as [|N]; [assumption|].
      destruct (ids_in _ _ H) as (d & Hd & <-).
      assert (In (set_flag 1 d) (the_diff new cur)) as HI by (apply in_the_diff; left; eauto).
      rewrite E in HI. destruct HI.
  - intros H. destruct (the_diff new cur) as [|d l] eqn:E; [reflexivity|]. exfalso.
    assert (In d (the_diff new cur)) as HI by (rewrite E; now left).
    apply in_the_diff in HI as [(x & H1 & H2 & _)|(x & H1 & H2 & _)]; apply H2, H; now apply in_ids.
Qed.

Lemma the_diff_wf new cur : Forall wf_sd new -> Forall wf_sd cur -> Forall wf_sd (the_diff new cur).
Proof.
  intros H1 H2. rewrite Forall_forall in *. intros d Hd.
  apply in_the_diff in Hd as [(x & Hx & _ & ->)|(x & Hx & _ & ->)]; apply wf_set_flag; auto; unfold u8; lia.
Qed.

Lemma the_diff_for new cur : diff_for (as_set cur) (the_diff new cur).
Proof.
  split; [|split].
  - intros d Hd. apply in_the_diff in Hd as [(x & _ & _ & ->)|(x & _ & _ & ->)]; rewrite flag_set_flag; auto.
  - intros d Hd Hf HR. apply in_the_diff in Hd as [(x & _ & H & ->)|(x & _ & _ & ->)].
    + unfold as_set in HR. rewrite rid_set_flag in HR. contradiction.
    + rewrite flag_set_flag in Hf. discriminate.
  - intros d Hd Hf. apply in_the_diff in Hd as [(x & _ & _ & ->)|(x & H & _ & ->)].
    + rewrite flag_set_flag in Hf. discriminate.
    + unfold as_set. rewrite rid_set_flag. now apply in_ids.
Qed.

Lemma the_diff_result new cur : r_eq (r_apply (as_set cur) (the_diff new cur)) (as_set new).
Proof.
  intros x. rewrite r_apply_last by apply the_diff_for.
  destruct (last_flag (the_diff new cur) x) as [f|] eqn:E.
  - destruct (last_flag_some _ _ _ E) as (d & Hd & Hx & Hf).
    apply in_the_diff in Hd as [(y & H1 & H2 & ->)|(y & H1 & H2 & ->)];
      rewrite rid_set_flag in Hx; rewrite flag_set_flag in Hf; subst.
    + split; [intros _; now apply in_ids|auto].
    + split; [discriminate|intros H; contradiction].
  - apply last_flag_none in E. unfold as_set. split; intros H.
    + destruct (in_dec rid_dec x (ids new)) as [|N]; [assumption|]. exfalso. apply E.
      destruct (ids_in _ _ H) as (d & Hd & <-). rewrite <- (rid_set_flag 0 d). apply in_ids.
      apply in_the_diff. right. eauto.
    + destruct (in_dec rid_dec x (ids cur)) as [|N]; [assumption|]. exfalso. apply E.
      destruct (ids_in _ _ H) as (d & Hd & <-). rewrite <- (rid_set_flag 1 d). apply in_ids.
      apply in_the_diff. left. eauto.
Qed.

Lemma flat_map_single {A} (l : list A) : flat_map (fun x => [x]) l = l.
Proof. induction l as [|a l IH]; [reflexivity|cbn; now rewrite IH]. Qed.
Lemma flat_map_none {A B} (l : list A) : flat_map (fun _ => @nil B) l = [].
Proof. induction l as [|a l IH]; [reflexivity|exact IH]. Qed.

(** Applying the diff to the stored list. *)
Lemma in_ids_the_diff new cur x :
  In x (ids (the_diff new cur)) <-> (In x (ids new) /\ ~ In x (ids cur)) \/ (In x (ids cur) /\ ~ In x (ids new)).
Proof.
  split.
  - intros H. destruct (ids_in _ _ H) as (d & Hd & <-).
    apply in_the_diff in Hd as [(y & H1 & H2 & ->)|(y & H1 & H2 & ->)]; rewrite rid_set_flag; [left|right];
      split; try assumption; now apply in_ids.
  - intros [(H1 & H2)|(H1 & H2)]; destruct (ids_in _ _ H1) as (d & Hd & <-).
    + rewrite <- (rid_set_flag 1 d). apply in_ids, in_the_diff. left. eauto.
    + rewrite <- (rid_set_flag 0 d). apply in_ids, in_the_diff. right. eauto.
Qed.

(** The list stored after an update: what stayed, then what was added. *)
Lemma stored_list new cur : Forall wf_sd new -> Forall wf_sd cur -> (forall d, In d cur -> get_flag d = 1) ->
  apply_diff (the_diff new cur) cur =
  filter (fun x => mem (rid_of x) (ids new)) cur ++
  map (set_flag 1) (filter (fun x => negb (mem (rid_of x) (ids cur))) new).
Proof.
  intros Hn Hc Hf. pose proof (the_diff_wf new cur Hn Hc) as Hd. unfold apply_diff. f_equal.
  - rewrite (flat_map_ext_in _ (fun x => if mem (rid_of x) (ids new) then [x] else [])).
    + apply flat_map_filter2.
    + intros x Hx. rewrite Forall_forall in Hc. rewrite map_has_convert by auto.
      destruct (mem (rid_of x) (ids new)) eqn:E.
      * replace (mem (rid_of x) (ids (the_diff new cur))) with false; [reflexivity|].
        symmetry. apply mem_not. rewrite in_ids_the_diff. apply mem_in in E.
        intros [(_ & H)|(_ & H)]; [apply H; now apply in_ids|contradiction].
      * replace (mem (rid_of x) (ids (the_diff new cur))) with true; [reflexivity|].
        symmetry. apply mem_in. rewrite in_ids_the_diff. apply mem_not in E. right.
        split; [now apply in_ids|assumption].
  - unfold the_diff at 1. rewrite flat_map_app.
    match goal with |- ?a ++ ?b = _ => replace b with (@nil sd) end.
    + rewrite app_nil_r.
      match goal with |- flat_map _ ?l = _ => transitivity (flat_map (fun x => [x]) l) end.
      * apply flat_map_ext_in. intros x Hx. apply in_map_iff in Hx as (y & <- & _).
        rewrite flag_set_flag. reflexivity.
      * apply flat_map_single.
    + symmetry. match goal with |- flat_map _ ?l = _ => transitivity (flat_map (fun _ : sd => @nil sd) l) end.
      * apply flat_map_ext_in. intros x Hx. apply in_map_iff in Hx as (y & <- & Hy).
        apply filter_In in Hy as [Hy _]. rewrite flag_set_flag. cbn [N.eqb FLAG_ADDED FLAG_REMOVED].
        assert (Wy : wf_sd (set_flag 0 y)).
        { rewrite Forall_forall in Hc. apply wf_set_flag; auto. unfold u8. lia. }
        rewrite map_get_convert by assumption. rewrite rid_set_flag.
        destruct (last_flag cur (rid_of y)) as [f|] eqn:E.
        -- destruct (last_flag_some _ _ _ E) as (z & Hz & _ & Fz). rewrite (Hf z Hz) in Fz. now subst f.
        -- apply last_flag_none in E. exfalso. apply E. now apply in_ids.
      * apply flat_map_none.
Qed.

Lemma stored_set new cur : Forall wf_sd new -> Forall wf_sd cur -> (forall d, In d cur -> get_flag d = 1) ->
  same_set (apply_diff (the_diff new cur) cur) new.
Proof.
  intros Hn Hc Hf x. rewrite stored_list by assumption. unfold ids. rewrite map_app, in_app_iff.
  rewrite map_map. rewrite !in_map_iff. split.
  - intros [(d & <- & H)|(d & E & H)]; apply filter_In in H as [H1 H2].
    + apply mem_in, ids_in in H2 as (e & He & E). exists e. auto.
    + rewrite rid_set_flag in E. exists d. auto.
  - intros (d & <- & H). destruct (mem (rid_of d) (ids cur)) eqn:E.
    + left. apply mem_in, ids_in in E as (e & He & E). exists e. split; [assumption|].
      apply filter_In. split; [assumption|]. apply mem_in. rewrite E. now apply in_ids.
    + right. exists d. split; [apply rid_set_flag|]. apply filter_In. split; [assumption|]. apply negb_true_iff. exact E.
Qed.

Lemma generate_serial_u32 s : u32 (sdCurrentSerial s) -> u32 (generate_serial s).
Proof.
  intros H. unfold generate_serial. destruct (sdCurrent s); [assumption|]. unfold u32add, to_u32, u32 in *. lia.
Qed.

Lemma add_sds_diff_inv s new : inv s -> Forall wf_sd new ->
  inv (add_sds_diff s (the_diff new (sdCurrent s))).
Proof.
  intros (Hw & Hf & Hs) Hn. unfold add_sds_diff. repeat split; cbn [sdCurrent sdCurrentSerial].
  - apply wf_apply_diff; [now apply the_diff_wf|assumption].
  - intros d. rewrite stored_list by assumption. rewrite in_app_iff, in_map_iff.
    intros [H|(x & <- & _)]; [apply filter_In in H as [H _]; auto|apply flag_set_flag].
  - now apply generate_serial_u32.
Qed.

Lemma step_inv s new : inv s -> Forall wf_sd new -> inv (step s new).
Proof.
  intros Hi Hn. unfold step. rewrite add_data_eq by (assumption || apply Hi).
  destruct (the_diff new (sdCurrent s)) eqn:E; [exact Hi|]. cbn [fst]. rewrite <- E. now apply add_sds_diff_inv.
Qed.

Lemma step_set s new : inv s -> Forall wf_sd new -> same_set (sdCurrent (step s new)) new.
Proof.
  intros Hi Hn. pose proof Hi as (Hw & Hf & _). unfold step. rewrite add_data_eq by assumption.
  destruct (the_diff new (sdCurrent s)) eqn:E; cbn [fst].
  - now apply the_diff_nil.
  - rewrite <- E. cbn [add_sds_diff sdCurrent]. now apply stored_set.
Qed.

Lemma run_inv s h : inv s -> Forall (Forall wf_sd) h -> inv (run s h).
Proof.
  intros Hi Hh. revert s Hi. induction Hh as [|new h Hn Hh IH]; intros s Hi; [exact Hi|].
  cbn [run fold_left]. apply IH. now apply step_inv.
Qed.

(** * C08 *)
Lemma run_set s h new : inv s -> Forall (Forall wf_sd) (h ++ [new]) ->
  same_set (sdCurrent (run s (h ++ [new]))) new /\
  (forall d, In d (sdCurrent (run s (h ++ [new]))) -> get_flag d = 1).
Proof.
  intros Hi Hh. apply Forall_app in Hh as [Hh Hn]. inversion Hn; subst. split.
  - unfold run. rewrite fold_left_app. cbn [fold_left]. apply step_set; [now apply run_inv|assumption].
  - apply run_inv; [assumption|]. apply Forall_app. auto.
Qed.

(** No duplicates are introduced. *)
Lemma ids_filter_sub (f : sd -> bool) l : NoDup (ids l) -> NoDup (ids (filter f l)).
Proof.
  induction l as [|d l IH]; cbn; intros H; [constructor|]. inversion H; subst.
  destruct (f d); [|auto]. cbn. constructor; [|auto].
  intros HI. apply H2. apply ids_in in HI as (e & He & E). apply filter_In in He as [He _].
  rewrite <- E. now apply in_ids.
Qed.
Lemma NoDup_app_disj {A} (a b : list A) : NoDup a -> NoDup b -> (forall x, In x a -> ~ In x b) -> NoDup (a ++ b).
Proof.
  intros Ha Hb H. induction a as [|x a IH]; [assumption|]. inversion Ha; subst. cbn. constructor.
  - rewrite in_app_iff. intros [G|G]; [contradiction|]. apply (H x); [now left|assumption].
  - apply IH; [assumption|]. intros y Hy. apply H. now right.
Qed.
Lemma ids_map_set f l : ids (map (set_flag f) l) = ids l.
Proof. unfold ids. rewrite map_map. apply map_ext. intros. apply rid_set_flag. Qed.

Lemma step_nodup s new : inv s -> Forall wf_sd new -> NoDup (ids (sdCurrent s)) -> NoDup (ids new) ->
  NoDup (ids (sdCurrent (step s new))).
Proof.
  intros Hi Hn N1 N2. pose proof Hi as (Hw & Hf & _). unfold step. rewrite add_data_eq by assumption.
  destruct (the_diff new (sdCurrent s)) eqn:E; cbn [fst]; [assumption|].
  rewrite <- E. cbn [add_sds_diff sdCurrent]. rewrite stored_list by assumption.
  unfold ids. rewrite map_app. fold (ids (filter (fun x => mem (rid_of x) (ids new)) (sdCurrent s))).
  apply NoDup_app_disj.
  - now apply ids_filter_sub.
  - match goal with |- NoDup (map rid_of (map ?f ?l)) => change (NoDup (ids (map f l))) end.
    rewrite ids_map_set. now apply ids_filter_sub.
  - intros x H1 H2.
    match type of H2 with In x (map rid_of (map ?f ?l)) => change (In x (ids (map f l))) in H2 end.
    rewrite ids_map_set in H2.
    apply ids_in in H1 as (d & Hd & E1). apply ids_in in H2 as (e & He & E2).
    apply filter_In in Hd as [Hd _]. apply filter_In in He as [_ He].
    apply negb_true_iff, mem_not in He. apply He. rewrite E2, <- E1. now apply in_ids.
Qed.
Lemma run_nodup s h : inv s -> NoDup (ids (sdCurrent s)) -> Forall (Forall wf_sd) h ->
  Forall (fun l => NoDup (ids l)) h -> NoDup (ids (sdCurrent (run s h))).
Proof.
  intros Hi Hd Hh. revert s Hi Hd. induction Hh as [|new h Hn Hh IH]; intros s Hi Hd Hnd; [exact Hd|].
  inversion Hnd; subst. cbn [run fold_left]. apply IH; auto using step_inv, step_nodup.
Qed.

(** * C11 *)
Lemma add_data_changes s new : inv s -> Forall wf_sd new ->
  (snd (add_data s new) = true <-> ~ same_set (sdCurrent s) new) /\
  (snd (add_data s new) = false -> fst (add_data s new) = s) /\
  (snd (add_data s new) = true -> sdCurrent s <> [] ->
     sdCurrentSerial (fst (add_data s new)) = (sdCurrentSerial s + 1) mod 4294967296) /\
  (snd (add_data s new) = true -> sdCurrent s = [] ->
     sdCurrentSerial (fst (add_data s new)) = sdCurrentSerial s).
Proof.
  intros (Hw & _) Hn. rewrite add_data_eq by assumption.
  pose proof (the_diff_nil new (sdCurrent s)) as HN.
  destruct (the_diff new (sdCurrent s)) as [|d l] eqn:E; cbn [fst snd].
  - split; [|split; [|split]]; try discriminate; auto. split; [discriminate|tauto].
  - split; [|split; [|split]]; try discriminate.
    + split; [|auto]. intros _ H. apply HN in H. discriminate.
    + intros _ Hne. cbn. unfold generate_serial. destruct (sdCurrent s); [contradiction|]. reflexivity.
    + intros _ He. cbn. unfold generate_serial. now rewrite He.
Qed.

(** * C17 *)
Lemma step_serial s new : inv s -> Forall wf_sd new ->
  sdCurrentSerial (step s new) =
  (sdCurrentSerial s + (if advances (sdCurrent s) new then 1 else 0)) mod 4294967296.
Proof.
  intros Hi Hn. pose proof Hi as (_ & _ & Hs). unfold u32 in Hs.
  pose proof (add_data_changes s new Hi Hn) as (H1 & H2 & H3 & H4). unfold step, advances.
  destruct (snd (add_data s new)) eqn:E.
  - assert (same_setb (sdCurrent s) new = false) as ->.
    { apply not_true_iff_false. rewrite same_setb_eq. apply H1. reflexivity. }
    destruct (sdCurrent s) eqn:EC; cbn [negb andb is_nil].
    + rewrite H4 by reflexivity. rewrite N.add_0_r, N.mod_small by lia. reflexivity.
    + apply H3; [reflexivity|discriminate].
  - assert (same_setb (sdCurrent s) new = true) as ->.
    { destruct (same_setb (sdCurrent s) new) eqn:F; [reflexivity|].
      apply not_true_iff_false in F. rewrite same_setb_eq in F. apply H1 in F. discriminate. }
    rewrite H2 by reflexivity. cbn [negb andb]. rewrite N.add_0_r, N.mod_small by lia. reflexivity.
Qed.

Lemma same_setb_congr a b c : same_set a b -> same_setb a c = same_setb b c.
Proof.
  intros H. apply eq_true_iff_eq. rewrite !same_setb_eq. split; intros G.
  - eapply same_set_trans; [apply same_set_sym; eassumption|assumption].
  - eapply same_set_trans; eassumption.
Qed.
Lemma is_nil_congr (a b : list sd) : same_set a b -> is_nil a = is_nil b.
Proof.
  intros H. destruct a as [|x a], b as [|y b]; try reflexivity.
  - apply same_set_sym, same_set_nil in H. discriminate.
  - apply same_set_nil in H. discriminate.
Qed.
Lemma advances_congr a b c : same_set a b -> advances a c = advances b c.
Proof. intros H. unfold advances. now rewrite (same_setb_congr a b c), (is_nil_congr a b). Qed.
Lemma count_congr a b h : same_set a b -> count_advances a h = count_advances b h.
Proof. intros H. destruct h as [|n h]; [reflexivity|]. cbn. now rewrite (advances_congr a b n). Qed.

Lemma run_serial h : forall s, inv s -> Forall (Forall wf_sd) h ->
  sdCurrentSerial (run s h) = (sdCurrentSerial s + count_advances (sdCurrent s) h) mod 4294967296.
Proof.
  induction h as [|new h IH]; intros s Hi Hh.
  - cbn. destruct Hi as (_ & _ & Hs). unfold u32 in Hs. rewrite N.add_0_r, N.mod_small by lia. reflexivity.
  - inversion Hh; subst. cbn [run fold_left]. fold (run (step s new) h).
    rewrite IH by auto using step_inv. rewrite step_serial by assumption.
    rewrite (count_congr _ new) by now apply step_set. cbn [count_advances].
    rewrite N.add_mod_idemp_l by lia. f_equal. lia.
Qed.

(** * C14 *)
Lemma count_le h : forall c, count_advances c h <= nlen h.
Proof.
  unfold nlen. induction h as [|n h IH]; intros c; [reflexivity|].
  cbn [count_advances length]. specialize (IH n). destruct (advances c n); lia.
Qed.
Lemma count_pos h : forall c, c <> [] -> ~ same_set c (last_set c h) -> 1 <= count_advances c h.
Proof.
  induction h as [|n h IH]; intros c Hc H.
  - exfalso. apply H. apply same_set_refl.
  - cbn [count_advances]. destruct (advances c n) eqn:E; [lia|].
    unfold advances in E. rewrite andb_false_iff, !negb_false_iff in E. destruct E as [E|E].
    + apply same_setb_eq in E. rewrite N.add_0_l. rewrite <- (count_congr c n) by assumption.
      apply IH; [assumption|]. intros G. apply H. unfold last_set in *.
      destruct h as [|m h]; [exact E|].
      change (last (n :: m :: h) c) with (last (m :: h) c). exact G.
    + destruct c; [contradiction|discriminate].
Qed.

Lemma serial_names s h1 h2 : inv s -> Forall (Forall wf_sd) (h1 ++ h2) ->
  sdCurrent (run s h1) <> [] -> nlen h2 < 4294967296 ->
  ~ same_set (sdCurrent (run s h1)) (sdCurrent (run s (h1 ++ h2))) ->
  sdCurrentSerial (run s h1) <> sdCurrentSerial (run s (h1 ++ h2)).
Proof.
  intros Hi Hh Hne Hlen Hd. apply Forall_app in Hh as [Hh1 Hh2].
  unfold run in *. rewrite fold_left_app in *. fold (run s h1) in *. fold (run (run s h1) h2) in *.
  pose proof (run_inv s h1 Hi Hh1) as Hi1. rewrite (run_serial h2) by assumption.
  pose proof (count_le h2 (sdCurrent (run s h1))) as HL.
  assert (HP : 1 <= count_advances (sdCurrent (run s h1)) h2).
  { apply count_pos; [assumption|]. intros G. apply Hd. eapply same_set_trans; [exact G|].
    destruct h2 as [|n h2] using rev_ind; [apply same_set_refl|].
    unfold last_set. rewrite last_last. apply same_set_sym. now apply run_set. }
  destruct Hi1 as (_ & _ & Hs). unfold u32 in Hs. lia.
Qed.

(** * C13, C15 *)
Lemma serial_diff_cases s q :
  (q = sdCurrentSerial s /\ get_sds_serial_diff s q = Ok []) \/
  ((sdCurrentSerial s < q \/ (q < sdCurrentSerial s /\ nlen (sdListDiff s) < sdCurrentSerial s - q)) /\
    get_sds_serial_diff s q = Err tt) \/
  (q < sdCurrentSerial s /\ sdCurrentSerial s - q <= nlen (sdListDiff s) /\
   exists d, nth_error (sdListDiff s) (length (sdListDiff s) - N.to_nat (sdCurrentSerial s - q)) = Some d /\
     get_sds_serial_diff s q = Ok d).
Proof.
  unfold get_sds_serial_diff.
  destruct (q =? sdCurrentSerial s) eqn:E1; [left; split; [lia|reflexivity]|].
  destruct (sdCurrentSerial s <? q) eqn:E2; [right; left; split; [lia|reflexivity]|].
  destruct (nlen (sdListDiff s) <? sdCurrentSerial s - q) eqn:E3; [right; left; split; [lia|reflexivity]|].
  right. right. split; [lia|]. split; [lia|]. unfold nlen in *.
  destruct (nth_error _ _) eqn:E; [eauto|]. apply nth_error_None in E. lia.
Qed.
Lemma serial_diff_total s q : get_sds_serial_diff s q <> Panic.
Proof.
  destruct (serial_diff_cases s q) as [(_ & ->)|[(_ & ->)|(_ & _ & d & _ & ->)]]; discriminate.
Qed.
Lemma serial_diff_err s q : get_sds_serial_diff s q = Err tt <->
  sdCurrentSerial s < q \/ (q < sdCurrentSerial s /\ nlen (sdListDiff s) < sdCurrentSerial s - q).
Proof.
  destruct (serial_diff_cases s q) as [(H & ->)|[(H & ->)|(H & H1 & d & _ & ->)]];
    (split; [try discriminate; auto; lia|intros; try reflexivity; lia]).
Qed.
Lemma serial_diff_cur s : get_sds_serial_diff s (sdCurrentSerial s) = Ok [].
Proof. unfold get_sds_serial_diff. now rewrite N.eqb_refl. Qed.

Lemma keep_const s new : keepDiff (step s new) = keepDiff s.
Proof.
  unfold step, add_data. destruct (compute_diff _ _ _) as [[a r] u]. destruct (a ++ r); reflexivity.
Qed.
Lemma step_bound s new : (0 < keepDiff s)%Z ->
  (Z.of_nat (length (sdListDiff s)) <= keepDiff s)%Z ->
  (Z.of_nat (length (sdListDiff (step s new))) <= keepDiff s)%Z.
Proof.
  intros Hk Hl. unfold step, add_data. destruct (compute_diff _ _ _) as [[a r] u].
  destruct (a ++ r) as [|d l]; [exact Hl|]. cbn [fst add_sds_diff sdListDiff].
  match goal with |- context [if ?c then _ else _] => destruct c eqn:E end.
  - rewrite skipn_length. lia.
  - lia.
Qed.
Lemma run_bound h : forall s, (0 < keepDiff s)%Z ->
  (Z.of_nat (length (sdListDiff s)) <= keepDiff s)%Z ->
  (Z.of_nat (length (sdListDiff (run s h))) <= keepDiff s)%Z.
Proof.
  induction h as [|n h IH]; intros s Hk Hl; [exact Hl|].
  cbn [run fold_left]. fold (run (step s n) h). rewrite <- (keep_const s n). apply IH; rewrite keep_const.
  - exact Hk.
  - now apply step_bound.
Qed.

(** * C12, the part that holds: one update behind *)
Lemma last_entry s d : nth_error (sdListDiff (add_sds_diff s d)) (length (sdListDiff (add_sds_diff s d)) - 1) = Some d
  /\ (1 <= length (sdListDiff (add_sds_diff s d)))%nat.
Proof.
  cbn [add_sds_diff sdListDiff].
  set (l := map (apply_diff d) (sdListDiff s) ++ [[]]).
  assert (G : forall m, (m <= length l)%nat ->
    nth_error (skipn m (l ++ [d])) (length (skipn m (l ++ [d])) - 1) = Some d /\
    (1 <= length (skipn m (l ++ [d])))%nat).
  { intros m Hm. rewrite skipn_app. replace (m - length l)%nat with 0%nat by lia. cbn [skipn].
    rewrite app_length. cbn [length]. rewrite skipn_length. split; [|lia].
    rewrite nth_error_app2 by (rewrite skipn_length; lia). rewrite skipn_length.
    replace (length l - m + 1 - 1 - (length l - m))%nat with 0%nat by lia. reflexivity. }
  match goal with |- context [if ?c then _ else _] => destruct c eqn:E end.
  - apply G. rewrite app_length. cbn [length]. lia.
  - apply (G 0%nat). lia.
Qed.

Lemma one_behind s new : inv s -> Forall wf_sd new ->
  ~ same_set (sdCurrent s) new -> sdCurrent s <> [] -> sdCurrentSerial s < 4294967295 ->
  exists d, get_sds_serial_diff (step s new) (sdCurrentSerial s) = Ok d /\
    diff_for (as_set (sdCurrent s)) d /\
    r_eq (r_apply (as_set (sdCurrent s)) d) (as_set (sdCurrent (step s new))).
Proof.
  intros Hi Hn Hd Hne Hs.
  pose proof (step_set s new Hi Hn) as HS.
  pose proof (step_serial s new Hi Hn) as HSer.
  assert (HA : advances (sdCurrent s) new = true).
  { unfold advances. rewrite andb_true_iff, !negb_true_iff. split.
    - apply not_true_iff_false. now rewrite same_setb_eq.
    - destruct (sdCurrent s); [contradiction|reflexivity]. }
  rewrite HA in HSer.
  assert (HT : step s new = add_sds_diff s (the_diff new (sdCurrent s))).
  { unfold step. rewrite add_data_eq by (assumption || apply Hi).
    pose proof (the_diff_nil new (sdCurrent s)) as HN.
    destruct (the_diff new (sdCurrent s)); [|reflexivity]. exfalso. apply Hd, HN. reflexivity. }
  exists (the_diff new (sdCurrent s)). split; [|split].
  - rewrite N.mod_small in HSer by lia. rewrite HT in *.
    destruct (last_entry s (the_diff new (sdCurrent s))) as [HL1 HL2].
    set (s' := add_sds_diff s (the_diff new (sdCurrent s))) in *.
    destruct (serial_diff_cases s' (sdCurrentSerial s)) as [(H & _)|[(H & _)|(_ & _ & d & H & ->)]];
      unfold nlen in *; try lia.
    replace (N.to_nat (sdCurrentSerial s' - sdCurrentSerial s)) with 1%nat in H by lia. congruence.
  - apply the_diff_for.
  - intros x. rewrite (the_diff_result new (sdCurrent s) x). unfold as_set. symmetry. apply HS.
Qed.

(** The same for routers that ask later: as long as the set was never emptied and the
    serial is exactly one ahead, all other updates were no changes. *)
Lemma run_app s a b : run s (a ++ b) = run (run s a) b.
Proof. unfold run. apply fold_left_app. Qed.

Lemma not_advances_same c n : c <> [] -> advances c n = false -> same_set c n.
Proof.
  intros Hc E. unfold advances in E. rewrite andb_false_iff, !negb_false_iff in E. destruct E as [E|E].
  - now apply same_setb_eq.
  - destruct c; [contradiction|discriminate].
Qed.

Lemma run_no_advance h : forall s, inv s -> Forall (Forall wf_sd) h -> sdCurrent s <> [] ->
  count_advances (sdCurrent s) h = 0 -> run s h = s.
Proof.
  induction h as [|n h IH]; intros s Hi Hh Hne HC; [reflexivity|]. inversion Hh; subst.
  cbn [count_advances] in HC. destruct (advances (sdCurrent s) n) eqn:E; [lia|].
  apply not_advances_same in E; [|assumption].
  cbn [run fold_left]. fold (run (step s n) h).
  pose proof (add_data_changes s n Hi H1) as (HA & HB & _).
  assert (step s n = s) as ->.
  { unfold step. apply HB. destruct (snd (add_data s n)); [|reflexivity]. exfalso. apply HA; auto. }
  apply IH; auto. rewrite <- (count_congr (sdCurrent s) n) in HC by assumption. lia.
Qed.

Lemma run_one_advance h : forall s, inv s -> Forall (Forall wf_sd) h -> sdCurrent s <> [] ->
  Forall (fun n => n <> []) h -> count_advances (sdCurrent s) h = 1 ->
  exists n, Forall wf_sd n /\ advances (sdCurrent s) n = true /\ run s h = step s n.
Proof.
  induction h as [|n h IH]; intros s Hi Hh Hne HF HC; [discriminate|].
  inversion Hh; subst. inversion HF; subst. cbn [run fold_left]. fold (run (step s n) h).
  cbn [count_advances] in HC. destruct (advances (sdCurrent s) n) eqn:E.
  - exists n. split; [assumption|]. split; [assumption|].
    pose proof (step_set s n Hi H1) as HS.
    apply run_no_advance; auto using step_inv.
    + intros G. rewrite G in HS. apply same_set_sym, same_set_nil in HS. contradiction.
    + rewrite (count_congr _ n) by assumption. lia.
  - apply not_advances_same in E; [|assumption].
    pose proof (add_data_changes s n Hi H1) as (HA & HB & _).
    assert (step s n = s) as ->.
    { unfold step. apply HB. destruct (snd (add_data s n)); [|reflexivity]. exfalso. apply HA; auto. }
    apply IH; auto. rewrite <- (count_congr (sdCurrent s) n) in HC by assumption. lia.
Qed.

Lemma sync_one_behind s h : inv s -> Forall (Forall wf_sd) h -> sdCurrent s <> [] ->
  Forall (fun n => n <> []) h -> nlen h < 4294967296 ->
  sdCurrentSerial (run s h) = sdCurrentSerial s + 1 ->
  exists d, get_sds_serial_diff (run s h) (sdCurrentSerial s) = Ok d /\
    diff_for (as_set (sdCurrent s)) d /\
    r_eq (r_apply (as_set (sdCurrent s)) d) (as_set (sdCurrent (run s h))).
Proof.
  intros Hi Hh Hne HF HL HS. pose proof (run_serial h s Hi Hh) as HR. rewrite HS in HR.
  pose proof (count_le h (sdCurrent s)) as HC. pose proof Hi as (_ & _ & Hu).
  pose proof (run_inv s h Hi Hh) as (_ & _ & Hu2). unfold u32 in *.
  assert (C1 : count_advances (sdCurrent s) h = 1) by lia.
  destruct (run_one_advance h s Hi Hh Hne HF C1) as (n & Hn & HA & ->).
  apply one_behind; auto; [|lia].
  unfold advances in HA. rewrite andb_true_iff, !negb_true_iff in HA. destruct HA as [HA _].
  apply not_true_iff_false in HA. now rewrite same_setb_eq in HA.
Qed.

Lemma sync_current s h : inv s -> Forall (Forall wf_sd) h -> sdCurrent s <> [] -> nlen h < 4294967296 ->
  sdCurrentSerial (run s h) = sdCurrentSerial s ->
  get_sds_serial_diff (run s h) (sdCurrentSerial s) = Ok [] /\
  same_set (sdCurrent s) (sdCurrent (run s h)).
Proof.
  intros Hi Hh Hne HL HS. split; [rewrite <- HS; apply serial_diff_cur|].
  pose proof (run_serial h s Hi Hh) as HR. rewrite HS in HR.
  pose proof (count_le h (sdCurrent s)) as HC. pose proof Hi as (_ & _ & Hu). unfold u32 in *.
  rewrite run_no_advance; auto using same_set_refl. lia.
Qed.

(** * What the history really holds *)

Lemma apply_diff_nil d : flags01 d -> apply_diff d [] = d.
Proof.
  intros H. unfold apply_diff. cbn [flat_map app convert_map fold_left map_get].
  rewrite (flat_map_ext_in _ (fun x => [x])); [apply flat_map_single|].
  intros x Hx. destruct (H x Hx) as [-> | ->]; reflexivity.
Qed.
Lemma merge_snoc ds e : merge (ds ++ [e]) = apply_diff e (merge ds).
Proof. unfold merge. now rewrite fold_left_app. Qed.
Lemma kept_snoc ds e : flags01 e -> map (apply_diff e) (kept ds) ++ [[]; e] = kept (ds ++ [e]).
Proof.
  intros He. induction ds as [|d ds IH].
  - cbn [kept map app]. unfold merge. cbn [fold_left]. now rewrite apply_diff_nil.
  - cbn [kept map app]. rewrite IH, <- !merge_snoc. reflexivity.
Qed.
Lemma skipn_map {A B} (f : A -> B) n l : skipn n (map f l) = map f (skipn n l).
Proof. revert l. induction n as [|n IH]; intros [|x l]; cbn; auto. Qed.
Lemma lastn_all {A} k (l : list A) : (length l <= k)%nat -> lastn k l = l.
Proof. intros H. unfold lastn. replace (length l - k)%nat with 0%nat by lia. reflexivity. Qed.
Lemma lastn_length {A} k (l : list A) : length (lastn k l) = Nat.min k (length l).
Proof. unfold lastn. rewrite skipn_length. lia. Qed.
Lemma lastn_lastn_app {A} k (l m : list A) : lastn k (lastn k l ++ m) = lastn k (l ++ m).
Proof.
  unfold lastn at 1. rewrite app_length, lastn_length. unfold lastn.
  destruct (Nat.le_gt_cases (length l) k) as [H|H].
  - rewrite Nat.min_r by lia. replace (length l - k)%nat with 0%nat by lia. cbn [skipn].
    now rewrite app_length.
  - rewrite Nat.min_l by lia. rewrite app_length.
    rewrite !skipn_app, !skipn_skipn_add, !skipn_length. f_equal.
    + f_equal. lia.
    + f_equal. lia.
Qed.

Lemma publish_keep ds : forall s, keepDiff (publish s ds) = keepDiff s.
Proof. induction ds as [|d ds IH]; intros s; [reflexivity|]. exact (IH (add_sds_diff s d)). Qed.

Lemma history_shape keep ds : Forall flags01 ds ->
  sdListDiff (publish (new_server keep) ds) =
  if (0 <? keep)%Z then lastn (Z.to_nat keep) (kept ds) else kept ds.
Proof.
  intros H. induction ds as [|e ds IH] using rev_ind.
  - cbn. destruct (0 <? keep)%Z; reflexivity.
  - apply Forall_app in H as [H1 H2]. inversion H2; subst. specialize (IH H1).
    unfold publish in *. rewrite fold_left_app. cbn [fold_left].
    set (s := fold_left add_sds_diff ds (new_server keep)) in *.
    assert (K : keepDiff s = keep) by apply (publish_keep ds (new_server keep)).
    cbn [add_sds_diff sdListDiff]. rewrite K, IH. rewrite <- kept_snoc by assumption.
    rewrite <- app_assoc. cbn [app].
    destruct (0 <? keep)%Z eqn:E; cbn [andb].
    + assert (M : map (apply_diff e) (lastn (Z.to_nat keep) (kept ds)) =
                  lastn (Z.to_nat keep) (map (apply_diff e) (kept ds))).
      { unfold lastn. now rewrite <- skipn_map, map_length. }
      rewrite M. rewrite <- (lastn_lastn_app (Z.to_nat keep) (map (apply_diff e) (kept ds))).
      set (L := lastn (Z.to_nat keep) (map (apply_diff e) (kept ds)) ++ [[]; e]).
      destruct (keep <? Z.of_nat (length L))%Z eqn:E2.
      * reflexivity.
      * symmetry. apply lastn_all. lia.
    + reflexivity.
Qed.

(** So the entry 2k-1 places from the end merges the last k diffs, and the entry 2k
    places from the end only the last k-1. *)
Lemma kept_length ds : length (kept ds) = (2 * length ds)%nat.
Proof. induction ds as [|d ds IH]; [reflexivity|]. cbn [kept length]. lia. Qed.
Lemma kept_nth_odd ds k : (1 <= k <= length ds)%nat ->
  nth_error (kept ds) (length (kept ds) - (2 * k - 1)) = Some (merge (lastn k ds)).
Proof.
  rewrite kept_length. induction ds as [|d ds IH]; cbn [length]; [lia|]. intros H.
  destruct (Nat.eq_dec k (S (length ds))) as [->|N].
  - replace (2 * S (length ds) - (2 * S (length ds) - 1))%nat with 1%nat by lia. cbn [kept nth_error].
    rewrite lastn_all by (cbn [length]; lia). reflexivity.
  - replace (2 * S (length ds) - (2 * k - 1))%nat with (S (S (2 * length ds - (2 * k - 1)))) by lia.
    cbn [kept nth_error]. rewrite IH by lia. f_equal. f_equal. unfold lastn. cbn [length].
    replace (S (length ds) - k)%nat with (S (length ds - k)) by lia. reflexivity.
Qed.
Lemma kept_nth_even ds k : (1 <= k <= length ds)%nat ->
  nth_error (kept ds) (length (kept ds) - 2 * k) = Some (merge (lastn (k - 1) ds)).
Proof.
  rewrite kept_length. induction ds as [|d ds IH]; cbn [length]; [lia|]. intros H.
  destruct (Nat.eq_dec k (S (length ds))) as [->|N].
  - replace (2 * S (length ds) - 2 * S (length ds))%nat with 0%nat by lia. cbn [kept nth_error].
    f_equal. f_equal. unfold lastn. cbn [length].
    replace (S (length ds) - (S (length ds) - 1))%nat with 1%nat by lia. reflexivity.
  - replace (2 * S (length ds) - 2 * k)%nat with (S (S (2 * length ds - 2 * k))) by lia.
    cbn [kept nth_error]. rewrite IH by lia. f_equal. f_equal. unfold lastn. cbn [length].
    replace (S (length ds) - (k - 1))%nat with (S (length ds - (k - 1))) by lia. reflexivity.
Qed.

(** Every kept diff is well formed. *)
Lemma Forall_skipn {A} (P : A -> Prop) n l : Forall P l -> Forall P (skipn n l).
Proof. intros H. revert n. induction H; intros [|n]; cbn; auto. Qed.
Lemma step_history_wf s new : inv s -> Forall wf_sd new -> Forall (Forall wf_sd) (sdListDiff s) ->
  Forall (Forall wf_sd) (sdListDiff (step s new)).
Proof.
  intros Hi Hn HL. unfold step. rewrite add_data_eq by (assumption || apply Hi).
  destruct (the_diff new (sdCurrent s)) eqn:E; [exact HL|]. cbn [fst]. rewrite <- E. clear E.
  assert (HD : Forall wf_sd (the_diff new (sdCurrent s))) by (apply the_diff_wf; [assumption|apply Hi]).
  cbn [add_sds_diff sdListDiff].
  assert (HA : Forall (Forall wf_sd)
    ((map (apply_diff (the_diff new (sdCurrent s))) (sdListDiff s) ++ [[]]) ++ [the_diff new (sdCurrent s)])).
  { apply Forall_app; split; [apply Forall_app; split|].
    - apply Forall_forall. intros x Hx. apply in_map_iff in Hx as (y & <- & Hy).
      apply wf_apply_diff; [assumption|]. rewrite Forall_forall in HL. auto.
    - repeat constructor.
    - repeat constructor. exact HD. }
  match goal with |- context [if ?c then _ else _] => destruct c end; [now apply Forall_skipn|exact HA].
Qed.
Lemma run_history_wf h : forall s, inv s -> Forall (Forall wf_sd) h -> Forall (Forall wf_sd) (sdListDiff s) ->
  Forall (Forall wf_sd) (sdListDiff (run s h)).
Proof.
  induction h as [|n h IH]; intros s Hi Hh HL; [exact HL|]. inversion Hh; subst.
  cbn [run fold_left]. fold (run (step s n) h). apply IH; auto using step_inv, step_history_wf.
Qed.
Lemma serial_diff_wf keep h q d : Forall (Forall wf_sd) h ->
  get_sds_serial_diff (run (new_server keep) h) q = Ok d -> Forall wf_sd d.
Proof.
  intros Hh HD. pose proof (run_history_wf h (new_server keep) (inv_new keep) Hh (Forall_nil _)) as HL.
  destruct (serial_diff_cases (run (new_server keep) h) q) as [(_ & E)|[(_ & E)|(_ & _ & d' & Hn & E)]]; rewrite E in HD.
  - inversion HD. constructor.
  - discriminate.
  - inversion HD; subst. apply nth_error_In in Hn. rewrite Forall_forall in HL. auto.
Qed.
