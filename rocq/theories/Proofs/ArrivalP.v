(** The order of the served records. *)
From Coq Require Import ZArith ZifyBool ZifyNat ZifyN Permutation.
From Verif Require Import Model.Process Model.Conn Spec.Sets Spec.History Spec.Response Spec.Input Spec.Arrival
  Proofs.DataP Proofs.CacheP Proofs.JsonP Proofs.ProcessP Proofs.SlurmP.
From Coq Require Import List.
Import ListNotations.
Local Open Scope list_scope.
Local Open Scope N_scope.

Lemma ids_filter (P : rid -> bool) l : ids (filter (fun d => P (rid_of d)) l) = filter P (ids l).
Proof. induction l as [|d l IH]; [reflexivity|]. cbn [filter ids map]. destruct (P (rid_of d)); cbn [ids map]; unfold ids in IH; now rewrite IH. Qed.
Lemma ids_flag f l : ids (map (set_flag f) l) = ids l.
Proof. induction l as [|d l IH]; [reflexivity|]. cbn [ids map]. unfold ids in IH. rewrite IH. now destruct d. Qed.
Lemma filter_all {A} (f : A -> bool) l : (forall x, In x l -> f x = true) -> filter f l = l.
Proof. induction l as [|x l IH]; intros H; [reflexivity|]. cbn [filter]. rewrite (H x (or_introl eq_refl)), IH; [reflexivity|]. intros y Hy. apply H. now right. Qed.
Lemma filter_nothing {A} (f : A -> bool) l : (forall x, In x l -> f x = false) -> filter f l = [].
Proof. induction l as [|x l IH]; intros H; [reflexivity|]. cbn [filter]. rewrite (H x (or_introl eq_refl)), IH; [reflexivity|]. intros y Hy. apply H. now right. Qed.

Lemma wf_diff new cur : Forall wf_sd new -> Forall wf_sd cur -> Forall wf_sd (the_diff new cur).
Proof.
  intros Hn Hc. rewrite Forall_forall in *. intros d Hd. apply in_the_diff in Hd as [(x & Hx & _ & ->)|(x & Hx & _ & ->)].
  - specialize (Hn x Hx). destruct x; cbn in *; unfold u8 in *; intuition lia.
  - specialize (Hc x Hx). destruct x; cbn in *; unfold u8 in *; intuition lia.
Qed.
Lemma step_order s new : inv s -> Forall wf_sd new ->
  ids (sdCurrent (step s new)) =
  filter (fun x => mem x (ids new)) (ids (sdCurrent s)) ++ filter (fun x => negb (mem x (ids (sdCurrent s)))) (ids new).
Proof.
  intros (Hw & Hf & _) Hn. unfold step. rewrite add_data_eq by assumption. pose proof (the_diff_nil new (sdCurrent s)) as HD.
  pose proof (wf_diff new (sdCurrent s) Hn Hw) as WD. remember (the_diff new (sdCurrent s)) as D eqn:ED.
  destruct D as [|d0 D0].
  - destruct HD as [HD _]. specialize (HD eq_refl). cbn [fst].
    rewrite filter_all by (intros x Hx; apply mem_in; now apply HD). rewrite filter_nothing; [now rewrite app_nil_r|].
    intros x Hx. apply negb_false_iff, mem_in. now apply HD.
  - clear HD. rewrite ED in *. clear d0 D0 ED. cbn [fst]. unfold add_sds_diff. cbn [sdCurrent]. unfold apply_diff. assert (IA : forall a b, ids (a ++ b) = ids a ++ ids b) by (intros; apply map_app). rewrite IA. f_equal.
    + rewrite (flat_map_ext_in _ (fun x => if mem (rid_of x) (ids (the_diff new (sdCurrent s))) then [] else [x])).
      * rewrite (flat_map_filter (fun x => x) (fun x => mem (rid_of x) (ids (the_diff new (sdCurrent s))))), map_id.
        rewrite (ids_filter (fun x => negb (mem x (ids (the_diff new (sdCurrent s)))))). apply filter_ext_in. intros x Hx.
        destruct (mem x (ids new)) eqn:E.
        -- apply negb_true_iff, mem_not. intros H. apply ids_in in H as (d & Hd & Ed). apply in_the_diff in Hd as [(y & Hy & N & ->)|(y & Hy & N & ->)]; apply mem_in in E.
           ++ apply N. replace (rid_of y) with x by (rewrite <- Ed; now destruct y). exact Hx.
           ++ apply N. replace (rid_of y) with x by (rewrite <- Ed; now destruct y). exact E.
        -- apply negb_false_iff, mem_in. apply mem_not in E. apply ids_in in Hx as (d & Hd & <-).
           replace (rid_of d) with (rid_of (set_flag 0 d)) by now destruct d. apply in_ids, in_the_diff. right. exists d. split; [exact Hd|]. split; [exact E|reflexivity].
      * intros x Hx. rewrite Forall_forall in Hw. rewrite map_has_convert; [reflexivity|exact WD|now apply Hw].
    + unfold the_diff. rewrite flat_map_app, IA.
      replace (ids (flat_map _ (map (set_flag 1) _))) with (filter (fun x => negb (mem x (ids (sdCurrent s)))) (ids new)).
      *         assert (HN : forall l, (forall x, In x l -> In x (sdCurrent s)) -> ids (flat_map (fun x =>
           if get_flag x =? FLAG_ADDED then [x] else if get_flag x =? FLAG_REMOVED then
             match map_get (convert_map (sdCurrent s)) (hashkey x) with None => [x] | Some f => if f =? FLAG_REMOVED then [x] else [] end else []) (map (set_flag 0) l)) = []).
        { induction l as [|x l IH]; intros Hl; [reflexivity|]. cbn [map flat_map]. rewrite IA, IH by (intros y Hy; apply Hl; now right). rewrite app_nil_r.
          pose proof (Hl x (or_introl eq_refl)) as Hx. rewrite Forall_forall in Hw. pose proof (Hw x Hx) as Wx.
          replace (get_flag (set_flag 0 x)) with 0 by now destruct x. cbn [N.eqb FLAG_ADDED FLAG_REMOVED].
          rewrite map_get_convert; [|now apply Forall_forall|destruct x; cbn in *; unfold u8 in *; intuition lia].
          replace (rid_of (set_flag 0 x)) with (rid_of x) by now destruct x.
          destruct (last_flag (sdCurrent s) (rid_of x)) as [f|] eqn:EL.
          - apply last_flag_some in EL as (e & He & _ & <-). rewrite (Hf e He). reflexivity.
          - exfalso. apply last_flag_none in EL. apply EL. now apply in_ids. }
        rewrite HN; [now rewrite app_nil_r|]. intros x Hx. now apply filter_In in Hx as [Hx _].
      * symmetry. rewrite <- (ids_filter (fun x => negb (mem x (ids (sdCurrent s))))).
        generalize (filter (fun d => negb (mem (rid_of d) (ids (sdCurrent s)))) new). induction l as [|x l IH]; [reflexivity|]. unfold ids in *. cbn [map flat_map].
        replace (get_flag (set_flag 1 x)) with 1 by now destruct x. cbn [N.eqb FLAG_ADDED Pos.eqb app map]. rewrite IH. f_equal. now destruct x.
Qed.

Lemma splits_and {A} (P : A -> Prop) f l o g : splits P l o g -> exists o', splits (fun x => P x /\ f x = true) l o' (filter f g).
Proof.
  induction 1 as [|x l k g N S [o' IH]|x l k g H S [o' IH]]; [exists []; constructor|exists (x :: o'); constructor; [tauto|exact IH]|].
  cbn [filter]. destruct (f x) eqn:E; [exists o'; constructor; auto|exists (x :: o'); constructor; [rewrite E; intros [_ G]; discriminate G|exact IH]].
Qed.
Lemma splits_iff {A} (P Q : A -> Prop) l o g : (forall x, P x <-> Q x) -> splits P l o g -> splits Q l o g.
Proof. intros H. induction 1; constructor; auto; [now rewrite <- H|now apply H]. Qed.
Lemma arrival_snoc M prev Ls gs : by_arrival prev Ls gs ->
  by_arrival prev (Ls ++ [M]) (map (filter (fun x => mem x (ids M))) gs ++ [filter (fun x => negb (mem x (ids (last Ls prev)))) (ids M)]).
Proof.
  induction 1 as [prev|prev L Ls g o gs S B IH].
  - cbn [app map last]. apply arrive_set with (o := filter (fun x => negb (negb (mem x (ids prev)))) (ids M)); [|constructor].
    apply (splits_filter (fun x => ~ In x (ids prev) /\ Forall (fun M => In x (ids M)) []) (fun x => negb (mem x (ids prev)))). intros x _. rewrite negb_true_iff, mem_not. split; [auto|tauto].
  - cbn [app map]. destruct (splits_and _ (fun x => mem x (ids M)) _ _ _ S) as (o' & S'). apply arrive_set with (o := o').
    + eapply splits_iff; [|exact S']. intros x. cbv beta. rewrite mem_in, Forall_app. split; [intros [[A1 A2] A3]; auto|intros [A1 [A2 A3]]; inversion A3; subst; auto].
    + replace (last (L :: Ls) prev) with (last Ls L); [exact IH|]. clear. destruct Ls as [|K Ls]; [reflexivity|].
      assert (H : forall d, last (K :: Ls) d = last (K :: Ls) prev) by (revert K; induction Ls as [|J Ls IH]; intros K d; [reflexivity|]; cbn [last]; apply IH). exact (H L).
Qed.
Lemma filter_concat {A} (f : A -> bool) gs : filter f (concat gs) = concat (map (filter f) gs).
Proof. induction gs as [|g gs IH]; [reflexivity|]. cbn [concat map]. now rewrite filter_app, IH. Qed.
Lemma run_order keep h : Forall (Forall wf_sd) h -> exists gs, by_arrival [] h gs /\ ids (sdCurrent (run (new_server keep) h)) = concat gs.
Proof.
  induction h as [|M h IH] using rev_ind; intros Hw; [exists []; split; [constructor|reflexivity]|].
  apply Forall_app in Hw as [Hw HM]. inversion HM as [|? ? WM _]; subst. destruct (IH Hw) as (gs & B & E). eexists. split; [apply (arrival_snoc M), B|].
  unfold run. rewrite fold_left_app. cbn [fold_left]. fold (run (new_server keep) h).
  rewrite (step_order (run (new_server keep) h) M); [|apply run_inv; [apply inv_new|exact Hw]|exact WM]. rewrite E, concat_app, filter_concat. f_equal. cbn [concat]. rewrite app_nil_r.
  rewrite <- E. destruct h as [|L h] using rev_ind; [reflexivity|]. clear IHh. rewrite last_last.
  apply filter_ext. intros x. f_equal. destruct (run_set (new_server keep) h L (inv_new keep) Hw) as [HS _]. specialize (HS x).
  destruct (mem x (ids L)) eqn:E1; [apply mem_in in E1; apply mem_in; now apply HS|apply mem_not in E1; apply mem_not; tauto].
Qed.

(** * Longer prefixes first within one arrival *)
Definition ahead_of (x y : rid) : Prop := match x, y with RV p _ _, RV q _ _ => (bits q <= bits p)%Z | _, _ => True end.
Lemma splits_part {A} (P : A -> Prop) l o g : splits P l o g -> forall x, In x g -> In x l.
Proof. induction 1; intros y Hy; [destruct Hy|right; auto|]. destruct Hy as [<-|Hy]; [now left|right; auto]. Qed.
Lemma splits_ord {A} (R : A -> A -> Prop) P l o g : splits P l o g -> ForallOrdPairs R l -> ForallOrdPairs R g.
Proof.
  induction 1 as [|x l k g N S IH|x l k g H S IH]; intros F; [constructor| |]; inversion F as [|? ? F1 F2]; subst; [auto|].
  constructor; [|auto]. rewrite Forall_forall in *. intros y Hy. apply F1. eapply splits_part; eauto.
Qed.
Lemma announcing_prefix w off x y q : In y (announcing w off x) -> pdu_prefix y = Some q -> exists a m, x = RV q a m.
Proof.
  destruct x as [p a m|a s k]; cbn [announcing].
  - destruct p as [[|n|n] b]; intros [<-|[]] E; injection E as <-; eauto.
  - destruct ((w =? 0) || off)%bool; [intros []|]. intros [<-|[]] E. discriminate E.
Qed.
Lemma announcing_ord w off g : ForallOrdPairs ahead_of g -> longest_first (flat_map (announcing w off) g).
Proof.
  induction 1 as [|x g F1 F2 IH]; [constructor|]. cbn [flat_map].
  assert (HX : forall y, In y (announcing w off x) -> announcing w off x = [y]).
  { intros y. destruct x as [[[|n|n] b] a m|a s k]; cbn [announcing]; try (intros [<-|[]]; reflexivity). destruct ((w =? 0) || off)%bool; intros []; [now subst|contradiction]. }
  destruct (announcing w off x) as [|y r] eqn:E; [exact IH|]. specialize (HX y (or_introl eq_refl)). injection HX as ->. cbn [app]. constructor; [|exact IH].
  apply Forall_forall. intros z Hz p q Hp Hq. apply in_flat_map in Hz as (x' & Hx' & Hz).
  destruct (announcing_prefix w off x y p) as (a & m & ->); [rewrite E; now left|exact Hp|]. destruct (announcing_prefix w off x' z q Hz Hq) as (a' & m' & ->).
  rewrite Forall_forall in F1. exact (F1 _ Hx').
Qed.
(** What one file is fed to the server as: cmd/stayrtr/stayrtr.go:364-370, 409-421, [processData] and the two
    lists one after the other; the file's lists are those left after SLURM, [now] the time of the check. *)
Definition loaded (sort : list sd -> list sd) (f : Z * list vrpjson * list brkjson) : list sd :=
  let '(now, vs, bs) := f in let '(vrps, brks, _, _) := process_data sort now vs bs in vrps ++ brks.
Lemma loaded_ok sort now vs bs : sorts sort -> Forall wf_vj vs -> Forall wf_bj bs ->
  Forall wf_sd (loaded sort (now, vs, bs)) /\ ForallOrdPairs ahead_of (ids (loaded sort (now, vs, bs))).
Proof.
  intros HS HW HB. unfold loaded. pose proof (process_vrps sort now vs bs HS HW) as H.
  destruct (process_data sort now vs bs) as [[[vrps brks] c4] c6] eqn:EP. destruct H as (H1 & _ & H2 & H3 & _).
  assert (Hbrk : brks = brk_loop now bs).
  { unfold process_data in EP. destruct (vrp_loop now vs) as [[[o se] k4] k6]. now injection EP as _ <- _ _. }
  split; [apply Forall_app; split; [exact H3|]; rewrite Hbrk; now apply brk_loop_wf|].
  assert (HV : Forall is_vrp vrps).
  { apply Forall_forall. intros d Hd. apply H1 in Hd as (w & p & n & _ & _ & ->). exact I. }
  assert (HK : Forall (fun d => ~ is_vrp d) brks).
  { apply Forall_forall. intros d Hd. subst brks. apply brk_loop_in in Hd as (b & k & _ & _ & _ & ->). exact (fun x => x). }
  clear - H2 HV HK. induction vrps as [|d vrps IH].
  - cbn [app]. induction HK as [|d brks N K IH]; [constructor|]. cbn [ids map]. constructor; [|exact IH]. apply Forall_forall. intros y _. destruct d; [cbn in N; tauto|exact I].
  - inversion HV as [|? ? V1 V2]; subst. destruct H2 as [S1 S2]. destruct d as [p n m f|]; [|contradiction]. cbn [app ids map rid_of]. constructor; [|apply IH; auto].
    apply Forall_forall. intros y Hy. apply in_map_iff in Hy as (e & <- & He). apply in_app_or in He as [He|He].
    + specialize (S1 e He). rewrite Forall_forall in V2. specialize (V2 e He). destruct e as [q n0 m0 f0|]; [|contradiction]. apply vrp_less_bits in S1. exact S1.
    + rewrite Forall_forall in HK. specialize (HK e He). destruct e; [cbn in HK; tauto|exact I].
Qed.
Lemma arrival_ord sort fs : forall prev gs, by_arrival prev (map (loaded sort) fs) gs ->
  Forall (fun f => ForallOrdPairs ahead_of (ids (loaded sort f))) fs -> Forall (ForallOrdPairs ahead_of) gs.
Proof.
  induction fs as [|f fs IH]; intros prev gs B F; inversion B as [|? ? ? g o gs' S B']; subst; [constructor|]. inversion F; subst.
  constructor; [eapply splits_ord; eauto|eapply IH; eauto].
Qed.
(** The data PDUs by identity. *)
Lemma data_pdus w off l : (forall d, In d l -> get_flag d = 1) -> map (data_pdu w) (filter (may_send w off) l) = flat_map (announcing w off) (ids l).
Proof.
  induction l as [|d l IH]; intros Hf; [reflexivity|]. change (flat_map (announcing w off) (ids (d :: l))) with (announcing w off (rid_of d) ++ flat_map (announcing w off) (ids l)). cbn [filter]. rewrite <- (IH (fun e He => Hf e (or_intror He))).
  pose proof (Hf d (or_introl eq_refl)) as E. destruct d as [[[|n|n] b] a m f|a s k f]; cbn [get_flag] in E; subst f; cbn [may_send rid_of announcing].
  1-3: reflexivity.
  destruct (w =? 0), off; reflexivity.
Qed.
Lemma flat_concat {A B} (f : A -> list B) gs : flat_map f (concat gs) = concat (map (flat_map f) gs).
Proof. induction gs as [|g gs IH]; [reflexivity|]. cbn [concat map]. now rewrite flat_map_app, IH. Qed.
