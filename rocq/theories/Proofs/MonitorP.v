(** Lemmas about rtrmon. *)
From Coq Require Import ZifyBool ZifyNat ZifyN.
From Verif Require Import Spec.Monitor Proofs.FormatP Proofs.DataP Proofs.JsonP.
Ltac Zify.zify_post_hook ::= Z.div_mod_to_equations.

(** * Maps *)
Lemma beqb_refl k : beqb k k = true.
Proof. now apply beqb_eq. Qed.
Lemma beqb_neq a b : a <> b -> beqb a b = false.
Proof. intros H. destruct (beqb a b) eqn:E; [apply beqb_eq in E; congruence|reflexivity]. Qed.
Lemma gget_gdel_same {A} k (m : gmap A) : gget k (gdel k m) = None.
Proof.
  induction m as [|[k' v] m IH]; [reflexivity|]. unfold gdel in *. cbn [filter fst].
  destruct (beqb k k') eqn:E; cbn [negb]; [exact IH|]. cbn [gget]. now rewrite E.
Qed.
Lemma gget_gdel_other {A} k k' (m : gmap A) : k <> k' -> gget k (gdel k' m) = gget k m.
Proof.
  intros H. induction m as [|[k2 v] m IH]; [reflexivity|]. unfold gdel in *. cbn [filter fst].
  destruct (beqb k' k2) eqn:E; cbn [negb gget].
  - apply beqb_eq in E. subst k2. now rewrite (beqb_neq k k' H).
  - now rewrite IH.
Qed.
Lemma gget_gset {A} k k' v (m : gmap A) : gget k (gset k' v m) = if beqb k k' then Some v else gget k m.
Proof.
  unfold gset. cbn [gget]. destruct (beqb k k') eqn:E; [reflexivity|]. apply gget_gdel_other.
  intros ->. now rewrite beqb_refl in E.
Qed.
Lemma gget_none {A} k (m : gmap A) : gget k m = None <-> ~ In k (keys m).
Proof.
  induction m as [|[k' v] m IH]; [cbn; tauto|]. cbn [gget keys map fst In].
  destruct (beqb k k') eqn:E.
  - apply beqb_eq in E. subst k'. split; [discriminate|tauto].
  - fold (keys m). rewrite IH. assert (k' <> k) by (intros ->; now rewrite beqb_refl in E). tauto.
Qed.
Lemma gget_in {A} k v (m : gmap A) : gget k m = Some v -> In (k, v) m.
Proof.
  induction m as [|[k' v'] m IH]; [discriminate|]. cbn [gget]. destruct (beqb k k') eqn:E.
  - intros G. injection G as <-. apply beqb_eq in E. subst k'. now left.
  - intros G. right. auto.
Qed.
Lemma in_gget {A} k v (m : gmap A) : NoDup (keys m) -> In (k, v) m -> gget k m = Some v.
Proof.
  induction m as [|[k' v'] m IH]; intros HN HI; [contradiction|]. cbn [keys map fst] in HN.
  inversion HN as [|? ? H1 H2]; subst. cbn [gget]. destruct HI as [HI|HI].
  - injection HI as -> ->. now rewrite beqb_refl.
  - rewrite beqb_neq; [now apply IH|]. intros ->. apply H1. apply (in_map fst) in HI. exact HI.
Qed.
Lemma gdel_id {A} k (m : gmap A) : gget k m = None -> gdel k m = m.
Proof.
  induction m as [|[k' v] m IH]; [reflexivity|]. cbn [gget]. unfold gdel in *. cbn [filter fst].
  destruct (beqb k k'); [discriminate|]. cbn [negb]. intros H. now rewrite IH.
Qed.
Lemma keys_gdel {A} k (m : gmap A) : NoDup (keys m) -> NoDup (keys (gdel k m)) /\ ~ In k (keys (gdel k m)).
Proof.
  intros HN. split; [|apply gget_none, gget_gdel_same].
  induction m as [|[k' v] m IH]; [constructor|]. cbn [keys map fst] in HN. inversion HN as [|? ? H1 H2]; subst.
  unfold gdel in *. cbn [filter fst]. destruct (beqb k k'); cbn [negb]; [now apply IH|].
  cbn [keys map fst]. constructor; [|now apply IH].
  intros H. apply H1. unfold keys in *. apply in_map_iff in H. destruct H as (x & E & H).
  apply filter_In in H. apply in_map_iff. exists x. tauto.
Qed.
Lemma nodup_gset {A} k v (m : gmap A) : NoDup (keys m) -> NoDup (keys (gset k v m)).
Proof. intros H. destruct (keys_gdel k m H). unfold gset. cbn [keys map fst]. now constructor. Qed.
Lemma in_gset {A} k v k' v' (m : gmap A) : In (k', v') (gset k v m) -> (k' = k /\ v' = v) \/ In (k', v') m.
Proof.
  intros [H|H]; [injection H as <- <-; now left|]. right. unfold gdel in H. now apply filter_In in H.
Qed.

(** * Keys *)
Definition okey (o : obj) : bytes :=
  match o with OV p a m => vkey p m a | OK s a k => kkey s a k end.
Lemma dec_no_dash n : ~ In c_dash (dec n).
Proof. apply plain_no; [tauto|]. apply dec_plain. Qed.
Lemma okey_inj a b : proper a -> proper b -> okey a = okey b -> a = b.
Proof.
  destruct a as [p x m|s x k], b as [q y n|t y l]; cbn [proper okey]; unfold vkey, kkey; intros HA HB HE.
  - apply split_first_eq in HE; [|apply prefix_string_no_dash; tauto|apply prefix_string_no_dash; tauto].
    destruct HE as [E1 E2]. apply split_first_eq in E2; [|apply dec_no_dash|apply dec_no_dash].
    destruct E2 as [E2 E3]. apply dec_inj in E2, E3. apply prefix_string_inj in E1; try tauto. congruence.
  - destruct HB as [B1 B2]. apply split_first_eq in HE; [|apply prefix_string_no_dash; tauto|exact B1].
    destruct HE as [E1 _]. exfalso. apply B2. rewrite <- E1. apply prefix_string_slash; tauto.
  - destruct HA as [A1 A2]. apply split_first_eq in HE; [|exact A1|apply prefix_string_no_dash; tauto].
    destruct HE as [E1 _]. exfalso. apply A2. rewrite E1. apply prefix_string_slash; tauto.
  - destruct HA as [A1 _], HB as [B1 _]. apply split_first_eq in HE; [|exact A1|exact B1].
    destruct HE as [E1 E2]. apply split_first_eq in E2; [|apply dec_no_dash|apply dec_no_dash].
    destruct E2 as [E2 E3]. apply dec_inj in E2. congruence.
Qed.

(** Every entry stands for a proper object, under its key. *)
Definition minv (m : vmap) : Prop :=
  NoDup (keys m) /\ forall k e, In (k, e) m -> exists o, proper o /\ okey o = k /\ entry_obj e = Some o.
Lemma minv_nil : minv [].
Proof. split; [constructor|intros k e []]. Qed.
Lemma minv_gset m k e o : minv m -> proper o -> okey o = k -> entry_obj e = Some o -> minv (gset k e m).
Proof.
  intros [H1 H2] P1 P2 P3. split; [now apply nodup_gset|]. intros k' e' HI.
  apply in_gset in HI. destruct HI as [[-> ->]|HI]; eauto.
Qed.
Lemma minv_gdel m k : minv m -> minv (gdel k m).
Proof.
  intros [H1 H2]. split; [now apply keys_gdel|]. intros k' e' HI. unfold gdel in HI. apply filter_In in HI.
  destruct HI as [HI _]. eauto.
Qed.
Lemma has_gget m o e : minv m -> proper o -> (has m o e <-> gget (okey o) m = Some e).
Proof.
  intros [H1 H2] HP. split.
  - intros (k & HI & HE). destruct (H2 k e HI) as (o' & P1 & P2 & P3).
    assert (o' = o) by congruence. subst o'. subst k. now apply in_gget.
  - intros HG. apply gget_in in HG. exists (okey o). split; [exact HG|].
    destruct (H2 _ _ HG) as (o' & P1 & P2 & P3). apply okey_inj in P2; auto. congruence.
Qed.
Lemma has_proper m o e : minv m -> has m o e -> proper o.
Proof.
  intros [H1 H2] (k & HI & HE). destruct (H2 k e HI) as (o' & P1 & _ & P3). congruence.
Qed.

(** * Rebuilding *)
Definition vj_objs (v : vrpjson) : list obj :=
  match parse_prefix (vj_prefix v), get_asn2 (vj_asn v) with
  | Some p, Some a => [OV p a (vj_length v)] | _, _ => [] end.
Definition bj_obj (b : brkjson) : obj := OK (bj_ski b) (bj_asn b) (bj_pubkey b).

(** What holds of the map being filled, when the objects [os] have been seen. *)
Definition filled (cur : vmap) (now : Z) (os : list obj) (res : vmap) : Prop :=
  minv res /\
  (forall k e, gget k res = Some e -> m_first e = first_seen cur now k /\ m_last e = now /\ m_visible e = true) /\
  (forall k, In k (map okey os) <-> gget k res <> None).
Lemma filled_set cur now os res o e : filled cur now os res -> proper o ->
  entry_obj e = Some o -> m_first e = first_seen cur now (okey o) -> m_last e = now -> m_visible e = true ->
  filled cur now (os ++ [o]) (gset (okey o) e res).
Proof.
  intros (H1 & H2 & H3) HP HE F1 F2 F3. split; [now apply (minv_gset res (okey o) e o)|]. split.
  - intros k e' HG. rewrite gget_gset in HG. destruct (beqb k (okey o)) eqn:E; [|now apply H2].
    injection HG as <-. apply beqb_eq in E. subst k. auto.
  - intros k. rewrite map_app, in_app_iff, gget_gset. cbn [map In]. destruct (beqb k (okey o)) eqn:E.
    + apply beqb_eq in E. split; [discriminate|]. intros _. right. left. now symmetry.
    + assert (okey o <> k) by (intros <-; now rewrite beqb_refl in E). rewrite H3. tauto.
Qed.
Lemma rebuild_vrp_step cur now os res v : filled cur now os res ->
  filled cur now (os ++ vj_objs v) (rebuild_vrp cur now res v).
Proof.
  intros HF. unfold rebuild_vrp, vj_objs, get_prefix2.
  destruct (get_asn2 (vj_asn v)) as [a|].
  2:{ destruct (parse_prefix (vj_prefix v)); now rewrite app_nil_r. }
  destruct (parse_prefix (vj_prefix v)) as [p|] eqn:EP; [|now rewrite app_nil_r].
  destruct (parse_prefix_wf (vj_prefix v) p EP) as [W1 W2]. rewrite W2.
  cbv zeta. apply filled_set; cbn [proper okey m_first m_last m_visible]; auto.
  unfold entry_obj. cbn [m_key m_prefix m_asn m_length]. now rewrite parse_prefix_string.
Qed.
Lemma rebuild_vrps cur now vs : forall os res, filled cur now os res ->
  filled cur now (os ++ flat_map vj_objs vs) (fold_left (rebuild_vrp cur now) vs res).
Proof.
  induction vs as [|v vs IH]; intros os res HF; [cbn; now rewrite app_nil_r|].
  cbn [fold_left flat_map]. rewrite app_assoc. apply IH. now apply rebuild_vrp_step.
Qed.
Lemma rebuild_keys cur now bs : forall os res, Forall (fun b => plain_ski (bj_ski b)) bs -> filled cur now os res ->
  filled cur now (os ++ map bj_obj bs) (fold_left (rebuild_key cur now) bs res).
Proof.
  induction bs as [|b bs IH]; intros os res HP HF; [cbn; now rewrite app_nil_r|].
  inversion HP as [|? ? P1 P2]; subst. cbn [fold_left map].
  change (bj_obj b :: map bj_obj bs) with ([bj_obj b] ++ map bj_obj bs). rewrite app_assoc.
  apply IH; [exact P2|]. unfold rebuild_key. cbv zeta.
  apply (filled_set cur now os res (bj_obj b)); auto.
Qed.
Lemma filled_nil cur now : filled cur now [] [].
Proof. split; [apply minv_nil|]. split; [discriminate|]. intros k. cbn. split; [tauto|congruence]. Qed.
Definition listed_map (cur : vmap) (vs : list vrpjson) (bs : list brkjson) (now : Z) : vmap :=
  fold_left (rebuild_key cur now) bs (fold_left (rebuild_vrp cur now) vs []).
Lemma listed_filled cur vs bs now : Forall (fun b => plain_ski (bj_ski b)) bs ->
  filled cur now (file_objs vs bs) (listed_map cur vs bs now).
Proof.
  intros HP. unfold listed_map, file_objs. apply (rebuild_keys cur now bs _ _ HP).
  apply (rebuild_vrps cur now vs [] []), filled_nil.
Qed.

Definition invisible (x : bytes * mentry) : bool := negb (m_visible (snd x)).
Lemma nodup_keys_cons {A} k v (l : gmap A) : NoDup (keys ((k, v) :: l)) -> gget k l = None /\ NoDup (keys l).
Proof. intros H. cbn [keys map fst] in H. inversion H as [|? ? H1 H2]; subst. split; [now apply gget_none|exact H2]. Qed.
Lemma rebuild_grace_eq grace now res n k e : rebuild_grace grace now (res, n) (k, e) =
  match gget k res with
  | Some _ => (res, n)
  | None => if (now - grace <=? m_last e)%Z then (gset k (set_visible false e) res, n + 1) else (res, n)
  end.
Proof. reflexivity. Qed.
Lemma grace_loop grace now l : forall res n, NoDup (keys l) -> (forall k e, In (k, e) l -> exists o, proper o /\ okey o = k /\ entry_obj e = Some o) ->
  minv res -> n = nlen (filter invisible res) ->
  let r := fold_left (rebuild_grace grace now) l (res, n) in
  minv (fst r) /\ snd r = nlen (filter invisible (fst r)) /\
  forall k, gget k (fst r) =
    match gget k res with
    | Some e => Some e
    | None => match gget k l with
              | Some e => if (now - grace <=? m_last e)%Z then Some (set_visible false e) else None
              | None => None
              end
    end.
Proof.
  induction l as [|[k0 e0] l IH]; intros res n HN HO HM Hn; cbv zeta.
  - cbn [fold_left fst snd gget]. split; [exact HM|]. split; [exact Hn|].
    intros k. destruct (gget k res); reflexivity.
  - destruct (nodup_keys_cons _ _ _ HN) as [K1 K2].
    assert (HO' : forall k e, In (k, e) l -> exists o, proper o /\ okey o = k /\ entry_obj e = Some o)
      by (intros; apply HO; now right).
    cbn [fold_left]. rewrite rebuild_grace_eq.
    destruct (gget k0 res) as [e1|] eqn:EG.
    + destruct (IH res n K2 HO' HM Hn) as (I1 & I2 & I3). split; [exact I1|]. split; [exact I2|].
      intros k. rewrite I3. cbn [gget]. destruct (beqb k k0) eqn:E; [|reflexivity].
      apply beqb_eq in E. subst k. now rewrite EG.
    + destruct (now - grace <=? m_last e0)%Z eqn:EL.
      * destruct (HO k0 e0 (or_introl eq_refl)) as (o & P1 & P2 & P3).
        assert (HM' : minv (gset k0 (set_visible false e0) res)).
        { apply (minv_gset res k0 _ o); auto. }
        assert (Hn' : n + 1 = nlen (filter invisible (gset k0 (set_visible false e0) res))).
        { unfold gset. rewrite gdel_id by exact EG. cbn [filter]. unfold invisible at 1. cbn [snd set_visible m_visible negb].
          unfold nlen in *. cbn [length]. lia. }
        destruct (IH _ _ K2 HO' HM' Hn') as (I1 & I2 & I3). split; [exact I1|]. split; [exact I2|].
        intros k. rewrite I3, gget_gset. cbn [gget]. destruct (beqb k k0) eqn:E; [|reflexivity].
        apply beqb_eq in E. subst k. now rewrite EG, EL.
      * destruct (IH res n K2 HO' HM Hn) as (I1 & I2 & I3). split; [exact I1|]. split; [exact I2|].
        intros k. rewrite I3. cbn [gget]. destruct (beqb k k0) eqn:E; [|reflexivity].
        apply beqb_eq in E. subst k. now rewrite EG, K1, EL.
Qed.
Lemma filter_none {A} (f : A -> bool) l : (forall x, In x l -> f x = false) -> filter f l = [].
Proof.
  induction l as [|x l IH]; intros H; [reflexivity|]. cbn [filter]. rewrite H by now left. apply IH.
  intros y Hy. apply H. now right.
Qed.
Lemma build_spec grace cur vs bs now : minv cur -> Forall (fun b => plain_ski (bj_ski b)) bs ->
  let r := build_new_vrp_map grace cur vs bs now in
  minv (fst r) /\ snd r = nlen (filter invisible (fst r)) /\
  forall k, gget k (fst r) =
    match gget k (listed_map cur vs bs now) with
    | Some e => Some e
    | None => match gget k cur with
              | Some e => if (now - grace <=? m_last e)%Z then Some (set_visible false e) else None
              | None => None
              end
    end.
Proof.
  intros [C1 C2] HP. cbv zeta. unfold build_new_vrp_map. fold (listed_map cur vs bs now).
  destruct (listed_filled cur vs bs now HP) as (F1 & F2 & F3).
  apply grace_loop; auto.
  rewrite filter_none; [reflexivity|]. intros [k e] HI. apply in_gget in HI; [|apply F1].
  unfold invisible. cbn [snd]. now rewrite (proj2 (proj2 (F2 k e HI))).
Qed.

(** * Nothing new *)
Definition refreshed (grace now : Z) (e : mentry) : option mentry :=
  if m_visible e then Some (mkME (m_asn e) (m_length e) (m_prefix e) (m_first e) now true (m_key e))
  else if (m_last e <? now - grace)%Z then None else Some e.
Lemma update_loop grace now l : forall res n, NoDup (keys l) -> (forall k, In k (keys l) -> gget k res = None) ->
  (forall k e, In (k, e) l -> exists o, proper o /\ okey o = k /\ entry_obj e = Some o) ->
  minv res -> n = nlen (filter invisible res) ->
  let r := fold_left (fun (st : vmap * N) (x : bytes * mentry) =>
    let '(res, n) := st in
    let e := snd x in
    if negb (m_visible e) && (m_last e <? now - grace)%Z then st
    else if m_visible e
         then (gset (fst x) (mkME (m_asn e) (m_length e) (m_prefix e) (m_first e) now true (m_key e)) res, n)
         else (gset (fst x) e res, n + 1)) l (res, n) in
  minv (fst r) /\ snd r = nlen (filter invisible (fst r)) /\
  forall k, gget k (fst r) =
    match gget k res with
    | Some e => Some e
    | None => match gget k l with Some e => refreshed grace now e | None => None end
    end.
Proof.
  induction l as [|[k0 e0] l IH]; intros res n HN HD HO HM Hn; cbv zeta.
  - cbn [fold_left fst snd gget]. split; [exact HM|]. split; [exact Hn|].
    intros k. destruct (gget k res); reflexivity.
  - destruct (nodup_keys_cons _ _ _ HN) as [K1 K2].
    assert (HO' : forall k e, In (k, e) l -> exists o, proper o /\ okey o = k /\ entry_obj e = Some o)
      by (intros; apply HO; now right).
    assert (EG : gget k0 res = None) by (apply HD; now left).
    assert (HD' : forall k, In k (keys l) -> gget k res = None) by (intros; apply HD; now right).
    assert (HD2 : forall e k, In k (keys l) -> gget k (gset k0 e res) = None).
    { intros e k Hk. rewrite gget_gset. destruct (beqb k k0) eqn:E; [|auto].
      apply beqb_eq in E. subst k. now apply gget_none in K1. }
    destruct (HO k0 e0 (or_introl eq_refl)) as (o & P1 & P2 & P3).
    cbn [fold_left fst snd]. destruct (m_visible e0) eqn:EV; cbn [negb andb].
    + destruct (IH (gset k0 (mkME (m_asn e0) (m_length e0) (m_prefix e0) (m_first e0) now true (m_key e0)) res) n K2 (HD2 _) HO')
        as (I1 & I2 & I3).
      * apply (minv_gset res k0 _ o); auto.
      * unfold gset. rewrite gdel_id by exact EG. cbn [filter]. unfold invisible at 1. cbn [snd m_visible negb]. exact Hn.
      * split; [exact I1|]. split; [exact I2|]. intros k. rewrite I3, gget_gset. cbn [gget].
        destruct (beqb k k0) eqn:E; [|reflexivity]. apply beqb_eq in E. subst k. rewrite EG.
        unfold refreshed. now rewrite EV.
    + destruct (m_last e0 <? now - grace)%Z eqn:EL.
      * destruct (IH res n K2 HD' HO' HM Hn) as (I1 & I2 & I3). split; [exact I1|]. split; [exact I2|].
        intros k. rewrite I3. cbn [gget]. destruct (beqb k k0) eqn:E; [|reflexivity].
        apply beqb_eq in E. subst k. rewrite EG, K1. unfold refreshed. now rewrite EV, EL.
      * destruct (IH (gset k0 e0 res) (n + 1) K2 (HD2 _) HO') as (I1 & I2 & I3).
        -- apply (minv_gset res k0 _ o); auto.
        -- unfold gset. rewrite gdel_id by exact EG. cbn [filter]. unfold invisible at 1. cbn [snd]. rewrite EV. cbn [negb].
           unfold nlen in *. cbn [length]. lia.
        -- split; [exact I1|]. split; [exact I2|]. intros k. rewrite I3, gget_gset. cbn [gget].
           destruct (beqb k k0) eqn:E; [|reflexivity]. apply beqb_eq in E. subst k. rewrite EG.
           unfold refreshed. now rewrite EV, EL.
Qed.
Lemma update_spec grace cur now : minv cur ->
  let r := update_current_vrp_map grace cur now in
  minv (fst r) /\ snd r = nlen (filter invisible (fst r)) /\
  forall k, gget k (fst r) = match gget k cur with Some e => refreshed grace now e | None => None end.
Proof.
  intros [C1 C2]. cbv zeta. unfold update_current_vrp_map.
  destruct (update_loop grace now cur [] 0 C1 (fun _ _ => eq_refl) C2 minv_nil eq_refl) as (I1 & I2 & I3).
  split; [exact I1|]. split; [exact I2|]. intros k. rewrite I3. reflexivity.
Qed.

(** * Histories *)
Definition content (e : option mentry) : option (Z * Z * bool) :=
  match e with Some e => Some (m_first e, m_last e, m_visible e) | None => None end.
Lemma since_last rs : since rs = None <-> last_listed rs = None.
Proof.
  induction rs as [|[t []] rs IH]; cbn [since last_listed]; [tauto| |exact IH].
  destruct (present rs) eqn:E; [|split; discriminate].
  destruct rs as [|[t' []] rs']; try discriminate E. cbn [last_listed] in IH.
  rewrite IH. split; discriminate.
Qed.
Lemma present_listed rs : present rs = true -> exists t, last_listed rs = Some t.
Proof. destruct rs as [|[t []] rs]; try discriminate. intros _. exists t. reflexivity. Qed.
Lemma expected_present grace rs : present rs = true -> exists f l, since rs = Some f /\ last_listed rs = Some l /\ expected grace rs = Some (f, l, true).
Proof.
  intros H. destruct (present_listed rs H) as (l & HL). destruct (since rs) as [f|] eqn:ES.
  - exists f, l. split; [reflexivity|]. split; [exact HL|]. unfold expected. now rewrite ES, HL, H.
  - apply since_last in ES. congruence.
Qed.
Lemma expected_vis grace rs f l v : expected grace rs = Some (f, l, v) -> v = present rs /\ since rs = Some f /\ last_listed rs = Some l.
Proof.
  unfold expected. destruct (since rs) as [f0|], (last_listed rs) as [l0|]; try discriminate.
  destruct (present rs) eqn:E; [intros H; injection H as <- <- <-; auto|].
  destruct (forallb _ _); [|discriminate]. intros H. injection H as <- <- <-. auto.
Qed.
(** One more round at which the object does not exist. *)
Lemma expected_false grace t rs : expected grace ((t, false) :: rs) =
  match expected grace rs with
  | Some (f, l, v) => if (t - grace <=? l)%Z then Some (f, l, false) else None
  | None => None
  end.
Proof.
  unfold expected. cbn [since last_listed present absent forallb].
  destruct (since rs) as [f|]; [|reflexivity]. destruct (last_listed rs) as [l|]; [|reflexivity].
  destruct (present rs) eqn:EP.
  - replace (absent rs) with (@nil Z) by (destruct rs as [|[? []] ?]; try discriminate EP; reflexivity).
    cbn [forallb]. rewrite andb_true_r. replace (t - grace <=? l)%Z with (t <=? l + grace)%Z by lia. reflexivity.
  - destruct (forallb _ (absent rs)); [|now rewrite andb_false_r].
    rewrite andb_true_r. replace (t - grace <=? l)%Z with (t <=? l + grace)%Z by lia. reflexivity.
Qed.
Lemma expected_true grace t rs : expected grace ((t, true) :: rs) =
  Some (match expected grace rs with Some (f, l, true) => f | _ => t end, t, true).
Proof.
  unfold expected at 1. cbn [since last_listed present].
  destruct (present rs) eqn:EP.
  - destruct (expected_present grace rs EP) as (f & l & E1 & _ & E3). rewrite E1, E3. reflexivity.
  - destruct (expected grace rs) as [[[f l] v]|] eqn:EE; [|reflexivity].
    apply expected_vis in EE. destruct EE as (-> & _). now rewrite EP.
Qed.

Lemma history grace h : Forall (fun x => plain_file (snd x)) h ->
  minv (after grace h) /\
  forall o, proper o -> content (gget (okey o) (after grace h)) = expected grace (rounds o h).
Proof.
  induction h as [|[t r] h IH]; intros HP.
  - split; [apply minv_nil|]. reflexivity.
  - inversion HP as [|? ? P1 P2]; subst. cbn [snd] in P1. destruct (IH P2) as [IH1 IH2].
    unfold after in *. cbn [fold_right]. fold (after grace h) in *. unfold mon_step. cbn [fst snd].
    destruct r as [| | |vs bs]; cbn [mon_round rounds].
    + destruct (update_spec grace (after grace h) t IH1) as (U1 & _ & U3).
      destruct (update_current_vrp_map grace (after grace h) t) as [m n]. cbn [fst] in *.
      split; [exact U1|]. intros o HO. rewrite U3. specialize (IH2 o HO).
      destruct (gget (okey o) (after grace h)) as [e|]; cbn [content] in IH2.
      * destruct (expected_vis grace _ _ _ _ (eq_sym IH2)) as (V1 & _). rewrite <- V1.
        unfold refreshed. destruct (m_visible e) eqn:EV; cbn [content m_first m_last m_visible].
        -- rewrite expected_true, <- IH2. reflexivity.
        -- rewrite expected_false, <- IH2. destruct (t - grace <=? m_last e)%Z eqn:E1, (m_last e <? t - grace)%Z eqn:E2;
             try lia; cbn [content]; [now rewrite EV|reflexivity].
      * destruct (present (rounds o h)) eqn:EP.
        -- destruct (expected_present grace _ EP) as (f & l & _ & _ & E). congruence.
        -- rewrite expected_false, <- IH2. reflexivity.
    + auto.
    + auto.
    + destruct (build_spec grace (after grace h) vs bs t IH1 P1) as (B1 & _ & B3).
      destruct (listed_filled (after grace h) vs bs t P1) as (F1 & F2 & F3).
      destruct (build_new_vrp_map grace (after grace h) vs bs t) as [m n]. cbn [fst] in *.
      split; [exact B1|]. intros o HO. rewrite B3. specialize (IH2 o HO).
      assert (HIN : In o (file_objs vs bs) <-> gget (okey o) (listed_map (after grace h) vs bs t) <> None).
      { rewrite <- F3. split; [apply in_map|]. intros HI. apply in_map_iff in HI. destruct HI as (o' & E1 & E2).
        assert (E3 : gget (okey o') (listed_map (after grace h) vs bs t) <> None) by (apply F3; now apply in_map).
        rewrite E1 in E3. destruct (gget (okey o) (listed_map (after grace h) vs bs t)) as [e|] eqn:EG; [|congruence].
        apply (has_gget _ o e F1 HO) in EG.
        (* the object of the file under this key is proper *)
        assert (HO' : proper o').
        { clear - E2 P1. unfold file_objs in E2. apply in_app_iff in E2. destruct E2 as [E2|E2].
          - apply in_flat_map in E2. destruct E2 as (v & _ & E2). destruct (parse_prefix (vj_prefix v)) as [p|] eqn:EP; [|contradiction].
            destruct (get_asn2 (vj_asn v)); [|contradiction]. destruct E2 as [<-|[]]. now apply parse_prefix_wf in EP.
          - apply in_map_iff in E2. destruct E2 as (b & <- & E2). cbn [plain_file] in P1. rewrite Forall_forall in P1. exact (P1 b E2). }
        apply okey_inj in E1; auto. now subst o'. }
      destruct (gget (okey o) (listed_map (after grace h) vs bs t)) as [e|] eqn:EL.
      * destruct (F2 _ _ EL) as (G1 & G2 & G3). cbn [content]. rewrite G1, G2, G3.
        destruct (in_dec obj_dec o (file_objs vs bs)) as [HI|HI]; [|exfalso; apply HI, HIN; discriminate].
        rewrite expected_true, <- IH2. unfold first_seen.
        destruct (gget (okey o) (after grace h)) as [e'|]; cbn [content]; [|reflexivity].
        destruct (m_visible e'); reflexivity.
      * destruct (in_dec obj_dec o (file_objs vs bs)) as [HI|HI]; [apply HIN in HI; congruence|].
        rewrite expected_false, <- IH2.
        destruct (gget (okey o) (after grace h)) as [e'|]; cbn [content]; [|reflexivity].
        destruct (t - grace <=? m_last e')%Z; reflexivity.
Qed.

(** * Differences *)
Definition only (b : vmap) (x : bytes * mentry) : bool :=
  m_visible (snd x) && negb (match gget (fst x) b with Some e => m_visible e | None => false end).
Lemma diff_loop b l : forall res, NoDup (keys l) -> (forall k, In k (keys l) -> gget k res = None) ->
  fold_left (fun (res : vmap) (x : bytes * mentry) =>
    if m_visible (snd x) then
      match gget (fst x) b with
      | Some e => if m_visible e then res else gset (fst x) (snd x) res
      | None => gset (fst x) (snd x) res
      end
    else res) l res = rev (filter (only b) l) ++ res.
Proof.
  induction l as [|[k e] l IH]; intros res HN HD; [reflexivity|].
  destruct (nodup_keys_cons _ _ _ HN) as [K1 K2]. cbn [fold_left fst snd filter].
  assert (EG : gget k res = None) by (apply HD; now left).
  assert (HS : gset k e res = (k, e) :: res) by (unfold gset; now rewrite gdel_id).
  assert (HD1 : forall k', In k' (keys l) -> gget k' res = None) by (intros; apply HD; now right).
  assert (HD2 : forall k', In k' (keys l) -> gget k' (gset k e res) = None).
  { intros k' Hk. rewrite gget_gset. destruct (beqb k' k) eqn:E; [|auto]. apply beqb_eq in E. subst k'. now apply gget_none in K1. }
  unfold only at 1. cbn [fst snd].
  destruct (m_visible e); cbn [andb]; [|now apply IH].
  destruct (gget k b) as [e'|]; [destruct (m_visible e')|]; cbn [negb].
  - now apply IH.
  - rewrite IH by auto. rewrite HS. cbn [rev]. now rewrite <- app_assoc.
  - rewrite IH by auto. rewrite HS. cbn [rev]. now rewrite <- app_assoc.
Qed.
Lemma mdiff_eq a b : minv a -> mdiff a b = rev (filter (only b) a).
Proof. intros [H _]. unfold mdiff. rewrite diff_loop; [apply app_nil_r|exact H|reflexivity]. Qed.
Lemma nodup_filter_keys {A} (f : bytes * A -> bool) (m : gmap A) : NoDup (keys m) -> NoDup (keys (filter f m)).
Proof.
  induction m as [|[k v] m IH]; intros H; [constructor|]. destruct (nodup_keys_cons _ _ _ H) as [K1 K2].
  cbn [filter]. destruct (f (k, v)); [|auto]. cbn [keys map fst]. constructor; [|auto].
  apply gget_none in K1. intros HI. apply K1. unfold keys in *. apply in_map_iff in HI. destruct HI as (x & E & HI).
  apply filter_In in HI. apply in_map_iff. exists x. tauto.
Qed.
Lemma minv_filter f m : minv m -> minv (filter f m).
Proof.
  intros [H1 H2]. split; [now apply nodup_filter_keys|]. intros k e HI. apply filter_In in HI. now apply H2.
Qed.
Lemma minv_rev m : minv m -> minv (rev m).
Proof.
  intros [H1 H2]. split; [unfold keys; rewrite map_rev; now apply NoDup_rev|].
  intros k e HI. apply in_rev in HI. now apply H2.
Qed.
Lemma minv_mdiff a b : minv a -> minv (mdiff a b).
Proof. intros H. rewrite mdiff_eq by exact H. now apply minv_rev, minv_filter. Qed.
Lemma mdiff_in a b k e : minv a -> (In (k, e) (mdiff a b) <-> In (k, e) a /\ only b (k, e) = true).
Proof. intros H. rewrite mdiff_eq by exact H. rewrite <- in_rev. apply filter_In. Qed.
Lemma shown_gget m o : minv m -> proper o ->
  (shown m o <-> match gget (okey o) m with Some e => m_visible e = true | None => False end).
Proof.
  intros HM HP. unfold shown. split.
  - intros (e & HE & HV). apply (has_gget m o e HM HP) in HE. now rewrite HE.
  - destruct (gget (okey o) m) as [e|] eqn:E; [|contradiction]. intros HV. exists e.
    split; [now apply has_gget|exact HV].
Qed.
Lemma mdiff_has a b o e : minv a -> minv b ->
  (has (mdiff a b) o e <-> has a o e /\ m_visible e = true /\ ~ shown b o).
Proof.
  intros HA HB. split.
  - intros (k & HI & HE). apply mdiff_in in HI; [|exact HA]. destruct HI as [HI HO].
    assert (HH : has a o e) by (exists k; auto). split; [exact HH|].
    pose proof (has_proper a o e HA HH) as HP. apply andb_true_iff in HO. destruct HO as [O1 O2]. cbn [fst snd] in O1, O2.
    split; [exact O1|]. destruct (proj2 HA k e HI) as (o' & Q1 & Q2 & Q3).
    assert (o' = o) by congruence. subst o' k. rewrite (shown_gget b o HB HP).
    destruct (gget (okey o) b) as [e'|]; [|tauto]. destruct (m_visible e'); [discriminate O2|discriminate].
  - intros (HH & HV & HN). pose proof (has_proper a o e HA HH) as HP.
    destruct HH as (k & HI & HE). exists k. split; [|exact HE]. apply mdiff_in; [exact HA|]. split; [exact HI|].
    destruct (proj2 HA k e HI) as (o' & Q1 & Q2 & Q3). assert (o' = o) by congruence. subst o' k.
    rewrite (shown_gget b o HB HP) in HN. unfold only. cbn [fst snd]. rewrite HV. cbn [andb].
    destruct (gget (okey o) b) as [e'|]; [|reflexivity]. destruct (m_visible e'); [exfalso; now apply HN|reflexivity].
Qed.

(** Counting entries is counting objects. *)
Definition eobjs (m : vmap) : list obj :=
  flat_map (fun x => match entry_obj (snd x) with Some o => [o] | None => [] end) m.
Lemma eobjs_in m o : In o (eobjs m) <-> exists e, has m o e.
Proof.
  unfold eobjs. rewrite in_flat_map. split.
  - intros ([k e] & HI & HO). cbn [snd] in HO. destruct (entry_obj e) as [o'|] eqn:E; [|contradiction].
    destruct HO as [->|[]]. exists e, k. auto.
  - intros (e & k & HI & HE). exists (k, e). split; [exact HI|]. cbn [snd]. rewrite HE. now left.
Qed.
Lemma eobjs_number m P : minv m -> (forall o, (exists e, has m o e) <-> P o) -> number (nlen m) P.
Proof.
  intros HM HP. exists (eobjs m). split; [|split].
  - clear HP P. induction m as [|[k e] m IH]; [constructor|]. destruct HM as [H1 H2].
    destruct (nodup_keys_cons _ _ _ H1) as [K1 K2].
    assert (HM' : minv m) by (split; [exact K2|intros; apply H2; now right]).
    unfold eobjs. cbn [flat_map snd]. fold (eobjs m).
    destruct (H2 k e (or_introl eq_refl)) as (o & P1 & P2 & P3). rewrite P3. cbn [app].
    constructor; [|now apply IH]. intros HI. apply eobjs_in in HI. destruct HI as (e' & HH).
    apply has_gget in HH; auto. rewrite P2 in HH. congruence.
  - intros o. rewrite eobjs_in. apply HP.
  - clear HP P. induction m as [|[k e] m IH]; [reflexivity|]. destruct HM as [H1 H2].
    destruct (nodup_keys_cons _ _ _ H1) as [K1 K2].
    assert (HM' : minv m) by (split; [exact K2|intros; apply H2; now right]).
    destruct (H2 k e (or_introl eq_refl)) as (o & P1 & P2 & P3). specialize (IH HM').
    unfold eobjs, nlen in *. cbn [flat_map snd]. rewrite P3. cbn [app length]. lia.
Qed.
Lemma number_unique n m P : number n P -> number m P -> n = m.
Proof.
  intros (l1 & N1 & I1 & ->) (l2 & N2 & I2 & ->). unfold nlen. f_equal.
  apply Nat.le_antisymm; apply NoDup_incl_length; auto; intros o Ho.
  - apply I2. now apply I1.
  - apply I1. now apply I2.
Qed.

Definition unmatched (others : vmap) (t : Z) (x : bytes * mentry) : bool :=
  if def_visible (Some (snd x)) t then def_not_visible (gget (fst x) others) t
  else def_not_visible (Some (snd x)) t && def_visible (gget (fst x) others) t.
Lemma count_loop others t l : forall n,
  fold_left (fun (n : N) (x : bytes * mentry) =>
    let other := gget (fst x) others in
    if def_visible (Some (snd x)) t then (if def_not_visible other t then n + 1 else n)
    else if def_not_visible (Some (snd x)) t then (if def_visible other t then n + 1 else n)
    else n) l n = n + nlen (filter (unmatched others t) l).
Proof.
  induction l as [|x l IH]; intros n; [cbn; lia|]. cbn [fold_left filter]. rewrite IH. unfold unmatched at 2.
  destruct (def_visible (Some (snd x)) t).
  - destruct (def_not_visible (gget (fst x) others) t); unfold nlen; cbn [length]; lia.
  - destruct (def_not_visible (Some (snd x)) t); cbn [andb]; [|lia].
    destruct (def_visible (gget (fst x) others) t); unfold nlen; cbn [length]; lia.
Qed.
Lemma count_number a b t : minv a -> minv b ->
  number (count_unmatched (mdiff a b) b t) (fun o =>
    (exists e, has a o e /\ m_visible e = true /\ (m_first e <= t)%Z) /\
    forall e, has b o e -> m_visible e = false /\ (m_last e <= t)%Z).
Proof.
  intros HA HB. unfold count_unmatched. rewrite count_loop. rewrite N.add_0_l.
  apply eobjs_number; [now apply minv_filter, minv_mdiff|].
  intros o. split.
  - intros (e & k & HI & HE). apply filter_In in HI. destruct HI as [HI HU].
    assert (HD : has (mdiff a b) o e) by (exists k; auto).
    apply mdiff_has in HD; auto. destruct HD as (D1 & D2 & D3).
    pose proof (has_proper a o e HA D1) as HP.
    apply mdiff_in in HI; [|exact HA]. destruct HI as [HI _].
    destruct (proj2 HA k e HI) as (o' & Q1 & Q2 & Q3). assert (o' = o) by congruence. subst o' k.
    unfold unmatched in HU. cbn [fst snd def_visible def_not_visible] in HU. rewrite D2 in HU. cbn [andb negb] in HU.
    destruct (m_first e <=? t)%Z eqn:EF; [|discriminate HU].
    split; [exists e; repeat split; auto; lia|]. intros e' HH. apply has_gget in HH; auto. rewrite HH in HU.
    cbn [def_not_visible] in HU. apply andb_true_iff in HU. destruct HU as [U1 U2]. apply negb_true_iff in U1. split; [exact U1|lia].
  - intros ((e & HH & HV & HF) & HN). pose proof (has_proper a o e HA HH) as HP.
    assert (HS : ~ shown b o). { intros (e' & G1 & G2). destruct (HN e' G1). congruence. }
    exists e. assert (HD : has (mdiff a b) o e) by (apply mdiff_has; auto).
    destruct HD as (k & HI & HE). exists k. split; [|exact HE]. apply filter_In. split; [exact HI|].
    apply mdiff_in in HI; [|exact HA]. destruct HI as [HI _].
    destruct (proj2 HA k e HI) as (o' & Q1 & Q2 & Q3). assert (o' = o) by congruence. subst o' k.
    unfold unmatched. cbn [fst snd def_visible]. rewrite HV. replace (m_first e <=? t)%Z with true by lia. cbn [andb].
    destruct (gget (okey o) b) as [e'|] eqn:EG; [|reflexivity]. apply has_gget in EG; auto.
    destruct (HN e' EG) as [G1 G2]. cbn [def_not_visible]. rewrite G1. cbn [negb andb]. lia.
Qed.
