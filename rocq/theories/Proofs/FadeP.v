(** Lemmas for C72, exactly. *)
From Coq Require Import ZArith ZifyBool ZifyNat ZifyN.
From Verif Require Import Spec.Fading Proofs.MonitorP Proofs.MonitorP2 Proofs.MonProcP Proofs.MonRunP.
From Coq Require Import List Lia.
Import ListNotations.
Local Open Scope list_scope.
Local Open Scope N_scope.

(** The third loop of BuildNewVrpMap, for one pointer of the old map. *)
Definition drops {A} (grace now : Z) (res : gmap A) (k : bytes) (e : mentry) : bool :=
  match gget k res with Some _ => false | None => (now - grace <=? m_last e)%Z end.
Lemma grace_other grace now l : forall h res n h' res' n' r, fold_left (grace_ref grace now) l (h, res, n) = (h', res', n') ->
  below (length h) l -> ~ In r (refs l) -> ~ In r (refs res) -> deref h' r = deref h r /\ ~ In r (refs res').
Proof.
  induction l as [|[k q] l IH]; intros h res n h' res' n' r EF HB H1 H2; cbn [fold_left] in EF.
  - injection EF as <- <- <-. auto.
  - assert (HB' : below (length h) l) by (intros x Hx; apply HB; now right). assert (H1' : ~ In r (refs l)) by (intros X; apply H1; now right).
    assert (NQ : r <> q) by (intros ->; apply H1; now left). unfold grace_ref at 2 in EF. cbn [fst snd] in EF.
    destruct (gget k res); [now apply (IH _ _ _ _ _ _ r EF)|]. destruct (now - grace <=? m_last (deref h q))%Z; [|now apply (IH _ _ _ _ _ _ r EF)].
    destruct (IH _ _ _ _ _ _ r EF) as [I1 I2].
    + intros x Hx. rewrite write_length. now apply HB'.
    + exact H1'.
    + intros X. apply refs_gset in X as [X|X]; contradiction.
    + split; [|exact I2]. rewrite I1, deref_write by (apply HB; now left). destruct (Nat.eqb r q) eqn:E; [apply Nat.eqb_eq in E; contradiction|reflexivity].
Qed.
Lemma grace_exact grace now l : forall h res n h' res' n', fold_left (grace_ref grace now) l (h, res, n) = (h', res', n') ->
  NoDup (keys l) -> NoDup (refs l) -> (forall r, In r (refs l) -> ~ In r (refs res)) -> below (length h) l ->
  forall k r, In (k, r) l ->
    deref h' r = (if drops grace now res k (deref h r) then set_visible false (deref h r) else deref h r) /\
    (In r (refs res') -> drops grace now res k (deref h r) = true).
Proof.
  induction l as [|[k q] l IH]; intros h res n h' res' n' EF NK NR HD HB k0 r HI; [destruct HI|].
  cbn [fold_left] in EF. cbn [keys map fst] in NK. inversion NK as [|? ? K1 K2]; subst. cbn [refs map snd] in NR. inversion NR as [|? ? R1 R2]; subst.
  assert (HB' : below (length h) l) by (intros x Hx; apply HB; now right).
  assert (HD' : forall r, In r (refs l) -> ~ In r (refs res)) by (intros x Hx; apply HD; now right).
  assert (HBq : (q < length h)%nat) by (apply HB; now left). assert (HQ : ~ In q (refs res)) by (apply HD; now left).
  unfold grace_ref at 2 in EF. cbn [fst snd] in EF. destruct HI as [HI|HI].
  - injection HI as <- <-. unfold drops. destruct (gget k res) eqn:EG.
    + destruct (grace_other grace now l _ _ _ _ _ _ q EF HB' R1 HQ) as [I1 I2]. auto.
    + destruct (now - grace <=? m_last (deref h q))%Z eqn:EL.
      * split; [|auto]. assert (HX : below (length (write h q (set_visible false (deref h q)))) l) by (intros x Hx; rewrite write_length; now apply HB').
        assert (E : deref h' q = deref (write h q (set_visible false (deref h q))) q).
        { clear - EF HX R1. revert EF HX R1. generalize (write h q (set_visible false (deref h q))) as h0. generalize (gset k q res) as res0. generalize (n + 1) as n0.
          induction l as [|[k1 q1] l IH]; intros n0 res0 h0 EF HX R1; cbn [fold_left] in EF; [now injection EF as <- _ _|].
          assert (HX' : below (length h0) l) by (intros x Hx; apply HX; now right). assert (R1' : ~ In q (refs l)) by (intros X; apply R1; now right).
          unfold grace_ref at 2 in EF. cbn [fst snd] in EF. destruct (gget k1 res0); [now apply (IH _ _ _ EF)|].
          destruct (now - grace <=? m_last (deref h0 q1))%Z; [|now apply (IH _ _ _ EF)]. rewrite (IH _ _ _ EF).
          - rewrite deref_write by (apply HX; now left). destruct (Nat.eqb q q1) eqn:E; [apply Nat.eqb_eq in E; subst; exfalso; apply R1; now left|reflexivity].
          - intros x Hx. rewrite write_length. now apply HX'.
          - exact R1'. }
        rewrite E, deref_write, Nat.eqb_refl by exact HBq. reflexivity.
      * destruct (grace_other grace now l _ _ _ _ _ _ q EF HB' R1 HQ) as [I1 I2]. auto.
  - assert (NK0 : k0 <> k) by (intros ->; apply K1; unfold keys; apply in_map_iff; exists (k, r); auto).
    assert (NR0 : r <> q) by (intros ->; apply R1; unfold refs; apply in_map_iff; exists (k0, q); auto).
    destruct (gget k res) eqn:EG; [now apply (IH _ _ _ _ _ _ EF)|]. destruct (now - grace <=? m_last (deref h q))%Z eqn:EL; [|now apply (IH _ _ _ _ _ _ EF)].
    destruct (IH _ _ _ _ _ _ EF K2 R2) with (k := k0) (r := r) as [I1 I2]; auto.
    + intros x Hx X. apply refs_gset in X as [X|X]; [subst; contradiction|]. now apply (HD' x).
    + intros x Hx. rewrite write_length. now apply HB'.
    + assert (ED : deref (write h q (set_visible false (deref h q))) r = deref h r).
      { rewrite deref_write by exact HBq. destruct (Nat.eqb r q) eqn:E; [apply Nat.eqb_eq in E; contradiction|reflexivity]. }
      assert (EP : forall e, drops grace now (gset k q res) k0 e = drops grace now res k0 e).
      { intros e. unfold drops. rewrite gget_gset. destruct (beqb k0 k) eqn:EB; [apply beqb_eq in EB; contradiction|reflexivity]. }
      rewrite ED, EP in I1, I2. auto.
Qed.
Lemma build_exact grace h cur vs bs now : NoDup (keys cur) -> NoDup (refs cur) -> below (length h) cur ->
  let '(h', m, _) := build_refs grace h cur vs bs now in
  forall k r, In (k, r) cur -> let b := drops grace now (listed_map (values h cur) vs bs now) k (deref h r) in
    deref h' r = (if b then set_visible false (deref h r) else deref h r) /\ (In r (refs m) -> b = true).
Proof.
  intros NK NR HB. unfold build_refs. fold (listed_map (values h cur) vs bs now). set (L := listed_map (values h cur) vs bs now).
  pose proof (alloc_spec h L) as HA. destruct (alloc h L) as [h1 m1]. destruct HA as (A1 & A2 & A3 & A4 & A5 & A6).
  destruct (fold_left (grace_ref grace now) cur (h1, m1, 0)) as [[h' m] n] eqn:EF. intros k r HI. cbv zeta.
  assert (HR : (r < length h)%nat) by (apply HB; unfold refs; apply in_map_iff; exists (k, r); auto).
  destruct (grace_exact grace now cur h1 m1 0 h' m n EF NK NR) with (k := k) (r := r) as [I1 I2]; auto.
  - intros q Hq X. apply A5 in X. apply HB in Hq. lia.
  - intros q Hq. apply HB in Hq. lia.
  - assert (EP : drops grace now m1 k (deref h1 r) = drops grace now L k (deref h r)).
    { unfold drops. rewrite (A6 r HR), <- A1, values_gget. now destruct (gget k m1). }
    rewrite EP, (A6 r HR) in *. auto.
Qed.

(** Readings. *)
Lemma next_snoc i ls l : next_reading i (ls ++ [l]) = match next_reading i ls with Some x => Some x | None => next_reading i [l] end.
Proof.
  induction ls as [|a ls IH]; [reflexivity|]. destruct a as [j t r|j t p|j t|j| | | |clk]; cbn [app next_reading]; auto.
  destruct (side_eqb i j); auto. destruct r; auto.
Qed.
(** Only a reading writes to an entry. *)
Lemma step_writes cfg s l s' : mstep cfg s l = Some s' -> match l with LFetch _ _ _ => False | _ => True end ->
  forall r, (r < length (ms_heap s))%nat -> deref (ms_heap s') r = deref (ms_heap s) r.
Proof.
  intros HE HN r Hr.
  assert (HC : step_compare cfg l s = Some s' -> ms_heap s' = ms_heap s).
  { intros E. unfold step_compare in E. destruct (ms_comp s), l; try discriminate E; injection E as <-; reflexivity. }
  destruct l as [i t q|i t p|i t|i| | | |t]; cbn [mstep] in HE; try (now rewrite HC); try contradiction.
  - unfold step_pdu in HE. destruct (k_file cfg i); [discriminate HE|]. destruct (mc_phase (ms_c i s)); try discriminate HE.
    assert (HD : forall f k e, let '(h, c) := data_ref f k e (ms_heap s) (ms_c i s) in deref h r = deref (ms_heap s) r).
    { intros f k e. unfold data_ref. destruct (f =? FLAG_ADDED); [now apply deref_app|reflexivity]. }
    destruct p; try (injection HE as <-; rewrite heap_set; reflexivity);
      match type of HE with context [data_ref ?f ?k ?e ?h ?c] => specialize (HD f k e); destruct (data_ref f k e h c) as [h' c'] end;
      injection HE as <-; rewrite heap_set; exact HD.
  - unfold step_assign in HE. destruct (mc_phase (ms_c i s)); try discriminate HE; injection HE as <-; now rewrite heap_set.
  - unfold step_send in HE. destruct (mc_phase (ms_c i s)), (ms_comp s); try discriminate HE. injection HE as <-. now destruct i.
Qed.
Lemma step_foreign cfg ls s l s' j r : ginv cfg ls s -> mstep cfg s l = Some s' -> (r < length (ms_heap s))%nat ->
  ~ In r (mrefs (ms_c j s)) -> ~ In r (mrefs (ms_c j s')).
Proof.
  intros HG HE Hr HN. pose proof HG as (G1 & _).
  assert (HM : forall i, moved cfg i ls l s s' -> ~ In r (mrefs (ms_c j s'))).
  { intros i (h' & c' & -> & _ & (_ & O2 & _) & _). rewrite ms_c_set. destruct (side_eqb i j) eqn:E; [|exact HN].
    assert (i = j) by (destruct i, j; try discriminate E; reflexivity). subst j. intros X. apply O2 in X as [X|X]; [contradiction|lia]. }
  assert (HC : step_compare cfg l s = Some s' -> ~ In r (mrefs (ms_c j s'))).
  { intros E. unfold step_compare in E. destruct (ms_comp s), l; try discriminate E; injection E as <-; destruct j; exact HN. }
  destruct l as [i t q|i t p|i t|i| | | |t]; cbn [mstep] in HE; try (now apply HC).
  - apply (HM i). now apply fetch_moved.
  - apply (HM i). now apply pdu_moved.
  - apply (HM i). now apply assign_moved.
  - unfold step_send in HE. destruct (mc_phase (ms_c i s)) eqn:EP, (ms_comp s); try discriminate HE. injection HE as <-.
    assert (X : ~ In r (mrefs (ms_c j (set_c i (set_mphase MIdle (ms_c i s)) (ms_heap s) s)))).
    { rewrite ms_c_set. destruct (side_eqb i j) eqn:E; [|exact HN]. assert (i = j) by (destruct i, j; try discriminate E; reflexivity). subst j.
      unfold mrefs in *. rewrite EP in HN. exact HN. }
    destruct j; exact X.
Qed.
(** Where the pointers of the newest map of a file are. *)
Definition newest_refs (c : mclient) : list nat := match mc_phase c with MBuilt m _ _ => refs m | _ => refs (mc_vrps c) end.
Lemma newest_in c r : In r (newest_refs c) -> In r (mrefs c).
Proof.
  unfold newest_refs, mrefs. intros H. apply in_or_app. destruct (mc_phase c); auto. right. apply in_or_app. right. exact H.
Qed.

Section fading.
Context (cfg : mcfg) (ls : list mlabel) (s : mstate) (i : side) (k : bytes) (r : nat).
Context (HR : mrun cfg ls = Some s) (HA : at_rest s) (HG : Forall good_label ls) (HI : In (k, r) (mc_vrps (ms_c i s))).
Let e0 := deref (ms_heap s) r.
Let idle : mc_phase (ms_c i s) = MIdle.
Proof. destruct HA as (A1 & A2 & _). now destruct i. Qed.
Let below_s : below (length (ms_heap s)) (mc_vrps (ms_c i s)).
Proof. destruct (reach_ginv cfg ls s HR) as (G1 & _). exact (cinv_below cfg i ls _ _ (G1 i)). Qed.
Let r_in : In r (refs (mc_vrps (ms_c i s))).
Proof. unfold refs. apply in_map_iff. exists (k, r). auto. Qed.
Let told : minv (values (ms_heap s) (mc_vrps (ms_c i s))).
Proof. rewrite (rest_told cfg ls s i HR HA). apply source_minv. now apply told_source. Qed.
Lemma keys_values h (m : gmap nat) : keys (values h m) = keys m.
Proof. unfold keys, values. rewrite map_map. reflexivity. Qed.
Lemma entry_of : exists o, proper o /\ okey o = k /\ entry_obj e0 = Some o.
Proof.
  destruct told as [_ T]. apply (T k e0). unfold values. apply in_map_iff. exists (k, r). auto.
Qed.

Definition fading (ls' : list mlabel) (s' : mstate) : Prop :=
  match next_reading i ls' with
  | None => deref (ms_heap s') r = e0 /\ (k_file cfg i = true -> ms_c i s' = ms_c i s)
  | Some rd => k_file cfg i = true /\
               if fades (k_grace cfg) (Some rd) e0 then deref (ms_heap s') r = set_visible false e0
               else deref (ms_heap s') r = e0 /\ ~ In r (newest_refs (ms_c i s'))
  end.
Lemma drops_fades vs bs t h : Forall (fun b => plain_ski (bj_ski b)) bs ->
  drops (k_grace cfg) t (listed_map h vs bs t) k e0 = fades (k_grace cfg) (Some (t, Listing vs bs)) e0.
Proof.
  intros HP. destruct entry_of as (o & P1 & P2 & P3). unfold drops, fades. rewrite P3, <- P2.
  pose proof (listed_in h vs bs t o HP P1) as L. destruct (gget (okey o) (listed_map h vs bs t)) eqn:E, (in_dec obj_dec o (file_objs vs bs)) as [N1|N1]; auto.
  - exfalso. apply N1, L. discriminate.
  - exfalso. apply L in N1. now apply N1.
Qed.
Lemma fading_run : forall ls' s', Forall good_label ls' -> mrun cfg (ls ++ ls') = Some s' ->
  (r < length (ms_heap s'))%nat /\ (forall j, j <> i -> ~ In r (mrefs (ms_c j s'))) /\ fading ls' s'.
Proof.
  induction ls' as [|l ls' IH] using rev_ind; intros s' HGl HE.
  - rewrite app_nil_r in HE. assert (s' = s) by congruence. subst s'. split; [now apply below_s|]. split; [|unfold fading; cbn; auto].
    intros j HJ HX. destruct (reach_ginv cfg ls s HR) as (_ & G2 & _).
    assert (HY : In r (mrefs (ms_c i s))) by (unfold mrefs; apply in_or_app; now left).
    destruct i, j; try (now contradiction HJ); [apply (G2 r HY HX)|apply (G2 r HX HY)].
  - apply Forall_app in HGl as [HGl HGl1]. apply Forall_inv in HGl1.
    rewrite app_assoc, mrun_snoc in HE. destruct (mrun cfg (ls ++ ls')) as [s1|] eqn:E1; [|discriminate HE].
    destruct (IH s1 HGl eq_refl) as (I1 & I2 & I3). pose proof (reach_ginv cfg _ s1 E1) as G. pose proof G as (G1 & _).
    destruct (step_evolves cfg _ s1 l s' G HE) as [J1 J2].
    split; [lia|]. split; [intros j HJ; exact (step_foreign cfg _ s1 l s' j r G HE I1 (I2 j HJ))|].
    unfold fading. rewrite next_snoc. unfold fading in I3.
    destruct (next_reading i ls') as [rd|] eqn:EN.
    + (* after the reading *)
      destruct I3 as [I0 I3]. split; [exact I0|]. destruct (fades (k_grace cfg) (Some rd) e0).
      * destruct (J2 r I1) as [->| ->]; rewrite I3; reflexivity.
      * destruct I3 as [I3 I4].
        assert (HF : forall j t q, l = LFetch j t q -> deref (ms_heap s') r = e0 /\ ~ In r (newest_refs (ms_c i s'))).
        { intros j t q ->. cbn [mstep] in HE. unfold step_fetch in HE. destruct (k_file cfg j) eqn:EK; [|discriminate HE].
          destruct (mc_phase (ms_c j s1)) eqn:EP; try discriminate HE.
          assert (NJ : ~ In r (refs (mc_vrps (ms_c j s1)))).
          { destruct (side_dec j i) as [->|NE]; [unfold newest_refs in I4; now rewrite EP in I4|]. intros X. apply (I2 j NE). unfold mrefs. apply in_or_app. now left. }
          assert (NM : forall m n c0, ~ In r (refs m) -> ~ In r (newest_refs (if side_eqb j i then set_mphase (MBuilt m n t) c0 else ms_c i s1))).
          { intros m n c0 HM. destruct (side_eqb j i); [exact HM|exact I4]. }
          destruct (G1 j) as (B1 & _ & B3). rewrite EK in B3. destruct B3 as (B3 & _).
          assert (BJ : below (length (ms_heap s1)) (mc_vrps (ms_c j s1))) by exact (cinv_below _ _ _ _ _ (G1 j)).
          destruct q; try (injection HE as <-; auto).
          - pose proof (update_refs_spec (k_grace cfg) (ms_heap s1) (mc_vrps (ms_c j s1)) t) as U.
            destruct (update_refs _ _ _ _) as [[h m] n]. injection HE as <-. destruct U as (_ & _ & _ & _ & U5 & U6).
            rewrite heap_set, ms_c_set. split; [now rewrite U6|]. apply NM. intros X. apply U5 in X. lia.
          - pose proof (build_refs_spec (k_grace cfg) (ms_heap s1) (mc_vrps (ms_c j s1)) vs bs t B3 BJ) as U.
            destruct (build_refs _ _ _ _ _ _) as [[h m] n]. injection HE as <-. destruct U as (_ & _ & _ & _ & U5 & U6).
            rewrite heap_set, ms_c_set. split; [destruct (U6 r I1) as [->|[U7 _]]; [exact I3|contradiction]|]. apply NM. intros X. apply U5 in X as [X|X]; [lia|contradiction]. }
        destruct l as [j t q|j t p|j t|j| | | |t]; try (now apply (HF _ _ _ eq_refl)); clear HF.
        all: split; [rewrite (step_writes cfg s1 _ s' HE I) by exact I1; exact I3|].
        all: cbn [mstep] in HE.
        -- intros X. unfold step_pdu in HE. destruct (k_file cfg j) eqn:EK; [discriminate HE|]. destruct (mc_phase (ms_c j s1)) eqn:EP; try discriminate HE.
           assert (HV : forall f k0 e, mc_vrps (snd (data_ref f k0 e (ms_heap s1) (ms_c j s1))) = mc_vrps (ms_c j s1) /\ mc_phase (snd (data_ref f k0 e (ms_heap s1) (ms_c j s1))) = MIdle).
           { intros f k0 e. unfold data_ref. destruct (f =? FLAG_ADDED); cbn; auto. }
           match type of HE with context [let '(_, _) := ?x in _] => destruct x as [h c'] eqn:EX end. injection HE as <-. rewrite ms_c_set in X.
           destruct (side_eqb j i) eqn:ES; [|contradiction]. assert (j = i) by (destruct j, i; try discriminate ES; reflexivity). subst j.
           apply I4. unfold newest_refs in *. rewrite EP.
           destruct p; try (injection EX as <- <-; cbn in X; rewrite ?EP in X; exact X);
             match type of EX with data_ref ?f ?k0 ?e ?h0 ?c0 = _ => destruct (HV f k0 e) as [V1 V2]; rewrite EX in V1, V2; cbn [snd] in V1, V2; rewrite V2, V1 in X; exact X end.
        -- intros X. unfold step_assign in HE. destruct (mc_phase (ms_c j s1)) eqn:EP; try discriminate HE; injection HE as <-; rewrite ms_c_set in X;
             (destruct (side_eqb j i) eqn:ES; [|contradiction]); assert (j = i) by (destruct j, i; try discriminate ES; reflexivity); subst j;
             apply I4; unfold newest_refs in *; rewrite EP; cbn in X; try exact X.
           destruct (G1 i) as (_ & _ & G1i). rewrite I0 in G1i. unfold finv in G1i. rewrite EP in G1i. destruct G1i as (_ & _ & _ & _ & _ & _ & _ & []).
        -- intros X. unfold step_send in HE. destruct (mc_phase (ms_c j s1)) eqn:EP, (ms_comp s1); try discriminate HE. injection HE as <-.
           assert (X' : In r (newest_refs (ms_c i (set_c j (set_mphase MIdle (ms_c j s1)) (ms_heap s1) s1)))) by (destruct i; exact X).
           rewrite ms_c_set in X'. destruct (side_eqb j i) eqn:ES; [|contradiction]. assert (j = i) by (destruct j, i; try discriminate ES; reflexivity). subst j.
           apply I4. unfold newest_refs in *. rewrite EP. exact X'.
        -- unfold step_compare in HE. destruct (ms_comp s1); try discriminate HE; injection HE as <-; destruct i; exact I4.
        -- unfold step_compare in HE. destruct (ms_comp s1); try discriminate HE; injection HE as <-; destruct i; exact I4.
        -- unfold step_compare in HE. destruct (ms_comp s1); try discriminate HE; injection HE as <-; destruct i; exact I4.
        -- unfold step_compare in HE. destruct (ms_comp s1); try discriminate HE; injection HE as <-; destruct i; exact I4.
    + (* before *)
      destruct I3 as [I3 I4].
      assert (HN : match l with LFetch _ _ _ => False | _ => True end -> next_reading i [l] = None) by (destruct l; [intros []|reflexivity..]).
      assert (KC : k_file cfg i = true -> match l with LFetch _ _ _ => False | _ => True end -> ms_c i s' = ms_c i s).
      { intros K NL. rewrite <- (I4 K). pose proof (I4 K) as EC. assert (PH : mc_phase (ms_c i s1) = MIdle) by (rewrite EC; exact idle).
        destruct l as [j t q|j t p|j t|j| | | |t]; [contradiction|..]; cbn [mstep] in HE.
        - unfold step_pdu in HE. destruct (k_file cfg j) eqn:EK; [discriminate HE|]. destruct (mc_phase (ms_c j s1)); try discriminate HE.
          match type of HE with context [let '(_, _) := ?x in _] => destruct x as [h c'] end. injection HE as <-. rewrite ms_c_set.
          destruct (side_eqb j i) eqn:ES; [|reflexivity]. exfalso. assert (j = i) by (destruct j, i; try discriminate ES; reflexivity). congruence.
        - unfold step_assign in HE. destruct (side_dec j i) as [->|NE]; [rewrite PH in HE; discriminate HE|].
          destruct (mc_phase (ms_c j s1)); try discriminate HE; injection HE as <-; now rewrite ms_c_set, side_neq.
        - unfold step_send in HE. destruct (side_dec j i) as [->|NE]; [rewrite PH in HE; discriminate HE|].
          destruct (mc_phase (ms_c j s1)), (ms_comp s1); try discriminate HE; injection HE as <-.
          assert (X : ms_c i (set_c j (set_mphase MIdle (ms_c j s1)) (ms_heap s1) s1) = ms_c i s1) by (now rewrite ms_c_set, side_neq). destruct i; exact X.
        - unfold step_compare in HE. destruct (ms_comp s1); try discriminate HE; injection HE as <-; destruct i; reflexivity.
        - unfold step_compare in HE. destruct (ms_comp s1); try discriminate HE; injection HE as <-; destruct i; reflexivity.
        - unfold step_compare in HE. destruct (ms_comp s1); try discriminate HE; injection HE as <-; destruct i; reflexivity.
        - unfold step_compare in HE. destruct (ms_comp s1); try discriminate HE; injection HE as <-; destruct i; reflexivity. }
      destruct l as [j t q|j t p|j t|j| | | |t].
      2-8: rewrite (HN I); split; [rewrite (step_writes cfg s1 _ s' HE I) by exact I1; exact I3|intros K; exact (KC K I)].
      clear HN KC. cbn [mstep] in HE. unfold step_fetch in HE. destruct (k_file cfg j) eqn:EK; [|discriminate HE].
      destruct (mc_phase (ms_c j s1)) eqn:EP; try discriminate HE.
      destruct (G1 j) as (B1 & _ & B3). rewrite EK in B3. destruct B3 as (B3 & _).
      assert (BJ : below (length (ms_heap s1)) (mc_vrps (ms_c j s1))) by exact (cinv_below _ _ _ _ _ (G1 j)).
      destruct (side_dec j i) as [->|NE].
      * cbn [next_reading]. rewrite side_refl. rewrite (I4 EK) in *. destruct q; try (injection HE as <-; split; [exact I3|exact I4]).
        -- split; [exact EK|]. pose proof (update_refs_spec (k_grace cfg) (ms_heap s1) (mc_vrps (ms_c i s)) t) as U.
           destruct (update_refs _ _ _ _) as [[h m] n]. injection HE as <-. destruct U as (_ & _ & _ & _ & U5 & U6).
           rewrite heap_set, ms_c_set, side_refl. cbn [fades]. split; [now rewrite U6|]. intros X. cbn in X. apply U5 in X. lia.
        -- split; [exact EK|].
           assert (NK : NoDup (keys (mc_vrps (ms_c i s)))) by (rewrite <- (keys_values (ms_heap s)); apply told).
           pose proof (build_exact (k_grace cfg) (ms_heap s1) (mc_vrps (ms_c i s)) vs bs t NK B3 BJ) as U.
           destruct (build_refs _ _ _ _ _ _) as [[h m] n]. injection HE as <-. destruct (U k r HI) as [U1 U2]. rewrite I3, drops_fades in U1, U2 by exact HGl1.
           rewrite heap_set, ms_c_set, side_refl. destruct (fades (k_grace cfg) (Some (t, Listing vs bs)) e0); [exact U1|].
           split; [exact U1|]. intros X. cbn in X. apply U2 in X. discriminate X.
      * assert (NJ : ~ In r (refs (mc_vrps (ms_c j s1)))). { intros X. apply (I2 j NE). unfold mrefs. apply in_or_app. now left. }
        assert (EN' : next_reading i [LFetch j t q] = None) by (cbn [next_reading]; rewrite side_neq by congruence; reflexivity). rewrite EN'.
        destruct q; try (injection HE as <-; split; [exact I3|exact I4]).
        -- pose proof (update_refs_spec (k_grace cfg) (ms_heap s1) (mc_vrps (ms_c j s1)) t) as U.
           destruct (update_refs _ _ _ _) as [[h m] n]. injection HE as <-. destruct U as (_ & _ & _ & _ & U5 & U6).
           rewrite heap_set, ms_c_set, side_neq by exact NE. split; [now rewrite U6|exact I4].
        -- pose proof (build_refs_spec (k_grace cfg) (ms_heap s1) (mc_vrps (ms_c j s1)) vs bs t B3 BJ) as U.
           destruct (build_refs _ _ _ _ _ _) as [[h m] n]. injection HE as <-. destruct U as (_ & _ & _ & _ & U5 & U6).
           rewrite heap_set, ms_c_set, side_neq by exact NE. split; [destruct (U6 r I1) as [->|[U7 _]]; [exact I3|contradiction]|exact I4].
Qed.
End fading.
