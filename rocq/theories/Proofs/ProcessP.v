(** processData: the conversion from JSON records to VRPs and router keys. *)
From Coq Require Import ZifyBool ZifyNat ZifyN Permutation.
From Verif Require Import Model.Process Model.Slurm Model.Cache Spec.Input Spec.Sets Proofs.FormatP Proofs.DataP Proofs.CacheP Proofs.JsonP.
Ltac Zify.zify_post_hook ::= Z.div_mod_to_equations.

Lemma valid_length_spec p b len : p_bits p = Some b -> b <= bitlen (p_addr p) -> p_addr p <> A0 ->
  (is_valid_prefix_length p len = true <-> 0 < b /\ b <= len /\ len <= bitlen (p_addr p)).
Proof.
  intros Hb Hl Hn. unfold is_valid_prefix_length, bits. rewrite Hb.
  assert (HB : bitlen (p_addr p) <= 128) by (destruct (p_addr p); cbn [bitlen]; lia).
  replace (to_u8 (Z.of_N b)) with b by (unfold to_u8; lia).
  rewrite N.mod_small by lia.
  destruct ((Z.of_N b =? 0)%Z) eqn:E1; destruct (len <? b) eqn:E2; destruct (bitlen (p_addr p) <? len) eqn:E3;
    cbn [orb negb]; split; intros H; try discriminate H; lia.
Qed.

Lemma expired_spec now e : expired now e = false <-> fresh now e.
Proof. unfold expired, fresh. destruct e as [t|]; [|tauto]. lia. Qed.

(** What one entry stands for. *)
Definition conv (now : Z) (v : vrpjson) : option (prefix * N) :=
  match get_prefix2 v, get_asn2 (vj_asn v) with
  | Some p, Some asn =>
      if is_valid_prefix_length p (vj_length v) && negb (expired now (vj_expires v)) then Some (p, asn) else None
  | _, _ => None
  end.
Lemma conv_spec now v p asn : conv now v = Some (p, asn) <-> entry_ok now v p asn.
Proof.
  unfold conv, entry_ok. rewrite get_prefix2_parse.
  destruct (parse_prefix (vj_prefix v)) as [q|] eqn:Ep; [|split; [discriminate|intros (H & _); discriminate H]].
  destruct (get_asn2 (vj_asn v)) as [a|]; [|split; [discriminate|intros (_ & H & _); discriminate H]].
  pose proof (parse_prefix_bits _ _ Ep) as (b & Hb & Hl & Hf).
  assert (Hn : p_addr q <> A0) by (destruct (p_addr q); [destruct Hf; discriminate|discriminate|discriminate]).
  pose proof (valid_length_spec q b (vj_length v) Hb Hl Hn) as HV.
  pose proof (expired_spec now (vj_expires v)) as HX.
  split.
  - destruct (is_valid_prefix_length q (vj_length v)); [|discriminate].
    destruct (expired now (vj_expires v)); [discriminate|]. cbn [andb negb]. intros H. injection H as <- <-.
    split; [reflexivity|]. split; [reflexivity|]. split; [|now apply HX]. exists b. split; [exact Hb|]. now apply HV.
  - intros (H1 & H2 & (b' & H3 & H4) & H5). injection H1 as <-. injection H2 as <-.
    rewrite Hb in H3. injection H3 as <-. apply HV in H4. rewrite H4. apply HX in H5. now rewrite H5.
Qed.

Definition kof (v : vrpjson) (pa : prefix * N) : bytes := dup_key (fst pa) (snd pa) (vj_length v).
Definition dof (v : vrpjson) (pa : prefix * N) : sd := VRP (fst pa) (snd pa) (vj_length v) 0.
Lemma vrp_step_conv now out seen c4 c6 v :
  vrp_step now (out, seen, c4, c6) v =
  match conv now v with
  | None => (out, seen, c4, c6)
  | Some pa =>
      let c4' := if is4 (p_addr (fst pa)) then c4 + 1 else c4 in
      let c6' := if is4 (p_addr (fst pa)) then c6 else c6 + 1 in
      if existsb (beqb (kof v pa)) seen then (out, seen, c4', c6')
      else (out ++ [dof v pa], kof v pa :: seen, c4', c6')
  end.
Proof.
  unfold vrp_step, conv, kof, dof. destruct (get_prefix2 v) as [p|]; [|reflexivity].
  destruct (get_asn2 (vj_asn v)) as [a|]; [|reflexivity].
  destruct (is_valid_prefix_length p (vj_length v)); [|reflexivity].
  destruct (expired now (vj_expires v)); reflexivity.
Qed.

Lemma dup_key_inj p a l q b m : wf_prefix p -> is_valid p = true -> wf_prefix q -> is_valid q = true ->
  dup_key p a l = dup_key q b m -> p = q /\ a = b /\ l = m.
Proof.
  unfold dup_key, c_comma. intros Hp Vp Hq Vq E.
  assert (HP : forall n, ~ In 44 (dec n)).
  { intros n HI. pose proof (dec_plain n) as H. rewrite Forall_forall in H. apply H in HI.
    unfold plain, is_digit in HI. lia. }
  cbn [app] in E. apply split_first_eq in E as [E1 E2]; try (now apply prefix_string_no_comma).
  apply split_first_eq in E2 as [E2 E3]; auto.
  apply prefix_string_inj in E1; auto. apply dec_inj in E2, E3. auto.
Qed.

(** The loop invariant. *)
Definition linv (now : Z) (done : list vrpjson) (st : list sd * list bytes * N * N) : Prop :=
  let '(out, seen, c4, c6) := st in
  (forall d, In d out <-> exists v pa, In v done /\ conv now v = Some pa /\ d = dof v pa) /\
  (forall k, In k seen <-> exists v pa, In v done /\ conv now v = Some pa /\ k = kof v pa) /\
  NoDup out.

Lemma conv_wf now v pa : conv now v = Some pa -> wf_prefix (fst pa) /\ is_valid (fst pa) = true.
Proof.
  destruct pa as [p a]. rewrite conv_spec. intros (H & _). now apply parse_prefix_wf in H.
Qed.

Lemma existsb_beqb k l : existsb (beqb k) l = true <-> In k l.
Proof.
  rewrite existsb_exists. split.
  - intros (x & Hx & E). apply beqb_eq in E. now subst.
  - intros H. exists k. split; [exact H|]. now apply beqb_eq.
Qed.

Lemma vrp_step_inv now done st v : linv now done st -> linv now (done ++ [v]) (vrp_step now st v).
Proof.
  destruct st as [[[out seen] c4] c6]. intros (HO & HS & HN). rewrite vrp_step_conv.
  assert (HD : forall P : vrpjson -> Prop, (exists w, In w (done ++ [v]) /\ P w) <-> (exists w, In w done /\ P w) \/ P v).
  { intros P. split.
    - intros (w & Hw & HP). apply in_app_or in Hw as [Hw|[<-|[]]]; eauto.
    - intros [(w & Hw & HP)|HP]; [exists w|exists v]; (split; [apply in_or_app; cbn; auto|exact HP]). }
  assert (HO2 : forall d, (exists w pa, In w (done ++ [v]) /\ conv now w = Some pa /\ d = dof w pa) <->
      In d out \/ (exists pa, conv now v = Some pa /\ d = dof v pa)).
  { intros d. rewrite HO. split.
    - intros (w & pa & Hw & HP). apply in_app_or in Hw as [Hw|[<-|[]]]; eauto 6.
    - intros [(w & pa & Hw & HP)|(pa & HP)]; [exists w, pa|exists v, pa]; (split; [apply in_or_app; cbn; auto|exact HP]). }
  assert (HS2 : forall k, (exists w pa, In w (done ++ [v]) /\ conv now w = Some pa /\ k = kof w pa) <->
      In k seen \/ (exists pa, conv now v = Some pa /\ k = kof v pa)).
  { intros d. rewrite HS. split.
    - intros (w & pa & Hw & HP). apply in_app_or in Hw as [Hw|[<-|[]]]; eauto 6.
    - intros [(w & pa & Hw & HP)|(pa & HP)]; [exists w, pa|exists v, pa]; (split; [apply in_or_app; cbn; auto|exact HP]). }
  clear HD. destruct (conv now v) as [pa|] eqn:EC.
  - assert (HK : forall w pb, conv now w = Some pb -> kof w pb = kof v pa -> dof w pb = dof v pa).
    { intros w pb Hw E. apply conv_wf in Hw as [W1 W2]. apply conv_wf in EC as [W3 W4].
      apply dup_key_inj in E; auto. destruct E as (E1 & E2 & E3). unfold dof. congruence. }
    cbv zeta. destruct (existsb (beqb (kof v pa)) seen) eqn:EX.
    + apply existsb_beqb in EX. pose proof EX as EX'. apply HS in EX' as (w & pb & Hw & Hcw & Ek).
      split; [|split; [|exact HN]].
      * intros d. rewrite HO2. split; [auto|]. intros [H|(pc & Hc & ->)]; [exact H|].
        injection Hc as <-. apply HO. exists w, pb. split; [exact Hw|]. split; [exact Hcw|].
        symmetry. apply HK; [exact Hcw|now symmetry].
      * intros k. rewrite HS2. split; [auto|]. intros [H|(pc & Hc & ->)]; [exact H|]. injection Hc as <-. exact EX.
    + split; [|split].
      * intros d. rewrite HO2, in_app_iff. cbn [In]. split.
        -- intros [H|[<-|[]]]; [auto|right; eauto].
        -- intros [H|(pc & Hc & ->)]; [auto|]. injection Hc as <-. auto.
      * intros k. rewrite HS2. cbn [In]. split.
        -- intros [<-|H]; [right; eauto|auto].
        -- intros [H|(pc & Hc & ->)]; [auto|]. injection Hc as <-. auto.
      * apply NoDup_app_disj; [exact HN|constructor; [tauto|constructor]|]. intros x HI [<-|[]]. apply HO in HI as (w & pb & Hw & Hcw & E).
        assert (In (kof v pa) seen).
        { apply HS. exists w, pb. split; [exact Hw|]. split; [exact Hcw|].
          unfold dof in E. unfold kof. injection E as -> -> ->. reflexivity. }
        apply existsb_beqb in H. congruence.
  - split; [|split; [|exact HN]].
    + intros d. rewrite HO2. split; [auto|]. intros [H|(pc & Hc & _)]; [exact H|discriminate Hc].
    + intros k. rewrite HS2. split; [auto|]. intros [H|(pc & Hc & _)]; [exact H|discriminate Hc].
Qed.
Lemma vrp_loop_inv now vs : linv now vs (vrp_loop now vs).
Proof.
  unfold vrp_loop. induction vs as [|v vs IH] using rev_ind.
  - cbn. split; [|split; [|constructor]]; intros x; (split; [intros []|intros (v & pa & [] & _)]).
  - rewrite fold_left_app. cbn [fold_left]. now apply vrp_step_inv.
Qed.

(** Counters. *)
Definition is4conv (now : Z) (b : bool) (v : vrpjson) : bool :=
  match conv now v with Some pa => Bool.eqb (is4 (p_addr (fst pa))) b | None => false end.
Lemma vrp_loop_counts now vs : forall out seen c4 c6, exists out' seen',
  fold_left (vrp_step now) vs (out, seen, c4, c6) =
  (out', seen', c4 + nlen (filter (is4conv now true) vs), c6 + nlen (filter (is4conv now false) vs)).
Proof.
  induction vs as [|v vs IH]; intros out seen c4 c6; cbn [fold_left].
  - exists out, seen. cbn. now rewrite !N.add_0_r.
  - rewrite vrp_step_conv. cbn [filter].
    replace (is4conv now true v) with (match conv now v with Some pa => Bool.eqb (is4 (p_addr (fst pa))) true | None => false end) by reflexivity.
    replace (is4conv now false v) with (match conv now v with Some pa => Bool.eqb (is4 (p_addr (fst pa))) false | None => false end) by reflexivity.
    destruct (conv now v) as [pa|]; [|apply IH]. cbv zeta.
    assert (HX : forall o s, exists out' seen',
      fold_left (vrp_step now) vs (o, s, if is4 (p_addr (fst pa)) then c4 + 1 else c4,
         if is4 (p_addr (fst pa)) then c6 else c6 + 1) =
      (out', seen', c4 + nlen (if Bool.eqb (is4 (p_addr (fst pa))) true then v :: filter (is4conv now true) vs else filter (is4conv now true) vs),
       c6 + nlen (if Bool.eqb (is4 (p_addr (fst pa))) false then v :: filter (is4conv now false) vs else filter (is4conv now false) vs))).
    { intros o s. destruct (IH o s (if is4 (p_addr (fst pa)) then c4 + 1 else c4)
         (if is4 (p_addr (fst pa)) then c6 else c6 + 1)) as (o' & s' & E).
      exists o', s'. rewrite E. destruct (is4 (p_addr (fst pa))); cbn [Bool.eqb]; unfold nlen; cbn [length];
        (apply f_equal2; [apply f_equal|]; lia). }
    destruct (existsb (beqb (kof v pa)) seen); apply HX.
Qed.
Lemma counts_filter {A} (P : A -> Prop) f l : (forall x, f x = true <-> P x) -> counts P l (nlen (filter f l)).
Proof.
  intros H. induction l as [|x l IH]; [constructor|]. cbn [filter]. destruct (f x) eqn:E.
  - unfold nlen. cbn [length]. replace (N.of_nat (S (length (filter f l)))) with (nlen (filter f l) + 1) by (unfold nlen; lia).
    constructor; [now apply H|exact IH].
  - constructor; [|exact IH]. rewrite <- H, E. discriminate.
Qed.
Lemma is4conv_spec now b v : is4conv now b v = true <-> exists p asn, entry_ok now v p asn /\ is4 (p_addr p) = b.
Proof.
  unfold is4conv. split.
  - destruct (conv now v) as [[p a]|] eqn:E; [|discriminate]. intros H. exists p, a.
    split; [now apply conv_spec|]. now apply eqb_prop in H.
  - intros (p & a & H & Hb). apply conv_spec in H. rewrite H. cbn [fst]. rewrite Hb. apply eqb_reflx.
Qed.

(** * The sort *)

Lemma process_vrps sort now vs bs : sorts sort -> Forall wf_vj vs ->
  let '(vrps, _, c4, c6) := process_data sort now vs bs in
  (forall d, In d vrps <-> exists v p asn, In v vs /\ entry_ok now v p asn /\ d = VRP p asn (vj_length v) 0) /\
  NoDup (ids vrps) /\ sorted_vrps vrps /\ Forall wf_sd vrps /\
  counts (fun v => exists p asn, entry_ok now v p asn /\ is4 (p_addr p) = true) vs c4 /\
  counts (fun v => exists p asn, entry_ok now v p asn /\ is4 (p_addr p) = false) vs c6.
Proof.
  intros Hsort Hw. unfold process_data. pose proof (vrp_loop_inv now vs) as HI.
  destruct (vrp_loop_counts now vs [] [] 0 0) as (o' & s' & EC). fold (vrp_loop now vs) in EC.
  destruct (vrp_loop now vs) as [[[out seen] c4] c6]. injection EC as _ _ EC4 EC6.
  destruct HI as (HO & _ & HN).
  assert (HO' : forall d, In d out <-> exists v p asn, In v vs /\ entry_ok now v p asn /\ d = VRP p asn (vj_length v) 0).
  { intros d. rewrite HO. split.
    - intros (v & [p a] & Hv & Hc & ->). exists v, p, a. split; [exact Hv|]. split; [now apply conv_spec|reflexivity].
    - intros (v & p & a & Hv & Hc & ->). exists v, (p, a). split; [exact Hv|]. split; [now apply conv_spec|reflexivity]. }
  assert (HV : Forall is_vrp out).
  { apply Forall_forall. intros d Hd. apply HO' in Hd as (v & p & a & _ & _ & ->). exact I. }
  destruct (Hsort out HV) as [HP HS].
  assert (HIn : forall d, In d (sort out) <-> In d out).
  { intros d. split; apply Permutation_in; [exact HP|now symmetry]. }
  split; [intros d; rewrite HIn; apply HO'|]. split; [|split; [exact HS|split; [|split]]].
  - unfold ids. apply (Permutation_NoDup (Permutation_map rid_of (Permutation_sym HP))).
    assert (HF : forall d, In d out -> get_flag d = 0).
    { intros d Hd. apply HO' in Hd as (v & p & a & _ & _ & ->). reflexivity. }
    clear - HN HF HV. induction HN as [|x l Hx HN IH]; cbn [map]; constructor.
    + intros HI. apply in_map_iff in HI as (y & E & Hy). apply Hx.
      inversion HV as [|? ? V1 V2]; subst. rewrite Forall_forall in V2. specialize (V2 y Hy).
      pose proof (HF x (or_introl eq_refl)) as F1. pose proof (HF y (or_intror Hy)) as F2.
      destruct x as [p a m f|], y as [q b n g|]; try contradiction. cbn in *. injection E as -> -> ->. now subst.
    + inversion HV; subst. apply IH; [assumption|]. intros d Hd. apply HF. now right.
  - apply Forall_forall. intros d Hd. apply HIn, HO' in Hd as (v & p & a & Hv & (H1 & H2 & H3 & H4) & ->).
    rewrite Forall_forall in Hw. destruct (Hw v Hv) as [W1 W2].
    apply parse_prefix_wf in H1 as [P1 P2]. apply get_asn2_u32 in H2; [|exact W2].
    split; [exact P1|]. split; [exact P2|]. split; [exact H2|]. split; [exact W1|]. unfold u8. lia.
  - rewrite EC4. change (0 + nlen (filter (is4conv now true) vs)) with (nlen (filter (is4conv now true) vs)).
    apply counts_filter. apply is4conv_spec.
  - rewrite EC6. change (0 + nlen (filter (is4conv now false) vs)) with (nlen (filter (is4conv now false) vs)).
    apply counts_filter. apply is4conv_spec.
Qed.

(** * Router keys *)
Lemma brk_loop_in now bs d : In d (brk_loop now bs) <->
  exists b ski, In b bs /\ fresh now (bj_expires b) /\ is_hex_of (bj_ski b) ski /\ d = BgpsecKey (bj_asn b) ski (bj_pubkey b) 0.
Proof.
  unfold brk_loop. rewrite in_flat_map. split.
  - intros (b & Hb & HI). destruct (expired now (bj_expires b)) eqn:EX; [destruct HI|].
    destruct (hex_decode (bj_ski b)) as [ski ok] eqn:EH. destruct ok; [|destruct HI].
    destruct HI as [<-|[]]. exists b, ski. split; [exact Hb|]. split; [now apply expired_spec|].
    split; [now apply hex_decode_spec|reflexivity].
  - intros (b & ski & Hb & HF & HH & ->). exists b. split; [exact Hb|].
    apply expired_spec in HF. rewrite HF. apply hex_decode_spec in HH. rewrite HH. now left.
Qed.
Lemma brk_loop_wf now bs : Forall wf_bj bs -> Forall wf_sd (brk_loop now bs).
Proof.
  intros H. apply Forall_forall. intros d Hd. apply brk_loop_in in Hd as (b & ski & Hb & _ & (HB & _) & ->).
  rewrite Forall_forall in H. destruct (H b Hb) as [W1 W2]. cbn [wf_sd].
  split; [exact W1|]. split; [exact HB|]. split; [exact W2|]. unfold u8. lia.
Qed.
(** Entry by entry, in order. *)
Lemma brk_loop_cons now b bs :
  brk_loop now (b :: bs) = brk_loop now [b] ++ brk_loop now bs.
Proof. unfold brk_loop. cbn [flat_map]. now rewrite app_nil_r. Qed.
Lemma brk_loop_one now b :
  (exists ski, fresh now (bj_expires b) /\ is_hex_of (bj_ski b) ski /\ brk_loop now [b] = [BgpsecKey (bj_asn b) ski (bj_pubkey b) 0])
  \/ (~ (exists ski, fresh now (bj_expires b) /\ is_hex_of (bj_ski b) ski) /\ brk_loop now [b] = []).
Proof.
  cbn [brk_loop flat_map]. rewrite app_nil_r. destruct (expired now (bj_expires b)) eqn:EX.
  - right. split; [|reflexivity]. intros (ski & HF & _). apply expired_spec in HF. congruence.
  - destruct (hex_decode (bj_ski b)) as [ski ok] eqn:EH. destruct ok.
    + left. exists ski. split; [now apply expired_spec|]. split; [now apply hex_decode_spec|reflexivity].
    + right. split; [|reflexivity]. intros (k & _ & HH). apply hex_decode_spec in HH. congruence.
Qed.

(** * Order of the first load *)
Lemma sorted_bits l i j d e : sorted_vrps l -> Forall is_vrp l -> (i < j)%nat ->
  nth_error l i = Some d -> nth_error l j = Some e -> vrp_less d e = true.
Proof.
  revert i j. induction l as [|x l IH]; intros i j HS HV Hij Hi Hj; [destruct i; discriminate Hi|].
  destruct HS as [H1 H2]. inversion HV as [|? ? V1 V2]; subst. destruct i as [|i]; destruct j as [|j]; try lia.
  - cbn in Hi, Hj. injection Hi as ->. apply H1. now apply nth_error_In in Hj.
  - cbn in Hi, Hj. apply (IH i j); auto. lia.
Qed.
Lemma vrp_less_bits p a m f q b n g : vrp_less (VRP p a m f) (VRP q b n g) = true -> (bits q <= bits p)%Z.
Proof. cbn [vrp_less]. destruct (bits p =? bits q)%Z eqn:E; lia. Qed.
Lemma first_load k l : l <> [] ->
  sdCurrent (fst (add_data (new_server k) l)) = map (set_flag FLAG_ADDED) l.
Proof.
  intros Hl. unfold add_data, compute_diff, new_server. cbn [sdCurrent].
  replace (flat_map (fun x => if map_has (convert_map []) (hashkey x) then [] else [set_flag FLAG_ADDED x]) l)
    with (map (set_flag FLAG_ADDED) l).
  2:{ clear. induction l as [|x l IH]; [reflexivity|]. cbn [map flat_map app]. rewrite IH. reflexivity. }
  cbn [flat_map]. rewrite app_nil_r.
  destruct (map (set_flag FLAG_ADDED) l) as [|y r] eqn:E.
  { destruct l; [congruence|discriminate E]. }
  rewrite <- E. clear E y r. cbn [fst]. unfold add_sds_diff. cbn [sdCurrent]. unfold apply_diff.
  match goal with |- flat_map ?f [] ++ ?b = _ => change (b = map (set_flag FLAG_ADDED) l) end.
  clear. induction l as [|x l IH]; [reflexivity|]. cbn [map flat_map].
  replace (get_flag (set_flag FLAG_ADDED x)) with FLAG_ADDED by (destruct x; reflexivity).
  rewrite N.eqb_refl. cbn [app]. now rewrite IH.
Qed.
