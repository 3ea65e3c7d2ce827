From Coq Require Import ZifyBool ZifyNat ZifyN Permutation.
From Verif Require Import Lib.Digits Model.JsonFile Spec.Rfc8259 Spec.JsonSame Proofs.JsonNumP Proofs.JsonFloatP.
Local Open Scope string_scope.
Local Open Scope list_scope.
Local Open Scope N_scope.

Definition upper (c : N) : N := if (97 <=? c) && (c <=? 122) then c - 32 else c.
Lemma ordinary_tl x k : ordinary (x :: k) -> ordinary k.
Proof. intros [H1 H2]. split; intros (a & b & ->); [apply H1|apply H2]; now exists (x :: a), b. Qed.
Lemma fold_ordinary k : ordinary k -> fold_name k = map upper k.
Proof.
  induction k as [|x k IH]; intros HO; [reflexivity|]. specialize (IH (ordinary_tl x k HO)). destruct k as [|y k]; [reflexivity|].
  assert (E : fold_name (x :: y :: k) = upper x :: fold_name (y :: k)).
  { cbn [fold_name]. replace ((x =? 197) && (y =? 191)) with false; [destruct k as [|z k]; [reflexivity|]; replace ((x =? 226) && (y =? 132) && (z =? 170)) with false; [reflexivity|]|].
    - symmetry. apply not_true_iff_false. intros H. apply (proj2 HO). exists [], k. replace x with 226 by lia. replace y with 132 by lia. replace z with 170 by lia. reflexivity.
    - symmetry. apply not_true_iff_false. intros H. apply (proj1 HO). exists [], k. replace x with 197 by lia. replace y with 191 by lia. reflexivity. }
  rewrite E, IH. reflexivity.
Qed.
Lemma fold_lower k k' : ordinary k -> ordinary k' -> fold_name k = fold_name k' -> lower k = lower k'.
Proof.
  intros H H'. rewrite !fold_ordinary by assumption. clear H H'. revert k'. induction k as [|x k IH]; intros [|y k'] E; try discriminate; [reflexivity|].
  cbn [map] in E. injection E as E1 E2. unfold lower. cbn [map]. f_equal; [|now apply (IH k')].
  unfold upper in E1. destruct ((97 <=? x) && (x <=? 122)) eqn:C1; destruct ((97 <=? y) && (y <=? 122)) eqn:C2;
  destruct ((65 <=? x) && (x <=? 90)) eqn:C3; destruct ((65 <=? y) && (y <=? 90)) eqn:C4; lia.
Qed.
Lemma ascii_ordinary k : forallb (fun c => c <? 128) k = true -> ordinary k.
Proof. intros H. rewrite forallb_forall in H. split; intros (a & b & ->); [specialize (H 197)|specialize (H 226)]; (assert (X : false = true); [apply H; apply in_or_app; right; now left|discriminate X]). Qed.
Lemma field_name key name : is_field key name = true <-> fold_name key = fold_name (str name).
Proof. unfold is_field. apply beqb_eq. Qed.

Section Struct.
Context {A : Type} (f : A -> bytes -> json -> option A).
Definition step (acc : option A) (m : bytes * json) : option A := match acc with Some x => f x (fst m) (snd m) | None => None end.
Lemma step_none l : fold_left step l None = None.
Proof. induction l; auto. Qed.
Definition commutes : Prop := forall a k1 j1 k2 j2, fold_name k1 <> fold_name k2 ->
  step (step (Some a) (k1, j1)) (k2, j2) = step (step (Some a) (k2, j2)) (k1, j1).
Definition ignores : Prop := forall a k j, unknown k -> f a k j = Some a.
Definition respects : Prop := forall a k v w, same v w -> f a k v = f a k w.
Lemma perm_fold l l' : commutes -> Permutation l l' -> NoDup (map (fun m => fold_name (fst m)) l) ->
  forall a, fold_left step l a = fold_left step l' a.
Proof.
  intros HC HP. induction HP as [|m l l' HP IH|m1 m2 l|l l' l'' HP1 IH1 HP2 IH2]; intros HN a.
  - reflexivity.
  - cbn [fold_left]. inversion_clear HN. now apply IH.
  - cbn [fold_left map] in *. inversion_clear HN as [|? ? N1 N2]. f_equal. destruct a as [a|]; [|reflexivity].
    destruct m1 as [k1 j1], m2 as [k2 j2]. apply HC. cbn [fst] in N1. intros E. apply N1. left. cbn. congruence.
  - rewrite IH1 by exact HN. apply IH2. eapply Permutation_NoDup; [|exact HN]. now apply Permutation_map.
Qed.
Lemma struct_same v w : commutes -> ignores -> respects -> same v w -> forall a, dec_struct f a v = dec_struct f a w.
Proof.
  intros HC HI HR HS. induction HS as [v|v w x H1 IH1 H2 IH2|l1 v w l2 H IH|l1 k v w l2 H IH|l l' HD HP|l1 k v l2 HK HT]; intros a.
  - reflexivity.
  - rewrite IH1. apply IH2.
  - reflexivity.
  - cbn [dec_struct]. change (fold_left step (l1 ++ (k, v) :: l2) (Some a) = fold_left step (l1 ++ (k, w) :: l2) (Some a)).
    rewrite !fold_left_app. cbn [fold_left]. f_equal. destruct (fold_left step l1 (Some a)) as [y|]; [|reflexivity]. cbn [step fst snd]. now apply HR.
  - cbn [dec_struct]. apply (perm_fold l l' HC HP). destruct HD as [D1 D2].
    clear HP. induction l as [|m l IH]; [constructor|]. cbn [map] in *. inversion_clear D1 as [|? ? A1 A2]. inversion_clear D2 as [|? ? N1 N2].
    constructor; [|auto]. intros IN. apply N1. apply in_map_iff in IN as (m' & E & IN). apply in_map_iff. exists m'. split; [|exact IN].
    apply fold_lower; auto. now apply (proj1 (Forall_forall _ _) A2 m' IN).
  - cbn [dec_struct]. change (fold_left step (l1 ++ (k, v) :: l2) (Some a) = fold_left step (l1 ++ l2) (Some a)).
    rewrite !fold_left_app. cbn [fold_left]. f_equal. destruct (fold_left step l1 (Some a)) as [y|]; [|reflexivity]. cbn [step fst snd]. now apply HI.
Qed.
End Struct.

Lemma elems_same {A} (el : A -> json -> option A) zero l1 v w l2 : (forall x, el x v = el x w) ->
  forall old, dec_elems el zero old (l1 ++ v :: l2) = dec_elems el zero old (l1 ++ w :: l2).
Proof.
  intros H. induction l1 as [|j l1 IH]; intros old; cbn [app dec_elems]; [rewrite H; reflexivity|].
  destruct (el (hd zero old) j); [|reflexivity]. rewrite IH. reflexivity.
Qed.
Lemma slice_same {A} (el : A -> json -> option A) zero v w : (forall v w, same v w -> forall x, el x v = el x w) ->
  same v w -> forall cur, dec_slice el zero cur v = dec_slice el zero cur w.
Proof.
  intros HE HS. induction HS as [v|v w x H1 IH1 H2 IH2|l1 v w l2 H IH|l1 k v w l2 H IH|l l' HD HP|l1 k v l2 HK HT]; intros cur;
    try reflexivity; [now rewrite IH1|].
  cbn [dec_slice]. destruct (l1 ++ v :: l2) eqn:E1; [now destruct l1|]. destruct (l1 ++ w :: l2) eqn:E2; [now destruct l1|].
  rewrite <- E1, <- E2. rewrite (elems_same el zero l1 v w l2 (HE v w H)). reflexivity.
Qed.
Ltac leaf H := induction H; intros; try reflexivity; congruence.
Lemma string_same v w : same v w -> forall x, dec_string x v = dec_string x w.
Proof. intros H. leaf H. Qed.
Lemma uint_same max v w : same v w -> forall x, dec_uint max x v = dec_uint max x w.
Proof. intros H. leaf H. Qed.
Lemma int_same v w : same v w -> forall x, dec_int64 x v = dec_int64 x w.
Proof. intros H. leaf H. Qed.
Lemma pint_same v w : same v w -> dec_pint v = dec_pint w.
Proof. intros H. leaf H. Qed.
Lemma puint_same v w : same v w -> dec_puint32 v = dec_puint32 w.
Proof. intros H. leaf H. Qed.
Lemma bytes_same v w : same v w -> dec_bytes v = dec_bytes w.
Proof.
  intros H. induction H; try reflexivity; [congruence|]. cbn [dec_bytes].
  rewrite (elems_same (dec_uint 256) 0 l1 v w l2 (uint_same 256 v w H)). reflexivity.
Qed.
Lemma span_only a r : only_digits a = true -> match r with c :: _ => is_digit c = false | [] => True end -> span_digits (a ++ r) = (a, r).
Proof.
  intros H HR. apply span_dig; [|exact HR]. apply Forall_forall. intros c Hc. unfold only_digits in H. rewrite forallb_forall in H. specialize (H c Hc). unfold dig9. lia.
Qed.
Lemma at_dot_spec s a b : at_dot s = (a, b) -> s = a /\ b = [] \/ s = a ++ 46 :: b.
Proof.
  revert a b. induction s as [|c s IH]; intros a b E; [left; now injection E as <- <-|]. cbn [at_dot] in E. destruct (c =? 46) eqn:C.
  - injection E as <- <-. right. replace c with 46 by lia. reflexivity.
  - destruct (at_dot s) as [a' b'] eqn:D. injection E as <- <-. destruct (IH a' b' eq_refl) as [[-> ->]| ->]; [left|right]; auto.
Qed.
Lemma dval_bound d : only_digits d = true -> dval d < 10 ^ N.of_nat (length d).
Proof.
  intros H. unfold dval. assert (F : Forall (fun d => d < 10) (map (fun c => c - 48) d)).
  { apply Forall_map. apply Forall_forall. intros c Hc. unfold only_digits in H. rewrite forallb_forall in H. specialize (H c Hc). lia. }
  assert (U : forall l, Forall (fun d => d < 10) l -> undig 10 l < 10 ^ N.of_nat (length l)).
  { intros l. induction l as [|x l IH] using rev_ind; intros HF; [reflexivity|]. apply Forall_app in HF as [F1 F2]. inversion_clear F2 as [|? ? F3 _].
    rewrite undig_snoc, app_length. cbn [length]. replace (N.of_nat (length l + 1)) with (N.succ (N.of_nat (length l))) by lia.
    rewrite N.pow_succ_r'. specialize (IH F1). lia. }
  specialize (U _ F). now rewrite map_length in U.
Qed.
Lemma round_some num den : (0 <= num < 10 ^ 307)%Z -> (0 < den)%Z -> round64 num den <> None.
Proof.
  intros Hn Hd. unfold round64. destruct (num =? 0)%Z eqn:E0; [discriminate|]. assert (N0 : (0 < num)%Z) by lia.
  destruct (last_place_spec num den N0 Hd) as (e1 & EL & HK). set (e := last_place num den) in *. cbv zeta.
  set (m := div_even (num * 2 ^ Z.max 0 (- e)) (den * 2 ^ Z.max 0 e)).
  assert (B : (m * 2 ^ Z.max 0 e < 2 ^ 1023)%Z).
  { assert (C : (10 ^ 307 < 2 ^ 1020)%Z) by (vm_compute; reflexivity). destruct (Z.le_gt_cases e 0) as [L|L].
    - assert (M : (m <= 2 ^ 53)%Z).
      { unfold m. replace (Z.max 0 (- e)) with (- e)%Z by lia. replace (Z.max 0 e) with 0%Z by lia. rewrite Z.mul_1_r.
        apply div_even_le; [exact Hd|]. destruct (Z.le_gt_cases e1 (-1074)) as [S|S].
        - replace (- e)%Z with 1074%Z by lia. destruct (Z.le_gt_cases 0 (1074 + e1 + 52)) as [T|T].
          + destruct (HK 1074%Z ltac:(lia) T) as [_ H]. eapply Z.lt_le_trans; [exact H|]. apply Z.mul_le_mono_nonneg_l; [lia|]. apply Z.pow_le_mono_r; lia.
          + destruct (HK (- e1 - 52)%Z ltac:(lia) ltac:(lia)) as [_ H]. replace (- e1 - 52 + e1 + 53)%Z with 1%Z in H by lia.
            assert (num * 2 ^ 1074 <= num * 2 ^ (- e1 - 52))%Z by (apply Z.mul_le_mono_nonneg_l; [lia|]; apply Z.pow_le_mono_r; lia).
            assert (den * 2 ^ 1 <= den * 2 ^ 53)%Z by (apply Z.mul_le_mono_nonneg_l; [lia|]; apply Z.pow_le_mono_r; lia). lia.
        - replace (- e)%Z with (- e1)%Z by lia. destruct (HK (- e1)%Z ltac:(lia) ltac:(lia)) as [_ H]. replace (- e1 + e1 + 53)%Z with 53%Z in H by lia. exact H. }
      replace (Z.max 0 e) with 0%Z by lia. rewrite Z.mul_1_r. eapply Z.le_lt_trans; [exact M|]. vm_compute. reflexivity.
    - assert (EE : e1 = e) by lia. rewrite EE in HK. destruct (HK 0%Z ltac:(lia) ltac:(lia)) as [H1 _]. rewrite Z.mul_1_r, Z.add_0_l in H1.
      pose proof (pow2_pos e ltac:(lia)) as P. assert (P2 : (2 ^ e <= num)%Z).
      { assert (2 ^ e <= 2 ^ (e + 52))%Z by (apply Z.pow_le_mono_r; lia). assert (1 * 2 ^ (e + 52) <= den * 2 ^ (e + 52))%Z by (apply Z.mul_le_mono_nonneg_r; lia). lia. }
      assert (M : (m <= num / (den * 2 ^ e) + 1)%Z).
      { unfold m. replace (Z.max 0 (- e)) with 0%Z by lia. replace (Z.max 0 e) with e by lia. rewrite Z.mul_1_r. apply div_even_le; [apply Z.mul_pos_pos; lia|].
        assert (DP : (0 < den * 2 ^ e)%Z) by (apply Z.mul_pos_pos; lia). pose proof (Z.mul_succ_div_gt num _ DP). lia. }
      replace (Z.max 0 e) with e by lia.
      assert (Q : (num / (den * 2 ^ e) * 2 ^ e <= num)%Z).
      { assert (DP : (0 < den * 2 ^ e)%Z) by (apply Z.mul_pos_pos; lia). pose proof (Z.mul_div_le num _ DP). assert (0 <= num / (den * 2 ^ e))%Z by (apply Z.div_pos; lia).
        assert (num / (den * 2 ^ e) * 2 ^ e * 1 <= num / (den * 2 ^ e) * 2 ^ e * den)%Z by (apply Z.mul_le_mono_nonneg_l; [apply Z.mul_nonneg_nonneg; lia|lia]). lia. }
      assert (m * 2 ^ e <= (num / (den * 2 ^ e) + 1) * 2 ^ e)%Z by (apply Z.mul_le_mono_nonneg_r; lia).
      eapply Z.lt_trans with (2 * 10 ^ 307)%Z; [lia|vm_compute; reflexivity]. }
  assert (BM : exists m' e', (if (m =? 2 ^ 53)%Z then (2 ^ 52, e + 1)%Z else (m, e)) = (m', e') /\ (m' * 2 ^ Z.max 0 e' < 2 ^ 1024)%Z).
  { destruct (m =? 2 ^ 53)%Z eqn:EM; eexists _, _; (split; [reflexivity|]).
    - apply Z.eqb_eq in EM. destruct (Z.le_gt_cases 0 e) as [L|L].
      + rewrite EM in B. replace (Z.max 0 e) with e in B by lia. replace (Z.max 0 (e + 1)) with (e + 1)%Z by lia. rewrite Z.pow_add_r by lia.
        change (2 ^ 53)%Z with (2 ^ 52 * 2)%Z in B. change (2 ^ 1024)%Z with (2 ^ 1023 * 2)%Z. lia.
      + replace (Z.max 0 (e + 1)) with 0%Z by lia. vm_compute. reflexivity.
    - change (2 ^ 1024)%Z with (2 ^ 1023 * 2)%Z. assert (0 < 2 ^ 1023)%Z by (apply pow2_pos; lia). lia. }
  destruct BM as (m' & e' & -> & BM'). destruct (2 ^ 1024 <=? m' * 2 ^ Z.max 0 e')%Z eqn:EB; [apply Z.leb_le in EB; lia|].
  destruct ((e' <? 0)%Z && _); discriminate.
Qed.
Lemma short_ok lit : short lit = true -> floats_ok (JNum lit) = true.
Proof.
  intros H. unfold short in H. destruct (at_dot _) as [a b] eqn:EA in H. match type of EA with at_dot ?x = _ => set (s := x) in EA end. apply andb_true_iff in H as [H Hb]. apply andb_true_iff in H as [H Ha].
  assert (LS : (length s <= length lit)%nat) by (unfold s; destruct lit as [|c t]; [lia|destruct (c =? 45); cbn [length]; lia]).
  assert (P : exists neg x, num_parts lit = (neg, dval (a ++ b), x) /\ (x <= 0)%Z).
  { exists (match lit with c :: _ => c =? 45 | [] => false end), (0 - Z.of_nat (length b))%Z. split; [|lia]. unfold num_parts. cbv zeta.
    assert (ES : span_digits s = (a, match b with [] => skipn (length a) s | _ => 46 :: b end) /\ (b = [] -> skipn (length a) s = [] \/ skipn (length a) s = [46])).
    { apply at_dot_spec in EA. destruct EA as [[E1 E2]|E1]; rewrite E1.
      - rewrite E2, skipn_all. split; [|now left]. rewrite <- (app_nil_r a) at 1. apply (span_only a [] Ha I).
      - rewrite skipn_app, skipn_all, Nat.sub_diag. cbn [app skipn]. split; [|now intros ->; right]. rewrite (span_only a (46 :: b) Ha eq_refl). now destruct b. }
    destruct ES as [ES EB]. assert (EP : span_digits (if match lit with c :: _ => c =? 45 | [] => false end then tl lit else lit) = span_digits s)
      by (unfold s; destruct lit as [|c t]; [reflexivity|destruct (c =? 45); reflexivity]).
    rewrite ES in EP. match goal with |- (let '(_, _) := span_digits ?z in _) = _ => destruct (span_digits z) as [i r] eqn:ER end.
    injection EP as -> ->. destruct b as [|y b].
    - rewrite app_nil_r. destruct (EB eq_refl) as [-> | ->]; cbn; rewrite ?app_nil_r; reflexivity.
    - change (46 =? 46) with true. cbn iota. rewrite <- (app_nil_r (y :: b)) at 1. rewrite (span_only (y :: b) [] Hb I). reflexivity. }
  destruct P as (neg & x & P & X). cbn [floats_ok]. unfold lit_float. rewrite P.
  assert (BD : dval (a ++ b) < 10 ^ 307).
  { eapply N.lt_le_trans; [apply dval_bound; unfold only_digits; rewrite forallb_app; unfold only_digits in Ha, Hb; now rewrite Ha, Hb|].
    apply N.pow_le_mono_r; [lia|]. apply at_dot_spec in EA. rewrite app_length. destruct EA as [[E1 E2]|E1]; [rewrite E2; cbn [length]; rewrite E1 in LS; lia|].
    rewrite E1, app_length in LS. cbn [length] in LS. lia. }
  destruct (round64 _ _) as [[m e]|] eqn:ER; [reflexivity|]. exfalso. revert ER. apply round_some.
  - replace (Z.max 0 x) with 0%Z by lia. change (10 ^ 0)%Z with 1%Z. rewrite Z.mul_1_r. split; [lia|].
    replace (10 ^ 307)%Z with (Z.of_N (10 ^ 307)) by (vm_compute; reflexivity). lia.
  - apply Z.pow_pos_nonneg; lia.
Qed.
Lemma tame_ok v : tame v = true -> floats_ok v = true.
Proof.
  revert v. fix IH 1. intros v. destruct v as [|b|lit|s|l|l]; cbn [tame floats_ok]; intros H; try reflexivity.
  - now apply short_ok in H.
  - induction l as [|x l IL]; [reflexivity|]. cbn [forallb] in *. apply andb_true_iff in H as [H1 H2]. rewrite (IH x H1), (IL H2). reflexivity.
  - induction l as [|x l IL]; [reflexivity|]. cbn [forallb] in *. apply andb_true_iff in H as [H1 H2]. rewrite (IH (snd x) H1), (IL H2). reflexivity.
Qed.
Lemma floats_same v w : same v w -> floats_ok v = floats_ok w.
Proof.
  intros H. induction H as [v|v w x H1 IH1 H2 IH2|l1 v w l2 H IH|l1 k v w l2 H IH|l l' HD HP|l1 k v l2 HK HT]; cbn [floats_ok].
  - reflexivity.
  - congruence.
  - rewrite !forallb_app. cbn [forallb]. now rewrite IH.
  - rewrite !forallb_app. cbn [forallb snd]. now rewrite IH.
  - apply eq_true_iff_eq. rewrite !forallb_forall. split; intros G x Hx; apply G; [now apply (Permutation_in x (Permutation_sym HP))|now apply (Permutation_in x HP)].
  - rewrite !forallb_app. cbn [forallb snd]. rewrite (tame_ok v HT). reflexivity.
Qed.
Lemma asn_same v w : same v w -> dec_asn v = dec_asn w.
Proof.
  intros H. pose proof (floats_same v w H) as F. induction H; try reflexivity; try (cbn [dec_asn]; now rewrite F).
  rewrite IHsame1, IHsame2; auto using floats_same.
Qed.

Lemma unknown_not k name : unknown k -> In (lower (str name)) names -> ordinary (str name) -> is_field k name = false.
Proof.
  intros [H1 H2] H3 H4. destruct (is_field k name) eqn:E; [|reflexivity]. apply field_name in E. apply fold_lower in E; auto.
  exfalso. apply H2. now rewrite E.
Qed.
Ltac by_name := match goal with |- In _ names => vm_compute; tauto | |- ordinary _ => apply ascii_ordinary; vm_compute; reflexivity end.
Ltac unk :=
  repeat match goal with |- context [is_field ?k ?n] => rewrite (unknown_not k n) by (assumption || by_name); cbn iota end; reflexivity.
Ltac fdup :=
  match goal with
  | H1 : is_field ?k1 ?n = true, H2 : is_field ?k2 ?n = true |- _ => exfalso; apply field_name in H1; apply field_name in H2; congruence
  end.
Ltac dfields :=
  repeat match goal with |- context [if is_field ?a ?b then _ else _] => let E := fresh "E" in destruct (is_field a b) eqn:E; cbn iota end.
Ltac projs :=
  cbn beta iota; cbn [vj_prefix vj_length vj_asn vj_ta vj_expires bj_asn bj_expires bj_ta bj_pubkey bj_ski
    md_vrps md_keys md_build md_gen md_session md_serial fi_meta fi_roa fi_brk pf_prefix pf_asn bf_asn bf_ski
    pa_prefix pa_asn pa_maxlen pa_comment ba_ski ba_asn ba_key sf_version sf_filters sf_asserts fst snd].
Ltac dmatch :=
  repeat match goal with |- context [match ?x with Some _ => _ | None => _ end] => 
    match x with context [match _ with _ => _ end] => fail 1 | _ => first [match goal with H : x = _ |- _ => rewrite H end|let D := fresh "D" in destruct x eqn:D]; projs end end.
Ltac rsame :=
  let v := fresh "v" in let w := fresh "w" in let H := fresh "HS" in intros a k v w H; cbn beta;
  rewrite ?(string_same v w H), ?(int_same v w H), ?(pint_same v w H), ?(puint_same v w H), ?(bytes_same v w H), ?(asn_same v w H);
  repeat match goal with |- context [dec_uint ?m ?x v] => rewrite (uint_same m v w H x) end.
Ltac ign := intros a k j HU; unk.
Ltac com :=
  intros a k1 j1 k2 j2 HK; destruct a; unfold step; projs;
  dfields; try reflexivity; try fdup; projs; dmatch; reflexivity.
Ltac by_struct := intros HS a0; apply struct_same; [com|ign| |exact HS].

Lemma vrp_same v w : same v w -> forall a, dec_vrp a v = dec_vrp a w.
Proof. by_struct. rsame. reflexivity. Qed.
Lemma brk_same v w : same v w -> forall a, dec_brk a v = dec_brk a w.
Proof. by_struct. rsame. reflexivity. Qed.
Lemma meta_same v w : same v w -> forall a, dec_meta a v = dec_meta a w.
Proof. by_struct. rsame. reflexivity. Qed.
Lemma list_same v w : same v w -> forall a, dec_list a v = dec_list a w.
Proof.
  by_struct. rsame. rewrite (meta_same v0 w0 HS0).
  rewrite (slice_same dec_vrp zero_vj v0 w0 vrp_same HS0), (slice_same dec_brk zero_bj v0 w0 brk_same HS0). reflexivity.
Qed.
Lemma pfilter_same v w : same v w -> forall a, dec_pfilter a v = dec_pfilter a w.
Proof. by_struct. rsame. reflexivity. Qed.
Lemma bfilter_same v w : same v w -> forall a, dec_bfilter a v = dec_bfilter a w.
Proof. by_struct. rsame. reflexivity. Qed.
Lemma passert_same v w : same v w -> forall a, dec_passert a v = dec_passert a w.
Proof. by_struct. rsame. reflexivity. Qed.
Lemma bassert_same v w : same v w -> forall a, dec_bassert a v = dec_bassert a w.
Proof. by_struct. rsame. reflexivity. Qed.
Lemma filters_same v w : same v w -> forall a, dec_filters a v = dec_filters a w.
Proof.
  by_struct. rsame. rewrite (slice_same dec_pfilter (mkPF [] None, []) v0 w0 pfilter_same HS0),
    (slice_same dec_bfilter (mkBF None [], []) v0 w0 bfilter_same HS0). reflexivity.
Qed.
Lemma asserts_same v w : same v w -> forall a, dec_asserts a v = dec_asserts a w.
Proof.
  by_struct. rsame. rewrite (slice_same dec_passert (mkPA [] 0 0 []) v0 w0 passert_same HS0),
    (slice_same dec_bassert (mkBA [] 0 [], []) v0 w0 bassert_same HS0). reflexivity.
Qed.
Lemma config_same v w : same v w -> forall a, dec_config a v = dec_config a w.
Proof. by_struct. rsame. rewrite (filters_same v0 w0 HS0), (asserts_same v0 w0 HS0). reflexivity. Qed.
