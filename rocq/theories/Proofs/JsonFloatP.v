From Coq Require Import ZifyBool ZifyNat ZifyN.
From Verif Require Import Lib.Digits Model.JsonFile Spec.Rfc8259 Proofs.FormatP Proofs.JsonNumP Proofs.JsonStateP.
Local Open Scope string_scope.
Local Open Scope list_scope.
Local Open Scope N_scope.

(** ** float64 numbers: written out in full they are read back *)
Local Open Scope Z_scope.

Lemma pow_split K L : 0 <= K -> 0 <= L -> 2 ^ (K + L) = 2 ^ K * 2 ^ L.
Proof. intros. now rewrite Z.pow_add_r by lia. Qed.
Lemma shift_lt num den L K : 0 <= K -> 0 <= K + L ->
  (num * 2 ^ Z.max 0 (- L) < den * 2 ^ Z.max 0 L <-> num * 2 ^ K < den * 2 ^ (K + L)).
Proof.
  intros H1 H2. assert (E : exists d, 0 <= d /\ K = Z.max 0 (- L) + d /\ K + L = Z.max 0 L + d).
  { exists (K - Z.max 0 (- L)). lia. }
  destruct E as (d & Hd & E1 & E2). rewrite E2, E1, !pow_split by lia. pose proof (pow2_pos d Hd). rewrite !Z.mul_assoc.
  apply (Z.mul_lt_mono_pos_r (2 ^ d)); lia.
Qed.
Lemma last_place_spec num den : 0 < num -> 0 < den -> exists e1, last_place num den = Z.max (-1074) e1 /\
  forall K, 0 <= K -> 0 <= K + e1 + 52 -> den * 2 ^ (K + e1 + 52) <= num * 2 ^ K < den * 2 ^ (K + e1 + 53).
Proof.
  intros Hn Hd. unfold last_place. set (a := Z.log2 num). set (b := Z.log2 den).
  assert (Ha : 2 ^ a <= num < 2 ^ (a + 1)) by (unfold a; rewrite Z.add_1_r; apply Z.log2_spec; lia).
  assert (Hb : 2 ^ b <= den < 2 ^ (b + 1)) by (unfold b; rewrite Z.add_1_r; apply Z.log2_spec; lia).
  assert (Ha0 : 0 <= a) by apply Z.log2_nonneg. assert (Hb0 : 0 <= b) by apply Z.log2_nonneg.
  set (e0 := a - b - 52).
  assert (E0 : - e0 - 52 = - (e0 + 52)) by lia. rewrite E0.
  assert (LOW : forall K, 0 <= K -> 0 <= K + a - b - 1 -> den * 2 ^ (K + a - b - 1) <= num * 2 ^ K).
  { intros K K0 K1. assert (den * 2 ^ (K + a - b - 1) <= 2 ^ (b + 1) * 2 ^ (K + a - b - 1)).
    { apply Z.mul_le_mono_nonneg_r; [|lia]. pose proof (pow2_pos (K + a - b - 1)). lia. }
    rewrite <- pow_split in H by lia. replace (b + 1 + (K + a - b - 1)) with (a + K) in H by lia. rewrite pow_split in H by lia.
    assert (2 ^ a * 2 ^ K <= num * 2 ^ K) by (apply Z.mul_le_mono_nonneg_r; [pose proof (pow2_pos K)|]; lia). lia. }
  assert (UP : forall K, 0 <= K -> 0 <= K + a - b + 1 -> num * 2 ^ K < den * 2 ^ (K + a - b + 1)).
  { intros K K0 K1. assert (2 ^ b * 2 ^ (K + a - b + 1) <= den * 2 ^ (K + a - b + 1)).
    { apply Z.mul_le_mono_nonneg_r; [|lia]. pose proof (pow2_pos (K + a - b + 1)). lia. }
    rewrite <- pow_split in H by lia. replace (b + (K + a - b + 1)) with (a + 1 + K) in H by lia. rewrite pow_split in H by lia.
    assert (num * 2 ^ K < 2 ^ (a + 1) * 2 ^ K) by (apply Z.mul_lt_mono_pos_r; [pose proof (pow2_pos K)|]; lia). lia. }
  destruct (num * 2 ^ Z.max 0 (- (e0 + 52)) <? den * 2 ^ Z.max 0 (e0 + 52)) eqn:C.
  - apply Z.ltb_lt in C. exists (e0 - 1). split; [reflexivity|]. intros K K0 K1. split.
    + replace (K + (e0 - 1) + 52) with (K + a - b - 1) by (unfold e0; lia). apply LOW; [lia|unfold e0 in *; lia].
    + replace (K + (e0 - 1) + 53) with (K + (e0 + 52)) by lia. apply (shift_lt num den (e0 + 52) K); [lia|lia|exact C].
  - apply Z.ltb_ge in C. exists e0. split; [reflexivity|]. intros K K0 K1. split.
    + destruct (Z.le_gt_cases (den * 2 ^ (K + e0 + 52)) (num * 2 ^ K)) as [H|H]; [exact H|]. exfalso.
      replace (K + e0 + 52) with (K + (e0 + 52)) in H by lia. apply (shift_lt num den (e0 + 52) K) in H; lia.
    + replace (K + e0 + 53) with (K + a - b + 1) by (unfold e0; lia). apply UP; [lia|unfold e0 in *; lia].
Qed.
Lemma div_even_le a b c : 0 < b -> a < b * c -> div_even a b <= c.
Proof.
  intros Hb H. assert (a / b < c) by (apply Z.div_lt_upper_bound; lia). unfold div_even.
  destruct (2 * (a mod b) <? b); [lia|]. destruct (b <? 2 * (a mod b)); [lia|]. destruct (Z.even (a / b)); lia.
Qed.
Lemma div_even_ge a b c : 0 < b -> b * c <= a -> c <= div_even a b.
Proof.
  intros Hb H. assert (c <= a / b) by (apply Z.div_le_lower_bound; lia). unfold div_even.
  destruct (2 * (a mod b) <? b); [lia|]. destruct (b <? 2 * (a mod b)); [lia|]. destruct (Z.even (a / b)); lia.
Qed.
(** The numbers in the image of [round64]. *)
Definition canon (m e : Z) : Prop :=
  (e = 0 /\ 0 <= m < 2 ^ 53) \/
  (0 < e /\ 2 ^ 52 <= m < 2 ^ 53 /\ m * 2 ^ e < 2 ^ 1024) \/
  (e < 0 /\ -1074 <= e /\ 0 <= m < 2 ^ 53 /\ (2 ^ 52 <= m \/ e = -1074) /\ m mod 2 ^ (- e) <> 0).
Lemma round_canon num den m e : 0 <= num -> 0 < den -> round64 num den = Some (m, e) -> canon m e.
Proof.
  intros Hn Hd. unfold round64. destruct (num =? 0) eqn:Z0; [intros [= <- <-]; left; lia|].
  destruct (last_place_spec num den ltac:(lia) Hd) as (e1 & EL & SP). set (e0 := last_place num den) in *.
  set (m0 := div_even (num * 2 ^ Z.max 0 (- e0)) (den * 2 ^ Z.max 0 e0)).
  assert (HD : 0 < den * 2 ^ Z.max 0 e0) by (pose proof (pow2_pos (Z.max 0 e0)); lia).
  set (d := Z.abs e1 + 100). set (K := Z.max 0 (- e0) + d).
  specialize (SP K ltac:(lia) ltac:(lia)) as [S1 S2].
  pose proof (pow2_pos d ltac:(lia)) as PD.
  assert (KE : K + e0 = Z.max 0 e0 + d) by lia.
  assert (U : m0 <= 2 ^ 53).
  { apply div_even_le; [exact HD|]. apply (Z.mul_lt_mono_pos_r (2 ^ d)); [exact PD|].
    rewrite <- Z.mul_assoc, <- pow_split by lia. fold K.
    replace (den * 2 ^ Z.max 0 e0 * 2 ^ 53 * 2 ^ d) with (den * (2 ^ (Z.max 0 e0 + d + 53))).
    2: { rewrite !pow_split by lia. ring. }
    eapply Z.lt_le_trans; [exact S2|]. apply Z.mul_le_mono_nonneg_l; [lia|]. apply Z.pow_le_mono_r; lia. }
  assert (Lo : 0 <= m0).
  { apply div_even_ge; [exact HD|]. rewrite Z.mul_0_r. apply Z.mul_nonneg_nonneg; [lia|]. pose proof (pow2_pos (Z.max 0 (- e0))). lia. }
  assert (G : 2 ^ 52 <= m0 \/ e0 = -1074).
  { destruct (Z.eq_dec e0 (-1074)) as [|NE]; [now right|]. left. assert (e0 = e1) by lia.
    apply div_even_ge; [exact HD|]. apply (Z.mul_le_mono_pos_r _ _ (2 ^ d)); [exact PD|].
    rewrite <- (Z.mul_assoc num), <- pow_split by lia. fold K.
    replace (den * 2 ^ Z.max 0 e0 * 2 ^ 52 * 2 ^ d) with (den * (2 ^ (Z.max 0 e0 + d + 52))).
    2: { rewrite !pow_split by lia. ring. }
    replace (Z.max 0 e0 + d + 52) with (K + e1 + 52) by lia. exact S1. }
  assert (HE : -1074 <= e0) by lia. clearbody m0. clear S1 S2 K d KE PD EL.
  assert (FIN : forall m1 e1, -1074 <= e1 -> 0 <= m1 < 2 ^ 53 -> 2 ^ 52 <= m1 \/ e1 = -1074 ->
    (if 2 ^ 1024 <=? m1 * 2 ^ Z.max 0 e1 then None
     else if (e1 <? 0) && (m1 mod 2 ^ (- e1) =? 0) then Some (m1 / 2 ^ (- e1), 0) else Some (m1, e1)) = Some (m, e) -> canon m e).
  { intros m1 e2 A B C. destruct (2 ^ 1024 <=? m1 * 2 ^ Z.max 0 e2) eqn:C1; [discriminate|].
    destruct ((e2 <? 0) && (m1 mod 2 ^ (- e2) =? 0)) eqn:C2.
    - intros [= <- <-]. left. split; [reflexivity|]. assert (0 < 2 ^ (- e2)) by (apply pow2_pos; lia).
      split; [apply Z.div_pos; lia|]. apply Z.div_lt_upper_bound; [lia|]. nia.
    - intros [= <- <-]. destruct (Z.lt_trichotomy e2 0) as [H|[->|H]].
      + right. right. split; [lia|]. split; [lia|]. split; [lia|]. split; [tauto|].
        intros N. rewrite N in C2. lia.
      + left. lia.
      + right. left. split; [lia|]. split; [lia|]. rewrite Z.max_r in C1 by lia. lia. }
  destruct (m0 =? 2 ^ 53) eqn:C53; cbv beta iota zeta; intros H; eapply FIN; [| | |exact H| | | |exact H]; try lia.
Qed.
Lemma round_exact num den m e : 0 < num -> 0 < den -> canon m e -> e <> 0 -> 0 < m ->
  num * 2 ^ Z.max 0 (- e) = m * (den * 2 ^ Z.max 0 e) -> round64 num den = Some (m, e).
Proof.
  intros Hn Hd HC He Hm EQ. unfold round64. replace (num =? 0) with false by lia.
  assert (HE : last_place num den = e).
  { destruct (last_place_spec num den Hn Hd) as (e1 & -> & SP).
    set (d := Z.abs e1 + 100). set (K := Z.max 0 (- e) + d).
    specialize (SP K ltac:(lia) ltac:(lia)) as [S1 S2].
    assert (EK : num * 2 ^ K = den * (m * 2 ^ (K + e))).
    { replace (K + e) with (Z.max 0 e + d) by lia. unfold K. rewrite !pow_split by lia. rewrite Z.mul_assoc, EQ. ring. }
    rewrite EK in S1, S2. apply Z.mul_le_mono_pos_l in S1; [|exact Hd]. apply Z.mul_lt_mono_pos_l in S2; [|exact Hd].
    assert (KE : 0 <= K + e) by lia. pose proof (pow2_pos (K + e) KE) as PK.
    assert (m < 2 ^ 53) as M1 by (destruct HC as [H|[H|H]]; lia).
    assert (T1 : m * 2 ^ (K + e) < 2 ^ (K + e + 53)).
    { rewrite (pow_split (K + e) 53) by lia. rewrite (Z.mul_comm (2 ^ (K + e))). apply Z.mul_lt_mono_pos_r; lia. }
    assert (T2 : e1 <= e).
    { assert (2 ^ (K + e1 + 52) < 2 ^ (K + e + 53)) as T by lia. apply Z.pow_lt_mono_r_iff in T; lia. }
    assert (T3 : 2 ^ 52 <= m -> e <= e1).
    { intros M. assert (2 ^ (K + e + 52) <= m * 2 ^ (K + e)).
      { rewrite (pow_split (K + e) 52) by lia. rewrite (Z.mul_comm (2 ^ (K + e))). apply Z.mul_le_mono_nonneg_r; lia. }
      assert (2 ^ (K + e + 52) < 2 ^ (K + e1 + 53)) as T by lia. apply Z.pow_lt_mono_r_iff in T; lia. }
    destruct HC as [H|[H|H]]; lia. }
  rewrite HE. assert (HD : 0 < den * 2 ^ Z.max 0 e) by (pose proof (pow2_pos (Z.max 0 e)); lia).
  rewrite EQ, div_even_exact by exact HD.
  assert (m < 2 ^ 53) as M1 by (destruct HC as [H|[H|H]]; lia).
  replace (m =? 2 ^ 53) with false by lia. cbv beta iota zeta.
  assert (O : m * 2 ^ Z.max 0 e < 2 ^ 1024).
  { destruct HC as [H|[H|H]]; [lia|rewrite Z.max_r by lia; apply H|].
    rewrite Z.max_l by lia. assert (2 ^ 53 < 2 ^ 1024) by (apply Z.pow_lt_mono_r; lia). lia. }
  replace (2 ^ 1024 <=? m * 2 ^ Z.max 0 e) with false by lia.
  destruct ((e <? 0) && (m mod 2 ^ (- e) =? 0)) eqn:C; [|reflexivity].
  destruct HC as [H|[H|H]]; [lia|lia|]. destruct H as (_ & _ & _ & _ & H). lia.
Qed.
Lemma canon_float lit m e : lit_float lit = Some (m, e) -> canon (Z.abs m) e.
Proof.
  unfold lit_float. destruct (num_parts lit) as [[neg d] x].
  destruct (round64 _ _) as [[m0 e0]|] eqn:E; [|discriminate]. intros [= <- <-].
  assert (C : canon m0 e0).
  { apply round_canon in E; [exact E| |apply Z.pow_pos_nonneg; lia].
    apply Z.mul_nonneg_nonneg; [lia|]. apply Z.pow_nonneg. lia. }
  assert (0 <= m0) by (destruct C as [C|[C|C]]; lia).
  replace (Z.abs (if neg then - m0 else m0)) with m0 by (destruct neg; lia). exact C.
Qed.
Lemma lit_sign neg t n x m e : (forall c r, t = c :: r -> c <> 45%N) -> num_parts t = (false, n, x) -> lit_float t = Some (m, e) ->
  num_parts (45%N :: t) = (true, n, x) -> lit_float ((if neg : bool then [45%N] else []) ++ t) = Some (if neg then - m else m, e).
Proof.
  intros Hh H1 H2 H3. destruct neg; [|exact H2]. cbn [app]. unfold lit_float in *. rewrite H1 in H2. rewrite H3.
  destruct (round64 _ _) as [[m0 e0]|]; [|discriminate]. injection H2 as -> ->. reflexivity.
Qed.
(** The number written out: an integer, or an integer and a power of ten. *)
Definition exact_mag (m e : Z) : bytes :=
  if 0 <=? e then dec (Z.to_N (m * 2 ^ e)) else dec (Z.to_N (m * 5 ^ (- e))) ++ [101%N; 45%N] ++ dec (Z.to_N (- e)).
Definition exact_fmt (m e : Z) : bytes := (if m <? 0 then [45%N] else []) ++ exact_mag (Z.abs m) e.
Lemma parts_exp n k : forall neg : bool, num_parts ((if neg then [45%N] else []) ++ dec n ++ [101%N; 45%N] ++ dec k) = (neg, n, - Z.of_N k).
Proof.
  intros neg. assert (SP : span_digits (dec n ++ [101%N; 45%N] ++ dec k) = (dec n, [101%N; 45%N] ++ dec k)).
  { apply span_dig; [apply dec_dig|]. reflexivity. }
  assert (TAIL : forall sg, (let '(i, r) := span_digits (dec n ++ [101%N; 45%N] ++ dec k) in
    let '(f, r) := match r with
                 | c :: r' => if (c =? 46)%N then span_digits r' else ([], r)
                 | [] => ([], r)
                 end in
    let x := match r with
           | _ :: c :: r' =>
               if (c =? 45)%N then (- Z.of_N (dval (fst (span_digits r'))))%Z
               else Z.of_N (dval (fst (span_digits (if (c =? 43)%N then r' else c :: r'))))
           | _ => 0%Z
           end in
    (sg, dval (i ++ f), (x - Z.of_nat (length f))%Z)) = (sg : bool, n, - Z.of_N k)).
  { intros sg. rewrite SP. cbn [app]. change (101 =? 46)%N with false. cbn iota beta. change (45 =? 45)%N with true. cbn iota.
    rewrite span_dec. cbn [fst length]. rewrite dval_dec, app_nil_r, dval_dec. f_equal. lia. }
  destruct neg; [exact (TAIL true)|]. rewrite <- (TAIL false). destruct (dec_head n) as (c & r & E & Hc). unfold num_parts.
  cbn [app]. rewrite E. cbn [app]. replace (c =? 45)%N with false by lia. reflexivity.
Qed.
Lemma parts_int n : forall neg : bool, num_parts ((if neg then [45%N] else []) ++ dec n) = (neg, n, 0).
Proof. intros [|]; [apply parts_neg|apply parts_dec]. Qed.
Lemma exact_value m e (neg : bool) : canon m e ->
  lit_float ((if neg then [45%N] else []) ++ exact_mag m e) = Some (if neg then - m else m, e).
Proof.
  intros HC. assert (M0 : 0 <= m) by (destruct HC as [H|[H|H]]; lia).
  unfold exact_mag. destruct (0 <=? e) eqn:C.
  - unfold lit_float. rewrite parts_int. change (Z.max 0 (- 0)) with 0. change (Z.max 0 0) with 0. change (10 ^ 0) with 1.
    assert (P2 : 0 < 2 ^ e) by (apply pow2_pos; lia). rewrite Z2N.id by nia. rewrite Z.mul_1_r.
    destruct (Z.eq_dec m 0) as [->|M1].
    { assert (e = 0) as -> by (destruct HC as [H|[H|H]]; lia). cbn. destruct neg; reflexivity. }
    destruct (Z.eq_dec e 0) as [->|E1].
    { change (2 ^ 0) with 1. rewrite Z.mul_1_r. rewrite round_int; [reflexivity|]. destruct HC as [H|[H|H]]; lia. }
    rewrite (round_exact (m * 2 ^ e) 1 m e); [reflexivity|nia|lia|exact HC|exact E1|lia|].
    rewrite Z.max_l, Z.max_r by lia. change (2 ^ 0) with 1. ring.
  - unfold lit_float. rewrite parts_exp. rewrite Z2N.id by lia. set (k := - e).
    assert (P5 : 0 < 5 ^ k) by (apply Z.pow_pos_nonneg; lia). rewrite Z2N.id by nia.
    replace (Z.max 0 (- k)) with 0 by lia. replace (Z.max 0 (- - k)) with k by lia. change (10 ^ 0) with 1. rewrite Z.mul_1_r.
    assert (M1 : m <> 0). { intros ->. destruct HC as [H|[H|H]]; [lia|lia|]. destruct H as (_ & _ & _ & _ & H). rewrite Z.mod_0_l in H; [lia|]. pose proof (pow2_pos (- e)). lia. }
    rewrite (round_exact (m * 5 ^ k) (10 ^ k) m e); [reflexivity|nia|apply Z.pow_pos_nonneg; lia|exact HC|lia|lia|].
    rewrite (Z.max_l 0 e), (Z.max_r 0 (- e)) by lia. fold k. change (2 ^ 0) with 1. rewrite Z.mul_1_r.
    rewrite <- Z.mul_assoc, <- Z.pow_mul_l. reflexivity.
Qed.
Lemma exact_number m e : jnumber (exact_fmt m e).
Proof.
  unfold exact_fmt, exact_mag. destruct (0 <=? e).
  - exists (if m <? 0 then [45%N] else []), (dec (Z.to_N (Z.abs m * 2 ^ e))), [], []. rewrite !app_nil_r. split; [reflexivity|].
    split; [destruct (m <? 0); auto|]. split; [apply dec_int|]. split; now left.
  - exists (if m <? 0 then [45%N] else []), (dec (Z.to_N (Z.abs m * 5 ^ (- e)))), [], ([101%N; 45%N] ++ dec (Z.to_N (- e))).
    split; [reflexivity|]. split; [destruct (m <? 0); auto|]. split; [apply dec_int|]. split; [now left|]. right.
    exists 101%N, [45%N], (dec (Z.to_N (- e))). split; [reflexivity|]. split; [now left|]. split; [auto|].
    split; [destruct (dec_head (Z.to_N (- e))) as (c & r & -> & _); discriminate|]. eapply Forall_impl; [|apply dec_dig]. intros c H. exact H.
Qed.
Theorem exact_is_fmt : float_fmt exact_fmt.
Proof.
  intros lit m e H. split; [apply exact_number|]. apply canon_float in H. unfold exact_fmt. rewrite exact_value by exact H.
  f_equal. f_equal. destruct (m <? 0) eqn:C; lia.
Qed.
