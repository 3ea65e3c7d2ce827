From Coq Require Import ZifyBool ZifyNat ZifyN.
From Verif Require Import Lib.Digits Model.JsonFile Spec.Rfc8259 Proofs.FormatP Proofs.AuthP.
Ltac Zify.zify_post_hook ::= Z.div_mod_to_equations.
Local Open Scope string_scope.
Local Open Scope list_scope.
Local Open Scope N_scope.

(** ** Numbers *)

Definition dig9 (c : N) : Prop := 48 <= c <= 57.
Lemma dec_dig n : Forall dig9 (dec n).
Proof.
  unfold dec. apply Forall_map. eapply Forall_impl; [|apply digits_lt; lia].
  cbn beta. intros d Hd. unfold dig9, decc. lia.
Qed.
Lemma dec_int n : jint (dec n).
Proof.
  destruct (N.eq_dec n 0) as [->|H]; [left; reflexivity|]. right. pose proof (dec_dig n) as D.
  unfold dec in *. destruct (digits 10 n) as [|d l] eqn:E; [now apply digits_nonempty in E|].
  pose proof (digits_head 10 n d l ltac:(lia) ltac:(lia) E) as Hd. cbn [map] in D |- *. inversion_clear D as [|? ? D1 D2].
  eexists _, _. split; [reflexivity|]. split; [unfold dig9, decc in *; lia|exact D2].
Qed.
Lemma dec_number n : jnumber (dec n).
Proof.
  exists [], (dec n), [], []. rewrite !app_nil_r. split; [reflexivity|]. split; [now left|]. split; [apply dec_int|].
  split; now left.
Qed.
Lemma zdec_number z : jnumber (zdec z).
Proof.
  unfold zdec. destruct (z <? 0)%Z; [|apply dec_number].
  exists [45], (dec (Z.to_N (- z))), [], []. rewrite !app_nil_r. split; [reflexivity|]. split; [now right|]. split; [apply dec_int|].
  split; now left.
Qed.
Lemma span_dig d r : Forall dig9 d -> match r with c :: _ => is_digit c = false | [] => True end ->
  span_digits (d ++ r) = (d, r).
Proof.
  induction 1 as [|c d Hc Hd IH]; intros Hr.
  - destruct r as [|c r]; [reflexivity|]. cbn [app span_digits]. rewrite Hr. reflexivity.
  - cbn [app span_digits]. replace (is_digit c) with true by (unfold is_digit, dig9 in *; lia). rewrite (IH Hr). reflexivity.
Qed.
Lemma span_dec n : span_digits (dec n) = (dec n, []).
Proof. rewrite <- (app_nil_r (dec n)) at 1. apply span_dig; [apply dec_dig|exact I]. Qed.
Lemma dval_dec n : dval (dec n) = n.
Proof.
  unfold dval, dec. rewrite map_map. rewrite map_ext with (g := fun d => d) by (intros; unfold decc; lia).
  rewrite map_id. apply digits_value. lia.
Qed.
Lemma uint_dec n : n < 2 ^ 64 -> lit_uint (dec n) = Some n.
Proof. intros H. unfold lit_uint. rewrite span_dec, dval_dec. replace (n <? 2 ^ 64) with true by lia. reflexivity. Qed.
Lemma dec_head n : exists c r, dec n = c :: r /\ c <> 45.
Proof.
  destruct (dec_cons n) as (c & r & E). exists c, r. split; [exact E|]. pose proof (dec_dig n) as D. rewrite E in D.
  inversion_clear D as [|? ? D1 _]. unfold dig9 in D1. lia.
Qed.
Lemma int_zdec z : (- 2 ^ 63 <= z < 2 ^ 63)%Z -> lit_int (zdec z) = Some z.
Proof.
  intros H. unfold zdec. destruct (z <? 0)%Z eqn:C.
  - cbn [lit_int]. change (45 =? 45) with true. cbn iota. rewrite span_dec, dval_dec.
    replace (Z.to_N (- z) <=? 2 ^ 63) with true by lia. f_equal. lia.
  - destruct (dec_head (Z.to_N z)) as (c & r & E & Hc). unfold lit_int. rewrite E. replace (c =? 45) with false by lia.
    rewrite <- E, span_dec, dval_dec. replace (Z.to_N z <? 2 ^ 63) with true by lia. f_equal. lia.
Qed.
Lemma parts_dec n : num_parts (dec n) = (false, n, 0%Z).
Proof.
  destruct (dec_head n) as (c & r & E & Hc). unfold num_parts.
  assert (HN : match dec n with c :: _ => c =? 45 | [] => false end = false) by (rewrite E; lia).
  rewrite HN, span_dec, app_nil_r, dval_dec. reflexivity.
Qed.
Lemma parts_neg n : num_parts (45 :: dec n) = (true, n, 0%Z).
Proof.
  unfold num_parts. change (45 =? 45) with true. cbn [tl]. rewrite span_dec, app_nil_r, dval_dec. reflexivity.
Qed.
Lemma div_even_exact a b : (0 < b)%Z -> div_even (a * b) b = a.
Proof.
  intros H. unfold div_even. rewrite Z.div_mul, Z.mod_mul by lia. replace (2 * 0 <? b)%Z with true by lia. reflexivity.
Qed.
Lemma div_even_1 a : div_even a 1 = a.
Proof. rewrite <- (div_even_exact a 1) at 2 by lia. rewrite Z.mul_1_r. reflexivity. Qed.
Lemma pow2_pos k : (0 <= k)%Z -> (0 < 2 ^ k)%Z.
Proof. intros. apply Z.pow_pos_nonneg; lia. Qed.
Lemma round_int n : (0 < n < 2 ^ 53)%Z -> round64 n 1 = Some (n, 0%Z).
Proof.
  intros H. unfold round64. replace (n =? 0)%Z with false by lia.
  set (L := Z.log2 n). assert (HL : (2 ^ L <= n < 2 ^ (L + 1))%Z) by (unfold L; rewrite Z.add_1_r; apply Z.log2_spec; lia).
  assert (L0 : (0 <= L)%Z) by apply Z.log2_nonneg.
  assert (L1 : (L < 53)%Z) by (apply Z.log2_lt_pow2; lia).
  assert (E : last_place n 1 = (L - 52)%Z).
  { unfold last_place. change (Z.log2 1) with 0%Z. fold L.
    replace (Z.max 0 (- (L - 0 - 52) - 52)) with 0%Z by lia. replace (Z.max 0 (L - 0 - 52 + 52)) with L by lia.
    replace (n * 2 ^ 0 <? 1 * 2 ^ L)%Z with false by (change (2 ^ 0)%Z with 1%Z; lia). lia. }
  rewrite E. replace (Z.max 0 (L - 52)) with 0%Z by lia. replace (Z.max 0 (- (L - 52))) with (52 - L)%Z by lia.
  change (1 * 2 ^ 0)%Z with 1%Z. rewrite div_even_1.
  assert (HM : (n * 2 ^ (52 - L) < 2 ^ 53)%Z).
  { replace 53%Z with ((L + 1) + (52 - L))%Z by lia. rewrite Z.pow_add_r by lia. apply Z.mul_lt_mono_pos_r; [apply pow2_pos; lia|lia]. }
  replace (n * 2 ^ (52 - L) =? 2 ^ 53)%Z with false by lia. cbv beta iota zeta. replace (Z.max 0 (L - 52)) with 0%Z by lia.
  change (2 ^ 0)%Z with 1%Z. rewrite Z.mul_1_r.
  assert (2 ^ 53 < 2 ^ 1024)%Z by (apply Z.pow_lt_mono_r; lia).
  replace (2 ^ 1024 <=? n * 2 ^ (52 - L))%Z with false by lia.
  destruct (L - 52 <? 0)%Z eqn:C.
  - replace (- (L - 52))%Z with (52 - L)%Z by lia. pose proof (pow2_pos (52 - L) ltac:(lia)) as HP.
    rewrite (Z.mod_mul n (2 ^ (52 - L))), (Z.div_mul n (2 ^ (52 - L))) by lia. reflexivity.
  - assert (L = 52%Z) as -> by lia. cbn [andb]. change (2 ^ (52 - 52))%Z with 1%Z. f_equal. f_equal. lia.
Qed.
Lemma float_dec n : n < 2 ^ 53 -> lit_float (dec n) = Some (Z.of_N n, 0%Z).
Proof.
  intros H. unfold lit_float. rewrite parts_dec. change (Z.max 0 (- 0)) with 0%Z. change (Z.max 0 0) with 0%Z.
  change (10 ^ 0)%Z with 1%Z. rewrite Z.mul_1_r. destruct (N.eq_dec n 0) as [->|Hn]; [reflexivity|].
  rewrite round_int by lia. reflexivity.
Qed.
Lemma float_zdec z : (- 2 ^ 53 < z < 2 ^ 53)%Z -> lit_float (zdec z) = Some (z, 0%Z).
Proof.
  intros H. unfold zdec. destruct (z <? 0)%Z eqn:C.
  - unfold lit_float. rewrite parts_neg. change (Z.max 0 (- 0)) with 0%Z. change (Z.max 0 0) with 0%Z.
    change (10 ^ 0)%Z with 1%Z. rewrite Z.mul_1_r. rewrite round_int by lia. f_equal. f_equal. lia.
  - rewrite float_dec by lia. f_equal. f_equal. lia.
Qed.

(** ** Base64 *)

Lemma b64val_char n : n < 64 -> b64val (b64char n) = Some n.
Proof.
  intros H. unfold b64char.
  destruct (n <? 26) eqn:C1. { unfold b64val. replace ((65 <=? 65 + n) && (65 + n <=? 90)) with true by lia. f_equal. lia. }
  destruct (n <? 52) eqn:C2. { unfold b64val. replace ((65 <=? 71 + n) && (71 + n <=? 90)) with false by lia.
    replace ((97 <=? 71 + n) && (71 + n <=? 122)) with true by lia. f_equal. lia. }
  destruct (n <? 62) eqn:C3. { unfold b64val. replace ((65 <=? n - 4) && (n - 4 <=? 90)) with false by lia.
    replace ((97 <=? n - 4) && (n - 4 <=? 122)) with false by lia. replace ((48 <=? n - 4) && (n - 4 <=? 57)) with true by lia. f_equal. lia. }
  assert (n = 62 \/ n = 63) as [-> | ->] by lia; reflexivity.
Qed.
Definition b64c (c : N) : Prop := c <> 61 /\ c <> 10 /\ c <> 13 /\ c < 128 /\ 32 <= c /\ c <> 34 /\ c <> 92.
Lemma b64char_ok n : b64c (b64char n).
Proof.
  unfold b64c, b64char. destruct (n <? 26) eqn:C1; [lia|]. destruct (n <? 52) eqn:C2; [lia|]. destruct (n <? 62) eqn:C3; [lia|].
  destruct (n =? 62); lia.
Qed.
Lemma b64groups4 a b c d r : a < 64 -> b < 64 -> c < 64 -> d < 64 ->
  b64groups (b64char a :: b64char b :: b64char c :: b64char d :: r) =
  match b64groups r with
  | Some q => Some (a * 4 + b / 16 :: b mod 16 * 16 + c / 4 :: c mod 4 * 64 + d :: q)
  | None => None
  end.
Proof.
  intros. cbn [b64groups]. rewrite !b64val_char by assumption.
  pose proof (b64char_ok c). pose proof (b64char_ok d). unfold b64c in *.
  replace (b64char c =? 61) with false by lia. replace (b64char d =? 61) with false by lia. reflexivity.
Qed.
Lemma three_ind (P : bytes -> Prop) : P [] -> (forall a, P [a]) -> (forall a b, P [a; b]) ->
  (forall a b c r, P r -> P (a :: b :: c :: r)) -> forall l, P l.
Proof.
  intros H0 H1 H2 H3 l. remember (length l) as n eqn:En. revert l En. induction n as [n IH] using lt_wf_ind. intros l ->.
  destruct l as [|a [|b [|c r]]]; auto. apply H3. eapply IH; [|reflexivity]. cbn. lia.
Qed.
Lemma b64std_cons a b c r : b64std (a :: b :: c :: r) =
  b64char (a / 4) :: b64char (a mod 4 * 16 + b / 16) :: b64char (b mod 16 * 4 + c / 64) :: b64char (c mod 64) :: b64std r.
Proof.
  unfold b64std. cbn [b64raw app length]. replace (S (S (S (length r)))) with (length r + 1 * 3)%nat by lia.
  rewrite Nat.mod_add by lia. reflexivity.
Qed.
Lemma b64std_chars l : Forall (fun c => c <> 10 /\ c <> 13 /\ c < 128 /\ 32 <= c /\ c <> 34 /\ c <> 92) (b64std l).
Proof.
  induction l as [|a|a b|a b c r IH] using three_ind.
  - constructor.
  - cbn. repeat (constructor; [try (pose proof (b64char_ok (a / 4)); pose proof (b64char_ok (a mod 4 * 16)); unfold b64c in *; tauto); lia|]). constructor.
  - change (b64std [a; b]) with [b64char (a / 4); b64char (a mod 4 * 16 + b / 16); b64char (b mod 16 * 4); 61].
    repeat (constructor; [try (pose proof (b64char_ok (a / 4)); pose proof (b64char_ok (a mod 4 * 16 + b / 16)); pose proof (b64char_ok (b mod 16 * 4)); unfold b64c in *; tauto); lia|]). constructor.
  - rewrite b64std_cons. pose proof (b64char_ok (a / 4)). pose proof (b64char_ok (a mod 4 * 16 + b / 16)).
    pose proof (b64char_ok (b mod 16 * 4 + c / 64)). pose proof (b64char_ok (c mod 64)). unfold b64c in *.
    do 4 (constructor; [tauto|]). exact IH.
Qed.
Lemma b64_filter l : Forall (fun c => c <> 10 /\ c <> 13) l -> filter (fun c => negb ((c =? 10) || (c =? 13))) l = l.
Proof.
  induction 1 as [|c l [H1 H2] Hl IH]; [reflexivity|]. cbn [filter]. replace (negb ((c =? 10) || (c =? 13))) with true by lia. rewrite IH. reflexivity.
Qed.
Theorem b64_back l : bytes_ok l -> b64dec (b64std l) = Some l.
Proof.
  intros HL. unfold b64dec. rewrite b64_filter by (eapply Forall_impl; [|apply b64std_chars]; cbn; intuition).
  induction l as [|a|a b|a b c r IH] using three_ind.
  - reflexivity.
  - assert (Ha : a < 256) by now inversion HL. change (b64std [a]) with [b64char (a / 4); b64char (a mod 4 * 16); 61; 61].
    cbn [b64groups]. rewrite !b64val_char by lia. cbn. f_equal. f_equal. lia.
  - assert (Ha : a < 256) by now inversion HL. assert (Hb : b < 256) by (inversion HL as [|? ? ? H1]; now inversion H1).
    change (b64std [a; b]) with [b64char (a / 4); b64char (a mod 4 * 16 + b / 16); b64char (b mod 16 * 4); 61].
    cbn [b64groups]. rewrite !b64val_char by lia. pose proof (b64char_ok (b mod 16 * 4)) as K. unfold b64c in K.
    replace (b64char (b mod 16 * 4) =? 61) with false by lia. cbn. f_equal. f_equal; [lia|]. f_equal. lia.
  - inversion_clear HL as [|? ? Ha HL1]. inversion_clear HL1 as [|? ? Hb HL2]. inversion_clear HL2 as [|? ? Hc HL3].
    unfold u8 in *. rewrite b64std_cons, b64groups4 by lia. rewrite (IH HL3). f_equal. f_equal; [lia|]. f_equal; [lia|]. f_equal. lia.
Qed.
Lemma b64val_lt c n : b64val c = Some n -> n < 64.
Proof.
  unfold b64val. destruct ((65 <=? c) && (c <=? 90)) eqn:C1; [intros [= <-]; lia|].
  destruct ((97 <=? c) && (c <=? 122)) eqn:C2; [intros [= <-]; lia|]. destruct ((48 <=? c) && (c <=? 57)) eqn:C3; [intros [= <-]; lia|].
  destruct (c =? 43); [intros [= <-]; lia|]. destruct (c =? 47); [intros [= <-]; lia|discriminate].
Qed.
Lemma b64groups_ok s : forall q, b64groups s = Some q -> bytes_ok q.
Proof.
  remember (length s) as n eqn:En. revert s En. induction n as [n IH] using lt_wf_ind. intros s -> q.
  destruct s as [|a [|b [|c [|d r]]]]; cbn [b64groups]; try discriminate.
  { intros [= <-]. constructor. }
  destruct (b64val a) as [x|] eqn:Ea; [|discriminate]. destruct (b64val b) as [y|] eqn:Eb; [|discriminate].
  apply b64val_lt in Ea, Eb. destruct ((c =? 61) && (d =? 61)).
  { destruct r; [|discriminate]. intros [= <-]. constructor; [unfold u8; lia|constructor]. }
  destruct (b64val c) as [z|] eqn:Ec; [|discriminate]. apply b64val_lt in Ec. destruct (d =? 61).
  { destruct r; [|discriminate]. intros [= <-]. constructor; [unfold u8; lia|]. constructor; [unfold u8; lia|constructor]. }
  destruct (b64val d) as [w|] eqn:Ed; [|discriminate]. apply b64val_lt in Ed.
  destruct (b64groups r) as [q'|] eqn:Er; [|discriminate]. intros [= <-].
  constructor; [unfold u8; lia|]. constructor; [unfold u8; lia|]. constructor; [unfold u8; lia|].
  eapply IH; [|reflexivity|exact Er]. cbn. lia.
Qed.
