(** What time.Parse makes of RFC 3339. *)
From Coq Require Import ZifyBool ZifyNat ZifyN.
From Verif Require Import Model.GoTime Spec.Calendar Proofs.CalendarP.
Local Open Scope list_scope.
Local Open Scope Z_scope.

Lemma digit_iff c : is_digit c = true <-> digit_char c.
Proof. unfold is_digit, digit_char. lia. Qed.
Lemma dig_val c : digit_char c -> dig c = Z.of_N c - 48.
Proof. unfold dig, digit_char. lia. Qed.
Lemma digs_from t : Forall digit_char t -> forall acc, fold_left (fun x c => x * 10 + dig c) t acc = value t acc.
Proof.
  induction 1 as [|c t H HF IH]; intros acc; cbn; [reflexivity|]. rewrite IH, (dig_val c H). reflexivity.
Qed.
Lemma digs_value t : Forall digit_char t -> digs t = value t 0.
Proof. intros H. now apply digs_from. Qed.
Lemma all_digits t : forallb is_digit t = true <-> Forall digit_char t.
Proof.
  rewrite forallb_forall, Forall_forall. split; intros H x HX; apply digit_iff; auto.
Qed.
Lemma value_app a : forall b acc, value (a ++ b) acc = value b (value a acc).
Proof. induction a as [|c a IH]; intros b acc; cbn; auto. Qed.
Lemma value_acc t : forall acc, value t acc = acc * 10 ^ Z.of_nat (length t) + value t 0.
Proof.
  induction t as [|c t IH]; intros acc; [cbn; lia|]. cbn [value length]. rewrite IH, (IH (0 * 10 + _)), Nat2Z.inj_succ, Z.pow_succ_r by lia. lia.
Qed.
Lemma value_range t : Forall digit_char t -> 0 <= value t 0 < 10 ^ Z.of_nat (length t).
Proof.
  induction 1 as [|c t H HF IH]; [cbn; lia|]. cbn [value length]. rewrite value_acc, Nat2Z.inj_succ, Z.pow_succ_r by lia. unfold digit_char in H. nia.
Qed.

(** *** The pieces *)
Lemma one n t : number 1 n t -> exists a, t = [a] /\ digit_char a /\ n = dig a.
Proof.
  intros (HL & HF & HV). destruct t as [|a [|b t]]; try discriminate HL. inversion_clear HF as [|? ? HA _]. exists a. rewrite (dig_val a HA). cbn in HV. auto.
Qed.
Lemma two n t : number 2 n t -> exists a b, t = [a; b] /\ digit_char a /\ digit_char b /\ n = dig a * 10 + dig b.
Proof.
  intros (HL & HF & HV). destruct t as [|a [|b [|c t]]]; try discriminate HL. inversion_clear HF as [|? ? HA HF1]. inversion_clear HF1 as [|? ? HB _].
  exists a, b. rewrite (dig_val a HA), (dig_val b HB). cbn in HV. split; [reflexivity|]. split; [exact HA|]. split; [exact HB|]. lia.
Qed.
Lemma is_one a : digit_char a -> number 1 (dig a) [a].
Proof. intros H. split; [reflexivity|]. split; [auto|]. rewrite (dig_val a H). cbn. lia. Qed.
Lemma is_two a b : digit_char a -> digit_char b -> number 2 (dig a * 10 + dig b) [a; b].
Proof. intros H H'. split; [reflexivity|]. split; [auto|]. rewrite (dig_val a H), (dig_val b H'). cbn. lia. Qed.
Definition no_digit (r : bytes) : Prop := match r with c :: _ => is_digit c = false | [] => True end.
Lemma getnum_two n t r fixed : number 2 n t -> getnum (t ++ r) fixed = Some (n, r).
Proof.
  intros H. apply two in H as (a & b & -> & HA & HB & ->). cbn. apply digit_iff in HA, HB. now rewrite HA, HB.
Qed.
Lemma getnum_one n t r : number 1 n t -> no_digit r -> getnum (t ++ r) false = Some (n, r).
Proof.
  intros H HR. apply one in H as (a & -> & HA & ->). cbn. apply digit_iff in HA. rewrite HA. destruct r as [|c r]; [reflexivity|]. cbn in HR. now rewrite HR.
Qed.
Lemma getnum_inv v fixed n r : getnum v fixed = Some (n, r) ->
  exists w t, v = t ++ r /\ number w n t /\ (w = 2%nat \/ (w = 1%nat /\ fixed = false)).
Proof.
  unfold getnum. destruct v as [|a v]; [discriminate|]. destruct (is_digit a) eqn:HA; [|discriminate]. apply digit_iff in HA.
  destruct v as [|b v].
  - destruct fixed; [discriminate|]. intros [= <- <-]. exists 1%nat, [a]. split; [reflexivity|]. split; [now apply is_one|auto].
  - destruct (is_digit b) eqn:HB.
    + apply digit_iff in HB. intros [= <- <-]. exists 2%nat, [a; b]. split; [reflexivity|]. split; [now apply is_two|auto].
    + destruct fixed; [discriminate|]. intros [= <- <-]. exists 1%nat, [a]. split; [reflexivity|]. split; [now apply is_one|auto].
Qed.
Lemma getnum_fixed v n r : getnum v true = Some (n, r) -> exists t, v = t ++ r /\ number 2 n t.
Proof. intros H. apply getnum_inv in H as (w & t & E & HN & [->|[_ H]]); [eauto|discriminate]. Qed.
Lemma year_go n t p r : number 4 n t ->
  chunk_step KYear p (t ++ r) = Some (mkP n (p_month p) (p_day p) (p_hour p) (p_min p) (p_sec p) (p_ns p) (p_off p), r).
Proof.
  intros (HL & HF & HV). cbn [chunk_step]. rewrite app_length, HL. assert (E : firstn 4 (t ++ r) = t) by (rewrite <- HL, firstn_app, Nat.sub_diag, firstn_all, app_nil_r; reflexivity).
  assert (E' : skipn 4 (t ++ r) = r) by (rewrite <- HL, skipn_app, Nat.sub_diag, skipn_all; reflexivity).
  rewrite E, E', (digs_value t HF), HV, (proj2 (all_digits t) HF). replace (4 <=? 4 + length r)%nat with true by lia. reflexivity.
Qed.
Lemma year_inv p v p' r : chunk_step KYear p v = Some (p', r) ->
  exists n t, v = t ++ r /\ number 4 n t /\ p' = mkP n (p_month p) (p_day p) (p_hour p) (p_min p) (p_sec p) (p_ns p) (p_off p).
Proof.
  cbn [chunk_step]. destruct (4 <=? length v)%nat eqn:HL; [|discriminate]. destruct (forallb is_digit (firstn 4 v)) eqn:HD; [|discriminate].
  intros [= <- <-]. apply all_digits in HD. exists (digs (firstn 4 v)), (firstn 4 v). split; [symmetry; apply firstn_skipn|].
  split; [|reflexivity]. split; [rewrite firstn_length; lia|]. split; [exact HD|]. symmetry. now apply digs_value.
Qed.
Lemma lit_go c p r : c <> 32%N -> chunk_step (Lit [c]) p (c :: r) = Some (p, r).
Proof. intros H. cbn. apply N.eqb_neq in H. now rewrite H, N.eqb_refl. Qed.
Lemma lit_inv c p v p' r : c <> 32%N -> chunk_step (Lit [c]) p v = Some (p', r) -> v = c :: r /\ p' = p.
Proof.
  intros H. cbn. apply N.eqb_neq in H. rewrite H. destruct v as [|x v]; [discriminate|]. destruct (x =? c)%N eqn:E; [|discriminate].
  apply N.eqb_eq in E. intros [= <- <-]. subst x. auto.
Qed.
Lemma run_go f r : Forall digit_char f -> no_digit r -> run_digits (f ++ r) = length f.
Proof.
  intros HF HR. induction HF as [|c f H HF IH]; cbn.
  - destruct r as [|c r]; [reflexivity|]. cbn in *. now rewrite HR.
  - apply digit_iff in H. rewrite H, IH. reflexivity.
Qed.
Lemma run_inv r : Forall digit_char (firstn (run_digits r) r) /\ no_digit (skipn (run_digits r) r).
Proof.
  induction r as [|c r IH]; cbn; [split; [constructor|exact I]|]. destruct (is_digit c) eqn:E; cbn.
  - apply digit_iff in E. destruct IH as [A B]. split; [now constructor|exact B].
  - split; [constructor|exact E].
Qed.
Lemma nanos_value f : Forall digit_char f -> nanos f = value f 0 * 1000000000 / 10 ^ Z.of_nat (length f).
Proof.
  intros HF. unfold nanos. cbv zeta.
  assert (HF1 : Forall digit_char (firstn 9 f)). { rewrite <- (firstn_skipn 9 f) in HF. now apply Forall_app in HF. }
  assert (HF2 : Forall digit_char (skipn 9 f)). { rewrite <- (firstn_skipn 9 f) in HF. now apply Forall_app in HF. }
  rewrite (digs_value _ HF1), firstn_length. destruct (Nat.le_gt_cases (length f) 9) as [H|H].
  - rewrite firstn_all2 by lia. replace (9 - Nat.min 9 (length f))%nat with (9 - length f)%nat by lia.
    apply Z.div_unique_exact; [apply Z.pow_nonzero; lia|].
    replace 1000000000 with (10 ^ Z.of_nat (length f + (9 - length f))) by (replace (length f + (9 - length f))%nat with 9%nat by lia; reflexivity).
    rewrite Nat2Z.inj_add, Z.pow_add_r by lia. lia.
  - replace (9 - Nat.min 9 (length f))%nat with 0%nat by lia. rewrite Z.mul_1_r.
    assert (E : value f 0 = value (firstn 9 f) 0 * 10 ^ Z.of_nat (length (skipn 9 f)) + value (skipn 9 f) 0).
    { rewrite <- (firstn_skipn 9 f) at 1. rewrite value_app. apply value_acc. }
    pose proof (value_range _ HF2) as HV. assert (EL : Z.of_nat (length f) = 9 + Z.of_nat (length (skipn 9 f))) by (rewrite skipn_length; lia).
    rewrite EL, Z.pow_add_r by lia. set (k := 10 ^ Z.of_nat (length (skipn 9 f))) in *. change (10 ^ 9) with 1000000000.
    rewrite E, Z.mul_comm, Z.div_mul_cancel_l by lia. apply Z.div_unique with (r := value (skipn 9 f) 0); [left; exact HV|]. lia.
Qed.
Lemma fraction_digits point f t : fraction point f t -> Forall digit_char f.
Proof. intros H. inversion H; auto. Qed.
Lemma second_go n t f tf r p : number 2 n t -> n <= 59 -> fraction (fun c => c = 46%N \/ c = 44%N) f tf -> p_ns p = 0 ->
  (match r with c :: _ => is_digit c = false /\ c <> 46%N /\ c <> 44%N | [] => True end) ->
  chunk_step KSecond p (t ++ tf ++ r) =
  Some (mkP (p_year p) (p_month p) (p_day p) (p_hour p) (p_min p) n (value f 0 * 1000000000 / 10 ^ Z.of_nat (length f)) (p_off p), r).
Proof.
  intros HN HL HF HP HR. cbn [chunk_step]. rewrite (getnum_two n t _ true HN). replace (n <? 60) with true by lia. cbv zeta.
  inversion HF as [E1 E2|c f' HC HE HD E1 E2]; subst.
  - cbn [app value]. rewrite HP. destruct r as [|c r]; [reflexivity|]. destruct HR as (H1 & H2 & H3).
    replace ((c =? 46) || (c =? 44))%N with false by lia. reflexivity.
  - cbn [app]. replace ((c =? 46) || (c =? 44))%N with true by lia.
    assert (HD0 : digit_at (f ++ r) 0 = true). { destruct f as [|x f]; [congruence|]. inversion_clear HD as [|? ? HX _]. cbn. now apply digit_iff. }
    rewrite HD0. cbn [andb]. rewrite (run_go f r HD) by (destruct r; cbn; [exact I|apply HR]).
    rewrite firstn_app, Nat.sub_diag, firstn_all, app_nil_r, skipn_app, Nat.sub_diag, skipn_all, (nanos_value f HD). reflexivity.
Qed.
Lemma second_inv p v p' r : p_ns p = 0 -> chunk_step KSecond p v = Some (p', r) ->
  exists n t f tf, v = t ++ tf ++ r /\ number 2 n t /\ n <= 59 /\ fraction (fun c => c = 46%N \/ c = 44%N) f tf /\
    p' = mkP (p_year p) (p_month p) (p_day p) (p_hour p) (p_min p) n (value f 0 * 1000000000 / 10 ^ Z.of_nat (length f)) (p_off p).
Proof.
  intros HP. cbn [chunk_step]. destruct (getnum v true) as [[n r0]|] eqn:EN; [|discriminate]. apply getnum_fixed in EN as (t & -> & HN).
  destruct (n <? 60) eqn:E60; [|discriminate]. cbv zeta.
  assert (Z0 : Some (mkP (p_year p) (p_month p) (p_day p) (p_hour p) (p_min p) n (p_ns p) (p_off p), r0) = Some (p', r) ->
    exists n' t' f tf, t ++ r0 = t' ++ tf ++ r /\ number 2 n' t' /\ n' <= 59 /\ fraction (fun c => c = 46%N \/ c = 44%N) f tf /\
    p' = mkP (p_year p) (p_month p) (p_day p) (p_hour p) (p_min p) n' (value f 0 * 1000000000 / 10 ^ Z.of_nat (length f)) (p_off p)).
  { intros [= <- <-]. exists n, t, [], []. split; [reflexivity|]. split; [exact HN|]. split; [lia|]. split; [constructor|]. rewrite HP. reflexivity. }
  destruct r0 as [|c r0]; [exact Z0|]. destruct (((c =? 46) || (c =? 44))%N && digit_at r0 0) eqn:EC; [|exact Z0].
  apply andb_prop in EC as [EC ED]. intros [= <- <-]. destruct (run_inv r0) as [R1 R2].
  set (f := firstn (run_digits r0) r0) in *. exists n, t, f, (c :: f).
  split; [cbn [app]; f_equal; f_equal; unfold f; symmetry; apply firstn_skipn|]. split; [exact HN|]. split; [lia|]. split.
  - constructor; [lia| |exact R1]. unfold f. destruct r0 as [|x r0]; [discriminate|]. cbn in *. rewrite ED. discriminate.
  - now rewrite (nanos_value f R1).
Qed.
Lemma zone_go off t p : offset (eq 90%N) 24 60 off t ->
  chunk_step KZone p t = Some (mkP (p_year p) (p_month p) (p_day p) (p_hour p) (p_min p) (p_sec p) (p_ns p) (off * 60), []).
Proof.
  intros H. inversion H as [c HC E1 E2|h m th tm HH HM L1 L2 E1 E2|h m th tm HH HM L1 L2 E1 E2]; subst.
  - reflexivity.
  - pose proof (getnum_two h th [] true HH) as GH. pose proof (getnum_two m tm [] true HM) as GM. rewrite app_nil_r in GH, GM.
    apply two in HH as (a & b & -> & _ & _ & E3). apply two in HM as (a' & b' & -> & _ & _ & E4).
    cbn [str app chunk_step]. change (str "+") with [43%N]. change (str ":") with [58%N]. cbn [app N.eqb Pos.eqb]. rewrite GH, GM.
    replace ((h <=? 24) && (m <=? 60)) with true by lia. replace ((60 * h + m) * 60) with ((h * 60 + m) * 60) by lia. reflexivity.
  - pose proof (getnum_two h th [] true HH) as GH. pose proof (getnum_two m tm [] true HM) as GM. rewrite app_nil_r in GH, GM.
    apply two in HH as (a & b & -> & _ & _ & E3). apply two in HM as (a' & b' & -> & _ & _ & E4).
    cbn [str app chunk_step]. change (str "-") with [45%N]. change (str ":") with [58%N]. cbn [app N.eqb Pos.eqb]. rewrite GH, GM.
    replace ((h <=? 24) && (m <=? 60)) with true by lia. replace (- (60 * h + m) * 60) with (- ((h * 60 + m) * 60)) by lia. reflexivity.
Qed.
Lemma zone_inv p v p' r : chunk_step KZone p v = Some (p', r) ->
  exists off t, v = t ++ r /\ offset (eq 90%N) 24 60 off t /\ p' = mkP (p_year p) (p_month p) (p_day p) (p_hour p) (p_min p) (p_sec p) (p_ns p) (off * 60).
Proof.
  cbn [chunk_step]. cbv zeta. destruct v as [|sg v]; [discriminate|]. destruct (sg =? 90)%N eqn:EZ.
  - intros [= <- <-]. apply N.eqb_eq in EZ. subst sg. exists 0, [90%N]. split; [reflexivity|]. split; [now constructor|reflexivity].
  - destruct v as [|h1 [|h2 [|co [|m1 [|m2 v]]]]]; try discriminate. destruct (co =? 58)%N eqn:EC; [|discriminate]. apply N.eqb_eq in EC. subst co.
    destruct (getnum [h1; h2] true) as [[h q1]|] eqn:E1; [|discriminate]. destruct (getnum [m1; m2] true) as [[m q2]|] eqn:E2; [|discriminate].
    apply getnum_fixed in E1 as (th & F1 & N1). apply getnum_fixed in E2 as (tm & F2 & N2).
    assert (th = [h1; h2]) as -> by (destruct (two _ _ N1) as (a & b & -> & _); cbn in F1; congruence).
    assert (tm = [m1; m2]) as -> by (destruct (two _ _ N2) as (a & b & -> & _); cbn in F2; congruence).
    destruct ((h <=? 24) && (m <=? 60)) eqn:EL; [|discriminate].
    destruct (sg =? 43)%N eqn:EP; [|destruct (sg =? 45)%N eqn:EM; [|discriminate]]; intros [= <- <-].
    + apply N.eqb_eq in EP. subst sg. exists (60 * h + m), (str "+" ++ [h1; h2] ++ str ":" ++ [m1; m2]). split; [reflexivity|].
      split; [apply of_east; auto; lia|]. replace ((60 * h + m) * 60) with ((h * 60 + m) * 60) by lia. reflexivity.
    + apply N.eqb_eq in EM. subst sg. exists (- (60 * h + m)), (str "-" ++ [h1; h2] ++ str ":" ++ [m1; m2]). split; [reflexivity|].
      split; [apply of_west; auto; lia|]. replace (- (60 * h + m) * 60) with (- ((h * 60 + m) * 60)) by lia. reflexivity.
Qed.
Lemma offset_head off t r : offset (eq 90%N) 24 60 off t -> match t ++ r with c :: _ => is_digit c = false /\ c <> 46%N /\ c <> 44%N | [] => True end.
Proof. intros H. inversion H as [c HC| |]; subst; cbn; repeat split; lia. Qed.

(** *** The whole text *)
Lemma go_date_is y m d n h mi s ns off : real_day (mkDay y m d) -> day_number (mkDay y m d) n ->
  go_date y m d h mi s ns - off * 60 * 1000000000 =
  n * (24 * 3600 * 1000000000) + (((h * 60 + mi) * 60 + s) * 1000000000 + ns) - off * (60 * 1000000000).
Proof.
  intros HR HN. apply number_of in HN. unfold day_of in HN. cbn in HN. unfold go_date. rewrite HN. lia.
Qed.
Lemma loose_read x t : loose3339 x t -> parse_with layout_rfc3339 t = Some x.
Proof.
  intros H. inversion H as [y m d h mi s f off n tz ty tm td th tmi ts tf toff w NY NM ND RD DN TZ OW NH LH NI LI NS LS FR OF E1 E2]. subst tz.
  unfold parse_with, layout_rfc3339. change (str "-") with [45%N] in *. change (str ":") with [58%N] in *. change (str "T") with [84%N] in *.
  pose proof RD as RD0. apply real_iff in RD0 as [RM RDD]. pose proof (offset_head off toff [] OF) as OH. rewrite app_nil_r in OH.
  cbn [parse_chunks]. rewrite (year_go y ty _ _ NY).
  cbn [app]. rewrite (lit_go 45) by discriminate.
  cbn [chunk_step]. rewrite (getnum_two m tm _ true NM). replace ((1 <=? m) && (m <=? 12)) with true by lia.
  change (skip (45%N :: td ++ 84%N :: th ++ 58%N :: tmi ++ 58%N :: ts ++ tf ++ toff) [45%N]) with (Some (td ++ 84%N :: th ++ 58%N :: tmi ++ 58%N :: ts ++ tf ++ toff)). cbn iota.
  rewrite (getnum_two d td _ true ND).
  change (skip (84%N :: th ++ 58%N :: tmi ++ 58%N :: ts ++ tf ++ toff) [84%N]) with (Some (th ++ 58%N :: tmi ++ 58%N :: ts ++ tf ++ toff)). cbn iota.
  assert (GH : getnum (th ++ 58%N :: tmi ++ 58%N :: ts ++ tf ++ toff) false = Some (h, 58%N :: tmi ++ 58%N :: ts ++ tf ++ toff)).
  { destruct OW as [->| ->]; [apply getnum_one; [exact NH|reflexivity]|now apply getnum_two]. }
  rewrite GH. replace (h <? 24) with true by lia.
  change (skip (58%N :: tmi ++ 58%N :: ts ++ tf ++ toff) [58%N]) with (Some (tmi ++ 58%N :: ts ++ tf ++ toff)). cbn iota.
  rewrite (getnum_two mi tmi _ true NI). replace (mi <? 60) with true by lia.
  change (skip (58%N :: ts ++ tf ++ toff) [58%N]) with (Some (ts ++ tf ++ toff)). cbn iota.
  match goal with |- context [match getnum (ts ++ tf ++ toff) true with Some _ => _ | None => _ end] => idtac end.
  pose proof (second_go s ts f tf toff (mkP y m d h mi 0 0 0) NS LS FR eq_refl OH) as G. cbn [chunk_step p_year p_month p_day p_hour p_min p_sec p_ns p_off] in G |- *.
  rewrite G. clear G.
  pose proof (zone_go off toff (mkP y m d h mi s (value f 0 * 1000000000 / 10 ^ Z.of_nat (length f)) 0) OF) as G.
  cbn [chunk_step p_year p_month p_day p_hour p_min p_sec p_ns p_off] in G |- *. rewrite G. clear G. cbn [p_year p_month p_day p_hour p_min p_sec p_ns p_off].
  replace ((1 <=? d) && (d <=? days_in m y)) with true by lia. f_equal. unfold in_day. now apply go_date_is.
Qed.
Lemma read_loose t x : parse_with layout_rfc3339 t = Some x -> loose3339 x t.
Proof.
  unfold parse_with, layout_rfc3339. change (str "-") with [45%N] in *. change (str ":") with [58%N] in *. change (str "T") with [84%N] in *.
  destruct (parse_chunks _ _ t) as [p|] eqn:E; [|discriminate]. cbn [parse_chunks] in E.
  destruct (chunk_step KYear _ t) as [[p1 v1]|] eqn:E1; [|discriminate]. apply year_inv in E1 as (y & ty & -> & NY & ->).
  destruct (chunk_step (Lit [45%N]) _ v1) as [[p2 v2]|] eqn:E2; [|discriminate]. apply lit_inv in E2 as [-> ->]; [|discriminate].
  destruct (chunk_step KMonth _ v2) as [[p3 v3]|] eqn:E3; [|discriminate]. cbn [chunk_step] in E3.
  destruct (getnum v2 true) as [[m r3]|] eqn:G3; [|discriminate]. apply getnum_fixed in G3 as (tm & -> & NM).
  destruct ((1 <=? m) && (m <=? 12)) eqn:LM; [|discriminate]. injection E3 as <- <-.
  destruct (chunk_step (Lit [45%N]) _ r3) as [[p4 v4]|] eqn:E4; [|discriminate]. apply lit_inv in E4 as [-> ->]; [|discriminate].
  destruct (chunk_step KDay _ v4) as [[p5 v5]|] eqn:E5; [|discriminate]. cbn [chunk_step] in E5.
  destruct (getnum v4 true) as [[d r5]|] eqn:G5; [|discriminate]. apply getnum_fixed in G5 as (td & -> & ND). injection E5 as <- <-.
  destruct (chunk_step (Lit [84%N]) _ r5) as [[p6 v6]|] eqn:E6; [|discriminate]. apply lit_inv in E6 as [-> ->]; [|discriminate].
  destruct (chunk_step KHour _ v6) as [[p7 v7]|] eqn:E7; [|discriminate]. cbn [chunk_step] in E7.
  destruct (getnum v6 false) as [[h r7]|] eqn:G7; [|discriminate]. apply getnum_inv in G7 as (w & th & -> & NH & OW).
  destruct (h <? 24) eqn:LH; [|discriminate]. injection E7 as <- <-.
  destruct (chunk_step (Lit [58%N]) _ r7) as [[p8 v8]|] eqn:E8; [|discriminate]. apply lit_inv in E8 as [-> ->]; [|discriminate].
  destruct (chunk_step KMinute _ v8) as [[p9 v9]|] eqn:E9; [|discriminate]. cbn [chunk_step] in E9.
  destruct (getnum v8 true) as [[mi r9]|] eqn:G9; [|discriminate]. apply getnum_fixed in G9 as (tmi & -> & NI).
  destruct (mi <? 60) eqn:LI; [|discriminate]. injection E9 as <- <-.
  destruct (chunk_step (Lit [58%N]) _ r9) as [[p10 v10]|] eqn:E10; [|discriminate]. apply lit_inv in E10 as [-> ->]; [|discriminate].
  destruct (chunk_step KSecond _ v10) as [[p11 v11]|] eqn:E11; [|discriminate]. apply second_inv in E11 as (s & ts & f & tf & -> & NS & LS & FR & ->); [|reflexivity].
  destruct (chunk_step KZone _ v11) as [[p12 v12]|] eqn:E12; [|discriminate]. apply zone_inv in E12 as (off & toff & -> & OF & ->).
  destruct v12; [|discriminate]. injection E as <-. cbn [p_year p_month p_day p_hour p_min p_sec p_ns p_off].
  destruct ((1 <=? d) && (d <=? days_in m y)) eqn:LD; [|discriminate]. intros [= <-]. rewrite app_nil_r.
  assert (RD : real_day (mkDay y m d)) by (apply real_iff; lia).
  assert (DN : day_number (mkDay y m d) (day_of (mkDay y m d))) by now apply day_number_iff.
  rewrite (go_date_is y m d _ h mi s _ off RD DN).
  apply (st_stamp _ _ _ _ _ _ _ y m d h mi s f off (day_of (mkDay y m d)) 84%N ty tm td th tmi ts tf toff w); auto; lia.
Qed.

(** The short cut. *)
Lemma uint_inv s lo hi n : uint_in s lo hi = Some n -> number (length s) n s /\ lo <= n <= hi.
Proof.
  unfold uint_in. destruct (forallb is_digit s) eqn:E; [|discriminate]. cbn [andb]. destruct ((lo <=? digs s) && (digs s <=? hi)) eqn:EL; [|discriminate].
  intros [= <-]. apply all_digits in E. split; [|lia]. split; [reflexivity|]. split; [exact E|]. symmetry. now apply digs_value.
Qed.
Lemma at_cons s i c x : nth_error s i = Some x -> at_is s i c = true -> x = c.
Proof. unfold at_is. intros ->. apply N.eqb_eq. Qed.
Lemma fast_loose t x : parse_fast t = Some x -> rfc3339_capital x t.
Proof.
  unfold parse_fast. destruct (length t <? 19)%nat eqn:HL; [discriminate|].
  do 19 (destruct t as [|? t]; [cbn in HL; discriminate|]). clear HL.
  cbn [cut skipn firstn Nat.sub].
  destruct (uint_in _ 0 9999) as [y|] eqn:E1; [|discriminate]. destruct (uint_in _ 1 12) as [m|] eqn:E2; [|discriminate].
  destruct (uint_in _ 1 (days_in m y)) as [d|] eqn:E3; [|discriminate]. destruct (uint_in _ 0 23) as [h|] eqn:E4; [|discriminate].
  destruct (uint_in _ 0 59) as [mi|] eqn:E5; [|discriminate]. destruct (uint_in _ 0 59) as [s|] eqn:E6 in |- *; [|discriminate].
  apply uint_inv in E1 as [N1 L1], E2 as [N2 L2], E3 as [N3 L3], E4 as [N4 L4], E5 as [N5 L5], E6 as [N6 L6]. cbn [length] in *.
  unfold at_is. cbn [nth_error].
  match goal with |- context [if ?a && ?b && ?c && ?d && ?e then _ else _] => destruct a eqn:A1; [|discriminate]; destruct b eqn:A2; [|discriminate]; destruct c eqn:A3; [|discriminate]; destruct d eqn:A4; [|discriminate]; destruct e eqn:A5; [|discriminate] end.
  cbn [andb]. apply N.eqb_eq in A1, A2, A3, A4, A5. subst.
  match goal with |- context [let '(_, _) := ?a in _] => set (fr := a) end.
  assert (F : exists f tf, t = tf ++ snd fr /\ fraction (eq 46%N) f tf /\ fst fr = value f 0 * 1000000000 / 10 ^ Z.of_nat (length f)).
  { unfold fr. destruct t as [|c r]; [exists [], []; repeat split; constructor|]. destruct ((c =? 46)%N && digit_at r 0) eqn:EC.
    - apply andb_prop in EC as [EC ED]. apply N.eqb_eq in EC. subst c. destruct (run_inv r) as [R1 R2]. cbn [fst snd].
      exists (firstn (run_digits r) r), (46%N :: firstn (run_digits r) r). split; [cbn [app]; f_equal; symmetry; apply firstn_skipn|].
      split; [|now apply nanos_value]. constructor; [reflexivity| |exact R1]. destruct r as [|z r]; [discriminate|]. cbn in *. rewrite ED. discriminate.
    - exists [], []. repeat split; constructor. }
  destruct fr as [ns r]. cbn [fst snd] in F. destruct F as (f & tf & -> & FR & ->).
  assert (RD : real_day (mkDay y m d)) by (apply real_iff; lia).
  assert (DN : day_number (mkDay y m d) (day_of (mkDay y m d))) by now apply day_number_iff.
  assert (K : forall off, offset (eq 90%N) 23 59 off r ->
    rfc3339_capital (go_date y m d h mi s (value f 0 * 1000000000 / 10 ^ Z.of_nat (length f)) - off * 60 * 1000000000)
      ([n; n0; n1; n2] ++ str "-" ++ [n4; n5] ++ str "-" ++ [n7; n8] ++ 84%N :: [n10; n11] ++ str ":" ++ [n13; n14] ++ str ":" ++ [n16; n17] ++ tf ++ r)).
  { intros off OF. rewrite (go_date_is y m d _ h mi s _ off RD DN).
    apply (st_stamp _ _ _ _ _ _ _ y m d h mi s f off (day_of (mkDay y m d)) 84%N [n; n0; n1; n2] [n4; n5] [n7; n8] [n10; n11] [n13; n14] [n16; n17] tf r 2%nat); auto; lia. }
  cbn [str list_ascii_of_string map app] in K. destruct (beqb r [90%N]) eqn:EZ.
  - apply beqb_eq in EZ. subst r. intros [= <-]. specialize (K 0 ltac:(now constructor)). rewrite Z.sub_0_r in K. exact K.
  - destruct (length r =? 6)%nat eqn:EL; [|discriminate]. do 6 (destruct r as [|? r]; [discriminate EL|]). destruct r; [|discriminate EL].
    cbn [cut skipn firstn Nat.sub]. destruct (uint_in _ 0 23) as [hr|] eqn:E1; [|discriminate]. destruct (uint_in _ 0 59) as [mm|] eqn:E2; [|discriminate].
    apply uint_inv in E1 as [M1 Q1], E2 as [M2 Q2]. cbn [length nth_error] in *.
    match goal with |- context [if ?a then _ else _] => destruct a eqn:A1; [|discriminate] end. apply N.eqb_eq in A1. subst.
    match goal with |- context [if ?a then _ else _] => destruct a eqn:A1; [|match goal with |- context [if ?a then _ else _] => destruct a eqn:A2; [|discriminate] end] end.
    + apply N.eqb_eq in A1. subst. intros [= <-]. specialize (K (60 * hr + mm)). replace ((60 * hr + mm) * 60) with ((hr * 60 + mm) * 60) in K by lia. apply K.
      apply (of_east (eq 90%N) 23 59 hr mm [n6; n9] [n15; n18]); auto; lia.
    + apply N.eqb_eq in A2. subst. intros [= <-]. specialize (K (- (60 * hr + mm))).
      match type of K with _ -> rfc3339_capital ?a _ => match goal with |- rfc3339_capital ?b _ => replace b with a by lia end end. apply K.
      apply (of_west (eq 90%N) 23 59 hr mm [n6; n9] [n15; n18]); auto; lia.
Qed.
Lemma stamp_mono (tee zulu point tee' zulu' point' : N -> Prop) (ow ow' : nat -> Prop) last last' hh hh' mm mm' x t :
  (forall c, tee c -> tee' c) -> (forall c, zulu c -> zulu' c) -> (forall c, point c -> point' c) -> (forall w, ow w -> ow' w) -> last <= last' -> hh <= hh' -> mm <= mm' ->
  stamp tee zulu point ow last hh mm x t -> stamp tee' zulu' point' ow' last' hh' mm' x t.
Proof.
  intros H1 H2 H3 H4 H5 H6 H7 H. inversion H as [y m d h mi s f off n tz ty tm td th tmi ts tf toff w NY NM ND RD DN TZ OW NH LH NI LI NS LS FR OF E1 E2].
  apply st_stamp with (m := m) (d := d) (y := y) (w := w); auto; try lia.
  - inversion FR; constructor; auto.
  - inversion OF; [constructor; auto|apply of_east; auto; lia|apply of_west; auto; lia].
Qed.
Lemma capital_loose x t : rfc3339_capital x t -> loose3339 x t.
Proof. apply stamp_mono; auto; lia. Qed.
Lemma capital_rfc x t : rfc3339_capital x t -> rfc3339 x t.
Proof. apply stamp_mono; auto; lia. Qed.
Lemma parse_time_iff t x : parse_time t = Some x <-> loose3339 x t.
Proof.
  unfold parse_time. split.
  - destruct (parse_fast t) as [x'|] eqn:E; [|apply read_loose]. intros [= <-]. now apply capital_loose, fast_loose.
  - intros H. destruct (parse_fast t) as [x'|] eqn:E; [|now apply loose_read].
    apply fast_loose, capital_loose, loose_read in E. apply loose_read in H. congruence.
Qed.
