(** The calendar of Go is the Gregorian one. *)
From Coq Require Import ZifyBool ZifyNat ZifyN.
From Verif Require Import Model.GoTime Spec.Calendar.
Local Open Scope Z_scope.
Ltac Zify.zify_post_hook ::= Z.div_mod_to_equations.

Lemma leap_iff y : is_leap y = true <-> leap_year y.
Proof.
  unfold is_leap, leap_year. rewrite <- !Z.mod_divide by lia. lia.
Qed.
Lemma leap_dec y : leap_year y \/ ~ leap_year y.
Proof. destruct (is_leap y) eqn:E; [left; now apply leap_iff|right]. intros H. apply leap_iff in H. congruence. Qed.
(** A case for each month. *)
Ltac months H := cbn [In] in H; repeat (destruct H as [H|H]; [|]); try contradiction.
Lemma month_range y m n : month_length y m n -> 1 <= m <= 12.
Proof. intros H. inversion H as [? HI|? HI| |]; subst; try lia; cbn [In] in HI; lia. Qed.
Lemma twelve m : 1 <= m <= 12 -> m = 1 \/ m = 2 \/ m = 3 \/ m = 4 \/ m = 5 \/ m = 6 \/ m = 7 \/ m = 8 \/ m = 9 \/ m = 10 \/ m = 11 \/ m = 12.
Proof. lia. Qed.
Lemma month_days y m n : month_length y m n -> days_in m y = n.
Proof.
  intros H. inversion H as [? HI|? HI|HI|HI]; subst.
  - unfold days_in. cbn [In] in HI. repeat (destruct HI as [<-|HI]; [reflexivity|]). contradiction.
  - unfold days_in. cbn [In] in HI. repeat (destruct HI as [<-|HI]; [reflexivity|]). contradiction.
  - unfold days_in. apply leap_iff in HI. rewrite HI. reflexivity.
  - unfold days_in. destruct (is_leap y) eqn:E; [apply leap_iff in E; contradiction|reflexivity].
Qed.
Lemma month_has y m : 1 <= m <= 12 -> month_length y m (days_in m y).
Proof.
  intros H. destruct (Z.eq_dec m 2) as [->|N2].
  - unfold days_in. cbn [Z.eqb Pos.eqb andb]. destruct (is_leap y) eqn:E.
    + apply ml_leap. now apply leap_iff.
    + apply ml_feb. intros K. apply leap_iff in K. congruence.
  - apply twelve in H. repeat (destruct H as [->|H]; [try congruence; (apply ml_31; cbn; tauto) || (apply ml_30; cbn; tauto)|]).
    rewrite H. apply ml_31. cbn. tauto.
Qed.
Lemma real_iff y m d : real_day (mkDay y m d) <-> 1 <= m <= 12 /\ 1 <= d <= days_in m y.
Proof.
  split.
  - intros (n & H & HD). cbn in *. split; [now apply (month_range y m n)|]. now rewrite (month_days _ _ _ H).
  - intros (HM & HD). exists (days_in m y). split; [now apply month_has|exact HD].
Qed.

(** The days of the year before a month. *)
Definition yday (y m : Z) : Z := days_before (m - 1) + (if is_leap y && (3 <=? m) then 1 else 0).
Lemma yday_next y m : 1 <= m < 12 -> yday y (m + 1) = yday y m + days_in m y.
Proof.
  intros H. assert (E : m = 1 \/ m = 2 \/ m = 3 \/ m = 4 \/ m = 5 \/ m = 6 \/ m = 7 \/ m = 8 \/ m = 9 \/ m = 10 \/ m = 11) by lia.
  unfold yday, days_in. destruct (is_leap y);
    repeat (destruct E as [->|E]; [reflexivity|]); rewrite E; reflexivity.
Qed.
Lemma year_next y : days_since (y + 1) = days_since y + (if is_leap y then 366 else 365).
Proof.
  unfold days_since, is_leap. cbv zeta. replace (y + 1 - 1) with y by lia.
  destruct ((y mod 4 =? 0) && (negb (y mod 100 =? 0) || (y mod 400 =? 0))) eqn:E; lia.
Qed.
Definition day_of (d : day) : Z := abs_days (year d) (month d) (mday d) - to_1970.
Lemma day_next d d' : next_day d d' -> day_of d' = day_of d + 1.
Proof.
  unfold day_of, abs_days. intros H. inversion H as [y m k n HM HK|y m n HM HK|y]; subst; cbn [year month mday].
  - lia.
  - pose proof (month_range _ _ _ HM) as HR. pose proof (yday_next y m ltac:(lia)) as E. rewrite (month_days _ _ _ HM) in E. unfold yday in E. lia.
  - rewrite year_next. change (days_before (12 - 1)) with 334. change (days_before (1 - 1)) with 0. destruct (is_leap y); cbn [andb Z.leb]; destruct (is_leap (y + 1)); cbn; lia.
Qed.
Lemma number_of d n : day_number d n -> day_of d = n.
Proof.
  induction 1 as [|d d' n H IH HN|d d' n H IH HN]; [reflexivity| |]; apply day_next in HN; lia.
Qed.

Ltac closed_months :=
  repeat match goal with
  | |- context [days_before ?x] => let v := eval vm_compute in (days_before x) in progress change (days_before x) with v
  | H : context [days_before ?x] |- _ => let v := eval vm_compute in (days_before x) in progress change (days_before x) with v in H
  | |- context [(Zpos ?x =? 2)] => let v := eval vm_compute in (Zpos x =? 2) in progress change (Zpos x =? 2) with v
  | H : context [(Zpos ?x =? 2)] |- _ => let v := eval vm_compute in (Zpos x =? 2) in progress change (Zpos x =? 2) with v in H
  | |- context [(3 <=? Zpos ?x)] => let v := eval vm_compute in (3 <=? Zpos x) in progress change (3 <=? Zpos x) with v
  end; cbn [andb] in *.
(** From the number to the date. *)
Lemma year_split y : exists a b c e, y - 1 = 400 * a + 100 * b + 4 * c + e /\ 0 <= b <= 3 /\ 0 <= c <= 24 /\ 0 <= e <= 3 /\
  days_since y = 146097 * a + 36524 * b + 1461 * c + 365 * e /\ (is_leap y = true <-> e = 3 /\ (c <> 24 \/ b = 3)).
Proof.
  exists ((y - 1) / 400), ((y - 1) mod 400 / 100), ((y - 1) mod 400 mod 100 / 4), ((y - 1) mod 400 mod 100 mod 4).
  unfold days_since, is_leap. cbv zeta. split; [lia|]. split; [lia|]. split; [lia|]. split; [lia|]. split; [lia|].
  set (z := y - 1). assert (EY : y = z + 1) by (unfold z; lia). rewrite EY. clearbody z. clear EY y. split; intros H; lia.
Qed.
Lemma yday_range y m d : 1 <= m <= 12 -> 1 <= d <= days_in m y -> 0 <= yday y m + (d - 1) < 365 + (if is_leap y then 1 else 0).
Proof.
  intros HM HD. unfold yday, days_in in *. apply twelve in HM.
  destruct (is_leap y); repeat (destruct HM as [->|HM]; [closed_months; lia|]); subst m; closed_months; lia.
Qed.
(** The last part of [abs_date]. *)
Definition in_year (year d : Z) : Z * Z * Z :=
  if is_leap year && (d =? 31 + 29 - 1) then (year, 2, 29)
  else
    let d := if is_leap year && (31 + 29 - 1 <? d) then d - 1 else d in
    let m := d / 31 in
    if days_before (m + 1) <=? d then (year, m + 2, d - days_before (m + 1) + 1)
    else (year, m + 1, d - days_before m + 1).
Lemma in_year_back y m d : 1 <= m <= 12 -> 1 <= d <= days_in m y -> in_year y (yday y m + (d - 1)) = (y, m, d).
Proof.
  intros HM HD. unfold in_year, yday, days_in in *. apply twelve in HM.
  assert (Q : exists n, (n < 31)%nat /\ d = Z.of_nat n + 1).
  { exists (Z.to_nat (d - 1)). destruct (is_leap y); repeat (destruct HM as [->|HM]; [closed_months; lia|]); subst m; closed_months; lia. }
  destruct Q as (n & HN & ->).
  destruct (is_leap y); repeat (destruct HM as [->|HM]; [|]); try subst m;
    do 31 (destruct n as [|n]; [vm_compute in HD |- *; try reflexivity; exfalso; destruct HD as [_ HD]; apply HD; reflexivity|]); lia.
Qed.
Lemma abs_date_year d a b c e k : 0 <= b <= 3 -> 0 <= c <= 24 -> 0 <= e <= 3 ->
  0 <= k <= 364 \/ (k = 365 /\ e = 3 /\ (c <> 24 \/ b = 3)) ->
  d = 146097 * a + 36524 * b + 1461 * c + 365 * e + k -> abs_date d = in_year (400 * a + 100 * b + 4 * c + e + 1) k.
Proof.
  intros HB HC HE HK ->. unfold abs_date, in_year. cbv zeta.
  assert (E1 : (146097 * a + 36524 * b + 1461 * c + 365 * e + k) / 146097 = a) by lia. rewrite E1.
  replace (146097 * a + 36524 * b + 1461 * c + 365 * e + k - 146097 * a) with (36524 * b + 1461 * c + 365 * e + k) by lia.
  assert (E2 : (36524 * b + 1461 * c + 365 * e + k) / 36524 - (36524 * b + 1461 * c + 365 * e + k) / 36524 / 4 = b) by lia. rewrite E2.
  replace (36524 * b + 1461 * c + 365 * e + k - 36524 * b) with (1461 * c + 365 * e + k) by lia.
  assert (E3 : (1461 * c + 365 * e + k) / 1461 = c) by lia. rewrite E3.
  replace (1461 * c + 365 * e + k - 1461 * c) with (365 * e + k) by lia.
  assert (E4 : (365 * e + k) / 365 - (365 * e + k) / 365 / 4 = e) by lia. rewrite E4.
  replace (365 * e + k - 365 * e) with k by lia. reflexivity.
Qed.
Lemma date_back y m d : 1 <= m <= 12 -> 1 <= d <= days_in m y -> abs_date (abs_days y m d) = (y, m, d).
Proof.
  intros HM HD. destruct (year_split y) as (a & b & c & e & E1 & HB & HC & HE & E2 & HL).
  pose proof (yday_range y m d HM HD) as HY.
  rewrite (abs_date_year _ a b c e (yday y m + (d - 1)) HB HC HE).
  - replace (400 * a + 100 * b + 4 * c + e + 1) with y by lia. now apply in_year_back.
  - destruct (is_leap y); [|left; lia]. destruct (proj1 HL eq_refl) as [L1 L2]. lia.
  - unfold abs_days, yday. lia.
Qed.
Lemma day_of_inj d d' : real_day d -> real_day d' -> day_of d = day_of d' -> d = d'.
Proof.
  destruct d as [y m k], d' as [y' m' k']. intros H H' E. apply real_iff in H as [HM HD]. apply real_iff in H' as [HM' HD'].
  unfold day_of in E. cbn in E. assert (E' : abs_days y m k = abs_days y' m' k') by lia.
  pose proof (date_back y m k HM HD) as A. rewrite E', (date_back y' m' k' HM' HD') in A. congruence.
Qed.

(** Every day has a number. *)
Lemma has_next d : real_day d -> exists d', real_day d' /\ next_day d d'.
Proof.
  destruct d as [y m k]. intros (n & HM & HK). cbn in *. pose proof (month_range _ _ _ HM) as HR.
  destruct (Z.eq_dec k n) as [->|N].
  - destruct (Z.eq_dec m 12) as [->|NM].
    + assert (n = 31) as -> by (rewrite <- (month_days _ _ _ HM); reflexivity). exists (mkDay (y + 1) 1 1). split; [|apply nd_year].
      exists 31. split; [apply ml_31; cbn; tauto|cbn; lia].
    + exists (mkDay y (m + 1) 1). split; [|apply nd_first; [exact HM|lia]]. exists (days_in (m + 1) y). cbn.
      pose proof (month_has y (m + 1) ltac:(lia)) as HN. split; [exact HN|]. inversion HN; lia.
  - exists (mkDay y m (k + 1)). split; [exists n; cbn; split; [exact HM|lia]|]. apply (nd_month y m k n); [exact HM|lia].
Qed.
Lemma has_previous d : real_day d -> exists d', real_day d' /\ next_day d' d.
Proof.
  destruct d as [y m k]. intros (n & HM & HK). cbn in *. pose proof (month_range _ _ _ HM) as HR.
  destruct (Z.eq_dec k 1) as [->|N].
  - destruct (Z.eq_dec m 1) as [->|NM].
    + exists (mkDay (y - 1) 12 31). split; [exists 31; split; [apply ml_31; cbn; tauto|cbn; lia]|].
      replace y with (y - 1 + 1) at 2 by lia. apply nd_year.
    + pose proof (month_has y (m - 1) ltac:(lia)) as HN. exists (mkDay y (m - 1) (days_in (m - 1) y)). split.
      * exists (days_in (m - 1) y). cbn. split; [exact HN|]. inversion HN; lia.
      * replace m with (m - 1 + 1) at 3 by lia. apply nd_first; [exact HN|lia].
  - exists (mkDay y m (k - 1)). split; [exists n; cbn; split; [exact HM|lia]|].
    replace k with (k - 1 + 1) at 2 by lia. apply (nd_month y m (k - 1) n); [exact HM|lia].
Qed.
Lemma numbered : forall n, exists d, real_day d /\ day_number d n.
Proof.
  assert (F : forall k : nat, exists d, real_day d /\ day_number d (Z.of_nat k)).
  { induction k as [|k (d & R & H)].
    - exists (mkDay 1970 1 1). split; [exists 31; split; [apply ml_31; cbn; tauto|cbn; lia]|exact dn_epoch].
    - destruct (has_next d R) as (d' & R' & N). exists d'. split; [exact R'|]. replace (Z.of_nat (S k)) with (Z.of_nat k + 1) by lia. now apply (dn_later d). }
  assert (B : forall k : nat, exists d, real_day d /\ day_number d (- Z.of_nat k)).
  { induction k as [|k (d & R & H)].
    - exact (F 0%nat).
    - destruct (has_previous d R) as (d' & R' & N). exists d'. split; [exact R'|]. replace (- Z.of_nat (S k)) with (- Z.of_nat k - 1) by lia. now apply (dn_earlier d' d). }
  intros n. destruct (Z.le_ge_cases 0 n) as [H|H].
  - destruct (F (Z.to_nat n)) as (d & R & N). exists d. split; [exact R|]. now rewrite Z2Nat.id in N by lia.
  - destruct (B (Z.to_nat (- n))) as (d & R & N). exists d. split; [exact R|]. rewrite Z2Nat.id in N by lia. now rewrite Z.opp_involutive in N.
Qed.
Lemma day_number_iff d n : real_day d -> (day_number d n <-> day_of d = n).
Proof.
  intros R. split; [apply number_of|]. intros <-. destruct (numbered (day_of d)) as (d' & R' & H).
  assert (d = d') as -> by (apply day_of_inj; auto; symmetry; now apply number_of). exact H.
Qed.
Lemma date_forth n : exists y m d, abs_date (n + to_1970) = (y, m, d) /\ real_day (mkDay y m d) /\ day_number (mkDay y m d) n.
Proof.
  destruct (numbered n) as ([y m d] & R & H). exists y, m, d. split; [|auto]. pose proof (number_of _ _ H) as E. unfold day_of in E. cbn in E.
  replace (n + to_1970) with (abs_days y m d) by lia. apply real_iff in R as [R1 R2]. now apply date_back.
Qed.
