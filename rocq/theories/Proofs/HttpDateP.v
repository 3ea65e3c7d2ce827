(** The dates of HTTP. *)
From Coq Require Import ZifyBool ZifyNat ZifyN.
From Verif Require Import Model.GoTime Spec.Calendar Proofs.CalendarP Proofs.GoTimeP Proofs.FormatP.
Local Open Scope list_scope.
Local Open Scope Z_scope.
Ltac Zify.zify_post_hook ::= Z.div_mod_to_equations.

Lemma number_unique w n : forall t t', number w n t -> number w n t' -> t = t'.
Proof.
  intros t t' (L1 & F1 & V1) (L2 & F2 & V2). assert (L : length t = length t') by congruence. clear L1 L2. rewrite <- V2 in V1. clear V2.
  revert V1. cut (forall a a', 0 <= a -> 0 <= a' -> value t a = value t' a' -> t = t' /\ a = a'); [intros C V; apply (C 0 0); lia|].
  revert t' F2 L. induction F1 as [|c t HC F1 IH]; intros [|c' t'] F2 L; try discriminate L; intros a a' HA HA' V; [cbn in V; auto|].
  inversion_clear F2 as [|? ? HC' F2']. cbn in V, L. unfold digit_char in HC, HC'.
  destruct (IH t' F2' ltac:(lia) (a * 10 + (Z.of_N c - 48)) (a' * 10 + (Z.of_N c' - 48)) ltac:(lia) ltac:(lia) V) as [-> E].
  assert (c = c') by lia. subst c'. split; [reflexivity|lia].
Qed.
(** Numbers are written with leading zeros. *)
Lemma value_zeros k t : value (repeat 48%N k ++ t) 0 = value t 0.
Proof. induction k as [|k IH]; [reflexivity|]. cbn [repeat app value]. exact IH. Qed.
Lemma undec_value t : forall acc n, undec acc t = Some n -> Forall digit_char t /\ value t (Z.of_N acc) = Z.of_N n.
Proof.
  induction t as [|c t IH]; intros acc n H; cbn [undec] in H; [injection H as <-; split; [constructor|reflexivity]|].
  unfold Format.is_digit in H. destruct ((48 <=? c) && (c <=? 57))%N eqn:E; [|discriminate H]. destruct (IH _ _ H) as [A B].
  split; [constructor; [unfold digit_char; lia|exact A]|]. cbn [value]. rewrite <- B. f_equal. lia.
Qed.
Lemma pad_ok w n : (1 <= w)%nat -> 0 <= n < 10 ^ Z.of_nat w -> number w n (pad w n).
Proof.
  intros HW H. unfold pad, number. destruct (undec_value (dec (Z.to_N n)) 0%N (Z.to_N n) (undec_dec _)) as [A B].
  assert (L : (length (dec (Z.to_N n)) <= w)%nat).
  { unfold dec. rewrite map_length. apply digits_len; [lia| |exact HW]. apply N2Z.inj_lt. rewrite N2Z.inj_pow, nat_N_Z, Z2N.id by lia. apply H. }
  cbv zeta. split; [rewrite app_length, repeat_length; lia|]. split.
  - apply Forall_app. split; [|exact A]. apply Forall_forall. intros c Hc. apply repeat_spec in Hc. subst c. unfold digit_char. lia.
  - rewrite value_zeros. change 0 with (Z.of_N 0) at 1. rewrite B. lia.
Qed.
Lemma pad2 n : 0 <= n < 100 -> number 2 n (pad 2 n).
Proof. intros H. apply pad_ok; [lia|exact H]. Qed.
Lemma pad4 n : 0 <= n <= 9999 -> number 4 n (pad 4 n).
Proof. intros H. apply pad_ok; [lia|]. change (10 ^ Z.of_nat 4) with 10000. lia. Qed.
Lemma number4_range n t : number 4 n t -> 0 <= n <= 9999.
Proof. intros (L & F & V). pose proof (value_range t F) as H. rewrite L, V in H. change (10 ^ Z.of_nat 4) with 10000 in H. lia. Qed.
Lemma number2_range n t : number 2 n t -> 0 <= n <= 99.
Proof. intros (L & F & V). pose proof (value_range t F) as H. rewrite L, V in H. change (10 ^ Z.of_nat 2) with 100 in H. lia. Qed.

(** The names. *)
Lemma seven n : nth_error week (Z.to_nat (n mod 7)) = Some (nth (Z.to_nat ((n + to_1970 + 1) mod 7)) day_names []).
Proof.
  assert (H : n mod 7 = 0 \/ n mod 7 = 1 \/ n mod 7 = 2 \/ n mod 7 = 3 \/ n mod 7 = 4 \/ n mod 7 = 5 \/ n mod 7 = 6) by lia.
  unfold to_1970. repeat (destruct H as [H|H];
    [rewrite H; match type of H with _ = ?k => replace ((n + 719162 + 1) mod 7) with ((k + 4) mod 7) by lia end; reflexivity|]).
  rewrite H. replace ((n + 719162 + 1) mod 7) with ((6 + 4) mod 7) by lia. reflexivity.
Qed.
Lemma twelve_names m : 1 <= m <= 12 -> nth_error months (Z.to_nat (m - 1)) = Some (nth (Z.to_nat (m - 1)) month_names []).
Proof. intros H. apply twelve in H. repeat (destruct H as [->|H]; [reflexivity|]). rewrite H. reflexivity. Qed.
Lemma day_name_go k wd p r : nth_error week k = Some wd -> chunk_step KDayName p (wd ++ r) = Some (p, r).
Proof.
  do 7 (destruct k as [|k]; [intros [= <-]; destruct r; vm_compute; reflexivity|]). intros H. destruct k; discriminate H.
Qed.
Lemma month_name_go m mo p r : 1 <= m <= 12 -> nth_error months (Z.to_nat (m - 1)) = Some mo ->
  chunk_step KMonthName p (mo ++ r) = Some (mkP (p_year p) m (p_day p) (p_hour p) (p_min p) (p_sec p) (p_ns p) (p_off p), r).
Proof.
  intros H. apply twelve in H. repeat (destruct H as [->|H]; [intros [= <-]; destruct p, r; vm_compute; reflexivity|]). rewrite H. intros [= <-]. destruct p, r; vm_compute; reflexivity.
Qed.
Definition no_space (r : bytes) : Prop := match r with c :: _ => c <> 32%N | [] => True end.
Lemma cutspace_no r : no_space r -> cutspace r = r.
Proof. destruct r as [|c r]; [reflexivity|]. cbn. intros H. apply N.eqb_neq in H. now rewrite H. Qed.
Lemma space_go p r : no_space r -> chunk_step (Lit [32%N]) p (32%N :: r) = Some (p, r).
Proof. intros H. cbn. now rewrite (cutspace_no r H). Qed.
Lemma comma_go p r : no_space r -> chunk_step (Lit [44%N; 32%N]) p (44%N :: 32%N :: r) = Some (p, r).
Proof. intros H. cbn. now rewrite (cutspace_no r H). Qed.
Lemma number_no_space w n t r : number w n t -> (0 < w)%nat -> no_space (t ++ r).
Proof. intros (L & F & _) HW. destruct t as [|c t]; [cbn in L; lia|]. inversion_clear F as [|? ? HC _]. cbn. unfold digit_char in HC. lia. Qed.
Lemma month_no_space k mo r : nth_error months k = Some mo -> no_space (mo ++ r).
Proof. do 12 (destruct k as [|k]; [intros [= <-]; cbn; discriminate|]). intros H. destruct k; discriminate H. Qed.

Lemma fixdate_read x t : fixdate x t -> parse_with layout_http t = Some x.
Proof.
  intros H. inversion H as [y m d h mi s n ty td th tmi ts wd mo NY ND RD DN NH LH NI LI NS LS WD MO E1 E2].
  pose proof RD as RD0. apply real_iff in RD0 as [RM RDD].
  unfold parse_with, layout_http. change (str ", ") with [44%N; 32%N]. change (str " ") with [32%N]. change (str ":") with [58%N].
  cbn [parse_chunks]. rewrite (day_name_go _ _ _ _ WD). cbn [app]. rewrite comma_go by (now apply (number_no_space 2 d); auto with arith).
  assert (KD : forall p r, chunk_step KDay p (td ++ r) = Some (mkP (p_year p) (p_month p) d (p_hour p) (p_min p) (p_sec p) (p_ns p) (p_off p), r))
    by (intros; cbn [chunk_step]; now rewrite (getnum_two d td _ true ND)).
  rewrite KD. rewrite space_go by (apply (month_no_space _ _ _ MO)). rewrite (month_name_go m mo _ _ RM MO).
  rewrite space_go by (now apply (number_no_space 4 y); auto with arith). rewrite (year_go y ty _ _ NY).
  rewrite space_go by (now apply (number_no_space 2 h); auto with arith).
  assert (KH : forall p r, chunk_step KHour p (th ++ r) = Some (mkP (p_year p) (p_month p) (p_day p) h (p_min p) (p_sec p) (p_ns p) (p_off p), r))
    by (intros; cbn [chunk_step]; rewrite (getnum_two h th _ false NH); replace (h <? 24) with true by lia; reflexivity).
  rewrite KH. rewrite (lit_go 58) by discriminate.
  assert (KM : forall p r, chunk_step KMinute p (tmi ++ r) = Some (mkP (p_year p) (p_month p) (p_day p) (p_hour p) mi (p_sec p) (p_ns p) (p_off p), r))
    by (intros; cbn [chunk_step]; rewrite (getnum_two mi tmi _ true NI); replace (mi <? 60) with true by lia; reflexivity).
  rewrite KM. rewrite (lit_go 58) by discriminate.
  change (ts ++ str " GMT") with (ts ++ [] ++ str " GMT").
  rewrite (second_go s ts [] [] (str " GMT")); [|exact NS|exact LS|constructor|reflexivity|cbn; repeat split; discriminate].
  change (chunk_step (Lit (str " GMT")) ?p (str " GMT")) with (Some (p, @nil N)).
  cbn [p_year p_month p_day p_hour p_min p_sec p_ns p_off length Z.of_nat value].
  change (str " GMT") with [32%N; 71%N; 77%N; 84%N]. cbn [chunk_step skip cutspace N.eqb Pos.eqb p_year p_month p_day p_hour p_min p_sec p_ns p_off].
  replace ((1 <=? d) && (d <=? days_in m y)) with true by lia. f_equal. unfold in_day. cbn [value length Z.of_nat].
  change (0 * 1000000000 / 10 ^ 0) with 0. apply number_of in DN. unfold day_of in DN. cbn in DN. unfold go_date. rewrite DN. lia.
Qed.
(** The text for an instant, to the second. *)
Definition year_of (x : Z) : Z := fst (fst (abs_date (x / 1000000000 / 86400 + to_1970))).
Lemma format_fixdate x : 0 <= year_of x <= 9999 -> fixdate (x / 1000000000 * 1000000000) (http_format x).
Proof.
  unfold year_of, http_format. cbv zeta. set (secs := x / 1000000000). intros HY.
  destruct (date_forth (secs / 86400)) as (y & m & d & E & RD & DN). rewrite E in *. cbn in HY. pose proof RD as RD0. apply real_iff in RD0 as [RM RDD].
  assert (HD : d <= 31). { unfold days_in in RDD. apply twelve in RM. destruct (is_leap y); repeat (destruct RM as [->|RM]; [closed_months; lia|]); subst m; closed_months; lia. }
  assert (HH : 0 <= secs mod 86400 / 3600 < 100) by lia. assert (HM : 0 <= secs mod 86400 mod 3600 / 60 < 100) by lia. assert (HS : 0 <= secs mod 86400 mod 60 < 100) by lia.
  pose proof (fx_date y m d (secs mod 86400 / 3600) (secs mod 86400 mod 3600 / 60) (secs mod 86400 mod 60) (secs / 86400)
    (pad 4 y) (pad 2 d) (pad 2 (secs mod 86400 / 3600)) (pad 2 (secs mod 86400 mod 3600 / 60)) (pad 2 (secs mod 86400 mod 60))
    (nth (Z.to_nat ((secs / 86400 + to_1970 + 1) mod 7)) day_names []) (nth (Z.to_nat (m - 1)) month_names [])
    (pad4 y HY) (pad2 d ltac:(lia)) RD DN (pad2 _ HH) ltac:(lia) (pad2 _ HM) ltac:(lia) (pad2 _ HS) ltac:(lia) (seven _) (twelve_names m RM)) as F.
  match type of F with fixdate ?a _ => replace (secs * 1000000000) with a; [exact F|] end.
  unfold in_day. cbn [value length Z.of_nat]. change (0 * 1000000000 / 10 ^ 0) with 0. lia.
Qed.
Lemma fixdate_unique x t t' : fixdate x t -> fixdate x t' -> t = t'.
Proof.
  intros H H'. inversion H as [y m d h mi s n ty td th tmi ts wd mo NY ND RD DN NH LH NI LI NS LS WD MO E1 E2].
  inversion H' as [y' m' d' h' mi' s' n' ty' td' th' tmi' ts' wd' mo' NY' ND' RD' DN' NH' LH' NI' LI' NS' LS' WD' MO' E1' E2'].
  unfold in_day in *. cbn [value length Z.of_nat] in *. change (0 * 1000000000 / 10 ^ 0) with 0 in *.
  pose proof (number2_range _ _ NH). pose proof (number2_range _ _ NI). pose proof (number2_range _ _ NS).
  pose proof (number2_range _ _ NH'). pose proof (number2_range _ _ NI'). pose proof (number2_range _ _ NS').
  assert (n = n' /\ h = h' /\ mi = mi' /\ s = s') as (-> & -> & -> & ->) by lia.
  assert (ED : mkDay y m d = mkDay y' m' d') by (apply day_of_inj; auto; apply number_of in DN, DN'; congruence). injection ED as -> -> ->.
  rewrite (number_unique _ _ _ _ NY NY'), (number_unique _ _ _ _ ND ND'), (number_unique _ _ _ _ NH NH'), (number_unique _ _ _ _ NI NI'), (number_unique _ _ _ _ NS NS').
  congruence.
Qed.
Lemma fixdate_year x t : fixdate x t -> 0 <= year_of x <= 9999 /\ x / 1000000000 * 1000000000 = x.
Proof.
  intros H. inversion H as [y m d h mi s n ty td th tmi ts wd mo NY ND RD DN NH LH NI LI NS LS WD MO E1 E2].
  unfold in_day in *. cbn [value length Z.of_nat] in *. change (0 * 1000000000 / 10 ^ 0) with 0 in *.
  pose proof (number2_range _ _ NH). pose proof (number2_range _ _ NI). pose proof (number2_range _ _ NS). pose proof (number4_range _ _ NY).
  split; [|lia]. unfold year_of.
  replace ((n * (24 * 3600 * 1000000000) + (((h * 60 + mi) * 60 + s) * 1000000000 + 0)) / 1000000000 / 86400) with n by lia.
  apply number_of in DN. unfold day_of in DN. cbn in DN. replace (n + to_1970) with (abs_days y m d) by lia. apply real_iff in RD as [RM RD].
  now rewrite (date_back y m d RM RD).
Qed.
Lemma echo x t : fixdate x t -> http_format x = t.
Proof.
  intros H. destruct (fixdate_year x t H) as [HY HX]. apply (fixdate_unique x); [|exact H]. rewrite <- HX at 1. now apply format_fixdate.
Qed.
Lemma next_real d d' : next_day d d' -> real_day d /\ real_day d'.
Proof.
  intros [y m dd n L R|y m n L H|y].
  - split; exists n; (split; [exact L|cbn; lia]).
  - split; [exists n; split; [exact L|cbn; inversion L; lia]|].
    apply real_iff. assert (1 <= m) by (inversion L as [? I|? I| |]; try lia; cbn in I; intuition lia). split; [lia|].
    split; [lia|]. assert (M : 1 <= m + 1 <= 12) by lia. apply twelve in M. unfold days_in.
    destruct (is_leap y); repeat (destruct M as [->|M]; [closed_months; lia|]); rewrite M; closed_months; lia.
  - split; [exists 31; split; [apply ml_31; cbn; tauto|cbn; lia]|exists 31; split; [apply ml_31; cbn; tauto|cbn; lia]].
Qed.
Lemma numbered_real d n : day_number d n -> real_day d.
Proof.
  intros [|a b k _ H|a b k _ H]; [exists 31; split; [apply ml_31; cbn; tauto|cbn; lia]| |]; apply next_real in H; tauto.
Qed.
