(** The two older dates of HTTP. *)
From Coq Require Import ZifyBool ZifyNat ZifyN.
From Verif Require Import Model.GoTime Spec.Calendar Proofs.CalendarP Proofs.GoTimeP Proofs.HttpDateP.
Local Open Scope list_scope.
Local Open Scope Z_scope.
Ltac Zify.zify_post_hook ::= Z.div_mod_to_equations.

Lemma long_day_go k wd p r : nth_error long_week k = Some wd -> chunk_step KLongDay p (wd ++ r) = Some (p, r).
Proof.
  do 7 (destruct k as [|k]; [intros [= <-]; destruct r; vm_compute; reflexivity|]). intros H. destruct k; discriminate H.
Qed.
Lemma short_year_go y t p r : 1969 <= y <= 2068 -> number 2 (y mod 100) t ->
  chunk_step KShortYear p (t ++ r) = Some (mkP y (p_month p) (p_day p) (p_hour p) (p_min p) (p_sec p) (p_ns p) (p_off p), r).
Proof.
  intros HY H. apply two in H as (a & b & -> & HA & HB & E). cbn [app chunk_step]. unfold atoi2.
  pose proof HA as DA. pose proof HB as DB. apply digit_iff in HA, HB. unfold digit_char in DA, DB.
  replace ((a =? 43) || (a =? 45))%N with false by lia. rewrite HA, HB. cbn [andb]. rewrite <- E.
  do 2 f_equal. f_equal. destruct (69 <=? y mod 100) eqn:Q; lia.
Qed.
Lemma month_go m mo p r : 1 <= m <= 12 -> nth_error months (Z.to_nat (m - 1)) = Some mo ->
  chunk_step KMonthName p (mo ++ r) = Some (mkP (p_year p) m (p_day p) (p_hour p) (p_min p) (p_sec p) (p_ns p) (p_off p), r).
Proof. apply month_name_go. Qed.
Lemma kday n t p r : number 2 n t ->
  chunk_step KDay p (t ++ r) = Some (mkP (p_year p) (p_month p) n (p_hour p) (p_min p) (p_sec p) (p_ns p) (p_off p), r).
Proof. intros H. cbn [chunk_step]. now rewrite (getnum_two n t _ true H). Qed.
Lemma khour n t p r : number 2 n t -> n <= 23 ->
  chunk_step KHour p (t ++ r) = Some (mkP (p_year p) (p_month p) (p_day p) n (p_min p) (p_sec p) (p_ns p) (p_off p), r).
Proof. intros H L. cbn [chunk_step]. rewrite (getnum_two n t _ false H). replace (n <? 24) with true by lia. reflexivity. Qed.
Lemma kminute n t p r : number 2 n t -> n <= 59 ->
  chunk_step KMinute p (t ++ r) = Some (mkP (p_year p) (p_month p) (p_day p) (p_hour p) n (p_sec p) (p_ns p) (p_off p), r).
Proof. intros H L. cbn [chunk_step]. rewrite (getnum_two n t _ true H). replace (n <? 60) with true by lia. reflexivity. Qed.
Lemma ksecond n t p r : number 2 n t -> n <= 59 -> p_ns p = 0 ->
  chunk_step KSecond p (t ++ 32%N :: r) = Some (mkP (p_year p) (p_month p) (p_day p) (p_hour p) (p_min p) n 0 (p_off p), 32%N :: r).
Proof.
  intros H L E. change (t ++ 32%N :: r) with (t ++ [] ++ 32%N :: r).
  rewrite (second_go n t [] [] (32%N :: r)); [reflexivity|exact H|exact L|constructor|exact E|cbn; repeat split; discriminate].
Qed.
Lemma underday_go d t p r : place2 d t -> no_digit r ->
  chunk_step KUnderDay p (cutspace t ++ r) = Some (mkP (p_year p) (p_month p) d (p_hour p) (p_min p) (p_sec p) (p_ns p) (p_off p), r).
Proof.
  intros H R. cbn [chunk_step]. inversion H as [d' t' N|d' t' N]; subst.
  - rewrite cutspace_no by (rewrite <- (app_nil_r t); apply (number_no_space 2 d); [exact N|auto with arith]).
    assert (S : no_space (t ++ r)) by (apply (number_no_space 2 d); [exact N|auto with arith]).
    destruct (t ++ r) as [|c q] eqn:E; [now rewrite <- E, (getnum_two d t r false N)|]. cbn in S. apply N.eqb_neq in S. rewrite S, <- E.
    now rewrite (getnum_two d t r false N).
  - change (str " " ++ t') with (32%N :: t'). cbn [cutspace N.eqb Pos.eqb].
    rewrite cutspace_no by (rewrite <- (app_nil_r t'); apply (number_no_space 1 d); [exact N|auto with arith]).
    assert (S : no_space (t' ++ r)) by (apply (number_no_space 1 d); [exact N|auto with arith]).
    destruct (t' ++ r) as [|c q] eqn:E; [now rewrite <- E, (getnum_one d t' r N R)|]. cbn in S. apply N.eqb_neq in S. rewrite S, <- E.
    now rewrite (getnum_one d t' r N R).
Qed.
Lemma cutspace_app d t r : place2 d t -> cutspace (t ++ r) = cutspace t ++ r.
Proof.
  intros H. inversion H as [d' t' N|d' t' N]; subst.
  - rewrite !cutspace_no; [reflexivity| |]; [rewrite <- (app_nil_r t)|]; apply (number_no_space 2 d); auto with arith.
  - change (str " " ++ t') with (32%N :: t'). cbn [app cutspace N.eqb Pos.eqb].
    rewrite !cutspace_no; [reflexivity| |]; [rewrite <- (app_nil_r t')|]; apply (number_no_space 1 d); auto with arith.
Qed.
Lemma space_cut p r : chunk_step (Lit [32%N]) p (32%N :: r) = Some (p, cutspace r).
Proof. reflexivity. Qed.
(** The formats do not take one another's texts. *)
Lemma not_http850 k wd r : nth_error long_week k = Some wd -> parse_with layout_http (wd ++ r) = None.
Proof.
  do 7 (destruct k as [|k]; [intros [= <-]; vm_compute; reflexivity|]). intros H. destruct k; discriminate H.
Qed.
Lemma not_http_asc k wd r : nth_error week k = Some wd -> parse_with layout_http (wd ++ 32%N :: r) = None.
Proof.
  do 7 (destruct k as [|k]; [intros [= <-]; vm_compute; reflexivity|]). intros H. destruct k; discriminate H.
Qed.
Lemma not_850_asc local k wd r : nth_error week k = Some wd -> parse_rfc850 local (wd ++ 32%N :: r) = None.
Proof.
  do 7 (destruct k as [|k]; [intros [= <-]; vm_compute; reflexivity|]). intros H. destruct k; discriminate H.
Qed.
Ltac fields := cbn [p_year p_month p_day p_hour p_min p_sec p_ns p_off].
(** The machine's own zone does not use the name GMT for anything else than UTC. *)
Definition gmt_utc (local : bytes -> Z -> option Z) : Prop := forall n, local (str "GMT") n = None \/ local (str "GMT") n = Some 0.
Lemma date850_read local y x t : gmt_utc local -> 1969 <= y <= 2068 -> date850 y x t -> parse_rfc850 local t = Some x.
Proof.
  intros HG HY H. inversion H as [y' m d h mi s n ty td th tmi ts wd mo NY ND RD DN NH LH NI LI NS LS WD MO E1 E2]. subst y'.
  pose proof RD as RD0. apply real_iff in RD0 as [RM RDD].
  unfold parse_rfc850, layout_rfc850. change (str ", ") with [44%N; 32%N]. change (str " ") with [32%N]. change (str ":") with [58%N]. change (str "-") with [45%N].
  change (str " GMT") with (32%N :: str "GMT"). cbn [app].
  cbn [run_chunks]. rewrite (long_day_go _ _ _ _ WD). cbn [app]. rewrite comma_go by (now apply (number_no_space 2 d); auto with arith).
  rewrite (kday d td _ _ ND). fields. rewrite (lit_go 45) by discriminate. rewrite (month_name_go m mo _ _ RM MO). fields. rewrite (lit_go 45) by discriminate.
  rewrite (short_year_go y ty _ _ HY NY). fields. rewrite space_go by (now apply (number_no_space 2 h); auto with arith).
  rewrite (khour h th _ _ NH LH). fields. rewrite (lit_go 58) by discriminate. rewrite (kminute mi tmi _ _ NI LI). fields. rewrite (lit_go 58) by discriminate.
  rewrite (ksecond s ts _ _ NS LS) by reflexivity. fields. rewrite space_go by (cbn; discriminate).
  cbn [p_year p_month p_day p_hour p_min p_sec p_ns p_off]. cbv zeta.
  change (beqb (firstn 3 (str "GMT")) (str "UTC")) with false. cbn iota.
  change (zone_name (str "GMT")) with (Some 3%nat). cbn iota. change (skipn 3 (str "GMT")) with (@nil N). cbn iota. change (firstn 3 (str "GMT")) with (str "GMT").
  replace ((1 <=? d) && (d <=? days_in m y)) with true by lia.
  assert (G : go_date y m d h mi s 0 = n * (24 * 3600 * 1000000000) + in_day h mi s []).
  { unfold in_day. cbn [value length Z.of_nat]. change (0 * 1000000000 / 10 ^ 0) with 0. apply number_of in DN. unfold day_of in DN. cbn in DN. unfold go_date. rewrite DN. lia. }
  rewrite G. destruct (HG ((n * (24 * 3600 * 1000000000) + in_day h mi s []) / 1000000000)) as [-> | ->]; [reflexivity|]. f_equal. lia.
Qed.
Lemma asctime_read x t : asctime x t -> parse_with layout_ansic t = Some x.
Proof.
  intros H. inversion H as [y m d h mi s n ty td th tmi ts wd mo NY ND RD DN NH LH NI LI NS LS WD MO E1 E2].
  pose proof RD as RD0. apply real_iff in RD0 as [RM RDD].
  unfold parse_with, layout_ansic. change (str " ") with [32%N]. change (str ":") with [58%N]. cbn [app].
  cbn [parse_chunks]. rewrite (day_name_go _ _ _ _ WD). rewrite space_go by (apply (month_no_space _ _ _ MO)). rewrite (month_name_go m mo _ _ RM MO). fields.
  rewrite space_cut, (cutspace_app d td _ ND). rewrite (underday_go d td _ _ ND) by reflexivity. fields.
  rewrite space_go by (now apply (number_no_space 2 h); auto with arith).
  rewrite (khour h th _ _ NH LH). fields. rewrite (lit_go 58) by discriminate. rewrite (kminute mi tmi _ _ NI LI). fields. rewrite (lit_go 58) by discriminate.
  rewrite (ksecond s ts _ _ NS LS) by reflexivity. fields. rewrite space_go by (rewrite <- (app_nil_r ty); now apply (number_no_space 4 y); auto with arith).
  rewrite <- (app_nil_r ty), (year_go y ty _ _ NY). fields. cbn [p_year p_month p_day p_hour p_min p_sec p_ns p_off].
  replace ((1 <=? d) && (d <=? days_in m y)) with true by lia. f_equal. unfold in_day. cbn [value length Z.of_nat].
  change (0 * 1000000000 / 10 ^ 0) with 0. apply number_of in DN. unfold day_of in DN. cbn in DN. unfold go_date. rewrite DN. lia.
Qed.
(** *** http.ParseTime *)
Lemma http_fixdate local x t : fixdate x t -> http_parse_time local t = Some x.
Proof. intros H. unfold http_parse_time. now rewrite (fixdate_read x t H). Qed.
Lemma http_850 local y x t : gmt_utc local -> 1969 <= y <= 2068 -> date850 y x t -> http_parse_time local t = Some x.
Proof.
  intros HG HY H. unfold http_parse_time. rewrite (date850_read local y x t HG HY H). inversion H as [y' m d h mi s n ty td th tmi ts wd mo NY ND RD DN NH LH NI LI NS LS WD MO E1 E2].
  now rewrite (not_http850 _ _ _ WD).
Qed.
Lemma http_asctime local x t : asctime x t -> http_parse_time local t = Some x.
Proof.
  intros H. unfold http_parse_time. rewrite (asctime_read x t H). inversion H as [y m d h mi s n ty td th tmi ts wd mo NY ND RD DN NH LH NI LI NS LS WD MO E1 E2].
  change (str " ") with [32%N]. cbn [app]. now rewrite (not_http_asc _ _ _ WD), (not_850_asc local _ _ _ WD).
Qed.
