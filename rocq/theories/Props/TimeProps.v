(** Properties C93, C94 and C102: dates and times as texts. *)
From Coq Require Import String ZifyBool ZifyNat ZifyN.
From Verif Require Import Lib.Str Model.JsonFile Model.Fetch Model.GoTime Spec.Calendar Spec.Refresh
  Proofs.CalendarP Proofs.GoTimeP Proofs.HttpDateP Proofs.OldDateP Proofs.StateP Proofs.JsonStateP Props.ConnProps Props.InputProps Props.StateProps Props.JsonProps.
From Coq Require Import List.
Import ListNotations.
Local Open Scope string_scope.
Local Open Scope list_scope.
Local Open Scope N_scope.

(** Build times are read by [parse_time]. *)
Definition reads_times (e : env) : Prop := forall t, e_ptime e t = parse_time t.
Definition env_time : env := mkEnv isort (fun x => x) (reader (fun _ => 0%nat)) decode_slurm parse_time.
(** A file with a build time. *)
Definition file_at (t : string) : bytes :=
  q "{'metadata':{'buildtime':'" ++ str t ++ q "'},'roas':[{'prefix':'10.0.0.0/8','maxLength':8,'asn':'AS1','ta':'x'}]}".
Ltac num := split; [reflexivity|split; [repeat (constructor; [vm_compute; split; discriminate|]); constructor|reflexivity]].
(** Instants are numbers of nanoseconds since 1970. *)
Definition moment (h mi s : Z) : Z := (((h * 60 + mi) * 60 + s) * 1000000000)%Z.
Ltac epoch H MI S :=
  unfold rfc3339_capital, rfc3339;
  match goal with |- stamp ?a ?b ?c ?w ?l ?hh ?mm ?x ?t =>
    change (stamp a b c w l hh mm (0 * (24 * 3600 * 1000000000) + in_day H MI S [] - 0 * (60 * 1000000000))%Z t) end.

(** C93 A build time written as RFC 3339 says, with capital letters and no leap second, is read
    as the instant it stands for. *)
Theorem C93_reads_partial : forall x t, rfc3339_capital x t -> parse_time t = Some x.
Proof. intros x t H. now apply parse_time_iff, capital_loose. Qed.
Example C93_reads_partial_case : rfc3339_capital (moment 1 30 7) (str "1970-01-01T01:30:07Z") /\ parse_time (str "1970-01-01T01:30:07Z") = Some (moment 1 30 7) /\
  parse_time (str "2024-02-29T23:59:59.25+01:00") = Some 1709247599250000000%Z /\ parse_time (str "2023-02-29T00:00:00Z") = None.
Proof.
  split; [|vm_compute; auto]. epoch 1%Z 30%Z 7%Z. change (str "1970-01-01T01:30:07Z") with
    (str "1970" ++ str "-" ++ str "01" ++ str "-" ++ str "01" ++ 84 :: str "01" ++ str ":" ++ str "30" ++ str ":" ++ str "07" ++ [] ++ [90]).
  apply (st_stamp _ _ _ _ _ _ _ 1970 1 1 1 30 7 [] 0 0) with (w := 2%nat); try num; try reflexivity; try discriminate; try constructor; try reflexivity.
  - exists 31%Z. split; [apply ml_31; cbn; tauto|cbn; lia].
Qed.
(** Exactly which texts are read, and as what. *)
Theorem C93_exact_partial : forall t x, parse_time t = Some x <-> loose3339 x t.
Proof. exact parse_time_iff. Qed.
Example C93_exact_partial_case : loose3339 (moment 5 0 0 + 500000000) (str "1970-01-01T5:00:00,5Z").
Proof. apply parse_time_iff. vm_compute. reflexivity. Qed.
Lemma small_letters : rfc3339 (moment 1 30 7) (str "1970-01-01t01:30:07z").
Proof.
  epoch 1%Z 30%Z 7%Z. change (str "1970-01-01t01:30:07z") with
    (str "1970" ++ str "-" ++ str "01" ++ str "-" ++ str "01" ++ 116 :: str "01" ++ str ":" ++ str "30" ++ str ":" ++ str "07" ++ [] ++ [122]).
  apply (st_stamp _ _ _ _ _ _ _ 1970 1 1 1 30 7 [] 0 0) with (w := 2%nat); try num; try reflexivity; try discriminate; try (constructor; auto; fail); try (now right).
  exists 31%Z. split; [apply ml_31; cbn; tauto|cbn; lia].
Qed.
(** False in full: texts of RFC 3339 with small letters or a leap second are refused ... *)
Theorem C93_refused_refuted : exists x y t u, rfc3339 x t /\ parse_time t = None /\ rfc3339 y u /\ parse_time u = None /\
  (forall c, In c u -> ~ (97 <= c <= 122)).
Proof.
  exists (moment 1 30 7), (moment 23 59 60), (str "1970-01-01t01:30:07z"), (str "1970-01-01T23:59:60Z").
  split; [|split; [vm_compute; reflexivity|split; [|split; [vm_compute; reflexivity|]]]].
  - exact small_letters.
  - epoch 23%Z 59%Z 60%Z. change (str "1970-01-01T23:59:60Z") with
      (str "1970" ++ str "-" ++ str "01" ++ str "-" ++ str "01" ++ 84 :: str "23" ++ str ":" ++ str "59" ++ str ":" ++ str "60" ++ [] ++ [90]).
    apply (st_stamp _ _ _ _ _ _ _ 1970 1 1 23 59 60 [] 0 0) with (w := 2%nat); try num; try reflexivity; try discriminate; try (constructor; auto; fail); try (now left).
    exists 31%Z. split; [apply ml_31; cbn; tauto|cbn; lia].
  - intros c H. cbn in H. repeat (destruct H as [<-|H]; [lia|]). destruct H.
Qed.
(** ... and texts that are not RFC 3339 are read. *)
Theorem C93_accepted_refuted : exists t x, parse_time t = Some x /\ forall y, ~ rfc3339 y t.
Proof.
  exists (str "1970-01-01T1:00:00Z"), (moment 1 0 0). split; [vm_compute; reflexivity|]. intros y H.
  inversion H as [y0 m d h mi s f off n tz ty tm td th tmi ts tf toff w NY NM ND RD DN TZ OW NH LH NI LI NS LS FR OF E1 E2].
  destruct NY as (LY & _). destruct NM as (LM & _). destruct ND as (LD & _). subst w. destruct NH as (L2 & FH & _).
  do 4 (destruct ty as [|? ty]; [discriminate LY|]). destruct ty; [|discriminate LY].
  do 2 (destruct tm as [|? tm]; [discriminate LM|]). destruct tm; [|discriminate LM].
  do 2 (destruct td as [|? td]; [discriminate LD|]). destruct td; [|discriminate LD].
  do 2 (destruct th as [|? th]; [discriminate L2|]). destruct th; [|discriminate L2].
  cbn in E2. injection E2. intros. subst. inversion_clear FH as [|? ? _ F2]. inversion_clear F2 as [|? ? C _]. unfold digit_char in C. lia.
Qed.
(** What the daemon makes of it: with -checktime, what is newly published comes from a file whose
    build time, as it is read, is at most 24 hours ago; also by RFC 3339 where that applies. *)
Theorem C93_published_partial : forall e c h i, wf_env e -> reads_times e -> sc_check c = true ->
  ~ same_served (State.after e c h) (State.after e c (h ++ [i])) -> (exists x, served (State.after e c (h ++ [i])) x) ->
  let d := st_data (State.after e c (h ++ [i])) in rl_gen d = None ->
  (exists x, loose3339 x (rl_build d) /\ (i_now i <= x + 24 * 3600 * 1000000000)%Z) /\
  (forall x, rfc3339_capital x (rl_build d) -> (i_now i <= x + 24 * 3600 * 1000000000)%Z).
Proof.
  intros e c h i HE HT HC HS HX d HG. destruct (C45_published_partial e c h i HE HS HX HC) as (b & HB & HL).
  unfold built in HB. fold d in HB. rewrite HG, HT in HB. unfold Refresh.day in HL. split.
  - exists b. split; [now apply parse_time_iff|lia].
  - intros x H. apply C93_reads_partial in H. rewrite H in HB. injection HB as ->. lia.
Qed.
Example C93_published_partial_case : reads_times env_time /\ ~ same_served (State.after env_time cfgS []) (State.after env_time cfgS [at_h 25 (file_at "1970-01-01T01:30:07Z")]) /\
  served (State.after env_time cfgS [at_h 25 (file_at "1970-01-01T01:30:07Z")]) idv /\
  ~ served (State.after env_time cfgS [at_h 26 (file_at "1970-01-01T01:30:07Z")]) idv.
Proof.
  split; [intros t; reflexivity|]. assert (S1 : served (State.after env_time cfgS [at_h 25 (file_at "1970-01-01T01:30:07Z")]) idv) by (apply servedb_ok; vm_compute; reflexivity).
  split; [|split; [exact S1|apply servedb_no; vm_compute; reflexivity]].
  intros H. apply H in S1. revert S1. apply servedb_no. vm_compute. reflexivity.
Qed.
(** False in full: a fresh file is not used when its build time has small letters. *)
Theorem C93_fresh_refuted : exists e c i t x, wf_env e /\ reads_times e /\ sc_check c = true /\
  i_file i = Some (file_at t) /\ rfc3339 x (str t) /\ (x <= i_now i <= x + 24 * 3600 * 1000000000)%Z /\
  (forall y, ~ served (State.after e c [i]) y).
Proof.
  exists env_time, cfgS, (at_h 2 (file_at "1970-01-01t01:30:07z")), "1970-01-01t01:30:07z", (moment 1 30 7).
  split; [apply (reads_wf (fun _ => 0%nat)); [apply isort_sorts|split; reflexivity]|]. split; [intros t; reflexivity|]. split; [reflexivity|]. split; [reflexivity|].
  split; [exact small_letters|]. split; [unfold moment, at_h, hour, second; cbn; lia|]. intros y H. unfold served in H.
  assert (E : ids (get_current_sds (st_server (State.after env_time cfgS [at_h 2 (file_at "1970-01-01t01:30:07z")]))) = []) by (vm_compute; reflexivity).
  rewrite E in H. destruct H.
Qed.

(** C94 If-Modified-Since.  After a response with a new ETag (or none) and a date in the form of
    RFC 9110, the header of the next request for the file is the same text, whatever else is
    fetched meanwhile and as long as the server says that nothing changed. *)
Definition quiet (file : bytes) (p : bytes * exchange) : Prop :=
  fst p = file -> snd p = NoResponse \/ exists etag lm body, snd p = Response 304 etag lm body.
Definition fetches (c : fcfg) (s : fstate) (l : list (bytes * exchange)) : fstate :=
  fold_left (fun s p => fst (fetch_http c s (fst p) (snd p))) l s.
Lemma put_other {A} (m : bytes -> option A) k a k' : k <> k' -> put m k a k' = m k'.
Proof. unfold put. destruct (beqb k k') eqn:E; [now apply beqb_eq in E|reflexivity]. Qed.
Lemma put_same {A} (m : bytes -> option A) k a : put m k a k = a.
Proof. unfold put. assert (E : beqb k k = true) by now apply beqb_eq. now rewrite E. Qed.
Lemma other_file c s f x file : f <> file -> f_lms (fst (fetch_http c s f x)) file = f_lms s file.
Proof.
  intros H. destruct x as [|st et lm body]; [reflexivity|]. cbn. destruct (st =? 304); [reflexivity|].
  destruct (st =? 200); cbn; [|now apply put_other]. destruct (etag_differs c s f et); [|reflexivity]. cbn. destruct (fc_lm c); [now apply put_other|reflexivity].
Qed.
Lemma quiet_run c file : forall l s, Forall (quiet file) l -> f_lms (fetches c s l) file = f_lms s file.
Proof.
  induction l as [|[f x] l IH]; [reflexivity|]. intros s H. inversion_clear H as [|? ? Q R].
  change (fetches c s ((f, x) :: l)) with (fetches c (fst (fetch_http c s f x)) l). rewrite (IH _ R).
  destruct (beqb f file) eqn:E; [|apply other_file; intros <-; now rewrite (proj2 (beqb_eq f f) eq_refl) in E].
  apply beqb_eq in E as ->. destruct (Q eq_refl) as [E|(et & lm & b & E)]; cbn in E; subst x; reflexivity.
Qed.
Lemma taken c s file etag lm body : fc_lm c = true ->
  (fc_etags c = false \/ etag = [] \/ f_etags s file <> Some etag) ->
  f_lms (fst (fetch_http c s file (Response 200 etag lm body))) file = lm.
Proof.
  intros HL HE. cbn. assert (D : etag_differs c s file etag = true).
  { unfold etag_differs. destruct HE as [->|[->|H]]; [reflexivity|now rewrite Bool.orb_true_r|].
    destruct (beqb etag []) eqn:E; [now rewrite Bool.orb_true_r|]. rewrite Bool.orb_false_r.
    destruct (beqb etag (match f_etags s file with Some t => t | None => [] end)) eqn:E2; [|now rewrite Bool.orb_true_r].
    apply beqb_eq in E2. destruct (f_etags s file); [now subst|]. subst etag. discriminate E. }
  rewrite D. cbn. rewrite HL. apply put_same.
Qed.
Lemma next_request c s file etag lm body l : fc_lm c = true ->
  (fc_etags c = false \/ etag = [] \/ f_etags s file <> Some etag) -> Forall (quiet file) l ->
  rq_ims (request_of c (fetches c s ((file, Response 200 etag lm body) :: l)) file) = lm.
Proof.
  intros HL HE HQ. unfold request_of. cbn [rq_ims]. rewrite HL.
  change (fetches c s ((file, Response 200 etag lm body) :: l)) with (fetches c (fst (fetch_http c s file (Response 200 etag lm body))) l).
  rewrite (quiet_run c file l _ HQ). now apply taken.
Qed.
Theorem C94_echo : forall c s file local t x etag body l, fc_lm c = true -> fixdate x t ->
  (fc_etags c = false \/ etag = [] \/ f_etags s file <> Some etag) -> Forall (quiet file) l ->
  option_map if_modified_since
    (rq_ims (request_of c (fetches c s ((file, Response 200 etag (last_modified local t) body) :: l)) file)) = Some t.
Proof.
  intros c s file local t x etag body l HL HF HE HQ. rewrite (next_request c s file etag _ body l HL HE HQ).
  unfold last_modified, http_parse_time. rewrite (fixdate_read x t HF). cbn. f_equal. unfold if_modified_since.
  destruct (fixdate_year x t HF) as [_ ->]. now apply echo.
Qed.
Definition lm94 : bytes := str "Tue, 17 Nov 2026 10:46:00 GMT".
Example C94_echo_case : fixdate 1794912360000000000 lm94 /\
  request_of (mkFC true true) (fetches (mkFC true true) new_fetch
    [(str "http://a/b.json", Response 200 (str "e1") (last_modified (fun _ _ => None) lm94) (Some []));
     (str "http://a/s.json", Response 404 [] None None); (str "http://a/b.json", NoResponse); (str "http://a/b.json", Response 304 [] None None)]) (str "http://a/b.json")
  = mkRq (Some (str "e1")) (Some 1794912360%Z) /\ if_modified_since 1794912360 = lm94.
Proof.
  split; [|vm_compute; auto]. assert (E : http_format 1794912360000000000 = lm94) by (vm_compute; reflexivity). rewrite <- E.
  change 1794912360000000000%Z with (1794912360000000000 / 1000000000 * 1000000000)%Z at 1. apply format_fixdate. vm_compute. split; discriminate.
Qed.
(** Any other date that is understood comes back as the date of RFC 9110 for its second. *)
Theorem C94_normal : forall c s file local t x d etag body l, fc_lm c = true -> http_parse_time local t = Some x ->
  day_number d (x / 1000000000 / 86400) -> (0 <= year d <= 9999)%Z ->
  (fc_etags c = false \/ etag = [] \/ f_etags s file <> Some etag) -> Forall (quiet file) l ->
  exists t', option_map if_modified_since
    (rq_ims (request_of c (fetches c s ((file, Response 200 etag (last_modified local t) body) :: l)) file)) = Some t' /\
    fixdate (x / 1000000000 * 1000000000) t'.
Proof.
  intros c s file local t x d etag body l HL HP HD HY HE HQ. exists (if_modified_since (x / 1000000000)). rewrite (next_request c s file etag _ body l HL HE HQ).
  unfold last_modified. rewrite HP. cbn. split; [reflexivity|]. unfold if_modified_since.
  assert (E : (x / 1000000000 * 1000000000 / 1000000000 = x / 1000000000)%Z) by (apply Z.div_mul; discriminate).
  rewrite <- E at 1. apply format_fixdate. unfold year_of. rewrite E.
  destruct (date_forth (x / 1000000000 / 86400)) as (y & m & dd & -> & R & D). cbn.
  assert (RD : real_day d) by (exact (numbered_real d _ HD)).
  assert (Q : d = mkDay y m dd) by (apply day_of_inj; auto; apply number_of in HD, D; congruence). now subst d.
Qed.
Example C94_normal_case : http_parse_time (fun _ _ => None) (str "tue, 17 NOV 2026  10:46:00.5 GMT") = Some 1794912360500000000%Z /\
  (exists d, day_number d (1794912360500000000 / 1000000000 / 86400) /\ year d = 2026%Z) /\ if_modified_since (1794912360500000000 / 1000000000) = lm94.
Proof.
  split; [vm_compute; reflexivity|]. split; [|vm_compute; reflexivity]. exists (mkDay 2026 11 17). split; [|reflexivity].
  apply day_number_iff; [|vm_compute; reflexivity]. exists 30%Z. split; [apply ml_30; cbn; tauto|cbn; lia].
Qed.
(** No date is made up when the header is missing or not understood. *)
Theorem C94_none : forall c s file local t etag body l, http_parse_time local t = None ->
  (fc_etags c = false \/ etag = [] \/ f_etags s file <> Some etag) -> Forall (quiet file) l ->
  rq_ims (request_of c (fetches c s ((file, Response 200 etag (last_modified local t) body) :: l)) file) = None.
Proof.
  intros c s file local t etag body l HP HE HQ. destruct (fc_lm c) eqn:HL; [|unfold request_of; now rewrite HL].
  rewrite (next_request c s file etag _ body l HL HE HQ).
  unfold last_modified. now rewrite HP.
Qed.
Example C94_none_case : http_parse_time (fun _ _ => None) [] = None /\ http_parse_time (fun _ _ => None) (str "2026-11-17T10:46:00Z") = None.
Proof. split; vm_compute; reflexivity. Qed.

(** C102 A date in any of the three forms of RFC 9110 is read as the instant it stands for, the
    one with two digits for the year if that is 1969 to 2068. *)
Theorem C102_read : forall local x t, gmt_utc local -> http_date 1969 x t -> http_parse_time local t = Some x.
Proof.
  intros local x t HG [x' t' H|y x' t' H HY|x' t' H]; [now apply http_fixdate|apply (http_850 local y); [exact HG|lia|exact H]|now apply http_asctime].
Qed.
Definition london : bytes -> Z -> option Z := fun n _ => if beqb n (str "GMT") then Some 0%Z else if beqb n (str "BST") then Some 3600%Z else None.
Lemma day_94 : real_day (mkDay 1994 11 6) /\ day_number (mkDay 1994 11 6) 9075.
Proof.
  assert (R : real_day (mkDay 1994 11 6)) by (exists 30%Z; split; [apply ml_30; cbn; tauto|cbn; lia]).
  split; [exact R|]. apply day_number_iff; [exact R|vm_compute; reflexivity].
Qed.
(** The three dates RFC 9110 gives as an example. *)
Definition nov94 : Z := (9075 * (24 * 3600 * 1000000000) + in_day 8 49 37 [])%Z.
Lemma nov94_850 : date850 1994 nov94 (str "Sunday, 06-Nov-94 08:49:37 GMT").
Proof.
  destruct day_94 as [R D].
  apply (d850 1994 11 6 8 49 37 9075 (str "94") (str "06") (str "08") (str "49") (str "37") (str "Sunday") (str "Nov")); try exact R; try exact D; try num; try lia; reflexivity.
Qed.
Lemma nov94_asc : asctime nov94 (str "Sun Nov  6 08:49:37 1994").
Proof.
  destruct day_94 as [R D].
  apply (asc 1994 11 6 8 49 37 9075 (str "1994") (str " 6") (str "08") (str "49") (str "37") (str "Sun") (str "Nov")); try exact R; try exact D; try num; try lia; try reflexivity.
  apply (p2_one 6 (str "6")). num.
Qed.
Example C102_read_case : gmt_utc london /\ nov94 = 784111777000000000%Z /\
  fixdate nov94 (str "Sun, 06 Nov 1994 08:49:37 GMT") /\ http_parse_time london (str "Sun, 06 Nov 1994 08:49:37 GMT") = Some nov94 /\
  http_date 1969 nov94 (str "Sunday, 06-Nov-94 08:49:37 GMT") /\ http_parse_time london (str "Sunday, 06-Nov-94 08:49:37 GMT") = Some nov94 /\
  http_date 1969 nov94 (str "Sun Nov  6 08:49:37 1994") /\ http_parse_time london (str "Sun Nov  6 08:49:37 1994") = Some nov94 /\
  http_parse_time london (str "Sunday, 06-Nov-94 08:49:37 BST") = Some (nov94 - 3600000000000)%Z /\
  http_parse_time london (str "Sunday, 06-Nov-94 08:49:37 EST") = Some nov94 /\
  http_parse_time london (str "Sunday, 06-Nov-94 08:49:37 GMT+5") = Some nov94 /\
  http_parse_time london (str "Sunday, 31-Nov-94 08:49:37 GMT") = None /\ http_parse_time london (str "Sun, 06-Nov-94 08:49:37 GMT") = None.
Proof.
  split; [intros n; now right|]. split; [reflexivity|]. split.
  - destruct day_94 as [R D].
    apply (fx_date 1994 11 6 8 49 37 9075 (str "1994") (str "06") (str "08") (str "49") (str "37") (str "Sun") (str "Nov")); try exact R; try exact D; try num; try lia; reflexivity.
  - split; [vm_compute; reflexivity|]. split; [apply (hd_850 1969 1994); [apply nov94_850|lia]|]. split; [vm_compute; reflexivity|].
    split; [apply hd_asctime, nov94_asc|]. repeat split; vm_compute; reflexivity.
Qed.
(** The next request for the file names that instant, written as RFC 9110 wants it. *)
Lemma http_date_day x t : http_date 1969 x t -> (x / 1000000000 * 1000000000 = x)%Z /\ exists d, day_number d (x / 1000000000 / 86400) /\ (0 <= year d <= 9999)%Z.
Proof.
  assert (A : forall n h mi s th tmi ts, number 2 h th -> (h <= 23)%Z -> number 2 mi tmi -> (mi <= 59)%Z -> number 2 s ts -> (s <= 59)%Z ->
    let x := (n * (24 * 3600 * 1000000000) + in_day h mi s [])%Z in (x / 1000000000 * 1000000000 = x /\ x / 1000000000 / 86400 = n)%Z).
  { intros n h mi s th tmi ts NH LH NI LI NS LS. apply number2_range in NH, NI, NS. cbv zeta. unfold in_day. cbn [value length Z.of_nat].
    change (0 * 1000000000 / 10 ^ 0)%Z with 0%Z.
    replace (n * (24 * 3600 * 1000000000) + (((h * 60 + mi) * 60 + s) * 1000000000 + 0))%Z with ((n * 86400 + ((h * 60 + mi) * 60 + s)) * 1000000000)%Z by lia.
    rewrite Z.div_mul by discriminate. split; [reflexivity|]. rewrite Z.add_comm, Z.div_add by discriminate. rewrite Z.div_small; lia. }
  intros [x' t' H|y' x' t' H HY|x' t' H]; inversion H as [y m d h mi s n ty td th tmi ts wd mo NY ND RD DN NH LH NI LI NS LS WD MO E1 E2]; subst.
  - destruct (A n _ _ _ _ _ _ NH LH NI LI NS LS) as [A1 A2]. split; [exact A1|]. rewrite A2. exists (mkDay y m d). split; [exact DN|]. apply number4_range in NY. exact NY.
  - destruct (A n _ _ _ _ _ _ NH LH NI LI NS LS) as [A1 A2]. split; [exact A1|]. rewrite A2. exists (mkDay y' m d). split; [exact DN|]. cbn. lia.
  - destruct (A n _ _ _ _ _ _ NH LH NI LI NS LS) as [A1 A2]. split; [exact A1|]. rewrite A2. exists (mkDay y m d). split; [exact DN|]. apply number4_range in NY. exact NY.
Qed.
Theorem C102_next : forall c s file local t x etag body l, fc_lm c = true -> gmt_utc local -> http_date 1969 x t ->
  (fc_etags c = false \/ etag = [] \/ f_etags s file <> Some etag) -> Forall (quiet file) l ->
  exists t', option_map if_modified_since
    (rq_ims (request_of c (fetches c s ((file, Response 200 etag (last_modified local t) body) :: l)) file)) = Some t' /\ fixdate x t'.
Proof.
  intros c s file local t x etag body l HL HG HT HE HQ. destruct (http_date_day x t HT) as (E & d & HD & HY).
  destruct (C94_normal c s file local t x d etag body l HL (C102_read local x t HG HT) HD HY HE HQ) as (t' & H1 & H2).
  exists t'. split; [exact H1|]. now rewrite E in H2.
Qed.
Example C102_next_case : let f := str "http://a/b.json" in
  option_map if_modified_since (rq_ims (request_of (mkFC true true) (fetches (mkFC true true) new_fetch
    [(f, Response 200 (str "e1") (last_modified london (str "Sun Nov  6 08:49:37 1994")) (Some []))]) f)) = Some (str "Sun, 06 Nov 1994 08:49:37 GMT").
Proof. vm_compute. reflexivity. Qed.
(** RFC 9110 wants the hundred years to move with the clock: from 50 years ago to 50 years
    ahead.  They do not. *)
Theorem C102_moving_refuted : ~ (forall local now x t, gmt_utc local -> (now < 2050)%Z -> http_date (now - 50) x t -> http_parse_time local t = Some x).
Proof.
  intros H. assert (R : real_day (mkDay 2070 1 1)) by (exists 31%Z; split; [apply ml_31; cbn; tauto|cbn; lia]).
  assert (D : day_number (mkDay 2070 1 1) 36525) by (apply day_number_iff; [exact R|vm_compute; reflexivity]).
  assert (T : date850 2070 (36525 * (24 * 3600 * 1000000000) + in_day 0 0 0 []) (str "Wednesday, 01-Jan-70 00:00:00 GMT")).
  { apply (d850 2070 1 1 0 0 0 36525 (str "70") (str "01") (str "00") (str "00") (str "00") (str "Wednesday") (str "Jan")); try exact R; try exact D; try num; try lia; reflexivity. }
  assert (HG : gmt_utc london) by (intros n; now right).
  assert (L : (2026 < 2050)%Z) by lia. assert (Y : (2026 - 50 <= 2070 < 2026 - 50 + 100)%Z) by lia.
  specialize (H london 2026%Z _ _ HG L (hd_850 _ 2070 _ _ T Y)). vm_compute in H. discriminate H.
Qed.

Print Assumptions C93_reads_partial.
Print Assumptions C93_exact_partial.
Print Assumptions C93_refused_refuted.
Print Assumptions C93_accepted_refuted.
Print Assumptions C93_published_partial.
Print Assumptions C93_fresh_refuted.
Print Assumptions C94_echo.
Print Assumptions C94_normal.
Print Assumptions C94_none.
Print Assumptions C102_read.
Print Assumptions C102_next.
Print Assumptions C102_moving_refuted.
