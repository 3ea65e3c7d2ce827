(** Routers that follow the server. *)
From Coq Require Import ZifyBool ZifyNat ZifyN.
From Verif Require Import Model.Conn Spec.Sets Spec.History Spec.Response Spec.Router Proofs.DataP Proofs.CacheP Proofs.ConnP Props.ConnProps.
Local Open Scope list_scope.
Local Open Scope N_scope.

(** * The router *)
Lemma r_apply_ext l : forall A B, r_eq A B -> r_eq (r_apply A l) (r_apply B l).
Proof.
  induction l as [|d l IH]; intros A B H; [exact H|]. cbn. apply IH. intros x. unfold r_apply1.
  destruct (get_flag d =? 1); rewrite (H x); reflexivity.
Qed.
Lemma mem_spec x l : mem x l = true <-> In x l.
Proof. unfold mem. destruct (in_dec rid_dec x l); split; auto; discriminate. Qed.
Lemma digest_ok l : forall R, NoDup (ids l) -> diff_for (fun x => In x R) l ->
  exists R', digest R l = Some R' /\ r_eq (fun x => In x R') (r_apply (fun x => In x R) l).
Proof.
  induction l as [|d l IH]; intros R ND (F & HA & HW); [exists R; split; [reflexivity|intros x; reflexivity]|].
  inversion ND as [|? ? NI ND']; subst. cbn [digest].
  assert (NE : forall e, In e l -> rid_of e <> rid_of d) by (intros e HE E; apply NI; rewrite <- E; now apply in_ids).
  destruct (get_flag d =? 1) eqn:EF.
  - assert (M : mem (rid_of d) R = false).
    { destruct (mem (rid_of d) R) eqn:M; [|reflexivity]. apply mem_spec in M. exfalso. apply (HA d); [now left|lia|exact M]. }
    rewrite M. destruct (IH (rid_of d :: R) ND') as (R' & E & H).
    { split; [intros e HE; apply F; now right|]. split.
      - intros e HE FE [G|G]; [apply (NE e HE); now symmetry|]. apply (HA e); auto. now right.
      - intros e HE FE. right. apply HW; auto. now right. }
    exists R'. split; [exact E|]. intros x. rewrite (H x). cbn [r_apply fold_left]. unfold r_apply1 at 2. rewrite EF.
    change (fold_left r_apply1 l ?X) with (r_apply X l). apply r_apply_ext. intros y. cbn. split; intros [G|G]; auto.
  - assert (F0 : get_flag d = 0) by (destruct (F d ltac:(now left)); lia).
    assert (M : mem (rid_of d) R = true) by (apply mem_spec, HW; [now left|exact F0]). rewrite M.
    destruct (IH (remove rid_dec (rid_of d) R) ND') as (R' & E & H).
    { split; [intros e HE; apply F; now right|]. split.
      - intros e HE FE G. apply in_remove in G as [G _]. apply (HA e); auto. now right.
      - intros e HE FE. apply in_in_remove; [now apply NE|]. apply HW; auto. now right. }
    exists R'. split; [exact E|]. intros x. rewrite (H x). cbn [r_apply fold_left]. unfold r_apply1 at 2. rewrite EF.
    change (fold_left r_apply1 l ?X) with (r_apply X l). apply r_apply_ext. intros y. split.
    + intros G. apply in_remove in G as [G1 G2]. auto.
    + intros [G1 G2]. now apply in_in_remove.
Qed.
(** Which records may be sent is a matter of their identity. *)
Definition okr (v : N) (nokeys : bool) (x : rid) : bool :=
  match x with RV _ _ _ => true | RK _ _ _ => negb (v =? 0) && negb nokeys end.
Lemma may_okr v nk d : may_send v nk d = okr v nk (rid_of d).
Proof. destruct d; reflexivity. Qed.
Lemma in_may v nk l x : In x (ids (filter (may_send v nk) l)) <-> okr v nk x = true /\ In x (ids l).
Proof.
  unfold ids. rewrite !in_map_iff. split.
  - intros (d & <- & H). apply filter_In in H as [H1 H2]. rewrite may_okr in H2. split; [exact H2|]. exists d. auto.
  - intros (H & d & <- & HI). exists d. split; [reflexivity|]. apply filter_In. now rewrite may_okr.
Qed.
Lemma may_diff v nk A d R : (forall x, In x R <-> okr v nk x = true /\ A x) -> diff_for A d -> diff_for (fun x => In x R) (filter (may_send v nk) d).
Proof.
  intros HR (F & HA & HW). split; [intros e HE; apply filter_In in HE as [HE _]; auto|]. split.
  - intros e HE FE G. apply filter_In in HE as [HE _]. apply HR in G as [_ G]. now apply (HA e).
  - intros e HE FE. apply filter_In in HE as [HE M]. apply HR. rewrite <- may_okr. split; [exact M|]. now apply HW.
Qed.
Lemma may_apply v nk d : forall A R, (forall x, R x <-> okr v nk x = true /\ A x) ->
  forall x, r_apply R (filter (may_send v nk) d) x <-> okr v nk x = true /\ r_apply A d x.
Proof.
  induction d as [|e d IH]; intros A R HR x; [apply HR|]. cbn [filter]. cbn [r_apply fold_left]. change (fold_left r_apply1 d ?X) with (r_apply X d).
  destruct (may_send v nk e) eqn:M.
  - cbn [r_apply fold_left]. change (fold_left r_apply1 ?l ?X) with (r_apply X l). apply IH. intros y. unfold r_apply1. rewrite may_okr in M.
    destruct (get_flag e =? 1); rewrite (HR y); [|tauto]. split; [intros [->|[H1 H2]]; auto|intros [H1 [->|H2]]; auto].
  - apply IH. intros y. rewrite (HR y). rewrite may_okr in M. unfold r_apply1.
    destruct (get_flag e =? 1); split; intros [H1 H2]; (split; [exact H1|]).
    + now right.
    + destruct H2 as [->|H2]; [congruence|exact H2].
    + split; [intros ->; congruence|exact H2].
    + tauto.
Qed.
Lemma data_of_pdu v d : data_of v (data_pdu v d) = Some d.
Proof. destruct d as [[[| |] b] a m f|a s k f]; cbn; now rewrite N.eqb_refl. Qed.
Lemma payload_ok v sess n a b c l : payload v sess (map (data_pdu v) l ++ [EndOfData v sess n a b c]) = Some (l, n).
Proof.
  induction l as [|d l IH]; [cbn; now rewrite !N.eqb_refl|]. cbn [map app].
  assert (E : forall ps, ps <> [] -> payload v sess (data_pdu v d :: ps) = match payload v sess ps with Some (l, n) => Some (d :: l, n) | None => None end).
  { intros ps NE. cbn [payload]. rewrite data_of_pdu. destruct d as [[[| |] x] aa m f|aa s k f]; cbn [data_pdu]; destruct ps; try contradiction; reflexivity. }
  rewrite E; [now rewrite IH|]. intros H. destruct (map (data_pdu v) l); discriminate H.
Qed.
Lemma sent_queue ps : sent (map Queue ps) = Some ps.
Proof. induction ps as [|p ps IH]; [reflexivity|]. cbn. now rewrite IH. Qed.
Lemma hear_response v sess n a b c nk l r : (match ro_at r with Some (old, _) => sess = old | None => True end) ->
  hear v r (response v sess n a b c nk l) =
  match digest (match ro_at r with Some _ => ro_set r | None => [] end) (filter (may_send v nk) l) with
  | Some R => Some (mkRo (Some (sess, n)) R) | None => None end.
Proof.
  intros H. unfold response. cbn [app hear]. rewrite N.eqb_refl, payload_ok.
  destruct (ro_at r) as [[old m]|]; [subst old; rewrite N.eqb_refl|]; reflexivity.
Qed.

(** * The server *)
Lemma the_diff_nodup new cur : NoDup (ids new) -> NoDup (ids cur) -> NoDup (ids (the_diff new cur)).
Proof.
  intros N1 N2. unfold the_diff. unfold ids. rewrite map_app. change (map rid_of ?l) with (ids l). rewrite !ids_map_set.
  apply NoDup_app_disj; [now apply ids_filter_sub|now apply ids_filter_sub|].
  intros x H1 H2. apply ids_in in H1 as (d & H1 & E1). apply ids_in in H2 as (e & H2 & E2).
  apply filter_In in H1 as [_ H1]. apply filter_In in H2 as [H2 _]. apply negb_true_iff, mem_not in H1. apply H1. rewrite E1, <- E2. now apply in_ids.
Qed.
Lemma one_behind_is s new : inv s -> Forall wf_sd new -> advances (sdCurrent s) new = true -> sdCurrentSerial s < 4294967295 ->
  get_sds_serial_diff (step s new) (sdCurrentSerial s) = Ok (the_diff new (sdCurrent s)).
Proof.
  intros Hi Hn HA Hs. pose proof (step_serial s new Hi Hn) as HSer. rewrite HA in HSer.
  assert (Hd : ~ same_set (sdCurrent s) new).
  { unfold advances in HA. rewrite andb_true_iff, !negb_true_iff in HA. destruct HA as [HA _]. apply not_true_iff_false in HA. now rewrite same_setb_eq in HA. }
  assert (HT : step s new = add_sds_diff s (the_diff new (sdCurrent s))).
  { unfold step. rewrite add_data_eq by (assumption || apply Hi). pose proof (the_diff_nil new (sdCurrent s)) as HN.
    destruct (the_diff new (sdCurrent s)); [|reflexivity]. exfalso. apply Hd, HN. reflexivity. }
  rewrite N.mod_small in HSer by lia. rewrite HT in *. destruct (last_entry s (the_diff new (sdCurrent s))) as [HL1 HL2].
  set (s' := add_sds_diff s (the_diff new (sdCurrent s))) in *.
  destruct (serial_diff_cases s' (sdCurrentSerial s)) as [(H & _)|[(H & _)|(_ & _ & d & H & ->)]]; unfold nlen in *; try lia.
  replace (N.to_nat (sdCurrentSerial s' - sdCurrentSerial s)) with 1%nat in H by lia. congruence.
Qed.
Lemma run_one h : forall s, inv s -> Forall (Forall wf_sd) h -> sdCurrent s <> [] ->
  Forall (fun n => n <> []) h -> count_advances (sdCurrent s) h = 1 ->
  exists n, In n h /\ advances (sdCurrent s) n = true /\ run s h = step s n.
Proof.
  induction h as [|n h IH]; intros s Hi Hh Hne HF HC; [discriminate|].
  inversion Hh; subst. inversion HF; subst. cbn [run fold_left]. fold (run (step s n) h).
  cbn [count_advances] in HC. destruct (advances (sdCurrent s) n) eqn:E.
  - exists n. split; [now left|]. split; [assumption|]. pose proof (step_set s n Hi H1) as HS.
    apply run_no_advance; auto using step_inv.
    + intros G. rewrite G in HS. apply same_set_sym, same_set_nil in HS. contradiction.
    + rewrite (count_congr _ n) by assumption. lia.
  - apply not_advances_same in E; [|assumption]. pose proof (add_data_changes s n Hi H1) as (HA & HB & _).
    assert (ES : step s n = s) by (unfold step; apply HB; destruct (snd (add_data s n)); [|reflexivity]; exfalso; apply HA; auto).
    rewrite ES. destruct (IH s) as (m & HI & HM & HR); auto; [rewrite <- (count_congr (sdCurrent s) n) in HC by assumption; lia|].
    exists m. split; [now right|]. auto.
Qed.
Lemma run_nonempty h : forall s, inv s -> Forall (Forall wf_sd) h -> Forall (fun n => n <> []) h -> sdCurrent s <> [] -> sdCurrent (run s h) <> [].
Proof.
  induction h as [|n h IH]; intros s Hi Hh HF Hne; [exact Hne|]. inversion Hh; subst. inversion HF; subst. cbn [run fold_left]. fold (run (step s n) h).
  apply IH; auto using step_inv. pose proof (step_set s n Hi H1) as HS. intros G. rewrite G in HS. apply same_set_sym, same_set_nil in HS. contradiction.
Qed.
Lemma count_app a b : forall c, count_advances c (a ++ b) = count_advances c a + count_advances (last_set c a) b.
Proof.
  induction a as [|n a IH]; intros c; [reflexivity|]. cbn [app count_advances]. rewrite (IH n).
  replace (last_set c (n :: a)) with (last_set n a); [lia|]. unfold last_set. destruct a as [|m a]; [reflexivity|].
  change (last (n :: m :: a) c) with (last (m :: a) c). generalize m. clear. induction a as [|p a IH]; intros m; [reflexivity|]. cbn in *. apply IH.
Qed.

(** * The conversation *)
Definition good (srv : rtrserver) (tr : transport) (v : N) (c : client) : Prop :=
  reach srv tr c /\ c_connected c = true /\ acceptable c v.
Lemma good_next srv tr v c cache p c' a : good srv tr v c -> process srv cache c p = Ok (c', a) ->
  c_version c' = v -> c_connected c' = true -> good srv tr v c'.
Proof.
  intros (R & C & [A _]) E V C'. split; [exact (reach_pdu srv tr c cache p c' a R C E)|]. split; [exact C'|]. split; [exact A|]. auto.
Qed.
Lemma all_new l x : (forall d, In d l -> get_flag d = 1) -> (r_apply (fun _ => False) l x <-> In x (ids l)).
Proof.
  intros F. rewrite r_apply_last by (intros d HD; left; auto). destruct (last_flag l x) as [f|] eqn:E.
  - destruct (last_flag_some _ _ _ E) as (d & HD & HX & HF). rewrite (F d HD) in HF. subst f. split; [intros _; subst x; now apply in_ids|auto].
  - apply last_flag_none in E. tauto.
Qed.
Section talk.
Context (cfg : config) (s v : N) (tr : transport) (keep : Z).
Context (Hs : u16 s) (Hb : cfg_version cfg < 256) (Hv : v <= cfg_version cfg).
Let srv := new_rtr_server cfg s.
Let nk := keys_off tr cfg.

Lemma negotiated_v : negotiated srv v = v.
Proof. unfold negotiated, srv. cbn. lia. Qed.
Lemma ask_reset h c r : Forall (Forall wf_sd) h -> Forall (fun l => NoDup (ids l)) h -> good srv tr v c -> ro_at r = None ->
  let cache := run (new_server keep) h in
  exists c' r', ask srv v cache c r = Some (c', r') /\ good srv tr v c' /\
    (sdCurrent cache = [] -> r' = r) /\
    (sdCurrent cache <> [] -> ro_at r' = Some (session_of s v, sdCurrentSerial cache) /\
       forall x, In x (ro_set r') <-> okr v nk x = true /\ In x (ids (sdCurrent cache))).
Proof.
  intros Hh Hd G HR cache. pose proof G as (GR & GC & GA).
  destruct (C19_reset cfg s tr keep h c v Hs Hb Hh GR GC GA) as (c' & HP & HV & HC). fold srv cache in HP, HV. rewrite negotiated_v in HP, HV.
  unfold ask, question. rewrite HR, HP, sent_queue. pose proof (good_next _ _ _ _ _ _ _ _ G HP HV HC) as G'.
  unfold get_current_sds in *. assert (HI : inv cache) by (apply run_inv; auto using inv_new).
  assert (ND : NoDup (ids (sdCurrent cache))) by (apply run_nodup; auto using inv_new; constructor).
  destruct (sdCurrent cache) as [|d0 l0] eqn:EC; cbn [is_nil].
  - exists c', r. cbn. rewrite N.eqb_refl. cbn. split; [reflexivity|]. split; [exact G'|]. split; [auto|contradiction].
  - rewrite <- EC in *. rewrite hear_response by now rewrite HR. rewrite HR.
    assert (F1 : forall d, In d (filter (may_send v (keys_off tr cfg)) (sdCurrent cache)) -> get_flag d = 1).
    { intros d HD. apply filter_In in HD as [HD _]. destruct HI as (_ & F & _). auto. }
    destruct (digest_ok (filter (may_send v (keys_off tr cfg)) (sdCurrent cache)) []) as (R & ED & HE).
    { now apply ids_filter_sub. }
    { split; [intros d HD; left; auto|]. split; [intros d _ _ []|]. intros d HD F0. rewrite (F1 d HD) in F0. discriminate F0. }
    rewrite ED. exists c', (mkRo (Some (session_of s v, sdCurrentSerial cache)) R). split; [reflexivity|]. split; [exact G'|].
    split; [intros E; rewrite E in EC; discriminate EC|]. intros _. split; [reflexivity|]. intros x. cbn [ro_set].
    unfold nk. rewrite <- in_may, <- (all_new _ x F1). rewrite (HE x). apply r_apply_ext. intros y. cbn. tauto.
Qed.
(** A router that has what was served after [h1] polls after [h1 ++ h2]. *)
Lemma poll_synced h1 h2 c r k : Forall (Forall wf_sd) (h1 ++ h2) -> Forall (fun l => NoDup (ids l)) (h1 ++ h2) ->
  Forall (fun n => n <> []) h2 -> good srv tr v c ->
  let s1 := run (new_server keep) h1 in let cache := run (new_server keep) (h1 ++ h2) in
  sdCurrent s1 <> [] -> ro_at r = Some (session_of s v, sdCurrentSerial s1) ->
  (forall x, In x (ro_set r) <-> okr v nk x = true /\ In x (ids (sdCurrent s1))) ->
  count_advances (sdCurrent s1) h2 = k -> k <= 1 \/ ((0 < keep < Z.of_N k)%Z /\ k < 4294967296) ->
  exists c' r', poll srv v cache c r = Some (c', r') /\ good srv tr v c' /\
    ro_at r' = Some (session_of s v, sdCurrentSerial cache) /\
    forall x, In x (ro_set r') <-> okr v nk x = true /\ In x (ids (sdCurrent cache)).
Proof.
  intros Hh Hd HF G s1 cache Hne HR HS HK HL. pose proof G as (GR & GC & GA).
  pose proof Hh as Hh0. apply Forall_app in Hh0 as [Hh1 Hh2]. pose proof Hd as Hd0. apply Forall_app in Hd0 as [Hd1 Hd2].
  assert (HI : inv s1) by (apply run_inv; auto using inv_new). assert (EC : cache = run s1 h2) by apply run_app.
  assert (HNE : sdCurrent cache <> []) by (rewrite EC; now apply run_nonempty).
  assert (SER : sdCurrentSerial cache = (sdCurrentSerial s1 + k) mod 4294967296) by (rewrite EC, <- HK; now apply run_serial).
  assert (U : sdCurrentSerial s1 < 4294967296) by apply HI.
  destruct (C20_serial cfg s tr keep (h1 ++ h2) c v (session_of s v) (sdCurrentSerial s1) Hs Hb Hh GR GC GA) as (c' & a & HP & HV & HX).
  fold srv cache in HP, HV, HX. rewrite negotiated_v in *. unfold get_current_sds in *.
  (* the diff, or none *)
  assert (DIFF : (exists d, get_sds_serial_diff cache (sdCurrentSerial s1) = Ok d /\ NoDup (ids d) /\ diff_for (as_set (sdCurrent s1)) d /\
                    r_eq (r_apply (as_set (sdCurrent s1)) d) (as_set (sdCurrent cache))) \/
                 get_sds_serial_diff cache (sdCurrentSerial s1) = Err tt).
  { assert (HKC : k = 0 \/ k = 1 \/ ((0 < keep < Z.of_N k)%Z /\ k < 4294967296)) by lia. clear HL. destruct HKC as [K0|[K1|(K2 & K3)]].
    - left. exists []. assert (E : cache = s1) by (rewrite EC; apply run_no_advance; auto; lia). rewrite E.
      split; [apply serial_diff_cur|]. split; [constructor|]. split; [split; [intros d []|split; intros d []]|]. intros x. reflexivity.
    - destruct (N.eq_dec (sdCurrentSerial s1) 4294967295) as [EM|NM].
      + right. apply serial_diff_err. left. rewrite SER, EM, K1. reflexivity.
      + left. rewrite K1 in HK. destruct (run_one h2 s1 HI Hh2 Hne HF HK) as (n & HN & HA & HE).
        assert (Wn : Forall wf_sd n) by (rewrite Forall_forall in Hh2; auto). assert (Dn : NoDup (ids n)) by (rewrite Forall_forall in Hd2; now apply Hd2).
        exists (the_diff n (sdCurrent s1)). rewrite EC, HE. split; [apply one_behind_is; auto; lia|].
        split; [apply the_diff_nodup; [exact Dn|]; apply run_nodup; auto using inv_new; constructor|].
        split; [apply the_diff_for|]. intros x. rewrite (the_diff_result n (sdCurrent s1) x). symmetry. now apply step_set.
    - right. apply serial_diff_err. pose proof (run_bound (h1 ++ h2) (new_server keep)) as B. cbn in B. fold cache in B. specialize (B ltac:(lia) ltac:(lia)).
      unfold nlen. rewrite SER. destruct (N.lt_ge_cases (sdCurrentSerial s1 + k) 4294967296) as [L|L].
      + rewrite N.mod_small by lia. right. lia.
      + left. replace (sdCurrentSerial s1 + k) with ((sdCurrentSerial s1 + k - 4294967296) + 1 * 4294967296) by lia.
        rewrite N.mod_add by lia. rewrite N.mod_small by lia. lia. }
  unfold poll. unfold ask at 1, question. rewrite HR, HP.
  destruct HX as [(HN & _)|(_ & HC & HX)]; [now contradiction HN|]. pose proof (good_next _ _ _ _ _ _ _ _ G HP HV HC) as G'.
  destruct DIFF as [(d & E & ND & DF & RE)|E].
  - assert (EA : a = map Queue (response v (session_of s v) (sdCurrentSerial cache) (timer (cfg_refresh cfg) 3600) (timer (cfg_retry cfg) 600) (timer (cfg_expire cfg) 7200) (keys_off tr cfg) d)).
    { destruct HX as [(HN & _)|[(_ & HY & _)|(d' & _ & HD & ->)]]; [contradiction| |rewrite E in HD; now injection HD as <-].
      exfalso. assert (get_sds_serial_diff cache (sdCurrentSerial s1) = Err tt) by (apply serial_diff_err; destruct HY; [now left|right; lia]). congruence. }
    rewrite EA, sent_queue, hear_response by now rewrite HR. rewrite HR.
    destruct (digest_ok (filter (may_send v (keys_off tr cfg)) d) (ro_set r)) as (R & ED & HE); [now apply ids_filter_sub|now apply (may_diff v nk (as_set (sdCurrent s1)))|].
    rewrite ED. cbn [ro_at]. exists c', (mkRo (Some (session_of s v, sdCurrentSerial cache)) R). split; [reflexivity|]. split; [exact G'|]. split; [reflexivity|].
    intros x. cbn [ro_set]. rewrite (HE x). fold nk. rewrite (may_apply v nk d (as_set (sdCurrent s1)) _ HS x). now rewrite (RE x).
  - assert (EA : a = map Queue [CacheReset v]).
    { destruct HX as [(HN & _)|[(_ & _ & ->)|(d' & _ & HD & _)]]; [contradiction|reflexivity|]. rewrite E in HD. discriminate HD. }
    rewrite EA, sent_queue. cbn [hear]. rewrite N.eqb_refl. cbn [ro_at].
    destruct (ask_reset (h1 ++ h2) c' (mkRo None (ro_set r)) Hh Hd G' eq_refl) as (c2 & r2 & HA & G2 & _ & HO). fold cache in HA, HO.
    destruct (HO HNE) as [H1 H2]. exists c2, r2. auto.
Qed.
End talk.

(** * Whole histories *)
Definition tracks (cfg : config) (s v : N) (tr : transport) (keep : Z) (h : list (list sd)) (cur : list sd) (lag : option N) (w : world) : Prop :=
  Forall (Forall wf_sd) h /\ Forall (fun l => NoDup (ids l)) h /\ Forall (fun n => n <> []) h /\
  wo_cache w = run (new_server keep) h /\ cur = last h [] /\ good (new_rtr_server cfg s) tr v (wo_conn w) /\
  match lag with
  | None => ro_at (wo_router w) = None
  | Some k => exists h1 h2, h = h1 ++ h2 /\ let s1 := run (new_server keep) h1 in sdCurrent s1 <> [] /\
      count_advances (sdCurrent s1) h2 = k /\ ro_at (wo_router w) = Some (session_of s v, sdCurrentSerial s1) /\
      forall x, In x (ro_set (wo_router w)) <-> okr v (keys_off tr cfg) x = true /\ In x (ids (sdCurrent s1))
  end.
Lemma last_run keep h : Forall (Forall wf_sd) h -> same_set (sdCurrent (run (new_server keep) h)) (last h []).
Proof.
  intros H. destruct h as [|n h _] using rev_ind; [intros x; reflexivity|]. rewrite last_last. now apply run_set; auto using inv_new.
Qed.
Lemma tracks_step cfg s v tr keep h cur lag w e : u16 s -> cfg_version cfg < 256 -> v <= cfg_version cfg -> acceptable (accept tr (new_rtr_server cfg s)) v ->
  tracks cfg s v tr keep h cur lag w ->
  (forall new, e = Update new -> Forall wf_sd new /\ NoDup (ids new) /\ new <> []) ->
  match e with
  | Update new => exists w', happens (new_rtr_server cfg s) tr v w e = Some w' /\
      tracks cfg s v tr keep (h ++ [new]) new (option_map (fun k => k + if advances cur new then 1 else 0) lag) w'
  | Poll => match lag with Some k => k <= 1 \/ ((0 < keep < Z.of_N k)%Z /\ k < 4294967296) | None => True end ->
      exists w', happens (new_rtr_server cfg s) tr v w e = Some w' /\
      tracks cfg s v tr keep h cur (if is_nil cur then lag else Some 0) w'
  | Reconnect => exists w', happens (new_rtr_server cfg s) tr v w e = Some w' /\ tracks cfg s v tr keep h cur lag w'
  end.
Proof.
  intros Hs Hb Hv HA (Hh & Hd & HF & EC & ECUR & G & HL) HU. destruct e as [new| |].
  - destruct (HU new eq_refl) as (U1 & U2 & U3). eexists. split; [reflexivity|]. unfold tracks. cbn [wo_cache wo_conn wo_router].
    split; [apply Forall_app; auto|]. split; [apply Forall_app; auto|]. split; [apply Forall_app; auto|].
    split; [rewrite run_app, EC; reflexivity|]. split; [now rewrite last_last|]. split; [exact G|].
    destruct lag as [k|]; [|exact HL]. destruct HL as (h1 & h2 & EH & HL). cbn [option_map]. exists h1, (h2 ++ [new]). subst h.
    split; [now rewrite app_assoc|]. cbv zeta in *. destruct HL as (H1 & H2 & H3 & H4). split; [exact H1|]. split; [|auto].
    rewrite count_app, H2. f_equal. cbn [count_advances]. rewrite N.add_0_r.
    apply Forall_app in Hh as [Hh1 Hh2].
    assert (SS : same_set (last_set (sdCurrent (run (new_server keep) h1)) h2) cur).
    { subst cur. unfold last_set. destruct h2 as [|m h2 _] using rev_ind; [rewrite app_nil_r; cbn; now apply last_run|]. rewrite app_assoc, !last_last. apply same_set_refl. }
    now rewrite (advances_congr _ cur new SS).
  - intros HT. destruct lag as [k|].
    + destruct HL as (h1 & h2 & EH & HL). cbv zeta in HL. destruct HL as (H1 & H2 & H3 & H4). subst h.
      pose proof HF as HF0. apply Forall_app in HF0 as [_ HF2].
      destruct (poll_synced cfg s v tr keep Hs Hb Hv h1 h2 (wo_conn w) (wo_router w) k Hh Hd HF2 G H1 H3 H4 H2 HT) as (c' & r' & HP & G' & P1 & P2).
      unfold happens. rewrite EC, HP. eexists. split; [reflexivity|]. unfold tracks. cbn [wo_cache wo_conn wo_router].
      assert (NE : sdCurrent (run (new_server keep) (h1 ++ h2)) <> []).
      { apply Forall_app in Hh as [Hh1 Hh2]. rewrite run_app. apply run_nonempty; auto. apply run_inv; auto using inv_new. }
      assert (NC : is_nil cur = false).
      { destruct cur; [|reflexivity]. exfalso. apply NE. pose proof (last_run keep (h1 ++ h2) Hh) as L. rewrite <- ECUR in L. now apply same_set_nil. }
      rewrite NC. repeat (split; [assumption|]). split; [reflexivity|]. split; [exact ECUR|]. split; [exact G'|].
      exists (h1 ++ h2), []. split; [now rewrite app_nil_r|]. cbv zeta. split; [exact NE|]. split; [reflexivity|]. auto.
    + destruct (ask_reset cfg s v tr keep Hs Hb Hv h (wo_conn w) (wo_router w) Hh Hd G HL) as (c' & r' & HP & G' & P1 & P2). cbv zeta in *.
      unfold happens, poll. rewrite EC, HP, HL. eexists. split; [reflexivity|]. unfold tracks. cbn [wo_cache wo_conn wo_router].
      repeat (split; [assumption|]). split; [reflexivity|]. split; [exact ECUR|]. split; [exact G'|].
      pose proof (last_run keep h Hh) as L. rewrite <- ECUR in L.
      destruct (sdCurrent (run (new_server keep) h)) as [|d l] eqn:E.
      * assert (cur = []) as -> by (apply same_set_nil; now apply same_set_sym). cbn [is_nil]. now rewrite (P1 eq_refl).
      * assert (NC : is_nil cur = false) by (destruct cur; [apply same_set_nil in L; discriminate L|reflexivity]). rewrite NC.
        destruct (P2 ltac:(discriminate)) as [Q1 Q2]. exists h, []. split; [now rewrite app_nil_r|]. cbv zeta. rewrite E. split; [discriminate|]. auto.
  - eexists. split; [reflexivity|]. unfold tracks. cbn [wo_cache wo_conn wo_router]. repeat (split; [assumption|]).
    split; [|exact HL]. split; [constructor|]. split; [|exact HA]. unfold accept. destruct (s_enforce _), tr; try reflexivity; destruct (s_disableBGPSec _); reflexivity.
Qed.
Lemma play_app srv tr v a b : forall w, play srv tr v w (a ++ b) = match play srv tr v w a with Some w' => play srv tr v w' b | None => None end.
Proof. induction a as [|e a IH]; intros w; [reflexivity|]. cbn. destruct (happens srv tr v w e); [apply IH|reflexivity]. Qed.
Fixpoint lag_after (cur : list sd) (lag : option N) (l : list event) : option N :=
  match l with
  | [] => lag
  | Update new :: l' => lag_after new (option_map (fun k => k + if advances cur new then 1 else 0) lag) l'
  | Poll :: l' => lag_after cur (if is_nil cur then lag else Some 0) l'
  | Reconnect :: l' => lag_after cur lag l'
  end.
Lemma lag_poll l : forall h cur lag, cur = last h [] -> last (h ++ updates l) [] <> [] -> lag_after cur lag (l ++ [Poll]) = Some 0.
Proof.
  induction l as [|e l IH]; intros h cur lag E NE.
  - cbn in *. rewrite app_nil_r in NE. subst cur. destruct (last h []); [contradiction|reflexivity].
  - destruct e as [new| |]; cbn [app lag_after].
    + apply (IH (h ++ [new])); [now rewrite last_last|]. rewrite <- app_assoc. exact NE.
    + now apply (IH h).
    + now apply (IH h).
Qed.
Lemma tracks_play cfg s v tr keep : u16 s -> cfg_version cfg < 256 -> v <= cfg_version cfg -> acceptable (accept tr (new_rtr_server cfg s)) v ->
  forall l h cur lag w, tracks cfg s v tr keep h cur lag w ->
  Forall (fun n => Forall wf_sd n /\ NoDup (ids n) /\ n <> []) (updates l) -> timely keep cur lag l ->
  exists w', play (new_rtr_server cfg s) tr v w l = Some w' /\ tracks cfg s v tr keep (h ++ updates l) (last (h ++ updates l) []) (lag_after cur lag l) w'.
Proof.
  intros Hs Hb Hv HA. induction l as [|e l IH]; intros h cur lag w HT HU HL.
  - exists w. cbn. rewrite app_nil_r. pose proof HT as (_ & _ & _ & _ & EC & _). rewrite <- EC. auto.
  - assert (HE : forall new, e = Update new -> Forall wf_sd new /\ NoDup (ids new) /\ new <> []).
    { intros new E. rewrite E in HU. cbn in HU. now inversion HU. }
    assert (HU' : Forall (fun n => Forall wf_sd n /\ NoDup (ids n) /\ n <> []) (updates l)).
    { destruct e; cbn in HU; [now inversion HU|exact HU|exact HU]. }
    pose proof (tracks_step cfg s v tr keep h cur lag w e Hs Hb Hv HA HT HE) as ST. destruct e as [new| |]; cbn [timely] in HL.
    + destruct ST as (w1 & H1 & T1). destruct (IH _ _ _ _ T1 HU' HL) as (w2 & P2 & T2). exists w2. cbn [play]. rewrite H1.
      split; [exact P2|]. rewrite <- app_assoc in T2. exact T2.
    + destruct HL as [HL1 HL2]. destruct (ST HL1) as (w1 & H1 & T1). destruct (IH _ _ _ _ T1 HU' HL2) as (w2 & P2 & T2). exists w2. cbn [play]. rewrite H1. auto.
    + destruct ST as (w1 & H1 & T1). destruct (IH _ _ _ _ T1 HU' HL) as (w2 & P2 & T2). exists w2. cbn [play]. rewrite H1. auto.
Qed.
Lemma tracks_start cfg s v tr keep : acceptable (accept tr (new_rtr_server cfg s)) v ->
  tracks cfg s v tr keep [] [] None (start (new_rtr_server cfg s) tr keep).
Proof.
  intros HA. unfold tracks, start. cbn [wo_cache wo_conn wo_router]. do 5 (split; [constructor|]). split; [|reflexivity].
  split; [constructor|]. split; [|exact HA]. unfold accept. destruct (s_enforce _), tr; try reflexivity; destruct (s_disableBGPSec _); reflexivity.
Qed.
(** After a timely poll the router has what was fed in last. *)
Theorem poll_in_sync cfg s v tr keep l : u16 s -> cfg_version cfg < 256 -> v <= cfg_version cfg -> acceptable (accept tr (new_rtr_server cfg s)) v ->
  Forall (fun n => Forall wf_sd n /\ NoDup (ids n) /\ n <> []) (updates l) -> updates l <> [] -> timely keep [] None (l ++ [Poll]) ->
  exists w, play (new_rtr_server cfg s) tr v (start (new_rtr_server cfg s) tr keep) (l ++ [Poll]) = Some w /\
    ro_at (wo_router w) = Some (session_of s v, sdCurrentSerial (run (new_server keep) (updates l))) /\
    in_sync v (keys_off tr cfg) (wo_router w) (latest l).
Proof.
  intros Hs Hb Hv HA HU HNE HT. assert (EU : updates (l ++ [Poll]) = updates l) by (unfold updates; rewrite flat_map_app; cbn; apply app_nil_r).
  destruct (tracks_play cfg s v tr keep Hs Hb Hv HA (l ++ [Poll]) [] [] None _ (tracks_start cfg s v tr keep HA) ltac:(now rewrite EU) HT) as (w & HP & T).
  exists w. split; [exact HP|]. cbn [app] in T. rewrite EU in T.
  assert (NL : last (updates l) [] <> []).
  { destruct (updates l) as [|n h _] using rev_ind; [contradiction|]. rewrite last_last. apply Forall_app in HU as [_ HU]. inversion HU as [|? ? (_ & _ & H) _]. exact H. }
  rewrite (lag_poll l [] [] None eq_refl) in T by exact NL. destruct T as (Hh & _ & HF & _ & _ & _ & h1 & h2 & EH & T). cbv zeta in T. destruct T as (T1 & T2 & T3 & T4).
  rewrite EH in Hh, HF. pose proof Hh as Hh0. apply Forall_app in Hh0 as [Hh1 Hh2]. apply Forall_app in HF as [_ HF2].
  assert (E : run (new_server keep) (updates l) = run (new_server keep) h1) by (rewrite EH, run_app; apply run_no_advance; auto; apply run_inv; auto using inv_new).
  rewrite E. split; [exact T3|]. intros x. rewrite (T4 x), <- E. rewrite <- EH in Hh. pose proof (last_run keep (updates l) Hh x) as L. rewrite L. unfold latest. split.
  - intros [O I]. apply ids_in in I as (d & I & <-). exists d. rewrite may_okr. auto.
  - intros (d & I & M & <-). rewrite may_okr in M. split; [exact M|]. now apply in_ids.
Qed.

(** * Routers that lost track *)
(** The records of [P] are held or not as [B] says, whatever the server has; neither update touches
    them. *)
Definition astray (v : N) (nk : bool) (P : list rid) (B : rid -> Prop) (r : router) (cur : list sd) : Prop :=
  forall x, In x (ro_set r) <-> (In x P /\ B x) \/ (~ In x P /\ okr v nk x = true /\ In x (ids cur)).
Lemma poll_astray cfg s v tr keep h n c r P B : u16 s -> cfg_version cfg < 256 -> v <= cfg_version cfg ->
  Forall (Forall wf_sd) (h ++ [n]) -> Forall (fun l => NoDup (ids l)) (h ++ [n]) -> n <> [] ->
  good (new_rtr_server cfg s) tr v c ->
  let s1 := run (new_server keep) h in let cache := run (new_server keep) (h ++ [n]) in
  sdCurrent s1 <> [] -> sdCurrentSerial s1 < 4294967295 -> ro_at r = Some (session_of s v, sdCurrentSerial s1) ->
  astray v (keys_off tr cfg) P B r (sdCurrent s1) ->
  (forall x, In x P -> (In x (ids n) <-> In x (ids (sdCurrent s1)))) ->
  exists c' r', poll (new_rtr_server cfg s) v cache c r = Some (c', r') /\ good (new_rtr_server cfg s) tr v c' /\
    ro_at r' = Some (session_of s v, sdCurrentSerial cache) /\ astray v (keys_off tr cfg) P B r' (sdCurrent cache).
Proof.
  intros Hs Hb Hv Hh Hd Hn G s1 cache Hne HSER HR HS HP0. pose proof G as (GR & GC & GA). set (nk := keys_off tr cfg) in *.
  pose proof Hh as Hh0. apply Forall_app in Hh0 as [Hh1 Hh2]. pose proof Hd as Hd0. apply Forall_app in Hd0 as [Hd1 Hd2].
  apply Forall_inv in Hh2. apply Forall_inv in Hd2.
  assert (HI : inv s1) by (apply run_inv; auto using inv_new). assert (EC : cache = step s1 n) by (unfold cache; now rewrite run_app).
  pose proof (step_set s1 n HI Hh2) as SS. rewrite <- EC in SS.
  assert (HNE : sdCurrent cache <> []) by (intros E; rewrite E in SS; apply same_set_sym, same_set_nil in SS; contradiction).
  assert (NDC : NoDup (ids (sdCurrent s1))) by (apply run_nodup; auto using inv_new; constructor).
  assert (SERC : sdCurrentSerial cache = sdCurrentSerial s1 \/ sdCurrentSerial cache = sdCurrentSerial s1 + 1).
  { rewrite EC, step_serial by assumption. destruct (advances _ _); rewrite ?N.add_0_r, N.mod_small by lia; auto. }
  assert (DIFF : exists d, get_sds_serial_diff cache (sdCurrentSerial s1) = Ok d /\ NoDup (ids d) /\ diff_for (as_set (sdCurrent s1)) d /\
                    r_eq (r_apply (as_set (sdCurrent s1)) d) (as_set (sdCurrent cache)) /\ (forall x, In x P -> ~ In x (ids d))).
  { destruct (advances (sdCurrent s1) n) eqn:EA.
    - exists (the_diff n (sdCurrent s1)). rewrite EC. split; [now apply one_behind_is|]. split; [now apply the_diff_nodup|]. split; [apply the_diff_for|].
      split; [intros x; rewrite (the_diff_result n (sdCurrent s1) x); symmetry; now apply step_set|].
      intros x HP HX. apply HP0 in HP. apply in_ids_the_diff in HX. tauto.
    - exists []. assert (E : cache = s1). { rewrite EC. change (step s1 n) with (run s1 [n]). apply run_no_advance; auto. cbn. now rewrite EA. }
      rewrite E. split; [apply serial_diff_cur|]. split; [constructor|]. split; [split; [intros d []|split; intros d []]|]. split; [intros x; reflexivity|intros x _ []]. }
  destruct DIFF as (d & E & ND & DF & RE & HPD).
  destruct (C20_serial cfg s tr keep (h ++ [n]) c v (session_of s v) (sdCurrentSerial s1) Hs Hb Hh GR GC GA) as (c' & a & HP & HV & HX).
  fold cache in HP, HV, HX. assert (NV : negotiated (new_rtr_server cfg s) v = v) by (unfold negotiated; cbn; lia). rewrite NV in *. unfold get_current_sds in *.
  unfold poll, ask at 1, question. rewrite HR, HP.
  destruct HX as [(HN & _)|(_ & HC & HX)]; [now contradiction HN|]. pose proof (good_next _ _ _ _ _ _ _ _ G HP HV HC) as G'.
  assert (EA : a = map Queue (response v (session_of s v) (sdCurrentSerial cache) (timer (cfg_refresh cfg) 3600) (timer (cfg_retry cfg) 600) (timer (cfg_expire cfg) 7200) nk d)).
  { destruct HX as [(HN & _)|[(_ & HY & _)|(d' & _ & HD & ->)]]; [contradiction| |rewrite E in HD; now injection HD as <-].
    exfalso. assert (get_sds_serial_diff cache (sdCurrentSerial s1) = Err tt) by (apply serial_diff_err; destruct HY; [now left|right; lia]). congruence. }
  rewrite EA, sent_queue, hear_response by now rewrite HR. rewrite HR.
  assert (OUT : forall e, In e (filter (may_send v nk) d) -> okr v nk (rid_of e) = true /\ In e d /\ ~ In (rid_of e) P).
  { intros e HE. apply filter_In in HE as [HE M]. rewrite may_okr in M. split; [exact M|]. split; [exact HE|]. intros HI'. apply (HPD _ HI'). now apply in_ids. }
  destruct (digest_ok (filter (may_send v nk) d) (ro_set r)) as (R & ED & HE).
  { now apply ids_filter_sub. }
  { destruct DF as (F & FA & FW). split; [intros e HE; apply filter_In in HE as [HE _]; auto|]. split.
    - intros e HE FE HI'. destruct (OUT e HE) as (O1 & O2 & O3). apply HS in HI' as [[HI' _]|(_ & _ & HI')]; [contradiction|]. now apply (FA e).
    - intros e HE FE. destruct (OUT e HE) as (O1 & O2 & O3). apply HS. right. split; [exact O3|]. split; [exact O1|]. now apply FW. }
  rewrite ED. cbn [ro_at]. exists c', (mkRo (Some (session_of s v, sdCurrentSerial cache)) R). split; [reflexivity|]. split; [exact G'|]. split; [reflexivity|].
  intros x. cbn [ro_set]. rewrite (HE x).
  assert (FF : flags01 (filter (may_send v nk) d)) by (intros e HE'; apply filter_In in HE' as [HE' _]; now apply DF).
  rewrite (r_apply_last _ _ _ FF). destruct (in_dec rid_dec x P) as [IP|NP].
  - assert (EL : last_flag (filter (may_send v nk) d) x = None).
    { destruct (last_flag (filter (may_send v nk) d) x) eqn:EL; [|reflexivity]. destruct (last_flag_some _ _ _ EL) as (e & HD & <- & _). exfalso. now apply (OUT e HD). }
    rewrite EL, (HS x). split; (intros [[_ H]|[H _]]; [left; auto|contradiction]).
  - destruct (okr v nk x) eqn:OK.
    + assert (EQ : last_flag (filter (may_send v nk) d) x = last_flag d x).
      { clear - OK. induction d as [|e d IH] using rev_ind; [reflexivity|]. rewrite filter_app. cbn [filter].
        destruct (may_send v nk e) eqn:M; cbn [app]; rewrite ?app_nil_r.
        - unfold last_flag in *. rewrite !fold_left_app. cbn. now rewrite IH.
        - unfold last_flag in *. rewrite fold_left_app. cbn. rewrite IH. destruct (rid_dec x (rid_of e)) as [->|]; [rewrite may_okr in M; congruence|reflexivity]. }
      rewrite EQ. specialize (RE x). rewrite (r_apply_last _ _ _ (proj1 DF)) in RE. destruct (last_flag d x).
      * rewrite RE. unfold as_set. split; [intros H; right; auto|intros [[H _]|(_ & _ & H)]; [contradiction|exact H]].
      * rewrite (HS x), OK. unfold as_set in RE. split; (intros [[H _]|(_ & _ & H)]; [contradiction|right; split; [exact NP|split; [reflexivity|now apply RE]]]).
    + assert (EL : last_flag (filter (may_send v nk) d) x = None).
      { destruct (last_flag (filter (may_send v nk) d) x) eqn:EL; [|reflexivity]. destruct (last_flag_some _ _ _ EL) as (e & HD & <- & _). destruct (OUT e HD) as (O & _). congruence. }
      rewrite EL, (HS x), OK. split; (intros [[H _]|(_ & H & _)]; [contradiction|discriminate H]).
Qed.
Lemma nlen_S {A} (a : A) l : nlen (a :: l) = nlen l + 1.
Proof. unfold nlen. cbn [length]. lia. Qed.
Lemma astray_stays cfg s v tr keep P B us : u16 s -> cfg_version cfg < 256 -> v <= cfg_version cfg ->
  Forall (fun n => Forall wf_sd n /\ NoDup (ids n) /\ n <> []) us ->
  forall h w, Forall (Forall wf_sd) h -> Forall (fun l => NoDup (ids l)) h -> good (new_rtr_server cfg s) tr v (wo_conn w) ->
  wo_cache w = run (new_server keep) h -> sdCurrent (wo_cache w) <> [] ->
  sdCurrentSerial (wo_cache w) + nlen us < 4294967296 ->
  ro_at (wo_router w) = Some (session_of s v, sdCurrentSerial (wo_cache w)) ->
  astray v (keys_off tr cfg) P B (wo_router w) (sdCurrent (wo_cache w)) ->
  (forall x, In x P -> Forall (fun n => In x (ids n) <-> In x (ids (sdCurrent (wo_cache w)))) us) ->
  exists w', play (new_rtr_server cfg s) tr v w (rounds us) = Some w' /\ wo_cache w' = run (new_server keep) (h ++ us) /\
    astray v (keys_off tr cfg) P B (wo_router w') (sdCurrent (wo_cache w')).
Proof.
  intros Hs Hb Hv HU. induction us as [|n us IH]; intros h w Hh Hd G HC HNE HL HR HA HP.
  - exists w. rewrite app_nil_r. cbn. auto.
  - inversion HU as [|? ? (U1 & U2 & U3) HU']; subst. clear HU. rewrite nlen_S in HL. rewrite HC in *.
    assert (Hh' : Forall (Forall wf_sd) (h ++ [n])) by (apply Forall_app; auto). assert (Hd' : Forall (fun l => NoDup (ids l)) (h ++ [n])) by (apply Forall_app; auto).
    assert (HI : inv (run (new_server keep) h)) by (apply run_inv; auto using inv_new).
    assert (ST : step (run (new_server keep) h) n = run (new_server keep) (h ++ [n])) by now rewrite run_app.
    pose proof (step_set _ n HI U1) as SS. rewrite ST in SS.
    destruct (poll_astray cfg s v tr keep h n (wo_conn w) (wo_router w) P B Hs Hb Hv Hh' Hd' U3 G HNE) as (c' & r' & EP & G' & HR' & HA'); auto; [lia| |].
    { intros x HX. specialize (HP x HX). now inversion HP. }
    set (w1 := mkWo (run (new_server keep) (h ++ [n])) c' r'). destruct (IH HU' (h ++ [n]) w1) as (w' & P1 & P2 & P3); auto.
    + cbn. intros E. rewrite E in SS. apply same_set_sym, same_set_nil in SS. contradiction.
    + cbn [w1 wo_cache]. rewrite <- ST, step_serial by assumption. destruct (advances _ _); rewrite ?N.add_0_r, N.mod_small by lia; lia.
    + intros x HX. specialize (HP x HX). inversion HP; subst. cbn [w1 wo_cache].
      apply Forall_forall. intros m HM. rewrite Forall_forall in H2. rewrite (H2 m HM). specialize (SS x). rewrite <- H1. split; apply SS.
    + exists w'. cbn [rounds flat_map app play happens]. rewrite HC. rewrite ST. cbn [wo_cache wo_conn wo_router]. rewrite EP. fold w1. split; [exact P1|]. rewrite <- app_assoc in P2. auto.
Qed.

(** * Whatever the schedule *)
Definition sane (cfg : config) (s v : N) (tr : transport) (c : client) (r : router) : Prop :=
  good (new_rtr_server cfg s) tr v c /\ match ro_at r with Some (x, _) => x = session_of s v | None => True end.
Lemma hear_at v sess n a b e nk l r r' : hear v r (response v sess n a b e nk l) = Some r' ->
  match ro_at r' with Some (x, _) => x = sess | None => True end.
Proof.
  unfold response. cbn [app hear]. destruct ((v =? v) && _); [|discriminate].
  destruct (payload _ _ _) as [[l' m]|]; [|discriminate]. destruct (digest _ _); [|discriminate]. intros E. inversion E. reflexivity.
Qed.
Lemma ask_sane cfg s v tr keep h c r c' r' : u16 s -> cfg_version cfg < 256 -> v <= cfg_version cfg -> Forall (Forall wf_sd) h ->
  sane cfg s v tr c r -> ask (new_rtr_server cfg s) v (run (new_server keep) h) c r = Some (c', r') -> sane cfg s v tr c' r'.
Proof.
  intros Hs Hb Hv Hh [G HR] E. pose proof G as (GR & GC & GA). assert (NV : negotiated (new_rtr_server cfg s) v = v) by (unfold negotiated; cbn; lia).
  unfold ask, question in E. destruct (ro_at r) as [[sess q]|] eqn:ER.
  - subst sess. destruct (C20_serial cfg s tr keep h c v (session_of s v) q Hs Hb Hh GR GC GA) as (c1 & a & HP & HV & HX). rewrite NV in *. rewrite HP in E.
    destruct HX as [(HN & _)|(_ & HC & HX)]; [now contradiction HN|]. pose proof (good_next _ _ _ _ _ _ _ _ G HP HV HC) as G'.
    destruct HX as [(_ & ->)|[(_ & _ & ->)|(d & _ & _ & ->)]].
    + cbn in E. rewrite N.eqb_refl in E. cbn in E. inversion E; subst. split; [exact G'|]. now rewrite ER.
    + cbn in E. rewrite N.eqb_refl in E. inversion E; subst. split; [exact G'|]. exact I.
    + rewrite sent_queue in E. destruct (hear v r _) as [r1|] eqn:EH; [|discriminate E]. inversion E; subst. split; [exact G'|]. now apply hear_at in EH.
  - destruct (C19_reset cfg s tr keep h c v Hs Hb Hh GR GC GA) as (c1 & HP & HV & HC). rewrite NV in *. rewrite HP, sent_queue in E.
    pose proof (good_next _ _ _ _ _ _ _ _ G HP HV HC) as G'. destruct (is_nil _).
    + cbn in E. rewrite N.eqb_refl in E. cbn in E. inversion E; subst. split; [exact G'|]. now rewrite ER.
    + destruct (hear v r _) as [r1|] eqn:EH; [|discriminate E]. inversion E; subst. split; [exact G'|]. now apply hear_at in EH.
Qed.
Lemma play_sane cfg s v tr keep : u16 s -> cfg_version cfg < 256 -> v <= cfg_version cfg -> acceptable (accept tr (new_rtr_server cfg s)) v ->
  forall l h w w', Forall (Forall wf_sd) (h ++ updates l) -> wo_cache w = run (new_server keep) h -> sane cfg s v tr (wo_conn w) (wo_router w) ->
  play (new_rtr_server cfg s) tr v w l = Some w' ->
  wo_cache w' = run (new_server keep) (h ++ updates l) /\ sane cfg s v tr (wo_conn w') (wo_router w').
Proof.
  intros Hs Hb Hv HA. induction l as [|e l IH]; intros h w w' Hh HC HS E.
  - cbn in E. inversion E; subst. cbn. rewrite app_nil_r. auto.
  - cbn [play] in E. destruct (happens _ _ _ w e) as [w1|] eqn:E1; [|discriminate E]. destruct e as [new| |]; cbn [happens] in E1.
    + inversion E1; subst. change (updates (Update new :: l)) with ([new] ++ updates l) in *. rewrite app_assoc in *.
      refine (IH _ (mkWo (step (wo_cache w) new) (wo_conn w) (wo_router w)) _ Hh _ HS E). cbn. now rewrite HC, run_app.
    + change (updates (Poll :: l)) with (updates l) in *. destruct (poll _ _ _ _ _) as [[c r]|] eqn:EP; [|discriminate E1]. inversion E1; subst.
      refine (IH h (mkWo (wo_cache w) c r) _ Hh HC _ E). cbn [wo_conn wo_router]. unfold poll in EP. rewrite HC in EP. apply Forall_app in Hh as [Hh _].
      destruct (ask _ _ _ (wo_conn w) (wo_router w)) as [[c1 r1]|] eqn:EA; [|discriminate EP].
      pose proof (ask_sane _ _ _ _ _ _ _ _ _ _ Hs Hb Hv Hh HS EA) as S1.
      destruct (ro_at (wo_router w)), (ro_at r1) eqn:ER; try (inversion EP; subst; exact S1).
      exact (ask_sane _ _ _ _ _ _ _ _ _ _ Hs Hb Hv Hh S1 EP).
    + change (updates (Reconnect :: l)) with (updates l) in *. inversion E1; subst. refine (IH h (mkWo (wo_cache w) (accept tr (new_rtr_server cfg s)) (wo_router w)) _ Hh HC _ E). destruct HS as [_ HS]. split; [|exact HS].
      split; [constructor|]. split; [|exact HA]. cbn [wo_conn]. unfold accept. destruct (s_enforce _), tr; try reflexivity; destruct (s_disableBGPSec _); reflexivity.
Qed.
(** With nothing to serve, a poll leaves the router as it is. *)
Theorem poll_empty cfg s v tr keep l w : u16 s -> cfg_version cfg < 256 -> v <= cfg_version cfg -> acceptable (accept tr (new_rtr_server cfg s)) v ->
  Forall (Forall wf_sd) (updates l) -> play (new_rtr_server cfg s) tr v (start (new_rtr_server cfg s) tr keep) l = Some w -> latest l = [] ->
  exists w', play (new_rtr_server cfg s) tr v (start (new_rtr_server cfg s) tr keep) (l ++ [Poll]) = Some w' /\ wo_router w' = wo_router w.
Proof.
  intros Hs Hb Hv HA Hh HP HL. destruct (play_sane cfg s v tr keep Hs Hb Hv HA l [] (start (new_rtr_server cfg s) tr keep) w Hh eq_refl) as (HC & [G HR]); [|exact HP|].
  { split; [|exact I]. pose proof (tracks_start cfg s v tr keep HA) as T. apply T. }
  cbn [app] in HC. pose proof (last_run keep (updates l) Hh) as L. unfold latest in HL. rewrite HL in L. apply same_set_nil in L.
  assert (NV : negotiated (new_rtr_server cfg s) v = v) by (unfold negotiated; cbn; lia). pose proof G as (GR & GC & GA).
  rewrite play_app, HP. cbn [play happens]. unfold poll, ask, question. rewrite HC. destruct (ro_at (wo_router w)) as [[sess q]|] eqn:ER.
  - subst sess. destruct (C20_serial cfg s tr keep (updates l) (wo_conn w) v (session_of s v) q Hs Hb Hh GR GC GA) as (c1 & a & E & HV & HX). rewrite NV in *. rewrite E.
    destruct HX as [(HN & _)|(_ & _ & HX)]; [now contradiction HN|]. unfold get_current_sds in HX. rewrite L in HX.
    destruct HX as [(_ & ->)|[(HN & _)|(d & HN & _)]]; [|now contradiction HN|now contradiction HN].
    cbn. rewrite N.eqb_refl. cbn. rewrite ?ER. eexists. split; reflexivity.
  - destruct (C19_reset cfg s tr keep (updates l) (wo_conn w) v Hs Hb Hh GR GC GA) as (c1 & E & _). rewrite NV in *. rewrite E. unfold get_current_sds. rewrite L. cbn.
    rewrite N.eqb_refl. cbn. rewrite ?ER. eexists. split; reflexivity.
Qed.
