(** Routers and stores that were emptied and filled again. *)
From Coq Require Import ZArith ZifyBool ZifyNat ZifyN.
From Verif Require Import Model.Conn Spec.Sets Spec.History Spec.Response Spec.Router Proofs.DataP Proofs.CacheP Proofs.ConnP Proofs.RouterP
  Props.CacheProps Props.ConnProps.
From Coq Require Import List.
Import ListNotations.
Local Open Scope list_scope.
Local Open Scope N_scope.

(** The serial moves on when the store is emptied, not when it is filled again; the diff of the
    filling is what is left. *)
Lemma refill_serial s new : inv s -> Forall wf_sd new -> sdCurrent s <> [] -> sdCurrentSerial s < 4294967295 ->
  sdCurrentSerial (step (step s []) new) = sdCurrentSerial s + 1.
Proof.
  intros Hi Hn NE HS. assert (Hi' : inv (step s [])) by (apply step_inv; auto).
  rewrite step_serial by assumption. pose proof (step_set s [] Hi (Forall_nil _)) as E. apply same_set_nil in E. rewrite E.
  unfold advances at 1. cbn [is_nil negb]. rewrite andb_false_r, step_serial by auto.
  assert (A : advances (sdCurrent s) [] = true).
  { unfold advances. rewrite andb_true_iff, !negb_true_iff. split; [|now destruct (sdCurrent s)].
    apply not_true_iff_false. rewrite same_setb_eq. intros G. apply same_set_nil in G. contradiction. }
  rewrite A, N.add_0_r, N.mod_mod by lia. apply N.mod_small. lia.
Qed.
Lemma refill_diff s new : inv s -> Forall wf_sd new -> new <> [] -> sdCurrent s <> [] -> sdCurrentSerial s < 4294967295 ->
  get_sds_serial_diff (step (step s []) new) (sdCurrentSerial s) = Ok (the_diff new []).
Proof.
  intros Hi Hn NN NE HS. assert (Hi' : inv (step s [])) by (apply step_inv; auto). pose proof (refill_serial s new Hi Hn NE HS) as HSer.
  pose proof (step_set s [] Hi (Forall_nil _)) as E. apply same_set_nil in E. set (s0 := step s []) in *.
  assert (HT : step s0 new = add_sds_diff s0 (the_diff new [])).
  { unfold step. rewrite add_data_eq by (assumption || apply Hi'). rewrite E. pose proof (the_diff_nil new []) as HN.
    destruct (the_diff new []); [|reflexivity]. exfalso. apply NN, same_set_nil, same_set_sym, HN. reflexivity. }
  rewrite HT in *. destruct (last_entry s0 (the_diff new [])) as [HL1 HL2]. set (s' := add_sds_diff s0 (the_diff new [])) in *.
  destruct (serial_diff_cases s' (sdCurrentSerial s)) as [(H & _)|[(H & _)|(_ & _ & d & H & ->)]]; unfold nlen in *; try lia.
  replace (N.to_nat (sdCurrentSerial s' - sdCurrentSerial s)) with 1%nat in H by lia. congruence.
Qed.

(** An announcement of something held. *)
Lemma digest_twice l : forall R, (exists d, In d l /\ In (rid_of d) R) -> (forall d, In d l -> get_flag d = 1) -> digest R l = None.
Proof.
  induction l as [|e l IH]; intros R (d & HD & HR) F; [destruct HD|]. cbn [digest]. rewrite (F e (or_introl eq_refl)). cbn [N.eqb Pos.eqb].
  destruct (mem (rid_of e) R) eqn:M; [reflexivity|]. apply IH; [|intros; apply F; now right]. exists d.
  destruct HD as [<-|HD]; [|split; [exact HD|now right]]. apply mem_spec in HR. congruence.
Qed.

Lemma advances_le h : forall c, count_advances c h <= nlen h.
Proof. induction h as [|n h IH]; intros c; [cbn; lia|]. cbn [count_advances]. specialize (IH n). unfold nlen in *. cbn [length]. destruct (advances c n); lia. Qed.
Lemma serial_now keep h : Forall (Forall wf_sd) h -> sdCurrentSerial (run (new_server keep) h) <= nlen h.
Proof.
  intros W. rewrite run_serial by auto using inv_new. pose proof (advances_le h (sdCurrent (new_server keep))) as A. cbn [new_server sdCurrentSerial].
  rewrite N.add_0_l. etransitivity; [apply N.mod_le; lia|exact A].
Qed.

Section refill.
Context (cfg : config) (s v : N) (tr : transport) (keep : Z).
Context (Hs : u16 s) (Hb : cfg_version cfg < 256) (Hv : v <= cfg_version cfg) (HA : acceptable (accept tr (new_rtr_server cfg s)) v).
Let srv := new_rtr_server cfg s.
Let nk := keys_off tr cfg.

(** The poll after the filling. *)
Lemma poll_refilled h new c r : Forall (Forall wf_sd) (h ++ [[]; new]) -> NoDup (ids new) -> new <> [] -> good srv tr v c ->
  let s1 := run (new_server keep) h in let cache := run (new_server keep) (h ++ [[]; new]) in
  sdCurrent s1 <> [] -> sdCurrentSerial s1 < 4294967295 -> ro_at r = Some (session_of s v, sdCurrentSerial s1) ->
  ((forall x, In x (ro_set r) -> ~ In x (ids new)) ->
     exists c' r', poll srv v cache c r = Some (c', r') /\ good srv tr v c' /\ ro_at r' = Some (session_of s v, sdCurrentSerial cache) /\
       forall x, In x (ro_set r') <-> In x (ro_set r) \/ (okr v nk x = true /\ In x (ids new))) /\
  ((exists x, In x (ro_set r) /\ okr v nk x = true /\ In x (ids new)) -> poll srv v cache c r = None).
Proof.
  intros Hh Hd NN G s1 cache NE HSER HR. pose proof G as (GR & GC & GA). pose proof Hh as Hh0. apply Forall_app in Hh0 as [Hh1 Hh2].
  assert (Wn : Forall wf_sd new) by (inversion Hh2 as [|? ? _ Hh3]; now inversion Hh3).
  assert (HI : inv s1) by (apply run_inv; auto using inv_new). assert (EC : cache = step (step s1 []) new) by (unfold cache; now rewrite run_app).
  pose proof (refill_diff s1 new HI Wn NN NE HSER) as E. rewrite <- EC in E. pose proof (refill_serial s1 new HI Wn NE HSER) as SER. rewrite <- EC in SER.
  assert (HNE : sdCurrent cache <> []).
  { rewrite EC. pose proof (step_set (step s1 []) new (step_inv _ _ HI (Forall_nil _)) Wn) as SS. intros G0. rewrite G0 in SS. apply same_set_sym, same_set_nil in SS. contradiction. }
  destruct (C20_serial cfg s tr keep (h ++ [[]; new]) c v (session_of s v) (sdCurrentSerial s1) Hs Hb Hh GR GC GA) as (c' & a & HP & HV & HX).
  fold srv cache in HP, HV, HX. assert (NV : negotiated srv v = v) by (unfold negotiated, srv; cbn; lia). rewrite NV in *. unfold get_current_sds in *.
  unfold poll, ask at 1 3, question. rewrite HR, HP.
  destruct HX as [(HN & _)|(_ & HC & HX)]; [now contradiction HN|]. pose proof (good_next _ _ _ _ _ _ _ _ G HP HV HC) as G'.
  assert (EA : a = map Queue (response v (session_of s v) (sdCurrentSerial cache) (timer (cfg_refresh cfg) 3600) (timer (cfg_retry cfg) 600) (timer (cfg_expire cfg) 7200) nk (the_diff new []))).
  { destruct HX as [(HN & _)|[(_ & HY & _)|(d' & _ & HD & ->)]]; [contradiction| |rewrite E in HD; now injection HD as <-].
    exfalso. assert (get_sds_serial_diff cache (sdCurrentSerial s1) = Err tt) by (apply serial_diff_err; destruct HY; [now left|right; lia]). congruence. }
  rewrite EA, sent_queue, hear_response by now rewrite HR. rewrite HR.
  assert (F1 : forall d, In d (filter (may_send v nk) (the_diff new [])) -> get_flag d = 1).
  { intros d HD. apply filter_In in HD as [HD _]. apply in_the_diff in HD as [(x & _ & _ & ->)|(x & [] & _)]. apply flag_set_flag. }
  assert (ID : forall x, In x (ids (filter (may_send v nk) (the_diff new []))) <-> okr v nk x = true /\ In x (ids new)).
  { intros x. rewrite in_may, in_ids_the_diff. cbn. tauto. }
  split.
  - intros DJ. destruct (digest_ok (filter (may_send v nk) (the_diff new [])) (ro_set r)) as (R & ED & HE).
    { apply ids_filter_sub. apply the_diff_nodup; [exact Hd|constructor]. }
    { split; [intros d HD; left; auto|]. split; [|intros d HD F0; rewrite (F1 d HD) in F0; discriminate F0].
      intros d HD _ HI'. apply (DJ _ HI'). apply ID. now apply in_ids. }
    rewrite ED. cbn [ro_at]. exists c', (mkRo (Some (session_of s v, sdCurrentSerial cache)) R). split; [reflexivity|]. split; [exact G'|]. split; [reflexivity|].
    intros x. cbn [ro_set]. rewrite (HE x), <- ID, r_apply_last by (intros d HD; left; auto).
    destruct (last_flag (filter (may_send v nk) (the_diff new [])) x) as [f|] eqn:EL.
    + destruct (last_flag_some _ _ _ EL) as (d & HD & HX' & HF). rewrite (F1 d HD) in HF. subst f x. split; [intros _; right; now apply in_ids|auto].
    + apply last_flag_none in EL. tauto.
  - intros (x & X1 & X2). rewrite digest_twice; [reflexivity| |exact F1]. apply ID, ids_in in X2 as (d & HD & <-). eauto.
Qed.

(** Polls and connections while there is nothing. *)
Lemma idle quiet : Forall (fun e => e = Poll \/ e = Reconnect) quiet ->
  forall l w, Forall (Forall wf_sd) (updates l) -> play srv tr v (start srv tr keep) l = Some w -> latest l = [] ->
  exists w', play srv tr v (start srv tr keep) (l ++ quiet) = Some w' /\ wo_router w' = wo_router w.
Proof.
  induction quiet as [|e q IH]; intros HQ l w W P L; [exists w; rewrite app_nil_r; auto|]. inversion HQ as [|? ? He HQ']; subst.
  assert (S : exists w1, play srv tr v (start srv tr keep) (l ++ [e]) = Some w1 /\ wo_router w1 = wo_router w).
  { destruct He as [-> | ->]; [now apply poll_empty|]. rewrite play_app, P. cbn. eexists. split; reflexivity. }
  destruct S as (w1 & P1 & R1). assert (EU : updates (l ++ [e]) = updates l).
  { unfold updates. rewrite flat_map_app. destruct He as [-> | ->]; cbn; apply app_nil_r. }
  destruct (IH HQ' (l ++ [e]) w1) as (w2 & P2 & R2); [now rewrite EU|exact P1|unfold latest; now rewrite EU|].
  exists w2. rewrite <- app_assoc in P2. split; [exact P2|]. now rewrite R2.
Qed.
Lemma quiet_updates quiet : Forall (fun e => e = Poll \/ e = Reconnect) quiet -> updates quiet = [].
Proof. induction 1 as [|e q [-> | ->] _ IH]; [reflexivity|exact IH|exact IH]. Qed.

Context (l quiet : list event) (new : list sd).
Context (HU : Forall (fun n => Forall wf_sd n /\ NoDup (ids n) /\ n <> []) (updates l)) (HNE : updates l <> [])
  (HT : timely keep [] None (l ++ [Poll])) (HQ : Forall (fun e => e = Poll \/ e = Reconnect) quiet)
  (Wn : Forall wf_sd new) (Dn : NoDup (ids new)) (NN : new <> []).

Lemma updates_app a b : updates (a ++ b) = updates a ++ updates b.
Proof. apply flat_map_app. Qed.
(** Up to the filling. *)
Lemma emptied : exists w, play srv tr v (start srv tr keep) ((l ++ [Poll]) ++ Update [] :: quiet) = Some w /\
  wo_cache w = run (new_server keep) (updates l ++ [[]]) /\ good srv tr v (wo_conn w) /\
  ro_at (wo_router w) = Some (session_of s v, sdCurrentSerial (run (new_server keep) (updates l))) /\ in_sync v nk (wo_router w) (latest l).
Proof.
  destruct (poll_in_sync cfg s v tr keep l Hs Hb Hv HA HU HNE HT) as (w & P & R & Y). fold srv in P.
  assert (EU : updates ((l ++ [Poll]) ++ [Update []]) = updates l ++ [[]]) by (rewrite !updates_app; cbn; now rewrite app_nil_r).
  assert (W : Forall (Forall wf_sd) (updates l ++ [[]])).
  { apply Forall_app. split; [|repeat constructor]. eapply Forall_impl; [|exact HU]. intros ? (H & _). exact H. }
  assert (P1 : play srv tr v (start srv tr keep) ((l ++ [Poll]) ++ [Update []]) = Some (mkWo (step (wo_cache w) []) (wo_conn w) (wo_router w))) by (rewrite play_app, P; reflexivity).
  destruct (idle quiet HQ ((l ++ [Poll]) ++ [Update []]) _ ltac:(now rewrite EU) P1) as (w2 & P2 & R2); [unfold latest; rewrite EU; apply last_last|].
  cbn [wo_router] in R2. rewrite <- app_assoc in P2. cbn [app] in P2. exists w2. split; [exact P2|].
  assert (EU2 : updates ((l ++ [Poll]) ++ Update [] :: quiet) = updates l ++ [[]]).
  { change (Update [] :: quiet) with ([Update []] ++ quiet). rewrite app_assoc, updates_app, EU, (quiet_updates quiet HQ). apply app_nil_r. }
  destruct (play_sane cfg s v tr keep Hs Hb Hv HA _ [] (start srv tr keep) w2 ltac:(cbn [app]; now rewrite EU2) eq_refl) as (C & [G _]); [|exact P2|].
  { split; [|exact I]. pose proof (tracks_start cfg s v tr keep HA) as T. apply T. }
  cbn [app] in C. rewrite EU2 in C. rewrite R2. auto.
Qed.
Lemma cache_now : Forall (Forall wf_sd) (updates l) /\ sdCurrent (run (new_server keep) (updates l)) <> [] /\
  same_set (sdCurrent (run (new_server keep) (updates l))) (latest l).
Proof.
  assert (W : Forall (Forall wf_sd) (updates l)) by (eapply Forall_impl; [|exact HU]; intros ? (H & _); exact H).
  pose proof (last_run keep (updates l) W) as L. split; [exact W|]. split; [|exact L]. intros E. rewrite E in L. apply same_set_sym, same_set_nil in L.
  destruct (updates l) as [|n h _] using rev_ind; [contradiction|]. rewrite last_last in L. apply Forall_app in HU as [_ HU']. inversion HU' as [|? ? (_ & _ & H) _]. contradiction.
Qed.
Theorem refilled us : Forall (fun n => Forall wf_sd n /\ NoDup (ids n) /\ n <> []) us -> sdCurrentSerial (run (new_server keep) (updates l)) + nlen us < 4294967290 ->
  Forall (fun n => forall x, In x (ids (latest l)) -> ~ In x (ids n)) (new :: us) ->
  exists w, play srv tr v (start srv tr keep) ((l ++ [Poll]) ++ (Update [] :: quiet) ++ rounds (new :: us)) = Some w /\
    in_sync v nk (wo_router w) (latest l ++ last us new).
Proof.
  intros HUS HL DJ. destruct emptied as (w & P & C & G & R & Y). destruct cache_now as (W & CN & CL). inversion DJ as [|? ? D1 D2]; subst.
  rewrite app_assoc, play_app, P. assert (W3 : Forall (Forall wf_sd) (updates l ++ [[]; new])) by (apply Forall_app; repeat (constructor; auto)).
  destruct (poll_refilled (updates l) new (wo_conn w) (wo_router w) W3 Dn NN G CN ltac:(lia) R) as [PR _].
  destruct PR as (c' & r' & EP & G' & R' & S').
  { intros x HX. apply Y in HX as (d & HD & _ & <-). apply D1. now apply in_ids. }
  assert (RU : run (new_server keep) (updates l ++ [[]; new]) = step (wo_cache w) new) by (rewrite C, !run_app; reflexivity).
  assert (HI : inv (wo_cache w)) by (rewrite C; apply run_inv; auto using inv_new; apply Forall_app; auto).
  pose proof (step_set _ new HI Wn) as SS.
  set (w1 := mkWo (run (new_server keep) (updates l ++ [[]; new])) c' r').
  destruct (astray_stays cfg s v tr keep (ids (latest l)) (fun x => okr v nk x = true) us Hs Hb Hv HUS (updates l ++ [[]; new]) w1) as (w2 & P2 & C2 & A2); auto.
  - apply Forall_app. split; [eapply Forall_impl; [|exact HU]; intros ? (_ & H & _); exact H|repeat constructor; exact Dn].
  - cbn [w1 wo_cache]. rewrite RU. intros E. rewrite E in SS. apply same_set_sym, same_set_nil in SS. contradiction.
  - cbn [w1 wo_cache]. rewrite run_app. cbn [run fold_left]. rewrite refill_serial; auto; [lia|apply run_inv; auto using inv_new|lia].
  - intros x. cbn [w1 wo_router wo_cache]. rewrite S', RU. rewrite (SS x). fold nk.
    assert (YX : In x (ro_set (wo_router w)) <-> okr v nk x = true /\ In x (ids (latest l))).
    { rewrite (Y x). split; [intros (d & I1 & I2 & <-); rewrite may_okr in I2; split; [exact I2|now apply in_ids]|].
      intros (I1 & I2). apply ids_in in I2 as (d & I2 & <-). exists d. rewrite may_okr. auto. }
    rewrite YX. specialize (D1 x). destruct (in_dec rid_dec x (ids (latest l))); tauto.
  - intros x HX. cbn [w1 wo_cache]. rewrite RU. eapply Forall_impl; [|exact D2]. intros m HM. specialize (SS x). specialize (HM x HX). specialize (D1 x HX). tauto.
  - exists w2. change (rounds (new :: us)) with (Update new :: Poll :: rounds us). cbn [play happens wo_cache wo_conn wo_router]. rewrite <- RU. fold srv in EP. rewrite EP. fold w1.
    split; [exact P2|].
    assert (LC : same_set (sdCurrent (wo_cache w2)) (last us new)).
    { rewrite C2. assert (EL : last us new = last ((updates l ++ [[]; new]) ++ us) []).
      { clear. destruct us as [|u us _] using rev_ind; [rewrite app_nil_r; change [[]; new] with ([[]] ++ [new]); now rewrite app_assoc, last_last|]. now rewrite app_assoc, !last_last. }
      rewrite EL. apply last_run. apply Forall_app. split; [exact W3|]. eapply Forall_impl; [|exact HUS]. intros ? (H & _). exact H. }
    assert (DL : forall x, In x (ids (latest l)) -> ~ In x (ids (last us new))).
    { destruct us as [|u us' _] using rev_ind; [exact D1|]. rewrite last_last. apply Forall_app in D2 as [_ D2]. now inversion D2. }
    intros x. rewrite (A2 x). fold nk. specialize (LC x). specialize (DL x). split.
    + intros [(I1 & I2)|(_ & I2 & I1)]; [|apply LC in I1]; apply ids_in in I1 as (d & I1 & <-); exists d; rewrite may_okr, in_app_iff; auto.
    + intros (d & I1 & I2 & <-). rewrite may_okr in I2. apply in_app_iff in I1 as [I1|I1]; apply in_ids in I1; [left; auto|]. right. split; [intros I3; now apply DL|]. split; [exact I2|now apply LC].
Qed.
Theorem refused us : sdCurrentSerial (run (new_server keep) (updates l)) < 4294967290 -> (exists d e, In d (latest l) /\ In e new /\ rid_of d = rid_of e /\ may_send v nk d = true) ->
  play srv tr v (start srv tr keep) ((l ++ [Poll]) ++ (Update [] :: quiet) ++ rounds (new :: us)) = None.
Proof.
  intros HL (d & e & D1 & D2 & D3 & D4). destruct emptied as (w & P & C & G & R & Y). destruct cache_now as (W & CN & CL).
  rewrite app_assoc, play_app, P. assert (W3 : Forall (Forall wf_sd) (updates l ++ [[]; new])) by (apply Forall_app; repeat (constructor; auto)).
  destruct (poll_refilled (updates l) new (wo_conn w) (wo_router w) W3 Dn NN G CN ltac:(lia) R) as [_ PR].
  assert (RU : run (new_server keep) (updates l ++ [[]; new]) = step (wo_cache w) new) by (rewrite C, !run_app; reflexivity).
  change (rounds (new :: us)) with (Update new :: Poll :: rounds us). cbn [play happens wo_cache wo_conn wo_router]. rewrite <- RU, PR; [reflexivity|].
  exists (rid_of d). split; [apply Y; eauto|]. split; [now rewrite <- may_okr|]. rewrite D3. now apply in_ids.
Qed.
End refill.
