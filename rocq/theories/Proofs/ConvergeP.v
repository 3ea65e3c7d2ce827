(** A change of the data reaches a router. *)
From Coq Require Import ZArith ZifyBool ZifyNat ZifyN.
From Verif Require Import Model.Concurrent Spec.Sets Spec.History Spec.Response Spec.Router Spec.Net Spec.Conversation Spec.Answered Spec.Reached Spec.Isolated Spec.Follow
  Proofs.DataP Proofs.CacheP Proofs.ConnP Proofs.ConcCacheP Proofs.NetP Proofs.NetP2 Proofs.ConversationP Proofs.AnsweredP Proofs.IsolatedP Proofs.ClientGaugeP Proofs.ReachedP Proofs.RouterP Proofs.FollowP
  Props.ConnProps.
From Coq Require Import List.
Local Open Scope list_scope.
Local Open Scope N_scope.

Section conv.
Context (cfg : config) (s v : N) (tr : transport) (keep : Z).
Context (Hs : u16 s) (Hb : cfg_version cfg < 256) (Hv : v <= cfg_version cfg).
Let srv := new_rtr_server cfg s.
Let nk := keys_off tr cfg.

(** A router that has what was served after [h] asks after one more list: it asks once. *)
Lemma ask_next h n c r : Forall (Forall wf_sd) (h ++ [n]) -> Forall (fun l => NoDup (ids l)) (h ++ [n]) -> n <> [] -> good srv tr v c ->
  let s1 := run (new_server keep) h in let cache := run (new_server keep) (h ++ [n]) in
  sdCurrent s1 <> [] -> sdCurrentSerial s1 < 4294967295 -> ro_at r = Some (session_of s v, sdCurrentSerial s1) ->
  (forall x, In x (ro_set r) <-> okr v nk x = true /\ In x (ids (sdCurrent s1))) ->
  exists c' r', ask srv v cache c r = Some (c', r') /\ ro_at r' = Some (session_of s v, sdCurrentSerial cache).
Proof.
  intros Hh Hd HF G s1 cache Hne HM HR HS. pose proof G as (GR & GC & GA).
  pose proof Hh as Hh0. apply Forall_app in Hh0 as [Hh1 Hh2]. pose proof Hd as Hd0. apply Forall_app in Hd0 as [Hd1 Hd2].
  assert (Wn : Forall wf_sd n) by now inversion Hh2. assert (Dn : NoDup (ids n)) by now inversion Hd2.
  assert (HI : inv s1) by (apply run_inv; auto using inv_new). assert (EC : cache = step s1 n) by (unfold cache; rewrite run_app; reflexivity).
  assert (HNE : sdCurrent cache <> []).
  { pose proof (step_set s1 n HI Wn) as X. rewrite EC. intros E. rewrite E in X. apply same_set_sym, same_set_nil in X. contradiction. }
  destruct (C20_serial cfg s tr keep (h ++ [n]) c v (session_of s v) (sdCurrentSerial s1) Hs Hb Hh GR GC GA) as (c' & a & HP & HV & HX).
  assert (NV : negotiated (new_rtr_server cfg s) v = v) by (unfold negotiated; cbn; lia). rewrite NV in *.
  fold srv cache in HP, HV, HX. unfold get_current_sds in *.
  assert (DIFF : exists d, get_sds_serial_diff cache (sdCurrentSerial s1) = Ok d /\ NoDup (ids d) /\ diff_for (as_set (sdCurrent s1)) d).
  { destruct (advances (sdCurrent s1) n) eqn:EA.
    - exists (the_diff n (sdCurrent s1)). rewrite EC. split; [apply one_behind_is; auto|].
      split; [apply the_diff_nodup; [exact Dn|]; apply run_nodup; auto using inv_new; constructor|]. apply the_diff_for.
    - exists []. assert (E : cache = s1).
      { unfold cache. rewrite run_app. fold s1. apply run_no_advance; auto. cbn [count_advances]. rewrite EA. reflexivity. }
      rewrite E. split; [apply serial_diff_cur|]. split; [constructor|]. split; [intros d []|split; intros d []]. }
  destruct DIFF as (d & E & ND & DF). destruct HX as [(HN & _)|(_ & HC & HX)]; [now contradiction HN|].
  assert (EA : a = map Queue (response v (session_of s v) (sdCurrentSerial cache) (timer (cfg_refresh cfg) 3600) (timer (cfg_retry cfg) 600) (timer (cfg_expire cfg) 7200) (keys_off tr cfg) d)).
  { destruct HX as [(HN & _)|[(_ & HY & _)|(d' & _ & HD & ->)]]; [contradiction| |rewrite E in HD; now injection HD as <-].
    exfalso. assert (get_sds_serial_diff cache (sdCurrentSerial s1) = Err tt) by (apply serial_diff_err; destruct HY; [now left|right; lia]). congruence. }
  unfold ask, question. rewrite HR, HP, EA, sent_queue, hear_response by now rewrite HR. rewrite HR.
  destruct (digest_ok (filter (may_send v (keys_off tr cfg)) d) (ro_set r)) as (R & ED & _); [now apply ids_filter_sub|now apply (may_diff v nk (as_set (sdCurrent s1)))|].
  rewrite ED. exists c', (mkRo (Some (session_of s v, sdCurrentSerial cache)) R). split; reflexivity.
Qed.

(** After a poll the connection has the router's version. *)
Lemma ask_version h c r c' r' : Forall (Forall wf_sd) h -> sane cfg s v tr c r -> ask srv v (run (new_server keep) h) c r = Some (c', r') -> c_version c' = v.
Proof.
  intros Hh [G HR] E. pose proof G as (GR & GC & GA). assert (NV : negotiated (new_rtr_server cfg s) v = v) by (unfold negotiated; cbn; lia).
  unfold ask, question in E. destruct (ro_at r) as [[sess q]|] eqn:ER.
  - destruct (C20_serial cfg s tr keep h c v sess q Hs Hb Hh GR GC GA) as (c1 & a & HP & HV & _). rewrite NV in *. fold srv in HP. rewrite HP in E.
    destruct (sent a); [|discriminate]. destruct (hear _ _ _); [|discriminate]. now injection E as <- _.
  - destruct (C19_reset cfg s tr keep h c v Hs Hb Hh GR GC GA) as (c1 & HP & HV & HC). rewrite NV in *. fold srv in HP. rewrite HP in E.
    destruct (sent _); [|discriminate]. destruct (hear _ _ _); [|discriminate]. now injection E as <- _.
Qed.
End conv.

(** * Asking goes on *)
Lemma asking_app srv tr v w l here later : asking srv tr v w l here later -> later = [] -> forall w' l2 here2,
  play srv tr v w l = Some w' -> asking srv tr v w' l2 here2 [] -> asking srv tr v w (l ++ l2) (here ++ here2) [].
Proof.
  induction 1 as [w|w new l here later H IH|w chunk c r l here later HB HA HR H IH|w chunk c r chunk2 c2 r2 l here later HB HA HR HN HB2 HA2 H IH|w l here later H IH];
    intros HL w' l2 here2 HP H2; cbn [play] in HP.
  - injection HP as <-. exact H2.
  - cbn [app]. apply As_update. now apply (IH HL w').
  - cbn [app]. eapply As_once; eauto. apply (IH HL w'); [|exact H2]. cbn [happens] in HP. unfold poll in HP. rewrite HA in HP. destruct HR as [HR|HR].
    + rewrite HR in HP. exact HP.
    + destruct (ro_at (wo_router w)); [|exact HP]. destruct (ro_at r); [exact HP|congruence].
  - cbn [app]. eapply As_twice; eauto. apply (IH HL w'); [|exact H2]. cbn [happens] in HP. unfold poll in HP. rewrite HA in HP.
    destruct (ro_at (wo_router w)); [|congruence]. rewrite HN, HA2 in HP. exact HP.
  - discriminate HL.
Qed.
Lemma asking_conn srv tr v w l here later : asking srv tr v w l here later -> later = [] -> c_connected (wo_conn w) = true -> forall w',
  play srv tr v w l = Some w' -> exists a, session srv (wo_conn w) here = Ok (wo_conn w', a).
Proof.
  induction 1 as [w|w new l here later H IH|w chunk c r l here later HB HA HR H IH|w chunk c r chunk2 c2 r2 l here later HB HA HR HN HB2 HA2 H IH|w l here later H IH];
    intros HL HC w' HP; cbn [play] in HP.
  - injection HP as <-. exists []. cbn [session]. rewrite HC. reflexivity.
  - apply (IH HL HC w' HP).
  - destruct (ask_reads _ _ _ _ _ _ _ _ HA HB HC) as (a1 & ps & O & _ & _ & C1). destruct (IH HL C1 w') as (a & S).
    { cbn [happens] in HP. unfold poll in HP. rewrite HA in HP. destruct HR as [HR|HR]; [rewrite HR in HP; exact HP|].
      destruct (ro_at (wo_router w)); [|exact HP]. destruct (ro_at r); [exact HP|congruence]. }
    eexists. exact (session_cons _ _ _ _ _ _ _ _ _ HC O S).
  - destruct (ask_reads _ _ _ _ _ _ _ _ HA HB HC) as (a1 & ps & O & _ & _ & C1). destruct (ask_reads _ _ _ _ _ _ _ _ HA2 HB2 C1) as (a2 & ps2 & O2 & _ & _ & C2).
    destruct (IH HL C2 w') as (a & S).
    { cbn [happens] in HP. unfold poll in HP. rewrite HA in HP. destruct (ro_at (wo_router w)); [|congruence]. rewrite HN, HA2 in HP. exact HP. }
    eexists. exact (session_cons _ _ _ _ _ _ _ _ _ HC O (session_cons _ _ _ _ _ _ _ _ _ C1 O2 S)).
  - discriminate HL.
Qed.
Lemma play_snoc srv tr v l x w w1 : play srv tr v w l = Some w1 -> play srv tr v w (l ++ [x]) = happens srv tr v w1 x.
Proof. intros H. rewrite play_app, H. cbn [play]. destruct (happens _ _ _ _ _); reflexivity. Qed.
Lemma poll_version cfg s v tr keep l w : u16 s -> cfg_version cfg < 256 -> v <= cfg_version cfg -> acceptable (accept tr (new_rtr_server cfg s)) v ->
  Forall (Forall wf_sd) (updates l) ->
  play (new_rtr_server cfg s) tr v (start (new_rtr_server cfg s) tr keep) (l ++ [Poll]) = Some w -> c_version (wo_conn w) = v.
Proof.
  intros Hs Hb Hv HA HU HP. rewrite play_app in HP. destruct (play _ _ _ _ l) as [w0|] eqn:E0; [|discriminate].
  destruct (play_sane cfg s v tr keep Hs Hb Hv HA l [] (start (new_rtr_server cfg s) tr keep) w0 HU eq_refl) as (HC & HS); [|exact E0|].
  { split; [|exact I]. apply (tracks_start cfg s v tr keep HA). }
  cbn [app] in HC. cbn [play happens] in HP. destruct (poll _ _ _ _ _) as [[c r]|] eqn:EP; [|discriminate]. injection HP as <-. cbn [wo_conn].
  rewrite HC in EP. unfold poll in EP. destruct (ask _ _ _ (wo_conn w0) (wo_router w0)) as [[c1 r1]|] eqn:EA; [|discriminate EP].
  pose proof (ask_version cfg s v tr keep Hs Hb Hv _ _ _ _ _ HU HS EA) as V1.
  pose proof (ask_sane _ _ _ _ _ _ _ _ _ _ Hs Hb Hv HU HS EA) as S1.
  destruct (ro_at (wo_router w0)), (ro_at r1); try (injection EP as <- _; exact V1).
  exact (ask_version cfg s v tr keep Hs Hb Hv _ _ _ _ _ HU S1 EP).
Qed.

Lemma timely_more keep new l : forall h cur lag, cur = last h [] -> last (h ++ updates l) [] <> [] -> timely keep cur lag (l ++ [Poll]) -> timely keep cur lag (l ++ [Poll; Update new; Poll]).
Proof.
  induction l as [|e l IH]; intros h cur lag E NE HT.
  - cbn [app timely updates flat_map] in *. rewrite app_nil_r in NE. rewrite <- E in NE. destruct HT as [HT _]. split; [exact HT|].
    destruct cur; [contradiction|]. cbn [is_nil option_map]. split; [|exact I]. left. destruct (advances _ _); lia.
  - destruct e as [n| |]; cbn [app timely] in *.
    + apply (IH (h ++ [n])); [now rewrite last_last| |exact HT]. rewrite <- app_assoc. exact NE.
    + destruct HT as [H1 H2]. split; [exact H1|]. now apply (IH h).
    + now apply (IH h).
Qed.

(** A connection in use stays so. *)
Lemma run_serving srv i : forall sched w w' k, nreach srv w -> serving k -> nth_error (n_conns w) i = Some k -> Forall (allowed i) sched ->
  nrun srv w sched = Ok w' -> exists k', nth_error (n_conns w') i = Some k' /\ serving k'.
Proof.
  induction sched as [|l sched IH]; intros w w' k HR HS Hk HF H; cbn [nrun] in H; [injection H as <-; eauto|].
  destruct (nstep srv w l) as [w1|e|] eqn:E; [|destruct e|discriminate]. cbn [bind] in H. inversion HF as [|? ? F1 F2]; subst.
  destruct (step_served srv w l w1 i k HR HS Hk F1 E) as (k1 & K1 & S1 & _). apply (IH w1 w' k1); auto.
  destruct HR as [sc HR]. exists (sc ++ [l]). rewrite (nrun_app _ _ _ _ _ HR). cbn [nrun]. now rewrite E.
Qed.

Theorem converges cfg s keep h new sched w w0 : let srv := new_rtr_server cfg s in u16 s -> cfg_version cfg < 256 ->
  Forall (fun n => Forall wf_sd n /\ NoDup (ids n) /\ n <> []) (h ++ [new]) -> h <> [] ->
  let old := run (new_server keep) h in let cache := run (new_server keep) (h ++ [new]) in sdCurrentSerial old < 4294967295 ->
  nrun srv empty_net sched = Ok w -> n_notif w = NIdle -> (forall i k, In i (n_clients w) -> nth_error (n_conns w) i = Some k -> staying k) ->
  nstep srv w (LNotify (sdCurrentSerial cache)) = Ok w0 ->
  forall rs w', Forall (turn_all (n_clients w)) rs -> nrun srv w0 (concat rs) = Ok w' -> (patience w <= length rs)%nat ->
  exists r1 r2 w1, concat rs = r1 ++ r2 /\ nrun srv w0 r1 = Ok w1 /\ n_notif w1 = NIdle /\
    forall i k v tr l reads, In i (n_clients w) -> nth_error (n_conns w) i = Some k -> v <= cfg_version cfg -> acceptable (accept tr srv) v ->
    updates l = h -> timely keep [] None (l ++ [Poll]) -> asking srv tr v (start srv tr keep) (l ++ [Poll]) reads [] ->
    k_tr k = tr -> written k -> arrives srv i empty_net sched = reads ->
    exists k1 r, nth_error (n_conns w1) i = Some k1 /\ written k1 /\
      notes k1 = notes k ++ [SerialNotify v (session_of s v) (sdCurrentSerial cache)] /\
      listen v fresh_router [] (sent_on w1 i) = Some r /\ ro_at r = Some (session_of s v, sdCurrentSerial old) /\ in_sync v (keys_off tr cfg) r (last h []) /\
      forall wait w2 k2 chunk w3 k3, Forall (allowed i) wait -> nrun srv w1 wait = Ok w2 -> nth_error (n_conns w2) i = Some k2 -> written k2 ->
      bytes_for chunk (question v r) -> nstep srv w2 (LRead i cache chunk) = Ok w3 -> nth_error (n_conns w3) i = Some k3 ->
      forall rs2 w'', Forall (turn_each i) rs2 -> nrun srv w3 (concat rs2) = Ok w'' -> (outstanding k3 0 + 4 * notifier_steps (concat rs2) <= length rs2)%nat ->
      exists q1 q2 w4 r4, concat rs2 = q1 ++ q2 /\ nrun srv w3 q1 = Ok w4 /\
        listen v fresh_router [] (sent_on w4 i) = Some r4 /\ ro_at r4 = Some (session_of s v, sdCurrentSerial cache) /\ in_sync v (keys_off tr cfg) r4 new.
Proof.
  intros srv Hs Hb HU HN old cache HM HR ND ST H0 rs w' HTA HRS HL.
  assert (HU1 : Forall (fun n => Forall wf_sd n /\ NoDup (ids n) /\ n <> []) h) by (apply Forall_app in HU; tauto).
  assert (WU : Forall (Forall wf_sd) (h ++ [new])) by (eapply Forall_impl; [|exact HU]; cbn; tauto).
  assert (DU : Forall (fun n => NoDup (ids n)) (h ++ [new])) by (eapply Forall_impl; [|exact HU]; cbn; tauto).
  assert (WU1 : Forall (Forall wf_sd) h) by (apply Forall_app in WU; tauto).
  assert (NN : new <> []) by (apply Forall_app in HU as [_ HU]; inversion HU; tauto).
  assert (NL : last h [] <> []).
  { destruct h as [|n h' _] using rev_ind; [contradiction|]. rewrite last_last. apply Forall_app in HU1 as [_ HU1]. inversion HU1; subst. tauto. }
  assert (NE : sdCurrent old <> []).
  { pose proof (last_run keep h WU1) as X. fold old in X. intros E. rewrite E in X. apply same_set_sym, same_set_nil in X. contradiction. }
  (* the notification *)
  destruct (all_reached cfg s w _ w0 Hs Hb (ex_intro _ _ HR) ND ST H0 rs w' HTA HRS HL) as (r1 & r2 & w1 & E1 & E2 & E3 & E4).
  exists r1, r2, w1. do 3 (split; [assumption|]). intros i k v tr l reads Hi Hk Hv HA EL HT HK KT KW KA.
  (* the router so far *)
  destruct (poll_in_sync cfg s v tr keep l Hs Hb Hv HA) as (W1 & P1 & P2 & P3); [now rewrite EL|now rewrite EL|exact HT|]. fold srv in P1.
  assert (UP : updates (l ++ [Poll]) = h) by (rewrite <- EL; unfold updates; rewrite flat_map_app; apply app_nil_r).
  destruct (play_sane cfg s v tr keep Hs Hb Hv HA (l ++ [Poll]) [] (start srv tr keep) W1) as (HC1 & HS1); [rewrite UP; exact WU1|reflexivity| |exact P1|].
  { split; [|exact I]. apply (tracks_start cfg s v tr keep HA). }
  cbn [app] in HC1. rewrite UP in HC1. destruct HS1 as [G1 _]. rewrite EL in P2. unfold latest in P3. rewrite EL in P3.
  destruct (asking_conn _ _ _ _ _ _ _ HK eq_refl (accept_connected tr srv) _ P1) as (a1 & S1). cbn [start wo_conn] in S1.
  assert (V1 : c_version (wo_conn W1) = v) by (apply (poll_version cfg s v tr keep l W1 Hs Hb Hv HA); [now rewrite EL|exact P1]).
  destruct (alone_run srv sched w i k HR Hk) as (_ & a0 & S0 & _). rewrite KA, KT, S1 in S0. injection S0 as EC _.
  assert (KV : k_ver k = v). { pose proof (ver_run srv sched w HR i k Hk) as X. unfold ver_ok in X. destruct KW as (KG & _). rewrite KG in X. cbn in X. now rewrite X, <- EC. }
  destruct (E4 i k Hi Hk) as (k1 & v1 & sess1 & K1 & K2 & K3 & K4 & K5).
  destruct KW as (KG & KU & KQ). destruct (K4 KG) as [-> ->]. rewrite KV in *.
  assert (SV : serving k) by (apply (stay_serving srv w i k (ex_intro _ _ HR) Hi Hk); now apply ST with i).
  assert (AL : Forall (allowed i) ([LNotify (sdCurrentSerial cache)] ++ r1)).
  { constructor; [exact I|]. assert (X : Forall (allowed i) (concat rs)).
    { clear - HTA Hi. induction HTA as [|r rs (X & _) _ IH]; [constructor|]. cbn [concat]. apply Forall_app. split; [apply (X i Hi)|exact IH]. }
    rewrite E1 in X. now apply Forall_app in X. }
  assert (R1 : nrun srv w ([LNotify (sdCurrentSerial cache)] ++ r1) = Ok w1) by (cbn [app nrun]; rewrite H0; exact E2).
  destruct (run_serving srv i _ w w1 k (ex_intro _ _ HR) SV Hk AL R1) as (k1' & K1' & SV1). rewrite K1 in K1'. injection K1' as <-.
  assert (T1 : k_tr k1 = tr) by (rewrite (tr_keeps srv i k1 _ sched w w1 k HR Hk R1 K1); exact KT).
  assert (HR1 : nrun srv empty_net (sched ++ [LNotify (sdCurrentSerial cache)] ++ r1) = Ok w1) by (rewrite (nrun_app _ _ _ _ _ HR); exact R1).
  assert (A1 : arrives srv i empty_net (sched ++ [LNotify (sdCurrentSerial cache)] ++ r1) = reads) by (rewrite (arrives_app srv i _ _ _ _ HR), KA, (none_arrive srv i _ _ _ AL R1); apply app_nil_r).
  destruct (followed srv tr v _ w1 keep (l ++ [Poll]) reads [] [i] HR1 HK) as (W1' & Q1 & Q2).
  { constructor; [|constructor]. exists k1. split; [exact K1|]. split; [exact T1|]. split; [exact K2|now left]. }
  rewrite P1 in Q1. injection Q1 as <-. cbn [map concat] in Q2. rewrite app_nil_r in Q2.
  exists k1, (wo_router W1). do 6 (split; [assumption|]).
  (* the question *)
  intros wait w2 k2 chunk w3 k3 HW RW Hk2 K6 HB H2 Hk3 rs2 w'' HT2 HR2 HL2.
  destruct (run_serving srv i _ w1 w2 k1 (ex_intro _ _ HR1) SV1 K1 HW RW) as (k2' & K2' & SV2). rewrite Hk2 in K2'. injection K2' as <-.
  assert (T2 : k_tr k2 = tr) by (rewrite (tr_keeps srv i k2 _ _ w1 w2 k1 HR1 K1 RW Hk2); exact T1).
  assert (HRW : nrun srv empty_net ((sched ++ [LNotify (sdCurrentSerial cache)] ++ r1) ++ wait) = Ok w2) by (rewrite (nrun_app _ _ _ _ _ HR1); exact RW).
  assert (A2 : arrives srv i empty_net ((sched ++ [LNotify (sdCurrentSerial cache)] ++ r1) ++ wait) = reads) by (rewrite (arrives_app srv i _ _ _ _ HR1), A1, (none_arrive srv i _ _ _ HW RW); apply app_nil_r).
  destruct (ask_next cfg s v tr keep Hs Hb Hv h new (wo_conn W1) (wo_router W1) WU DU NN G1 NE HM P2) as (c' & r' & HASK & RAT).
  { intros x. fold old. rewrite (P3 x). pose proof (last_run keep h WU1 x) as L. fold old in L. rewrite L. split.
    - intros (d & I & M & <-). rewrite may_okr in M. split; [exact M|]. now apply in_ids.
    - intros [O I]. apply ids_in in I as (d & I & <-). exists d. rewrite may_okr. auto. }
  fold srv cache in HASK, RAT.
  assert (CW : wo_cache (mkWo (step (wo_cache W1) new) (wo_conn W1) (wo_router W1)) = cache) by (cbn [wo_cache]; rewrite HC1; unfold cache; now rewrite run_app).
  assert (AK : asking srv tr v (start srv tr keep) ((l ++ [Poll; Update new]) ++ [Poll]) (reads ++ [(cache, chunk)]) []).
  { rewrite <- app_assoc. cbn [app]. change (l ++ Poll :: Update new :: [Poll]) with (l ++ [Poll] ++ [Update new; Poll]). rewrite app_assoc.
    apply (asking_app _ _ _ _ _ _ _ HK eq_refl W1 _ _ P1). apply As_update. rewrite <- CW. eapply As_once; cbn [wo_cache wo_conn wo_router] in *; [exact HB| | |apply As_nil].
    - rewrite CW. exact HASK.
    - right. rewrite RAT. discriminate. }
  assert (UP2 : updates (l ++ [Poll; Update new]) = h ++ [new]) by (rewrite <- EL; unfold updates; now rewrite flat_map_app).
  assert (TM : timely keep [] None ((l ++ [Poll; Update new]) ++ [Poll])).
  { rewrite <- app_assoc. cbn [app]. apply (timely_more keep new l [] [] None eq_refl); [|exact HT]. cbn [app]. now rewrite EL. }
  destruct (poll_in_sync cfg s v tr keep (l ++ [Poll; Update new]) Hs Hb Hv HA) as (W3 & P4 & P5 & P6); [now rewrite UP2|rewrite UP2; destruct h; discriminate|exact TM|]. fold srv in P4.
  destruct SV2 as (SP & SF & _).
  destruct (gets_there srv tr v _ w2 i k2 keep _ reads cache chunk w3 k3 HRW AK Hk2 T2 SP SF K6 A2 H2 Hk3 rs2 w'' HT2 HR2 HL2) as (q1 & q2 & w4 & w5 & B1 & B2 & B3 & B4 & B5).
  rewrite P4 in B3. injection B3 as <-. exists q1, q2, w4, (wo_router W3). split; [exact B1|]. split; [exact B2|]. split; [exact B5|].
  rewrite UP2 in P5. split; [exact P5|]. unfold latest in P6. rewrite UP2, last_last in P6. exact P6.
Qed.
