(** A router on the other side of the concurrent server. *)
From Coq Require Import ZArith ZifyBool ZifyNat ZifyN.
From Verif Require Import Model.Concurrent Spec.Sets Spec.History Spec.Response Spec.Router Spec.Net Spec.Conversation Spec.Answered Spec.Reached Spec.Isolated Spec.Follow
  Proofs.DataP Proofs.ConnP Proofs.ConcCacheP Proofs.NetP Proofs.NetP2 Proofs.ConversationP Proofs.AnsweredP Proofs.IsolatedP Proofs.ClientGaugeP Proofs.ReachedP Proofs.RouterP.
From Coq Require Import List.
Local Open Scope list_scope.
Local Open Scope N_scope.

(** * Reading one answer *)
Lemma payload_listen v sess r more r' : forall ps l n part, payload v sess ps = Some (l, n) -> hear v r (part ++ ps) = Some r' ->
  listen v r part (ps ++ more) = listen v r' [] more.
Proof.
  induction ps as [|p ps IH]; intros l n part HP HH; [discriminate HP|].
  assert (STEP : completes p = false -> (exists l n, payload v sess ps = Some (l, n)) -> listen v r part ((p :: ps) ++ more) = listen v r' [] more).
  { intros EC (l1 & n1 & E1). cbn [app listen]. rewrite EC. apply (IH l1 n1); [exact E1|]. now rewrite <- app_assoc. }
  destruct p; cbn [payload data_of] in HP; try discriminate HP;
    try (destruct (_ =? v); [|discriminate HP]; destruct (payload v sess ps) as [[l1 n1]|] eqn:E; [|discriminate HP]; apply STEP; [reflexivity|eauto]).
  destruct ps as [|p2 ps]; [|discriminate HP]. cbn [app listen completes]. now rewrite HH.
Qed.
Lemma hear_listen v r ps r' more : hear v r ps = Some r' -> listen v r [] (ps ++ more) = listen v r' [] more.
Proof.
  intros H. destruct ps as [|p ps]; [discriminate H|]. destruct p; cbn [hear] in H; try discriminate H.
  - destruct ((ver =? v) && _)%bool eqn:EV; [|discriminate H]. destruct (payload v sess ps) as [[l n]|] eqn:EP; [|discriminate H].
    cbn [app listen completes]. apply (payload_listen v sess r more r' ps l n [CacheResponse ver sess] EP). cbn [app hear]. now rewrite EV, EP.
  - destruct ps; [|discriminate H]. cbn [app listen completes hear]. now rewrite H.
  - destruct ps; [|discriminate H]. cbn [app listen completes hear]. now rewrite H.
Qed.

(** * Asking *)
Lemma sent_queued : forall a ps, sent a = Some ps -> queued_by a = ps /\ no_flag (ops a) = true.
Proof.
  induction a as [|[p|] a IH]; intros ps H; cbn [sent] in H; [injection H as <-; auto| |discriminate].
  destruct (sent a) as [qs|] eqn:E; [|discriminate]. cbn in H. injection H as <-. destruct (IH _ eq_refl) as [A B]. split; [|exact B].
  unfold queued_by in *. cbn. now rewrite A.
Qed.
Lemma no_flag_acts l : no_flag (acts_of l) = no_flag l.
Proof. unfold no_flag, acts_of. induction l as [|[v|p| | |] l IH]; cbn in *; auto. Qed.
Lemma ask_reads srv v cache c r c' r' chunk : ask srv v cache c r = Some (c', r') -> bytes_for chunk (question v r) -> c_connected c = true ->
  exists a ps, on_read srv cache c chunk = Ok (c', a, false) /\ queued_by a = ps /\ hear v r ps = Some r' /\ c_connected c' = true.
Proof.
  unfold ask. intros H [HN HD] HC. pose proof (process_ops_acts srv cache c (question v r)) as HA.
  destruct (process srv cache c (question v r)) as [[c1 a]|e|] eqn:EP; [|destruct e|discriminate].
  destruct (process_ops srv cache c (question v r)) as [[c2 l]|e|] eqn:EO; [|destruct HA|contradiction]. destruct HA as [<- HA].
  destruct (sent a) as [ps|] eqn:ES; [|discriminate]. destruct (hear v r ps) as [r1|] eqn:EH; [|discriminate]. injection H as <- <-.
  destruct (sent_queued _ _ ES) as [Q F]. exists a, ps. split.
  - unfold on_read. destruct chunk as [|b chunk]; [congruence|]. rewrite HD, EP. reflexivity.
  - split; [exact Q|]. split; [exact EH|]. rewrite (process_keeps _ _ _ _ _ _ EO), HC, <- no_flag_acts, HA, F. reflexivity.
Qed.
Lemma session_cons srv c cache chunk reads c1 a1 c2 a2 : c_connected c = true -> on_read srv cache c chunk = Ok (c1, a1, false) ->
  session srv c1 reads = Ok (c2, a2) -> session srv c ((cache, chunk) :: reads) = Ok (c2, a1 ++ a2).
Proof. intros HC HO HS. cbn [session]. rewrite HC. cbn [negb]. rewrite HO. cbn [bind]. rewrite HS. reflexivity. Qed.

Lemma accept_connected tr srv : c_connected (accept tr srv) = true.
Proof. unfold accept. destruct (s_enforce srv), tr, (s_disableBGPSec srv); reflexivity. Qed.
Lemma asking_session srv tr v w l here later : asking srv tr v w l here later -> c_connected (wo_conn w) = true ->
  exists c a w', play srv tr v w l = Some w' /\ (session srv (wo_conn w) here = Ok (c, a) /\ c_connected c = true) /\
    exists outs, Forall2 (fun reads out => exists c' a', (session srv (accept tr srv) reads = Ok (c', a') /\ c_connected c' = true) /\ queued_by a' = out) later outs /\
      listen v (wo_router w) [] (queued_by a ++ concat outs) = Some (wo_router w').
Proof.
  induction 1 as [w|w new l here later H IH|w chunk c r l here later HB HA HR H IH|w chunk c r chunk2 c2 r2 l here later HB HA HR HN HB2 HA2 H IH|w l here later H IH];
    intros HC.
  - eexists _, _, _. split; [reflexivity|]. cbn [session]. rewrite HC. split; [split; [reflexivity|exact HC]|]. exists []. split; [constructor|reflexivity].
  - destruct (IH HC) as (c & a & w' & P & S & X). eexists _, _, _. split; [exact P|]. split; [exact S|exact X].
  - destruct (ask_reads _ _ _ _ _ _ _ _ HA HB HC) as (a1 & ps & O & Q & HH & C1). destruct (IH C1) as (c3 & a3 & w' & P & [S CS] & outs & F & L).
    eexists _, _, w'. split.
    + cbn [play happens]. unfold poll. rewrite HA. destruct HR as [->| HR]; [exact P|]. destruct (ro_at (wo_router w)); [|exact P].
      destruct (ro_at r); [exact P|congruence].
    + split; [split; [exact (session_cons _ _ _ _ _ _ _ _ _ HC O S)|exact CS]|]. exists outs. split; [exact F|]. cbn [wo_router] in L.
      rewrite queued_app, Q, <- app_assoc, (hear_listen _ _ _ _ _ HH). exact L.
  - destruct (ask_reads _ _ _ _ _ _ _ _ HA HB HC) as (a1 & ps & O & Q & HH & C1). destruct (ask_reads _ _ _ _ _ _ _ _ HA2 HB2 C1) as (a2 & ps2 & O2 & Q2 & HH2 & C2).
    destruct (IH C2) as (c3 & a3 & w' & P & [S CS] & outs & F & L).
    eexists _, _, w'. split.
    + cbn [play happens]. unfold poll. rewrite HA. destruct (ro_at (wo_router w)); [|congruence]. rewrite HN, HA2. exact P.
    + split; [split; [exact (session_cons _ _ _ _ _ _ _ _ _ HC O (session_cons _ _ _ _ _ _ _ _ _ C1 O2 S))|exact CS]|]. exists outs. split; [exact F|]. cbn [wo_router] in L.
      rewrite !queued_app, Q, Q2, <- !app_assoc, (hear_listen _ _ _ _ _ HH), (hear_listen _ _ _ _ _ HH2). exact L.
  - destruct (IH (accept_connected tr srv)) as (c & a & w' & P & [S CS] & outs & F & L). eexists _, _, w'. split; [exact P|].
    cbn [session]. rewrite HC. split; [split; [reflexivity|exact HC]|]. exists (queued_by a :: outs). split; [|exact L]. constructor; [|exact F]. cbn [wo_conn] in S. eauto.
Qed.

Theorem followed srv tr v sched w keep l here later conns : nrun srv empty_net sched = Ok w ->
  asking srv tr v (start srv tr keep) l here later -> Forall2 (served_on srv tr sched w) conns (here :: later) ->
  exists w', play srv tr v (start srv tr keep) l = Some w' /\
    listen v fresh_router [] (concat (map (sent_on w) conns)) = Some (wo_router w').
Proof.
  intros HN HA HF. destruct (asking_session _ _ _ _ _ _ _ HA (accept_connected tr srv)) as (c & a & w' & P & [S CS] & outs & F & L).
  exists w'. split; [exact P|]. cbn [start wo_conn wo_router] in *.
  assert (ONE : forall i reads c a, served_on srv tr sched w i reads -> session srv (accept tr srv) reads = Ok (c, a) -> c_connected c = true -> sent_on w i = queued_by a).
  { clear - HN. intros i reads c a (k & K1 & K2 & (K4 & _) & K3) HS HC. destruct (alone_run srv sched w i k HN K1) as (_ & a1 & S1 & S2).
    assert (E : queued_by a1 = queued_by a).
    { rewrite K2 in S1. destruct K3 as [K3|(cache & K3)]; rewrite K3 in S1; [congruence|].
      pose proof (session_snoc srv (cache, @nil N) _ _ _ _ HS HC) as X. pose proof (eq_trans (eq_sym X) S1) as Y. cbn in Y. clear S1. rename Y into S1. injection S1 as _ <-. rewrite queued_app. apply app_nil_r. }
    rewrite <- E, <- S2. unfold sent_on. rewrite K1. unfold content. rewrite K4. cbn [puts flat_map]. now rewrite app_nil_r. }
  replace (concat (map (sent_on w) conns)) with (queued_by a ++ concat outs); [exact L|].
  inversion HF as [|i ? is ? F1 F2]; subst. cbn [map concat]. f_equal; [symmetry; eapply ONE; eauto|].
  clear - F2 F ONE. revert outs F. induction F2 as [|j reads is later J1 _ IH]; intros outs F; inversion F as [|? out ? outs' (c' & a' & [X1 X3] & X2) FF]; subst; [reflexivity|].
  cbn [map concat]. rewrite (ONE _ _ _ _ J1 X1 X3). f_equal. now apply IH.
Qed.

(** * And it gets there *)
Lemma none_arrive srv i : forall sched w w', Forall (allowed i) sched -> nrun srv w sched = Ok w' -> arrives srv i w sched = [].
Proof.
  induction sched as [|l sched IH]; intros w w' HF H; [reflexivity|]. inversion HF as [|? ? F1 F2]; subst. cbn [nrun] in H.
  destruct (nstep srv w l) as [w1|e|] eqn:E; [|destruct e|discriminate]. cbn [bind] in H. cbn [arrives]. rewrite E, (IH _ _ F2 H), app_nil_r.
  destruct l; try reflexivity. cbn [allowed] in F1. destruct (nth_error (n_conns w) i) as [k|]; [|reflexivity].
  assert (Nat.eqb i0 i = false) as -> by (apply Nat.eqb_neq; exact F1). reflexivity.
Qed.
Lemma going_serving srv w i k : nreach srv w -> nth_error (n_conns w) i = Some k -> k_phase k = Running -> k_flag k = true -> k_up k = true ->
  no_flag (k_prog k) = true -> serving k.
Proof.
  intros HR Hk P F U NF. apply (stay_serving srv w i k HR); [|exact Hk|].
  - destruct (net_ok_reach _ _ HR) as (_ & _ & HC). destruct (HC i k Hk) as [_ C]. rewrite P in C. destruct C as [[_ C]|(r & _ & _ & C)]; [|congruence].
    apply C. exact F.
  - split; [exact F|]. split; [exact U|]. intros X. unfold no_flag in NF. rewrite forallb_forall in NF. specialize (NF _ X). discriminate NF.
Qed.
Lemma tr_keeps srv i k' : forall r s w w' k, nrun srv empty_net s = Ok w -> nth_error (n_conns w) i = Some k -> nrun srv w r = Ok w' ->
  nth_error (n_conns w') i = Some k' -> k_tr k' = k_tr k.
Proof.
  induction r as [|l r IH]; intros s w w' k HS Hk H Hk'; cbn [nrun] in H; [injection H as <-; congruence|].
  destruct (nstep srv w l) as [w1|e|] eqn:E; [|destruct e|discriminate]. cbn [bind] in H.
  assert (HW : nwhole w) by (apply (nrun_inv srv nwhole (nwhole_step srv) s empty_net w); [split; [apply (empty_conns kwhole)|exact I]|exact HS]).
  assert (HS1 : nrun srv empty_net (s ++ [l]) = Ok w1) by (rewrite (nrun_app _ _ _ _ _ HS); cbn [nrun]; now rewrite E).
  destruct (step_seen srv w l w1 i k HW (shape_run _ _ _ HS _ _ Hk) E Hk) as [(cache & chunk & c & prog & _ & _ & _ & C)|(k1 & A & B & _)].
  - rewrite (IH _ _ _ _ HS1 C H Hk'). reflexivity.
  - rewrite (IH _ _ _ _ HS1 A H Hk'). apply B.
Qed.
Theorem gets_there srv tr v sched w i k keep l reads cache chunk w0 k0 : nrun srv empty_net sched = Ok w ->
  asking srv tr v (start srv tr keep) l (reads ++ [(cache, chunk)]) [] ->
  nth_error (n_conns w) i = Some k -> k_tr k = tr -> k_phase k = Running -> k_flag k = true -> written k -> arrives srv i empty_net sched = reads ->
  nstep srv w (LRead i cache chunk) = Ok w0 -> nth_error (n_conns w0) i = Some k0 ->
  forall rs w', Forall (turn_each i) rs -> nrun srv w0 (concat rs) = Ok w' ->
    (outstanding k0 0 + 4 * notifier_steps (concat rs) <= length rs)%nat ->
    exists r1 r2 w1 w2, concat rs = r1 ++ r2 /\ nrun srv w0 r1 = Ok w1 /\ play srv tr v (start srv tr keep) l = Some w2 /\
      served_on srv tr (sched ++ [LRead i cache chunk] ++ r1) w1 i (reads ++ [(cache, chunk)]) /\
      listen v fresh_router [] (sent_on w1 i) = Some (wo_router w2).
Proof.
  intros HN HA Hk KT KP KF KW KA H K0 rs w' HT HR HL.
  destruct (asking_session _ _ _ _ _ _ _ HA (accept_connected tr srv)) as (c & a & wz & P & [S CS] & _). cbn [start wo_conn] in S.
  destruct KW as (KG & KU & KQ).
  destruct (alone_run srv sched w i k HN Hk) as (G & a0 & S0 & _). rewrite KA, KT in S0.
  assert (CC : c_connected (k_cli k) = true) by (rewrite <- G; unfold going; rewrite KP, KF, KG; reflexivity).
  rewrite (session_snoc srv (cache, chunk) _ _ _ _ S0 CC) in S. cbn [fst snd] in S.
  assert (HR0 : nrun srv empty_net (sched ++ [LRead i cache chunk]) = Ok w0) by (rewrite (nrun_app _ _ _ _ _ HN); cbn [nrun]; now rewrite H).
  assert (LT : (i < length (n_conns w))%nat) by (apply nth_error_Some; congruence).
  assert (W : waiting k = true) by (unfold waiting; now rewrite KP, KF, KG).
  cbn [nstep] in H. rewrite Hk, KP, KG, KF in H. destruct (read_ops srv cache (k_cli k) chunk) as [[c1 l1]|e|] eqn:ER; [|destruct e|discriminate].
  cbn [bind fst snd] in H. injection H as <-. unfold with_conn in K0. cbn [n_conns] in K0. rewrite set_nth_same in K0 by exact LT. injection K0 as <-.
  destruct (read_at_once _ _ _ _ _ _ ER) as (a1 & stop & O1 & O2 & O3 & _). rewrite O1 in S. cbn [bind fst snd] in S. injection S as -> _.
  set (w0 := with_conn w i (k_set_read c l1 k)) in *.
  assert (I0 : nth_error (n_conns w0) i = Some (k_set_read c l1 k)) by (unfold w0, with_conn; cbn [n_conns]; now rewrite set_nth_same).
  assert (SV : serving (k_set_read c l1 k)).
  { apply (going_serving srv w0 i); auto; [now exists (sched ++ [LRead i cache chunk])|]. cbn [k_prog k_set_read]. rewrite CS, CC in O3. now rewrite O3. }
  destruct (all_served srv i rs w0 w' _ (ex_intro _ _ HR0) SV I0 HT HR HL) as (r1 & r2 & w1 & k1 & E1 & E2 & E3 & E4 & E5).
  assert (HR1 : nrun srv empty_net (sched ++ [LRead i cache chunk] ++ r1) = Ok w1) by (rewrite app_assoc, (nrun_app _ _ _ _ _ HR0); exact E2).
  assert (AL : Forall (allowed i) r1).
  { assert (X : Forall (allowed i) (concat rs)).
    { clear - HT. induction HT as [|r rs (_ & _ & X) _ IH]; [constructor|]. cbn [concat]. apply Forall_app. split; [exact X|exact IH]. }
    rewrite E1 in X. now apply Forall_app in X. }
  assert (T1 : k_tr k1 = tr) by (rewrite (tr_keeps srv i k1 r1 _ w0 w1 _ HR0 I0 E2 E3); exact KT).
  exists r1, r2, w1, wz. split; [exact E1|]. split; [exact E2|]. split; [exact P|].
  assert (SO : served_on srv tr (sched ++ [LRead i cache chunk] ++ r1) w1 i (reads ++ [(cache, chunk)])).
  { exists k1. split; [exact E3|]. split; [exact T1|]. split; [exact E4|]. left. rewrite app_assoc, (arrives_app srv i _ _ _ _ HR0), (none_arrive srv i _ _ _ AL E2), app_nil_r.
    rewrite (arrives_app srv i _ _ _ _ HN), KA. f_equal. cbn [arrives]. rewrite Hk, Nat.eqb_refl, W. cbn [andb app].
    destruct (nstep _ _ _); reflexivity. }
  split; [exact SO|].
  destruct (followed srv tr v _ w1 keep l _ [] [i] HR1 HA) as (w2 & Q1 & Q2); [constructor; [exact SO|constructor]|].
  rewrite P in Q1. injection Q1 as <-. cbn [map concat] in Q2. now rewrite app_nil_r in Q2.
Qed.
