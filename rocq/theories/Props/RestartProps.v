(** Property C125: routers of a server that was restarted. *)
From Coq Require Import ZArith ZifyBool ZifyNat ZifyN.
From Verif Require Import Model.Conn Spec.Sets Spec.History Spec.Response Spec.Router Spec.Restart
  Proofs.DataP Proofs.CacheP Proofs.ConnP Proofs.RouterP Proofs.RestartP Props.CacheProps Props.ConnProps Props.RouterProps.
From Coq Require Import List Lia.
Import ListNotations.
Local Open Scope list_scope.
Local Open Scope N_scope.

(** C125 A restarted server does not mislead its routers.  A router that was in step with a server,
    with whatever it remembers of it, connects to the server started afresh, with any configuration and
    any contents, and polls on: it ends up with what the new server serves, and stays in step. *)
Definition C125_statement : Prop := forall cfg cfg' s s' v tr tr' keep keep' l us,
  u16 s -> u16 s' -> cfg_version cfg < 256 -> cfg_version cfg' < 256 -> v <= cfg_version cfg -> v <= cfg_version cfg' ->
  acceptable (accept tr (new_rtr_server cfg s)) v -> acceptable (accept tr' (new_rtr_server cfg' s')) v ->
  Forall (fun n => Forall wf_sd n /\ NoDup (ids n) /\ n <> []) (updates l) -> updates l <> [] -> timely keep [] None (l ++ [Poll]) ->
  Forall (fun n => Forall wf_sd n /\ NoDup (ids n) /\ n <> []) us -> us <> [] ->
  exists w c r, play (new_rtr_server cfg s) tr v (start (new_rtr_server cfg s) tr keep) (l ++ [Poll]) = Some w /\
    rejoin (new_rtr_server cfg' s') tr' v (run (new_server keep') us) (wo_router w) = Some (c, r) /\
    in_sync v (keys_off tr' cfg') r (last us []).

(** The new server refuses a router exactly when the session is not its own for that version, and so a
    router of the old one exactly when the session numbers drawn at the two starts differ. *)
Theorem C125_refused : forall cfg s v tr keep h r sess n, u16 s -> cfg_version cfg < 256 -> v <= cfg_version cfg ->
  acceptable (accept tr (new_rtr_server cfg s)) v -> Forall (Forall wf_sd) h -> ro_at r = Some (sess, n) ->
  exists c a, process (new_rtr_server cfg s) (run (new_server keep) h) (accept tr (new_rtr_server cfg s)) (question v r) = Ok (c, a) /\
    (a = [Queue (corrupt_data v); Disc] <-> sess <> session_of s v) /\ (c_connected c = false <-> sess <> session_of s v) /\
    (forall s0, u16 s0 -> sess = session_of s0 v -> (a = [Queue (corrupt_data v); Disc] <-> s0 <> s)).
Proof.
  intros cfg s v tr keep h r sess n Hs Hb Hv HA HW HR.
  destruct (asked cfg s v tr keep Hs Hb Hv HA h r sess n HW HR) as (c & a & P & _ & D). exists c, a. split; [exact P|].
  assert (X : a = [Queue (corrupt_data v); Disc] <-> sess <> session_of s v).
  { destruct D as [(D1 & D2 & _)|(D1 & _ & D2 & _)]; split; auto; intros E; [|contradiction].
    subst a. cbn in D2. rewrite N.eqb_refl in D2. discriminate. }
  split; [exact X|]. split.
  - destruct D as [(D1 & _ & D2)|(D1 & D2 & _)]; split; auto; intros E; [congruence|contradiction].
  - intros s0 H0 ->. rewrite X. pose proof (sessions_apart s0 s v H0 Hs). tauto.
Qed.

(** What holds: when the two session numbers differ. *)
Lemma again_tracks cfg s v tr keep us c r : acceptable (accept tr (new_rtr_server cfg s)) v -> Forall (fun n => Forall wf_sd n /\ NoDup (ids n) /\ n <> []) us -> us <> [] ->
  good (new_rtr_server cfg s) tr v c -> sdCurrent (run (new_server keep) us) <> [] ->
  ro_at r = Some (session_of s v, sdCurrentSerial (run (new_server keep) us)) ->
  (forall x, In x (ro_set r) <-> okr v (keys_off tr cfg) x = true /\ In x (ids (sdCurrent (run (new_server keep) us)))) ->
  tracks cfg s v tr keep us (last us []) (Some 0) (mkWo (run (new_server keep) us) c r).
Proof.
  intros HA HU NE G NC R1 R2. unfold tracks. cbn [wo_cache wo_conn wo_router].
  split; [eapply Forall_impl; [|exact HU]; now intros ? (?&?&?)|]. split; [eapply Forall_impl; [|exact HU]; now intros ? (?&?&?)|].
  split; [eapply Forall_impl; [|exact HU]; now intros ? (?&?&?)|]. split; [reflexivity|]. split; [reflexivity|]. split; [exact G|].
  exists us, []. cbv zeta. rewrite app_nil_r. repeat (split; [solve [auto]|]). exact R2.
Qed.
Lemma nonempty_last us : Forall (fun n => Forall wf_sd n /\ NoDup (ids n) /\ n <> []) us -> us <> [] -> last us [] <> [].
Proof.
  intros HU NE. destruct us as [|n h _] using rev_ind; [contradiction|]. rewrite last_last. apply Forall_app in HU as [_ HU]. inversion HU as [|? ? (_ & _ & H) _]. exact H.
Qed.
Lemma nonempty_run keep us : Forall (fun n => Forall wf_sd n /\ NoDup (ids n) /\ n <> []) us -> us <> [] -> sdCurrent (run (new_server keep) us) <> [].
Proof.
  intros HU NE E. assert (HW : Forall (Forall wf_sd) us) by (eapply Forall_impl; [|exact HU]; now intros ? (?&?&?)).
  pose proof (nonempty_last us HU NE) as NL. pose proof (last_run keep us HW) as L. rewrite E in L.
  destruct (last us []) as [|d t]; [contradiction|]. destruct (L (rid_of d)) as [_ L2]. destruct L2. left. reflexivity.
Qed.
Lemma sync_okr v nk r keep us : Forall (Forall wf_sd) us ->
  (forall x, In x (ro_set r) <-> okr v nk x = true /\ In x (ids (sdCurrent (run (new_server keep) us)))) -> in_sync v nk r (last us []).
Proof.
  intros HW R x. rewrite (R x), (last_run keep us HW x). split.
  - intros [O I]. apply ids_in in I as (d & I & <-). exists d. rewrite may_okr. auto.
  - intros (d & I & M & <-). rewrite may_okr in M. split; [exact M|]. now apply in_ids.
Qed.
Lemma play_on cfg s v tr keep us w l2 : u16 s -> cfg_version cfg < 256 -> v <= cfg_version cfg -> acceptable (accept tr (new_rtr_server cfg s)) v ->
  tracks cfg s v tr keep us (last us []) (Some 0) w -> us <> [] -> Forall (fun n => Forall wf_sd n /\ NoDup (ids n) /\ n <> []) (us ++ updates l2) ->
  timely keep (last us []) (Some 0) (l2 ++ [Poll]) ->
  exists w', play (new_rtr_server cfg s) tr v w (l2 ++ [Poll]) = Some w' /\ in_sync v (keys_off tr cfg) (wo_router w') (last (us ++ updates l2) []).
Proof.
  intros Hs Hb Hv HA HT NE HU TI. assert (EU : updates (l2 ++ [Poll]) = updates l2) by (unfold updates; rewrite flat_map_app; cbn; apply app_nil_r).
  pose proof (proj1 (Forall_app _ _ _) HU) as [_ HU2].
  destruct (tracks_play cfg s v tr keep Hs Hb Hv HA (l2 ++ [Poll]) us (last us []) (Some 0) w HT ltac:(now rewrite EU) TI) as (w' & HP & T).
  exists w'. split; [exact HP|]. rewrite EU in T.
  assert (NL : last (us ++ updates l2) [] <> []). { apply nonempty_last; [exact HU|]. intros E. apply app_eq_nil in E as [E _]. contradiction. }
  rewrite (lag_poll l2 us (last us []) (Some 0) eq_refl NL) in T.
  destruct T as (Hh & _ & HF & _ & _ & _ & h1 & h2 & EH & T). cbv zeta in T. destruct T as (T1 & T2 & T3 & T4).
  apply (sync_okr v _ _ keep); [exact Hh|]. rewrite EH in Hh, HF |- *. pose proof Hh as Hh0. apply Forall_app in Hh0 as [Hh1 Hh2]. apply Forall_app in HF as [_ HF2].
  assert (E : run (new_server keep) (h1 ++ h2) = run (new_server keep) h1) by (rewrite run_app; apply run_no_advance; auto; apply run_inv; auto using inv_new).
  rewrite E. exact T4.
Qed.
Theorem C125_partial : forall cfg cfg' s s' v tr tr' keep keep' l us l2,
  u16 s -> u16 s' -> s <> s' -> cfg_version cfg < 256 -> cfg_version cfg' < 256 -> v <= cfg_version cfg -> v <= cfg_version cfg' ->
  acceptable (accept tr (new_rtr_server cfg s)) v -> acceptable (accept tr' (new_rtr_server cfg' s')) v ->
  Forall (fun n => Forall wf_sd n /\ NoDup (ids n) /\ n <> []) (updates l) -> updates l <> [] -> timely keep [] None (l ++ [Poll]) ->
  Forall (fun n => Forall wf_sd n /\ NoDup (ids n) /\ n <> []) (us ++ updates l2) -> us <> [] -> timely keep' (last us []) (Some 0) (l2 ++ [Poll]) ->
  exists w c r w', play (new_rtr_server cfg s) tr v (start (new_rtr_server cfg s) tr keep) (l ++ [Poll]) = Some w /\
    rejoin (new_rtr_server cfg' s') tr' v (run (new_server keep') us) (wo_router w) = Some (c, r) /\
    in_sync v (keys_off tr' cfg') r (last us []) /\
    play (new_rtr_server cfg' s') tr' v (mkWo (run (new_server keep') us) c r) (l2 ++ [Poll]) = Some w' /\
    in_sync v (keys_off tr' cfg') (wo_router w') (last (us ++ updates l2) []).
Proof.
  intros cfg cfg' s s' v tr tr' keep keep' l us l2 Hs Hs' HD Hb Hb' Hv Hv' HA HA' HU NE TI HU2 NE2 TI2.
  destruct (poll_in_sync cfg s v tr keep l Hs Hb Hv HA HU NE TI) as (w & P1 & R1 & _).
  pose proof (proj1 (Forall_app _ _ _) HU2) as [HU1 _].
  assert (HW : Forall (Forall wf_sd) us) by (eapply Forall_impl; [|exact HU1]; now intros ? (?&?&?)).
  assert (HN : Forall (fun l => NoDup (ids l)) us) by (eapply Forall_impl; [|exact HU1]; now intros ? (?&?&?)).
  destruct (refused_afresh cfg' s' v tr' keep' Hs' Hb' Hv' HA' us (wo_router w) _ _ HW HN R1) as (c & r & J & G & _ & K).
  { pose proof (sessions_apart s s' v Hs Hs'). tauto. }
  pose proof (nonempty_run keep' us HU1 NE2) as NC. destruct (K NC) as [K1 K2].
  destruct (play_on cfg' s' v tr' keep' us (mkWo (run (new_server keep') us) c r) l2 Hs' Hb' Hv' HA' ltac:(now apply again_tracks) NE2 HU2 TI2) as (w' & P2 & S2).
  exists w, c, r, w'. repeat (split; [eassumption|]). split; [now apply (sync_okr v _ r keep')|]. auto.
Qed.
(** Nothing loaded yet: the router is refused, then told that there is no data, and keeps what it has,
    without a session. *)
Theorem C125_unloaded : forall cfg s v tr keep r sess n, u16 s -> cfg_version cfg < 256 -> v <= cfg_version cfg ->
  acceptable (accept tr (new_rtr_server cfg s)) v -> ro_at r = Some (sess, n) -> sess <> session_of s v ->
  exists c, rejoin (new_rtr_server cfg s) tr v (new_server keep) r = Some (c, mkRo None (ro_set r)) /\ c_connected c = true.
Proof.
  intros cfg s v tr keep r sess n Hs Hb Hv HA HR HS.
  destruct (refused_afresh cfg s v tr keep Hs Hb Hv HA [] r sess n ltac:(constructor) ltac:(constructor) HR HS) as (c & r' & J & G & K & _).
  exists c. cbn in J, K. rewrite (K eq_refl) in J. split; [exact J|]. apply G.
Qed.
(** The same session number drawn again.  Harmless when the new server has no difference for the
    router's serial: it answers Cache Reset. *)
Theorem C125_reset_partial : forall cfg s v tr keep us r n, u16 s -> cfg_version cfg < 256 -> v <= cfg_version cfg ->
  acceptable (accept tr (new_rtr_server cfg s)) v -> Forall (fun n => Forall wf_sd n /\ NoDup (ids n) /\ n <> []) us -> us <> [] ->
  ro_at r = Some (session_of s v, n) -> let cache := run (new_server keep) us in
  sdCurrentSerial cache < n \/ n + nlen (sdListDiff cache) < sdCurrentSerial cache ->
  exists c r', rejoin (new_rtr_server cfg s) tr v cache r = Some (c, r') /\
    ro_at r' = Some (session_of s v, sdCurrentSerial cache) /\ in_sync v (keys_off tr cfg) r' (last us []).
Proof.
  intros cfg s v tr keep us r n Hs Hb Hv HA HU NE HR cache HO.
  assert (HW : Forall (Forall wf_sd) us) by (eapply Forall_impl; [|exact HU]; now intros ? (?&?&?)).
  assert (HN : Forall (fun l => NoDup (ids l)) us) by (eapply Forall_impl; [|exact HU]; now intros ? (?&?&?)).
  destruct (reset_afresh cfg s v tr keep Hs Hb Hv HA us r n HW HN HR (nonempty_run keep us HU NE) HO) as (c & r' & J & _ & K1 & K2).
  exists c, r'. split; [exact J|]. split; [exact K1|]. now apply (sync_okr v _ r' keep).
Qed.
(** When it is the serial the new server is at, the router is told that it is up to date: it keeps what
    it held, whatever is served now. *)
Theorem C125_misled : forall cfg s v tr keep us r, u16 s -> cfg_version cfg < 256 -> v <= cfg_version cfg ->
  acceptable (accept tr (new_rtr_server cfg s)) v -> Forall (fun n => Forall wf_sd n /\ NoDup (ids n) /\ n <> []) us -> us <> [] ->
  ro_at r = Some (session_of s v, sdCurrentSerial (run (new_server keep) us)) ->
  exists c, rejoin (new_rtr_server cfg s) tr v (run (new_server keep) us) r = Some (c, r).
Proof.
  intros cfg s v tr keep us r Hs Hb Hv HA HU NE HR. set (cache := run (new_server keep) us) in *.
  assert (HW : Forall (Forall wf_sd) us) by (eapply Forall_impl; [|exact HU]; now intros ? (?&?&?)).
  pose proof (nonempty_run keep us HU NE) as NC. fold cache in NC. pose proof (accept_good cfg s v tr HA) as (G1 & G2 & G3).
  destruct (C20_serial cfg s tr keep us (accept tr (new_rtr_server cfg s)) v (session_of s v) (sdCurrentSerial cache) Hs Hb HW G1 G2 G3) as (c' & a & P & V & D).
  fold cache in P, D. assert (NV : negotiated (new_rtr_server cfg s) v = v) by (unfold negotiated; cbn; lia). rewrite NV in *.
  destruct D as [(D1 & _)|(_ & D2 & [(D3 & _)|[(_ & D3 & _)|(d & _ & D3 & ->)]])]; [contradiction|contradiction|lia|].
  assert (ED : d = []). { unfold get_sds_serial_diff in D3. rewrite N.eqb_refl in D3. congruence. } subst d.
  exists c'. unfold rejoin, poll, ask, question. rewrite HR, P. destruct r as [a0 rs]. cbn [ro_at ro_set] in *. subst a0.
  unfold response. cbn. rewrite ?N.eqb_refl. cbn. rewrite ?N.eqb_refl. reflexivity.
Qed.
(** False: both runs drew session number 7 and have had one file. *)
Theorem C125_refuted : ~ C125_statement.
Proof.
  intros H. destruct (H cfg1 cfg1 7 7 1 TCP TCP 3%Z 3%Z [Update [x1]] [[x2]]) as (w & c & r & P & J & S).
  1,2,3,4: reflexivity. 1,2: discriminate. 1,2: exact acceptable1.
  - repeat constructor; try discriminate. intros [].
  - discriminate.
  - cbn. auto with zarith.
  - repeat constructor; try discriminate. intros [].
  - discriminate.
  - vm_compute in P. injection P as <-. vm_compute in J. injection J as <- <-.
    destruct (S (rid_of x2)) as [_ S2]. destruct S2 as [S2|[]]; [exists x2; vm_compute; auto|discriminate].
Qed.
(** The same with numbers 7 and 8: the router is refused, begins afresh and follows on; and before
    anything is loaded. *)
Example C125_case : let l := [Update [x1]; Poll; Update [x1; x3]] in let us := [[x2]; [x2; x4]] in let l2 := [Reconnect; Poll; Update [x3; x4]] in
  let old := play (new_rtr_server cfg1 7) TCP 1 (start (new_rtr_server cfg1 7) TCP 3) (l ++ [Poll]) in
  timely 3 [] None (l ++ [Poll]) /\ timely 3 (last us []) (Some 0) (l2 ++ [Poll]) /\
  option_map wo_router old = Some (mkRo (Some (session_of 7 1, 1)) (ids [x3; x1])) /\
  match old with
  | Some w =>
      match rejoin (new_rtr_server cfg1 8) TCP 1 (run (new_server 3) us) (wo_router w) with
      | Some (c, r) => r = mkRo (Some (session_of 8 1, 1)) (ids [x4; x2]) /\
          option_map (fun w => ro_set (wo_router w)) (play (new_rtr_server cfg1 8) TCP 1 (mkWo (run (new_server 3) us) c r) (l2 ++ [Poll])) = Some (ids [x3; x4])
      | None => False
      end /\
      option_map snd (rejoin (new_rtr_server cfg1 8) TCP 1 (new_server 3) (wo_router w)) = Some (mkRo None (ids [x3; x1])) /\
      option_map snd (rejoin (new_rtr_server cfg1 7) TCP 1 (run (new_server 3) us) (wo_router w)) = Some (wo_router w) /\
      option_map snd (rejoin (new_rtr_server cfg1 7) TCP 1 (run (new_server 3) [[x2]]) (wo_router w)) = Some (mkRo (Some (session_of 7 1, 0)) (ids [x2]))
  | None => False
  end.
Proof. cbv zeta. split; [vm_compute; intuition (discriminate || reflexivity || auto)|]. split; [vm_compute; intuition (discriminate || reflexivity || auto)|]. split; [vm_compute; reflexivity|]. vm_compute. repeat split; reflexivity. Qed.

Print Assumptions C125_refused.
Print Assumptions C125_partial.
Print Assumptions C125_unloaded.
Print Assumptions C125_reset_partial.
Print Assumptions C125_misled.
Print Assumptions C125_refuted.
