(** Property C107: the intervals of End of Data, seen from a router that keeps to them. *)
From Coq Require Import ZArith ZifyBool ZifyNat ZifyN String.
From Verif Require Import Lib.Str Model.Main Model.Conn Spec.Refresh Spec.Flags Spec.Sets Spec.History Spec.Response Spec.Router Spec.EndToEnd Spec.Timers
  Proofs.DataP Proofs.CacheP Proofs.ConnP Proofs.StateP Proofs.RouterP Proofs.EndToEndP Proofs.TimersP
  Props.CacheProps Props.ConnProps Props.InputProps Props.StateProps Props.FlagProps Props.JsonProps Props.RouterProps Props.EndToEndProps.
From Coq Require Import List Lia.
Local Open Scope string_scope.
Local Open Scope list_scope.
Local Open Scope N_scope.

(** C107 The intervals fit together.  The full statement: a router that polls in time, and at
    least once in every Refresh Interval it is told, goes by exactly the records served at its
    last poll, at every moment, whatever the flags. *)
Definition C107_statement : Prop := forall f cfg sc fc s v tr l1 t1 l2 t, stayrtr_main f = Runs cfg sc fc ->
  u16 s -> v <= cfg_version cfg -> acceptable (accept tr (new_rtr_server cfg s)) v ->
  Forall (fun n => Forall wf_sd n /\ NoDup (ids n) /\ n <> []) (tupdates l1) -> tupdates l1 <> [] ->
  in_time 3 (life cfg v) [] None (l1 ++ [(t1, Poll)]) -> no_poll l2 -> (t1 <= t <= t1 + pace cfg v)%Z ->
  exists w, tplay (new_rtr_server cfg s) tr v (tstart (new_rtr_server cfg s) tr 3) (l1 ++ (t1, Poll) :: l2) = Some w /\
    in_sync v (keys_off tr cfg) (at_time t (tw_timed w)) (tlatest l1).

(** What holds for all intervals: exactly these records until the Expire Interval has passed since
    the last poll, and nothing after. *)
Theorem C107_exact_partial : forall cfg s v tr keep l1 t1 l2 t, u16 s -> cfg_version cfg < 256 -> v <= cfg_version cfg ->
  acceptable (accept tr (new_rtr_server cfg s)) v ->
  Forall (fun n => Forall wf_sd n /\ NoDup (ids n) /\ n <> []) (tupdates l1) -> tupdates l1 <> [] ->
  in_time keep (life cfg v) [] None (l1 ++ [(t1, Poll)]) -> no_poll l2 ->
  exists w, tplay (new_rtr_server cfg s) tr v (tstart (new_rtr_server cfg s) tr keep) (l1 ++ (t1, Poll) :: l2) = Some w /\
    ((t <= t1 + life cfg v)%Z -> in_sync v (keys_off tr cfg) (at_time t (tw_timed w)) (tlatest l1)) /\
    ((t1 + life cfg v < t)%Z -> ro_set (at_time t (tw_timed w)) = []).
Proof.
  intros cfg s v tr keep l1 t1 l2 t Hs Hb Hv HA HU HN HT HP. destruct (lasts cfg s v tr keep l1 t1 l2 Hs Hb Hv HA HU HN HT HP) as (w & P & E & S).
  exists w. split; [exact P|]. unfold at_time, aged. rewrite E. split; intros H.
  - destruct (_ <? t)%Z eqn:L; [lia|exact S].
  - destruct (_ <? t)%Z eqn:L; [reflexivity|lia].
Qed.
(** So the statement holds if -rtr.expire is not below -rtr.refresh (version 0 has no intervals on
    the wire; see C66 for values out of range). *)
Theorem C107_kept_partial : forall f cfg sc fc s v tr l1 t1 l2 t, stayrtr_main f = Runs cfg sc fc ->
  v = 0 \/ (interval (f_rtr_refresh f) /\ interval (f_rtr_expire f) /\ (f_rtr_refresh f <= f_rtr_expire f)%Z) ->
  u16 s -> v <= cfg_version cfg -> acceptable (accept tr (new_rtr_server cfg s)) v ->
  Forall (fun n => Forall wf_sd n /\ NoDup (ids n) /\ n <> []) (tupdates l1) -> tupdates l1 <> [] ->
  in_time 3 (life cfg v) [] None (l1 ++ [(t1, Poll)]) -> no_poll l2 -> (t1 <= t <= t1 + pace cfg v)%Z ->
  exists w, tplay (new_rtr_server cfg s) tr v (tstart (new_rtr_server cfg s) tr 3) (l1 ++ (t1, Poll) :: l2) = Some w /\
    in_sync v (keys_off tr cfg) (at_time t (tw_timed w)) (tlatest l1).
Proof.
  intros f cfg sc fc s v tr l1 t1 l2 t HR HI Hs Hv HA HU HN HT HP Ht. destruct (runs_config _ _ _ _ HR) as (-> & _ & _).
  destruct (C107_exact_partial _ s v tr 3 l1 t1 l2 t Hs (protover_lt f) Hv HA HU HN HT HP) as (w & P & S & _). exists w. split; [exact P|]. apply S.
  unfold life, pace, seconds in *. destruct HI as [-> |(I1 & I2 & LE)]; [cbn in *; lia|].
  cbn [cfg_refresh cfg_expire server_config] in *. rewrite timer_flag in Ht |- * by assumption. unfold interval in *. destruct (v =? 0); lia.
Qed.
(** A set, a poll, a change, a poll, a long pause in which three changes
    are missed and the data expires, a poll; times
    in minutes. *)
Definition mins (n : Z) : Z := (n * 60000000000)%Z.
Definition hours107 : list (Z * event) :=
  [(mins 0, Update [x1; x4]); (mins 1, Poll); (mins 30, Update [x4; x3]); (mins 61, Poll); (mins 70, Reconnect);
   (mins 100, Update [x1]); (mins 110, Update [x2]); (mins 120, Update [x2; x3]); (mins 182, Poll); (mins 190, Update [x1; x2])].
Example C107_case : exists cfg sc fc, stayrtr_main defaults = Runs cfg sc fc /\ acceptable (accept TCP (new_rtr_server cfg 7)) 1 /\
  in_time 3 (life cfg 1) [] None hours107 /\
  forallb (fun n => forallb wf_sdb n) (tupdates hours107) = true /\
  (exists w, tplay (new_rtr_server cfg 7) TCP 1 (tstart (new_rtr_server cfg 7) TCP 3) (firstn 5 hours107) = Some w /\
     ro_set (at_time (mins 62) (tw_timed w)) = ids [x3; x4] /\ ro_set (at_time (mins 181) (tw_timed w)) = ids [x3; x4] /\
     ro_set (at_time (mins 182) (tw_timed w)) = []) /\
  exists w, tplay (new_rtr_server cfg 7) TCP 1 (tstart (new_rtr_server cfg 7) TCP 3) hours107 = Some w /\
     ro_set (at_time (mins 190) (tw_timed w)) = ids [x3; x2].
Proof.
  do 3 eexists. split; [reflexivity|]. split; [split; [now right|vm_compute; discriminate]|].
  split; [vm_compute; intuition (discriminate || auto)|]. split; [vm_compute; reflexivity|].
  split; eexists; (split; [vm_compute; reflexivity|]); repeat split; vm_compute; reflexivity.
Qed.

(** False: nothing keeps the two intervals in order.  With -rtr.refresh 7200 -rtr.expire 600 the
    router that does as it is told is without data most of the time. *)
Definition crossed : flags := mkFlags 1 7200 600 600 true false false true false false true true true 600 0 false true.
Theorem C107_order_refuted : ~ C107_statement.
Proof.
  intros H. destruct (H crossed (server_config crossed) (daemon_config crossed) (fetch_config crossed) 7 1 TCP [(0%Z, Update [x1])] 0%Z [] (mins 60)) as (w & HP & HS).
  - reflexivity.
  - reflexivity.
  - discriminate.
  - split; [now right|vm_compute; discriminate].
  - constructor; [|constructor]. split; [apply wf_sds_ok; vm_compute; reflexivity|]. split; [|discriminate]. constructor; [intros []|constructor].
  - discriminate.
  - vm_compute. auto.
  - constructor.
  - vm_compute. split; discriminate.
  - vm_compute in HP. injection HP as <-. specialize (HS (rid_of x1)). destruct HS as [_ HS]. cbn in HS. apply HS. exists x1. split; [now left|]. split; vm_compute; reflexivity.
Qed.

(** And when nothing is left to serve, the Expire Interval does what No Data Available does not
    (C95_emptied_refuted): no later than that after the last moment at which there was something,
    the router goes by nothing - however it polled. *)
Theorem C107_emptied : forall cfg s v tr keep l1 l2 T t w, u16 s -> cfg_version cfg < 256 -> v <= cfg_version cfg ->
  acceptable (accept tr (new_rtr_server cfg s)) v -> Forall (Forall wf_sd) (tupdates l1) ->
  Forall (fun te => (fst te <= T)%Z) l1 -> tlatest l1 = [] -> Forall (fun n => n = []) (tupdates l2) ->
  tplay (new_rtr_server cfg s) tr v (tstart (new_rtr_server cfg s) tr keep) (l1 ++ l2) = Some w -> (T + life cfg v < t)%Z ->
  ro_set (at_time t (tw_timed w)) = [].
Proof. exact gone. Qed.
Example C107_emptied_case : exists w w', let l1 := [(mins 0, Update [x1; x4]); (mins 1, Poll); (mins 30, Update [])] in
  let l2 := [(mins 40, Poll); (mins 50, Poll); (mins 100, Update [])] in
  Forall (fun te => (fst te <= mins 30)%Z) l1 /\ tlatest l1 = [] /\ Forall (fun n => n = []) (tupdates l2) /\ (mins 30 + life cfg1 1 < mins 151)%Z /\
  tplay (new_rtr_server cfg1 7) TCP 1 (tstart (new_rtr_server cfg1 7) TCP 3) (l1 ++ l2) = Some w /\ ro_set (at_time (mins 100) (tw_timed w)) = ids [x4; x1] /\
  tplay (new_rtr_server cfg1 7) TCP 1 (tstart (new_rtr_server cfg1 7) TCP 3) (l1 ++ l2 ++ [(mins 151, Poll)]) = Some w' /\ tw_timed w' = mkTi fresh_router None.
Proof.
  do 2 eexists. cbv zeta. split; [repeat constructor; vm_compute; discriminate|]. split; [reflexivity|]. split; [repeat constructor|]. split; [vm_compute; reflexivity|].
  split; [vm_compute; reflexivity|]. split; [vm_compute; reflexivity|]. split; [vm_compute; reflexivity|]. vm_compute. reflexivity.
Qed.
(** The same for the daemon.  Together with C45_drop_partial: stale records that the daemon drops
    are gone from the routers an Expire Interval later, two hours by default. *)
Theorem C107_dropped : forall e c cfg s v tr l1 l2 T t w, wf_env e -> u16 s -> cfg_version cfg < 256 -> v <= cfg_version cfg ->
  acceptable (accept tr (new_rtr_server cfg s)) v -> Forall (fun te => (fst te <= T)%Z) l1 ->
  (forall h1 h2, tturns l2 = h1 ++ h2 -> forall x, ~ served (State.after e c (tturns l1 ++ h1)) x) ->
  tdplay e c (new_rtr_server cfg s) tr v (tdstart (new_rtr_server cfg s) tr) (l1 ++ l2) = Some w -> (T + life cfg v < t)%Z ->
  ro_set (at_time t (td_timed w)) = [].
Proof. exact gone_daemon. Qed.
(** The case of C45_router_case on the clock: at 30 hours the store is emptied, at 31 the router
    still goes by both VRPs, at 33 by nothing, although it never stopped polling. *)
Example C107_dropped_case : exists w, let l1 := [(hour 1, Turn (at_h 1 [1])); (hour 29, Ask); (hour 30, Turn (at_h 30 [2]))] in
  let l2 := [(hour 30, Ask); (hour 31, Ask)] in
  Forall (fun te => (fst te <= hour 30)%Z) l1 /\ get_current_sds (st_server (State.after env45 cfgS (tturns l1))) = [] /\ tturns l2 = [] /\
  tdplay env45 cfgS (new_rtr_server cfg1 7) TCP 1 (tdstart (new_rtr_server cfg1 7) TCP) (l1 ++ l2) = Some w /\
  ro_set (at_time (hour 31) (td_timed w)) = [idv; idw] /\ (hour 30 + life cfg1 1 < hour 33)%Z /\ ro_set (at_time (hour 33) (td_timed w)) = [].
Proof.
  eexists. cbv zeta. split; [repeat constructor; vm_compute; discriminate|]. split; [vm_compute; reflexivity|]. split; [reflexivity|].
  split; [vm_compute; reflexivity|]. split; [vm_compute; reflexivity|]. split; vm_compute; reflexivity.
Qed.

(** The timers are no help against the stray records of C95_forever_refuted: every answer starts
    them anew.  A router that polls at least once in every Expire Interval goes by x1, and not by
    x2, for as long as the updates leave these two alone. *)
Theorem C107_stray_refuted : forall us l a b, Forall (fun n => Forall wf_sd n /\ NoDup (ids n)) us ->
  Forall (fun n => In (rid_of x2) (ids n) /\ ~ In (rid_of x1) (ids n)) us -> nlen us < 4294967290 ->
  map snd l = [Update [x3]; Update [x3; x2]; Poll] ++ rounds us -> spaced (life cfg1 1) b l ->
  exists w, tplay (new_rtr_server cfg1 7) TCP 1 (tstart (new_rtr_server cfg1 7) TCP 3) ((a, Update [x1; x3]) :: (b, Poll) :: l) = Some w /\
    forall t, (t <= last_poll b l + life cfg1 1)%Z -> In (rid_of x1) (ro_set (at_time t (tw_timed w))) /\ ~ In (rid_of x2) (ro_set (at_time t (tw_timed w))).
Proof.
  intros us l a b HU HX HL HM HS. destruct (C95_forever_refuted us HU HX HL) as (w' & HP & H1 & H2).
  change ([Update [x1; x3]; Poll; Update [x3]; Update [x3; x2]; Poll] ++ rounds us) with ([Update [x1; x3]; Poll] ++ ([Update [x3]; Update [x3; x2]; Poll] ++ rounds us)) in HP.
  rewrite play_app, <- HM in HP. destruct (play _ TCP 1 _ [Update [x1; x3]; Poll]) as [wA|] eqn:EA; [|discriminate HP].
  assert (W1 : Forall (Forall wf_sd) [[x1; x3]]) by (constructor; [apply wf_sds_ok; vm_compute; reflexivity|constructor]).
  destruct (play_sane cfg1 7 1 TCP 3 eq_refl eq_refl ltac:(discriminate) acceptable1 [Update [x1; x3]; Poll] [] (start (new_rtr_server cfg1 7) TCP 3) wA W1 eq_refl)
    as (HC & SA); [split; [apply (tracks_start cfg1 7 1 TCP 3 acceptable1)|exact I]|exact EA|].
  assert (TA : tplay (new_rtr_server cfg1 7) TCP 1 (tstart (new_rtr_server cfg1 7) TCP 3) [(a, Update [x1; x3]); (b, Poll)] =
               Some (mkTw (wo_cache wA) (wo_conn wA) (mkTi (wo_router wA) (Some (b + life cfg1 1)%Z)))).
  { clear - EA. vm_compute in EA. injection EA as <-. vm_compute. reflexivity. }
  assert (EU : tupdates l = [x3] :: [x3; x2] :: us).
  { unfold tupdates. rewrite HM. change ([x3] :: [x3; x2] :: updates (rounds us) = [x3] :: [x3; x2] :: us). do 2 f_equal. clear.
    induction us as [|n us IH]; [reflexivity|]. change (n :: updates (rounds us) = n :: us). now rewrite IH. }
  destruct (tplay_play cfg1 7 1 TCP 3 eq_refl eq_refl ltac:(discriminate) acceptable1 l [[x1; x3]] b (mkTw (wo_cache wA) (wo_conn wA) (mkTi (wo_router wA) (Some (b + life cfg1 1)%Z))) w')
    as (w2 & P2 & S2 & E2).
  - rewrite EU. apply Forall_app. split; [exact W1|]. constructor; [apply wf_sds_ok; vm_compute; reflexivity|]. constructor; [apply wf_sds_ok; vm_compute; reflexivity|].
    apply (Forall_impl _ (P := fun n => Forall wf_sd n /\ NoDup (ids n))); [tauto|exact HU].
  - rewrite EU. constructor; [discriminate|]. constructor; [discriminate|]. apply (Forall_impl _ (P := fun n => In (rid_of x2) (ids n) /\ ~ In (rid_of x1) (ids n))); [intros n [H _] ->; destruct H|exact HX].
  - exact HC.
  - cbn [tw_cache]. rewrite HC. vm_compute. discriminate.
  - exact SA.
  - reflexivity.
  - exact HS.
  - destruct wA; exact HP.
  - exists w2. change ((a, Update [x1; x3]) :: (b, Poll) :: l) with ([(a, Update [x1; x3]); (b, Poll)] ++ l). rewrite tplay_app, TA. split; [exact P2|].
    intros t Ht. unfold at_time, aged. rewrite E2. destruct (_ <? t)%Z eqn:L; [lia|]. rewrite <- S2 in H1, H2. exact (conj H1 H2).
Qed.
Example C107_stray_case : let us := [[x2]; [x2; x3]; [x4; x2]] in
  let l := [(mins 1, Update [x3]); (mins 2, Update [x3; x2]); (mins 60, Poll); (mins 61, Update [x2]); (mins 120, Poll);
            (mins 121, Update [x2; x3]); (mins 180, Poll); (mins 181, Update [x4; x2]); (mins 240, Poll)] in
  map snd l = [Update [x3]; Update [x3; x2]; Poll] ++ rounds us /\ spaced (life cfg1 1) (mins 0) l /\ last_poll (mins 0) l = mins 240 /\
  forallb (fun n => forallb wf_sdb n && mem (rid_of x2) (ids n) && negb (mem (rid_of x1) (ids n))) us = true.
Proof. cbv zeta. split; [reflexivity|]. split; [vm_compute; repeat split; discriminate|]. split; vm_compute; reflexivity. Qed.

Print Assumptions C107_exact_partial.
Print Assumptions C107_kept_partial.
Print Assumptions C107_order_refuted.
Print Assumptions C107_emptied.
Print Assumptions C107_dropped.
Print Assumptions C107_stray_refuted.
