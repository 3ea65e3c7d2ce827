(** Property C95: what a router that follows the protocol ends up with. *)
From Coq Require Import ZifyBool ZifyNat ZifyN.
From Verif Require Import Model.Conn Spec.Sets Spec.History Spec.Response Spec.Router Proofs.DataP Proofs.CacheP Proofs.ConnP Proofs.RouterP Proofs.RefillP
  Props.CacheProps Props.ConnProps.
Local Open Scope list_scope.
Local Open Scope N_scope.

(** C95 A router that polls stays in step.  The full statement: whatever is fed to the server, with
    polls and new connections in between, every poll is answered in a way the router can follow,
    and leaves it with exactly the records fed in last. *)
Definition C95_statement : Prop := forall cfg s v tr keep l, u16 s -> cfg_version cfg < 256 -> v <= cfg_version cfg ->
  acceptable (accept tr (new_rtr_server cfg s)) v -> Forall (fun n => Forall wf_sd n /\ NoDup (ids n)) (updates l) ->
  exists w, play (new_rtr_server cfg s) tr v (start (new_rtr_server cfg s) tr keep) (l ++ [Poll]) = Some w /\
    in_sync v (keys_off tr cfg) (wo_router w) (latest l).

Lemma acceptable1 : acceptable (accept TCP (new_rtr_server cfg1 7)) 1.
Proof. split; [now right|]. vm_compute. discriminate. Qed.

(** What holds: with updates that leave something to serve, and polls not two changes behind or
    more, unless the whole history is behind. *)
Theorem C95_sync_partial : forall cfg s v tr keep l, u16 s -> cfg_version cfg < 256 -> v <= cfg_version cfg ->
  acceptable (accept tr (new_rtr_server cfg s)) v ->
  Forall (fun n => Forall wf_sd n /\ NoDup (ids n) /\ n <> []) (updates l) -> updates l <> [] -> timely keep [] None (l ++ [Poll]) ->
  exists w, play (new_rtr_server cfg s) tr v (start (new_rtr_server cfg s) tr keep) (l ++ [Poll]) = Some w /\
    ro_at (wo_router w) = Some (session_of s v, sdCurrentSerial (run (new_server keep) (updates l))) /\
    in_sync v (keys_off tr cfg) (wo_router w) (latest l).
Proof. exact poll_in_sync. Qed.
(** A poll before there is data, a set with a router key, a change, a new connection, four changes
    in a row. *)
Definition day1 : list event :=
  [Poll; Update [x1; x4]; Poll; Update [x4; x3]; Poll; Reconnect; Poll; Update [x1]; Update [x2]; Update [x1; x2]; Update [x2; x4]].
Example C95_case : timely 3 [] None (day1 ++ [Poll]) /\
  option_map (fun w => wo_router w) (play (new_rtr_server cfg1 7) TCP 1 (start (new_rtr_server cfg1 7) TCP 3) (day1 ++ [Poll]))
    = Some (mkRo (Some (session_of 7 1, 5)) (ids [x4; x2])) /\
  option_map (fun w => wo_router w) (play (new_rtr_server cfg1 7) TCP 0 (start (new_rtr_server cfg1 7) TCP 3) (day1 ++ [Poll]))
    = Some (mkRo (Some (session_of 7 0, 5)) (ids [x2])).
Proof. split; [vm_compute; intuition (discriminate || reflexivity || auto)|]. split; vm_compute; reflexivity. Qed.

(** False: two changes between polls. *)
Theorem C95_two_behind_refuted : ~ C95_statement.
Proof.
  intros H. destruct (H cfg1 7 1 TCP 3%Z [Update [x1]; Poll; Update [x1; x3]; Update [x3]]) as (w & HP & HS).
  - reflexivity.
  - reflexivity.
  - discriminate.
  - exact acceptable1.
  - assert (W : Forall wf_sd [x1; x3]) by (apply wf_sds_ok; vm_compute; reflexivity).
    assert (N13 : NoDup (ids [x1; x3])) by (constructor; [intros [E|[]]; discriminate E|]; constructor; [intros []|constructor]).
    inversion W as [|? ? W1 W2]; subst. inversion N13 as [|? ? _ N3]; subst.
    constructor; [split; [auto|constructor; [intros []|constructor]]|]. constructor; [auto|]. constructor; [auto|constructor].
  - vm_compute in HP. injection HP as <-. specialize (HS (rid_of x1)). cbn [wo_router ro_set] in HS. destruct HS as [HS _].
    destruct HS as (d & [E|[]] & _ & EX); [now left|]. subst d. discriminate EX.
Qed.
(** And it does not mend: after [x1; x3], [x3], [x3; x2] the router that polled at the first and
    the last holds x1 and not x2, at every later poll, as long as nothing happens to these two (for
    all of the next four thousand million updates). *)
Theorem C95_forever_refuted : forall us, Forall (fun n => Forall wf_sd n /\ NoDup (ids n)) us ->
  Forall (fun n => In (rid_of x2) (ids n) /\ ~ In (rid_of x1) (ids n)) us -> nlen us < 4294967290 ->
  exists w, play (new_rtr_server cfg1 7) TCP 1 (start (new_rtr_server cfg1 7) TCP 3)
      ([Update [x1; x3]; Poll; Update [x3]; Update [x3; x2]; Poll] ++ rounds us) = Some w /\
    In (rid_of x1) (ro_set (wo_router w)) /\ ~ In (rid_of x2) (ro_set (wo_router w)).
Proof.
  intros us HU HX HL. rewrite play_app.
  destruct (play (new_rtr_server cfg1 7) TCP 1 (start (new_rtr_server cfg1 7) TCP 3) [Update [x1; x3]; Poll; Update [x3]; Update [x3; x2]; Poll]) as [w|] eqn:E;
    [|vm_compute in E; discriminate E].
  assert (W : Forall (Forall wf_sd) [[x1; x3]; [x3]; [x3; x2]]) by (do 3 (constructor; [apply wf_sds_ok; vm_compute; reflexivity|]); constructor).
  destruct (play_sane cfg1 7 1 TCP 3 eq_refl eq_refl ltac:(discriminate) acceptable1 [Update [x1; x3]; Poll; Update [x3]; Update [x3; x2]; Poll] []
    (start (new_rtr_server cfg1 7) TCP 3) w W eq_refl) as (HC & [G _]); [|exact E|].
  { split; [|exact I]. apply (tracks_start cfg1 7 1 TCP 3 acceptable1). }
  assert (HR : ro_at (wo_router w) = Some (session_of 7 1, sdCurrentSerial (wo_cache w))) by (clear - E; vm_compute in E; injection E as <-; vm_compute; reflexivity).
  assert (RS : ro_set (wo_router w) = ids [x1; x3] \/ ro_set (wo_router w) = ids [x3; x1]) by (clear - E; vm_compute in E; injection E as <-; vm_compute; auto).
  destruct (astray_stays cfg1 7 1 TCP 3 [rid_of x1; rid_of x2] (fun x => x = rid_of x1) us eq_refl eq_refl ltac:(discriminate)) with (h := [[x1; x3]; [x3]; [x3; x2]]) (w := w)
    as (w' & P1 & P2 & P3).
  - apply Forall_forall. intros n HN. rewrite Forall_forall in HU, HX. destruct (HU n HN), (HX n HN) as [I2 _]. do 2 (split; [assumption|]). intros ->. destruct I2.
  - exact W.
  - do 3 (constructor; [repeat (constructor; [cbn; intuition discriminate|]); constructor|]). constructor.
  - exact G.
  - exact HC.
  - rewrite HC. vm_compute. discriminate.
  - rewrite HC. change (sdCurrentSerial _) with 2. lia.
  - exact HR.
  - rewrite HC. intros x.
    assert (C : ids (sdCurrent (run (new_server 3) ([] ++ updates [Update [x1; x3]; Poll; Update [x3]; Update [x3; x2]; Poll]))) = ids [x3; x2]) by (vm_compute; reflexivity).
    rewrite C.
    assert (IR : In x (ro_set (wo_router w)) <-> x = rid_of x1 \/ x = rid_of x3) by (destruct RS as [-> | ->]; cbn; intuition auto).
    rewrite IR. cbn [ids map In]. split.
    + intros [->| ->]; [left; auto|]. right. split; [intros [H|[H|[]]]; discriminate H|]. split; [reflexivity|auto].
    + intros [[_ ->]|(N12 & _ & [<-|[<-|[]]])]; auto. exfalso. apply N12. auto.
  - rewrite HC. intros x HP. apply Forall_forall. intros n HN. rewrite Forall_forall in HX. destruct (HX n HN) as [X2 X1].
    assert (C : ids (sdCurrent (run (new_server 3) ([] ++ updates [Update [x1; x3]; Poll; Update [x3]; Update [x3; x2]; Poll]))) = ids [x3; x2]) by (vm_compute; reflexivity).
    rewrite C. destruct HP as [<-|[<-|[]]]; split; intros H; try contradiction; try exact X2; [destruct H as [H|[H|[]]]; discriminate H|]. right. now left.
  - exists w'. split; [exact P1|]. split.
    + apply P3. left. split; [now left|reflexivity].
    + intros H. apply P3 in H as [[_ H]|[H _]]; [discriminate H|]. apply H. right. now left.
Qed.
Example C95_forever_case : let us := [[x2]; [x2; x3]; [x4; x2]; [x2]; [x3; x2]] in
  forallb (fun n => forallb wf_sdb n && mem (rid_of x2) (ids n) && negb (mem (rid_of x1) (ids n))) us = true.
Proof. vm_compute. reflexivity. Qed.

(** False too when nothing is left to serve: the router is told "no data" and keeps all it has,
    whatever came before. *)
Theorem C95_emptied_refuted : forall cfg s v tr keep l w, u16 s -> cfg_version cfg < 256 -> v <= cfg_version cfg ->
  acceptable (accept tr (new_rtr_server cfg s)) v -> Forall (Forall wf_sd) (updates l) ->
  play (new_rtr_server cfg s) tr v (start (new_rtr_server cfg s) tr keep) l = Some w -> latest l = [] ->
  exists w', play (new_rtr_server cfg s) tr v (start (new_rtr_server cfg s) tr keep) (l ++ [Poll]) = Some w' /\ wo_router w' = wo_router w.
Proof. exact poll_empty. Qed.
Example C95_emptied_case : exists w, play (new_rtr_server cfg1 7) TCP 1 (start (new_rtr_server cfg1 7) TCP 3) [Update [x1; x4]; Poll; Update []] = Some w /\
  latest [Update [x1; x4]; Poll; Update []] = [] /\ ro_set (wo_router w) = ids [x4; x1].
Proof. eexists. split; [vm_compute; reflexivity|]. split; vm_compute; reflexivity. Qed.

(** And when there is something to serve again.  The serial moves on with the emptying and not with
    the filling, so that a router in step before is sent the new records as additions to what it
    has.  If it has none of them, it holds the old ones and the new ones, and keeps the old ones at
    all later polls until they are listed once more (for the next four thousand million updates). *)
Theorem C95_refilled_refuted : forall cfg s v tr keep l quiet new us, u16 s -> cfg_version cfg < 256 -> v <= cfg_version cfg ->
  acceptable (accept tr (new_rtr_server cfg s)) v ->
  Forall (fun n => Forall wf_sd n /\ NoDup (ids n) /\ n <> []) (updates l) -> updates l <> [] -> timely keep [] None (l ++ [Poll]) ->
  Forall (fun e => e = Poll \/ e = Reconnect) quiet ->
  Forall (fun n => Forall wf_sd n /\ NoDup (ids n) /\ n <> []) (new :: us) -> nlen (updates l) + nlen us < 4294967290 ->
  Forall (fun n => forall x, In x (ids (latest l)) -> ~ In x (ids n)) (new :: us) ->
  exists w, play (new_rtr_server cfg s) tr v (start (new_rtr_server cfg s) tr keep) (l ++ [Poll; Update []] ++ quiet ++ rounds (new :: us)) = Some w /\
    in_sync v (keys_off tr cfg) (wo_router w) (latest l ++ last us new).
Proof.
  intros cfg s v tr keep l quiet new us Hs Hb Hv HA HU HN HT HQ HF HL HD. inversion HF as [|? ? (F1 & F2 & F3) F4]; subst.
  pose proof (serial_now keep (updates l) ltac:(eapply Forall_impl; [|exact HU]; intros ? (H & _); exact H)) as SN.
  pose proof (refilled cfg s v tr keep Hs Hb Hv HA l quiet new HU HN HT HQ F1 F2 F3 us F4 ltac:(lia) HD) as R. rewrite <- app_assoc in R. exact R.
Qed.
Example C95_refilled_case : timely 3 [] None ([Update [x1; x4]] ++ [Poll]) /\
  option_map (fun w => ro_set (wo_router w)) (play (new_rtr_server cfg1 7) TCP 1 (start (new_rtr_server cfg1 7) TCP 3)
    ([Update [x1; x4]] ++ [Poll; Update []] ++ [Poll; Reconnect; Poll] ++ rounds [[x2]; [x2; x3]; [x3]])) = Some (ids [x3; x4; x1]).
Proof. split; [cbn; auto with zarith|]. vm_compute. reflexivity. Qed.

(** If it has one of them, the answer announces a record it has (error 7): it cannot follow. *)
Theorem C95_twice_refuted : forall cfg s v tr keep l quiet new us, u16 s -> cfg_version cfg < 256 -> v <= cfg_version cfg ->
  acceptable (accept tr (new_rtr_server cfg s)) v ->
  Forall (fun n => Forall wf_sd n /\ NoDup (ids n) /\ n <> []) (updates l) -> updates l <> [] -> timely keep [] None (l ++ [Poll]) ->
  Forall (fun e => e = Poll \/ e = Reconnect) quiet -> Forall wf_sd new -> NoDup (ids new) -> nlen (updates l) < 4294967290 ->
  (exists d e, In d (latest l) /\ In e new /\ rid_of d = rid_of e /\ may_send v (keys_off tr cfg) d = true) ->
  play (new_rtr_server cfg s) tr v (start (new_rtr_server cfg s) tr keep) (l ++ [Poll; Update []] ++ quiet ++ rounds (new :: us)) = None.
Proof.
  intros cfg s v tr keep l quiet new us Hs Hb Hv HA HU HN HT HQ F1 F2 HL HD.
  assert (F3 : new <> []) by (intros ->; destruct HD as (_ & e & _ & [] & _)).
  pose proof (serial_now keep (updates l) ltac:(eapply Forall_impl; [|exact HU]; intros ? (H & _); exact H)) as SN.
  pose proof (refused cfg s v tr keep Hs Hb Hv HA l quiet new HU HN HT HQ F1 F2 F3 us ltac:(lia) HD) as R. rewrite <- app_assoc in R. exact R.
Qed.
(** The same set again is enough. *)
Example C95_twice_case :
  option_map wo_router (play (new_rtr_server cfg1 7) TCP 1 (start (new_rtr_server cfg1 7) TCP 3) [Update [x1; x4]; Poll; Update []; Poll; Update [x1; x4]]) <> None /\
  play (new_rtr_server cfg1 7) TCP 1 (start (new_rtr_server cfg1 7) TCP 3) [Update [x1; x4]; Poll; Update []; Poll; Update [x1; x4]; Poll] = None.
Proof. split; vm_compute; [discriminate|reflexivity]. Qed.

Print Assumptions C95_sync_partial.
Print Assumptions C95_two_behind_refuted.
Print Assumptions C95_forever_refuted.
Print Assumptions C95_emptied_refuted.
Print Assumptions C95_refilled_refuted.
Print Assumptions C95_twice_refuted.
