(** C87: the Serial Queries of rtrmon.

    In its full form: while a session is up, rtrmon's Serial Queries go to it, and carry session id and
    serial of the last response that was completed in it; none is sent before the first. *)
From Verif Require Import Model.Poller Spec.Polling Proofs.PollerP.
Local Open Scope nat_scope.

(** What a Serial Query carries, in every execution: the session of the last Cache Response and the
    serial of the last End of Data, of whatever session; they are read one after the other. *)
Theorem C87_values_partial : forall brk p1 i b p2 s qs b2 s' k sess serial,
  yrun brk yinit (p1 ++ YPoll i b :: p2) = Some (s, qs) -> (forall b', ~ In (YPoll i b') p2) ->
  ystep brk s (YPoll i b2) = Some (s', Some (k, sess, serial)) ->
  sess = last_session (pdus p1) /\ serial = last_serial (pdus (p1 ++ p2)).
Proof. intros brk p1 i b p2 s qs b2 s' k sess serial H1 H2 H3. destruct (query_values _ _ _ _ _ _ _ _ _ _ _ _ H1 H2 H3) as (A & B & _). auto. Qed.

(** Where the full form holds: the session up has completed a response, no other has begun, and the
    pollers of earlier sessions returned in time. *)
Theorem C87_query_partial : forall brk p1 i b p2 s qs b2 s' q sess0 serial0,
  yrun brk yinit (p1 ++ YPoll i b :: p2) = Some (s, qs) -> (forall l, In l p2 -> calm i l) ->
  ystep brk s (YPoll i b2) = Some (s', Some q) ->
  complete (heard p1) sess0 serial0 -> on_time brk p1 ->
  q = (sessions p1, sess0, serial0).
Proof.
  intros brk p1 i b p2 s qs b2 s' [[k sess] serial] sess0 serial0 H1 H2 H3 HC HT.
  assert (HI : forall b', ~ In (YPoll i b') p2) by (intros b' K; apply H2 in K; now apply K).
  destruct (query_values _ _ _ _ _ _ _ _ _ _ _ _ H1 HI H3) as (-> & -> & s1 & q1 & p & E1 & E2 & <- & E3).
  rewrite (calm_serial i) by assumption. destruct (heard_suffix p1) as [l0 ->]. destruct (complete_last l0 _ _ _ HC) as [-> ->].
  pose proof (single_run _ _ _ _ HT E1 i p E2 ltac:(congruence)) as [K _]. rewrite K.
  pose proof (yfields_run _ _ _ _ E1) as (_ & _ & ->). reflexivity.
Qed.

(** If they do there is at most one poller, that of the session made last. *)
Theorem C87_one_poller_partial : forall brk sched s qs i j p p',
  yrun brk yinit sched = Some (s, qs) -> on_time brk sched ->
  nth_error (y_polls s) i = Some p -> pl_pc p <> PEnd -> nth_error (y_polls s) j = Some p' -> pl_pc p' <> PEnd ->
  i = j /\ pl_of p = sessions sched.
Proof.
  intros brk sched s qs i j p p' H HT N1 P1 N2 P2. pose proof (single_run _ _ _ _ HT H) as HS.
  destruct (HS i p N1 P1) as [A1 A2]. destruct (HS j p' N2 P2) as [_ B2]. pose proof (yfields_run _ _ _ _ H) as (_ & _ & F).
  split; [lia|congruence].
Qed.

(** And they can: until the next session is made each has at most four steps to go, and sends at
    most one query more. *)
Theorem C87_ends : forall brk sched s qs i p,
  yrun brk yinit sched = Some (s, qs) -> y_pc s = SBetween \/ y_pc s = SQuitting ->
  nth_error (y_polls s) i = Some p -> pl_pc p <> PEnd ->
  exists bs s' qs', length bs <= 4 /\ yrun brk s (map (YPoll i) bs) = Some (s', qs') /\ length qs' <= 1 /\
    exists p', nth_error (y_polls s') i = Some p' /\ pl_pc p' = PEnd.
Proof. exact poll_ends. Qed.

(** With -*.rtr.break no Serial Query is sent. *)
Theorem C87_break : forall sched s qs, yrun true yinit sched = Some (s, qs) -> qs = [].
Proof.
  intros sched. induction sched as [|l r IH] using rev_ind; intros s qs H; [cbn in H; now injection H as _ <-|].
  apply yrun_split in H as (s1 & q1 & q2 & E1 & E2 & ->). rewrite (IH _ _ E1). cbn in E2.
  destruct (ystep true s1 l) as [[s' q]|] eqn:E; [|discriminate]. injection E2 as _ <-. destruct q as [q|]; [exfalso|reflexivity].
  destruct l; cbn [ystep] in E.
  - destruct (y_pc s1); discriminate.
  - destruct ok; destruct (y_pc s1); discriminate.
  - destruct (y_pc s1); discriminate.
  - destruct (y_pc s1); discriminate.
  - destruct (y_pc s1); try discriminate. destruct (closed (y_cur s1) (y_quit s1)); discriminate.
  - rewrite (no_polls _ _ _ E1) in E. destruct (y_pc s1); try discriminate; destruct i; discriminate.
Qed.

(** * Where it fails *)
(** The poller of the [i]-th session, from its start to the select of its loop; the timer and a query. *)
Definition begin_poll (i : nat) : list ylabel := [YPoll i true; YPoll i true; YPoll i true].
Definition ask (i : nat) : list ylabel := [YPoll i true; YPoll i true; YPoll i true; YPoll i true].
Definition resp (sess serial : N) : list ylabel := [YPdu (CacheResponse 1 sess); YPdu (EndOfData 1 sess serial 1 1 1)].
Definition bye : list ylabel := [YPdu (ErrorReport 1 2 [] []); YQuit].

(** A server that takes longer than the refresh interval to begin its answer is sent a Serial Query
    for session 0, serial 0. *)
Theorem C87_early_refuted : exists sched s,
  on_time false sched /\ pdus sched = [] /\ yrun false yinit sched = Some (s, [(1, 0%N, 0%N)]).
Proof.
  exists ([YNew; YDial true] ++ begin_poll 0 ++ ask 0). eexists. split; [|split; [reflexivity|vm_compute; reflexivity]].
  intros a c s qs p E R K. destruct a as [|x a]; [injection R as <- _; contradiction|]. exfalso. injection E as <- E.
  repeat (destruct a as [|? a]; [discriminate E|injection E as <- E]). destruct a; discriminate E.
Qed.

(** The server was restarted; its first Cache Response is in, its End of Data not: the query has the
    new session and the old serial, which the server never sent together. *)
Definition mixed : list ylabel :=
  [YNew; YDial true] ++ begin_poll 0 ++ resp 5 9 ++ ask 0 ++ bye ++ [YPoll 0 false] ++
  [YNew; YDial true; YPdu (CacheResponse 1 6)] ++ begin_poll 1 ++ ask 1.
Theorem C87_mixed_refuted : exists sched s,
  yrun false yinit sched = Some (s, [(1, 5%N, 9%N); (2, 6%N, 9%N)]) /\
  (forall v x y z, ~ In (EndOfData v 6 9 x y z) (pdus sched)) /\
  (forall p, In p (y_polls s) -> pl_pc p <> PEnd -> pl_of p = 2).
Proof.
  exists mixed. eexists. split; [vm_compute; reflexivity|]. split.
  - intros v x y z K. vm_compute in K. repeat (destruct K as [K|K]; [discriminate K|]). exact K.
  - intros p K. cbn in K. destruct K as [<-|[<-|[]]]; cbn; congruence.
Qed.

(** A poller that is late by a refresh interval takes the channel of the next session for its own: it
    sends into the session that is over as long as the next one is up. *)
Definition stale : list ylabel :=
  [YNew; YDial true] ++ begin_poll 0 ++ resp 5 9 ++ [YPoll 0 true] ++ bye ++
  [YNew; YDial true] ++ begin_poll 1 ++ resp 6 1 ++ [YPoll 0 true; YPoll 0 true; YPoll 0 true] ++ ask 0 ++ ask 1.
Theorem C87_stale_refuted : exists s qs,
  yrun false yinit stale = Some (s, qs) /\ y_pc s = SConnected /\ y_cur s = 2 /\
  qs = [(1, 6%N, 1%N); (1, 6%N, 1%N); (2, 6%N, 1%N)] /\
  forall n, exists s' qs', yrun false s (concat (repeat (ask 0) n)) = Some (s', qs') /\ length qs' = n /\ (forall q, In q qs' -> fst (fst q) = 1) /\ y_pc s' = SConnected.
Proof.
  eexists. eexists. split; [vm_compute; reflexivity|]. split; [reflexivity|]. split; [reflexivity|]. split; [reflexivity|].
  match goal with |- forall n, exists s' qs', yrun false ?t _ = _ /\ _ => set (s := t) end.
  assert (A : yrun false s (ask 0) = Some (s, [(1, 6%N, 1%N)])) by (vm_compute; reflexivity).
  induction n as [|n IH].
  - exists s, []. cbn. repeat split. intros q [].
  - destruct IH as (s' & qs' & E & L & Q & C). exists s', ((1, 6%N, 1%N) :: qs'). cbn [repeat concat]. rewrite (yrun_app _ _ _ _ _ _ A), E.
    split; [reflexivity|]. split; [cbn; lia|]. split; [|exact C]. intros q [<-|K]; [reflexivity|auto].
Qed.

(** * Cases *)
Definition good1 : list ylabel := [YNew; YDial true] ++ begin_poll 0 ++ resp 5 9 ++ bye ++ [YPoll 0 false].
Definition good2 : list ylabel := good1 ++ [YNew; YDial true] ++ begin_poll 1 ++ resp 6 1 ++ [YPoll 1 true].
Example C87_query_case : exists s s' qs,
  yrun false yinit (good2 ++ [YPoll 1 true]) = Some (s, qs) /\ ystep false s (YPoll 1 true) = Some (s', Some (2, 6%N, 1%N)) /\
  complete (heard good2) 6 1 /\ on_time false good2 /\ sessions good2 = 2.
Proof.
  do 3 eexists. split; [vm_compute; reflexivity|]. split; [vm_compute; reflexivity|]. split; [|split; [|reflexivity]].
  - exists [], 1%N, [], 1%N, 1%N, 1%N, 1%N, []. split; [reflexivity|]. intros p [[]|[]].
  - intros a c s qs p E R K. unfold good2, good1 in E. cbn [app begin_poll resp bye] in E.
    destruct a as [|x a]; [injection R as <- _; contradiction|]. injection E as <- E.
    do 9 (destruct a as [|? a]; [discriminate E|injection E as <- E]).
    destruct a as [|? a]; [vm_compute in R; injection R as <- _; destruct K as [<-|[]]; reflexivity|]. injection E as <- E. exfalso.
    repeat (destruct a as [|? a]; [discriminate E|injection E as <- E]). destruct a; discriminate E.
Qed.
(** With the session over, the poller in its select returns when it finds the channel closed. *)
Example C87_ends_case : exists s qs p s', yrun false yinit ([YNew; YDial true] ++ begin_poll 0 ++ resp 5 9 ++ bye) = Some (s, qs) /\
  y_pc s = SBetween /\ nth_error (y_polls s) 0 = Some p /\ pl_pc p <> PEnd /\
  yrun false s [YPoll 0 false] = Some (s', []) /\ option_map pl_pc (nth_error (y_polls s') 0) = Some PEnd.
Proof.
  eexists _, _, _, _. split; [vm_compute; reflexivity|]. split; [reflexivity|]. split; [vm_compute; reflexivity|].
  split; [discriminate|]. split; vm_compute; reflexivity.
Qed.
(** One poller has ended, the other is that of the second session. *)
Example C87_one_poller_case : exists s qs p p', yrun false yinit good2 = Some (s, qs) /\ y_polls s = [p; p'] /\
  pl_pc p = PEnd /\ pl_pc p' <> PEnd /\ pl_of p' = 2.
Proof.
  eexists _, _, _, _. split; [vm_compute; reflexivity|]. split; [vm_compute; reflexivity|]. split; [reflexivity|]. split; [discriminate|reflexivity].
Qed.
(** With rtr.break there is no poller; without it the same server is polled. *)
Example C87_break_case : exists s qs, yrun true yinit ([YNew; YDial true] ++ resp 5 9) = Some (s, qs) /\ qs = [] /\
  yrun false yinit ([YNew; YDial true] ++ begin_poll 0 ++ resp 5 9 ++ ask 0) <> None.
Proof. eexists _, _. split; [vm_compute; reflexivity|]. split; [reflexivity|vm_compute; discriminate]. Qed.

Print Assumptions C87_values_partial.
Print Assumptions C87_query_partial.
Print Assumptions C87_one_poller_partial.
Print Assumptions C87_ends.
Print Assumptions C87_break.
Print Assumptions C87_early_refuted.
Print Assumptions C87_mixed_refuted.
Print Assumptions C87_stale_refuted.
