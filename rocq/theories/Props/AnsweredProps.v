(** Property C113: a query gets its answer. *)
From Coq Require Import ZArith ZifyBool ZifyNat ZifyN.
From Verif Require Import Model.Concurrent Spec.Wire Spec.Sets Spec.History Spec.Response Spec.Net Spec.Conversation Spec.Answered
  Proofs.DataP Proofs.ConnP Proofs.ConcCacheP Proofs.NetP Proofs.AnsweredP Props.CacheProps Props.ConnProps Props.ConcProps.
Local Open Scope list_scope.
Local Open Scope N_scope.

(** C113 A query gets its answer: a router that is connected sends a Reset Query, or a Serial Query
    with the current session, in a version that fits, and reads what it is sent.  Then, under every
    interleaving with other connections, further updates and notifications in which the two
    goroutines of the connection go on getting turns, the answer owed has been written in full
    after a number of turns that is bounded by the length of the answer, of the channel and the
    number of the notifier's steps. *)
Theorem C113_answered : forall cfg s keep h w i k u q chunk w0, u16 s -> cfg_version cfg < 256 -> Forall (Forall wf_sd) h ->
  let srv := new_rtr_server cfg s in let cache := run (new_server keep) h in let v := negotiated srv u in
  nreach srv w -> nth_error (n_conns w) i = Some k ->
  k_phase k = Running -> k_flag k = true -> k_up k = true -> k_prog k = [] ->
  chunk <> [] -> decode_bytes 64 chunk = Ok q -> query s v u q -> acceptable (k_cli k) u -> nstep srv w (LRead i cache chunk) = Ok w0 ->
  exists l, expected cfg s (k_tr k) cache v q l /\
    forall rs w', Forall (turn_each i) rs -> nrun srv w0 (concat rs) = Ok w' ->
      (outstanding k (2 + length l) + 4 * notifier_steps (concat rs) <= length rs)%nat ->
      exists r1 r2 w1 k1, concat rs = r1 ++ r2 /\ nrun srv w0 r1 = Ok w1 /\ nth_error (n_conns w1) i = Some k1 /\
        written k1 /\ answers (k_queued k1) = answers (k_queued k) ++ l.
Proof. exact query_served. Qed.

(** Two routers; the second one asks for everything and, while it is answered, there is an update
    of which both are notified; the first one is never given a turn. *)
Definition start113 := [LAccept TCP; LStart 0; LAccept TLS; LStart 1].
Definition ask113 := [1; 2; 0; 0; 0; 0; 0; 8].
Definition rounds113 := [[LReader 1; LNotify 5; LSender 1 WAll]]
  ++ repeat [LSender 1 WAll; LNotifier; LReader 1] 7 ++ repeat [LReader 1; LSender 1 WAll] 60.
Definition now113 := after srv1 (start113 ++ [LRead 1 cacheA ask113]).
Definition end113 := after srv1 (start113 ++ [LRead 1 cacheA ask113] ++ concat rounds113).
Example C113_case : exists w k l, nrun srv1 empty_net start113 = Ok w /\ nth_error (n_conns w) 1 = Some k /\
  k_phase k = Running /\ k_flag k = true /\ k_up k = true /\ k_prog k = [] /\ decode_bytes 64 ask113 = Ok (ResetQuery 1) /\
  acceptable (k_cli k) 1 /\ nstep srv1 w (LRead 1 cacheA ask113) = Ok now113 /\
  nrun srv1 now113 (concat rounds113) = Ok end113 /\ Forall (turn_each 1) rounds113 /\
  expected cfg1 7 TLS cacheA 1 (ResetQuery 1) l /\ length l = 5%nat /\
  (outstanding k (2 + length l) + 4 * notifier_steps (concat rounds113) <= length rounds113)%nat /\
  exists k1, nth_error (n_conns end113) 1 = Some k1 /\ written k1 /\ answers (k_queued k1) = l /\ length (k_queued k1) = 6%nat.
Proof.
  eexists _, _, _. split; [vm_compute; reflexivity|]. split; [reflexivity|]. split; [reflexivity|]. split; [reflexivity|].
  split; [reflexivity|]. split; [reflexivity|]. split; [vm_compute; reflexivity|].
  split; [split; [right; reflexivity|intros X; discriminate X]|]. split; [vm_compute; reflexivity|]. split; [vm_compute; reflexivity|].
  split.
  { apply Forall_forall. intros r Hr. unfold rounds113 in Hr. rewrite !in_app_iff in Hr.
    destruct Hr as [[<-|[]]|[Hr|Hr]]; [|apply repeat_spec in Hr; subst r|apply repeat_spec in Hr; subst r];
      (split; [cbn; tauto|split; [cbn; tauto|repeat (constructor; [cbn; auto|]); constructor]]). }
  split; [apply E_all; vm_compute; discriminate|]. split; [vm_compute; reflexivity|]. split; [vm_compute; repeat constructor|].
  eexists. split; [vm_compute; reflexivity|]. split; [split; [reflexivity|split; [reflexivity|vm_compute; reflexivity]]|].
  split; vm_compute; reflexivity.
Qed.
(** Turns of the sender are needed: with those of the reader alone nothing is written, however many
    there are. *)
Lemma reader_only : forall n w w' k, nth_error (n_conns w) 1 = Some k -> nrun srv1 w (repeat (LReader 1) n) = Ok w' ->
  exists k', nth_error (n_conns w') 1 = Some k' /\ k_wire k' = k_wire k.
Proof.
  induction n as [|n IH]; intros w w' k Hk H; [cbn in H; injection H as <-; eauto|].
  cbn [repeat nrun nstep] in H. rewrite Hk in H. cbn [bind] in H.
  assert (exists k1, nth_error (n_conns (reader_step w 1 k)) 1 = Some k1 /\ k_wire k1 = k_wire k) as (k1 & A & B).
  2:{ destruct (IH _ _ _ A H) as (k2 & C & D). exists k2. split; [exact C|congruence]. }
  assert (LT : (1 < length (n_conns w))%nat) by (apply nth_error_Some; congruence).
  unfold reader_step. destruct (k_prog k) as [|[v|p| | |] r]; eauto; unfold with_conn, client_disconnected; cbn [n_conns].
  - rewrite set_nth_same by auto. eauto.
  - destruct (put k p) as [k1|] eqn:E; [|eauto]. cbn [n_conns]. rewrite set_nth_same by auto. eexists. split; [reflexivity|].
    unfold put in E. destruct (k_pc k), (nlen (k_queue k) <? 256)%N; try discriminate; injection E as <-; reflexivity.
  - rewrite set_nth_same by auto. eauto.
  - rewrite set_nth_same by auto. eauto.
  - rewrite set_nth_same by auto. eexists. split; [reflexivity|]. destruct (k_pc k); reflexivity.
Qed.
Example C113_turns : forall n w', nrun srv1 now113 (repeat (LReader 1) n) = Ok w' ->
  exists k, nth_error (n_conns w') 1 = Some k /\ k_wire k = [].
Proof.
  intros n w' H. assert (exists k, nth_error (n_conns now113) 1 = Some k /\ k_wire k = []) as (k & A & B) by (eexists; split; vm_compute; reflexivity).
  destruct (reader_only n now113 w' k A H) as (k' & C & D). exists k'. split; [exact C|congruence].
Qed.

Print Assumptions C113_answered.
