(** Properties C115 and C116: one connection among others. *)
From Coq Require Import ZArith ZifyBool ZifyNat ZifyN.
From Verif Require Import Model.Concurrent Spec.Sets Spec.History Spec.Response Spec.Router Spec.Net Spec.Conversation Spec.Answered Spec.Reached Spec.Isolated Spec.Follow
  Proofs.DataP Proofs.CacheP Proofs.ConnP Proofs.ConcCacheP Proofs.NetP Proofs.ConversationP Proofs.AnsweredP Proofs.IsolatedP Proofs.RouterP Proofs.FollowP
  Props.CacheProps Props.ConnProps Props.RouterProps Props.ConcProps.
Local Open Scope list_scope.
Local Open Scope N_scope.

(** C115 Connections do not influence one another: whatever happens on other connections and
    whatever the interleaving, what is queued on a connection, apart from Serial Notifies, is what
    the read loop of that connection queues when it handles the reads one after the other with
    nothing else going on, and the state of the connection is the one it then reaches. *)
Theorem C115_alone : forall srv sched w i k, nrun srv empty_net sched = Ok w -> nth_error (n_conns w) i = Some k ->
  exists a, session srv (accept (k_tr k) srv) (arrives srv i empty_net sched) = Ok (k_cli k, a) /\
    answers (k_queued k) ++ rest_of_answer k = pdus_of a.
Proof. intros srv sched w i k H Hk. destruct (alone_run srv sched w i k H Hk) as (_ & a & A & B). exists a. split; [exact A|exact B]. Qed.
(** So two connections of the same kind, of one server or of two set up alike, to which the same
    bytes have come while the caches were the same, have been given the same answers. *)
Theorem C115_others : forall srv sched1 sched2 w1 w2 i j k1 k2, nrun srv empty_net sched1 = Ok w1 -> nrun srv empty_net sched2 = Ok w2 ->
  nth_error (n_conns w1) i = Some k1 -> nth_error (n_conns w2) j = Some k2 -> k_tr k1 = k_tr k2 ->
  arrives srv i empty_net sched1 = arrives srv j empty_net sched2 ->
  k_cli k1 = k_cli k2 /\ answers (k_queued k1) ++ rest_of_answer k1 = answers (k_queued k2) ++ rest_of_answer k2.
Proof.
  intros srv sched1 sched2 w1 w2 i j k1 k2 H1 H2 K1 K2 HT HA.
  destruct (C115_alone _ _ _ _ _ H1 K1) as (a1 & A1 & B1). destruct (C115_alone _ _ _ _ _ H2 K2) as (a2 & A2 & B2).
  rewrite HT, HA, A2 in A1. injection A1 as E1 E2. split; congruence.
Qed.
(** One router asks for everything, while another one asks too, sends nonsense and is disconnected,
    and a notification goes out. *)
Definition turns (i : nat) := [LReader i; LSender i WAll; LSender i WAll; LSender i WAll].
Definition crowd115 := [LAccept SSH; LSshBegin 0; LStart 0; LAccept TCP; LStart 1; LRead 0 cacheA [1; 2; 0; 0; 0; 0; 0; 8]; LSender 1 WAll; LReader 0;
  LRead 1 cacheA [1; 2; 0; 0; 0; 0; 0; 8]; LRead 1 cacheA [0; 99]; LNotify 4; LNotifier; LReader 1]
  ++ many 3 (turns 0 ++ turns 1 ++ [LNotifier]) ++ many 6 (turns 1 ++ [LNotifier; LReader 0]) ++ [LRead 0 cacheA [0; 99; 1]; LReader 0; LRead 1 cacheA []; LReader 1].
Definition lone115 := [LAccept TCP; LStart 0; LRead 0 cacheA [1; 2; 0; 0; 0; 0; 0; 8]] ++ many 7 (turns 0) ++ [LRead 0 cacheA []; LReader 0].
Example C115_case : runs srv1 crowd115 = true /\ runs srv1 lone115 = true /\
  arrives srv1 1 empty_net crowd115 = arrives srv1 0 empty_net lone115 /\ map snd (arrives srv1 1 empty_net crowd115) = [[1; 2; 0; 0; 0; 0; 0; 8]; []] /\
  exists k1 k2, nth_error (n_conns (after srv1 crowd115)) 1 = Some k1 /\ nth_error (n_conns (after srv1 lone115)) 0 = Some k2 /\ k_tr k1 = k_tr k2 /\
    map get_type (k_queued k1) = [3; 4; 9; 6; 0; 7] /\ map get_type (k_queued k2) = [3; 4; 9; 6; 7] /\ k_flag k1 = false.
Proof.
  split; [vm_compute; reflexivity|]. split; [vm_compute; reflexivity|]. split; [vm_compute; reflexivity|]. split; [vm_compute; reflexivity|].
  eexists _, _. split; [vm_compute; reflexivity|]. split; [vm_compute; reflexivity|]. repeat split; vm_compute; reflexivity.
Qed.

(** C116 A router of a busy server stays in step.  A router as in C95 polls over one connection after
    the other; the server has any number of other connections, and its goroutines are interleaved in
    any way; when all that was queued for the router has been written, it has been able to follow every answer,
    and holds exactly the records fed in last. *)
Definition C116_statement : Prop := forall cfg s v tr keep l sched w here later conns, u16 s -> cfg_version cfg < 256 -> v <= cfg_version cfg ->
  acceptable (accept tr (new_rtr_server cfg s)) v -> Forall (fun n => Forall wf_sd n /\ NoDup (ids n)) (updates l) ->
  nrun (new_rtr_server cfg s) empty_net sched = Ok w ->
  asking (new_rtr_server cfg s) tr v (start (new_rtr_server cfg s) tr keep) (l ++ [Poll]) here later ->
  Forall2 (served_on (new_rtr_server cfg s) tr sched w) conns (here :: later) ->
  exists r, listen v fresh_router [] (concat (map (sent_on w) conns)) = Some r /\ in_sync v (keys_off tr cfg) r (latest l).
(** What holds, as in C95: updates that leave something to serve, polls in time. *)
Theorem C116_in_step_partial : forall cfg s v tr keep l sched w here later conns, u16 s -> cfg_version cfg < 256 -> v <= cfg_version cfg ->
  acceptable (accept tr (new_rtr_server cfg s)) v ->
  Forall (fun n => Forall wf_sd n /\ NoDup (ids n) /\ n <> []) (updates l) -> updates l <> [] -> timely keep [] None (l ++ [Poll]) ->
  nrun (new_rtr_server cfg s) empty_net sched = Ok w ->
  asking (new_rtr_server cfg s) tr v (start (new_rtr_server cfg s) tr keep) (l ++ [Poll]) here later ->
  Forall2 (served_on (new_rtr_server cfg s) tr sched w) conns (here :: later) ->
  exists r, listen v fresh_router [] (concat (map (sent_on w) conns)) = Some r /\
    ro_at r = Some (session_of s v, sdCurrentSerial (run (new_server keep) (updates l))) /\ in_sync v (keys_off tr cfg) r (latest l).
Proof.
  intros cfg s v tr keep l sched w here later conns Hs Hb Hv HA HU HN HT H HK HF.
  destruct (poll_in_sync cfg s v tr keep l Hs Hb Hv HA HU HN HT) as (w1 & P1 & P2 & P3).
  destruct (followed _ _ _ _ _ _ _ _ _ _ H HK HF) as (w2 & Q1 & Q2). rewrite P1 in Q1. injection Q1 as <-. eauto.
Qed.
(** The router: a poll when there is x1 and a router key; a change, a poll, another connection, three
    changes and a poll.  Beside it another connection, and notifications. *)
Definition life116 : list event := [Update [x1; x4]; Poll; Update [x4; x3]; Poll; Reconnect; Update [x1]; Update [x2]; Update [x1; x2]; Update [x2; x4]].
Definition day116 (n : nat) : server := run (new_server 3) (firstn n (updates life116)).
Definition serial_query (n : N) : bytes := [1; 1; 0; session_of 7 1; 0; 0; 0; 12; 0; 0; 0; n].
Definition reset_query : bytes := [1; 2; 0; 0; 0; 0; 0; 8].
Definition sched116 := [LAccept TLS; LStart 0; LAccept TCP; LStart 1; LRead 1 (day116 1) reset_query] ++ many 6 (LReader 0 :: turns 1)
  ++ [LRead 0 (day116 2) reset_query; LNotify 1] ++ many 4 (turns 0 ++ [LNotifier]) ++ [LRead 1 (day116 2) (serial_query 0)] ++ many 7 (turns 1 ++ [LNotifier])
  ++ [LAccept TCP; LStart 2; LRead 1 (day116 2) []; LReader 1; LNotify 5; LRead 2 (day116 6) (serial_query 1); LReader 2; LReader 1; LNotifier; LReader 1] ++ many 4 (turns 2)
  ++ [LRead 2 (day116 6) reset_query] ++ many 4 (turns 2 ++ [LNotifier]) ++ many 3 (turns 2).
Definition here116 := [(day116 1, reset_query); (day116 2, serial_query 0)].
Definition later116 := [[(day116 6, serial_query 1); (day116 6, reset_query)]].
Lemma wf116 : Forall (fun n => Forall wf_sd n /\ NoDup (ids n) /\ n <> []) (updates life116).
Proof.
  repeat (apply Forall_cons; [split; [apply wf_sds_ok; vm_compute; reflexivity|split;
    [repeat (apply NoDup_cons; [cbn; intuition discriminate|]); apply NoDup_nil|discriminate]]|]); apply Forall_nil.
Qed.
Lemma asking_eq srv tr v w l here later w' here' later' : w = w' -> here = here' -> later = later' ->
  asking srv tr v w' l here' later' -> asking srv tr v w l here later.
Proof. intros -> -> ->. auto. Qed.
Ltac settle := match goal with |- asking _ _ _ ?w _ ?h ?l =>
  let w' := eval vm_compute in w in let h' := eval vm_compute in h in let l' := eval vm_compute in l in
  apply (asking_eq _ _ _ w _ h l w' h' l'); [vm_compute; reflexivity|vm_compute; reflexivity|vm_compute; reflexivity|] end.
Lemma asking116 : asking srv1 TCP 1 (start srv1 TCP 3) (life116 ++ [Poll]) here116 later116.
Proof.
  assert (B : Forall (fun n => bytes_for (serial_query n) (SerialQuery 1 107 n)) [0; 1]).
  { repeat (apply Forall_cons; [split; [discriminate|vm_compute; reflexivity]|]). apply Forall_nil. }
  inversion B as [|? ? B1 B']; subst. inversion B' as [|? ? B2 _]; subst.
  assert (B0 : bytes_for reset_query (ResetQuery 1)) by (split; [discriminate|reflexivity]).
  apply As_update. settle. eapply As_once; [exact B0|vm_compute; reflexivity|now left|].
  apply As_update. settle. eapply As_once; [exact B1|vm_compute; reflexivity|right; discriminate|].
  apply As_new. do 4 apply As_update. settle.
  eapply As_twice; [exact B2|vm_compute; reflexivity|discriminate|reflexivity|exact B0|vm_compute; reflexivity|]. apply As_nil.
Qed.
Example C116_case : timely 3 [] None (life116 ++ [Poll]) /\ runs srv1 sched116 = true /\
  Forall2 (served_on srv1 TCP sched116 (after srv1 sched116)) [1%nat; 2%nat] (here116 :: later116) /\
  map (fun k => map get_type (k_queued k)) (n_conns (after srv1 sched116)) = [[3; 0; 9; 0]; [3; 4; 9; 7; 0; 3; 6; 4; 7]; [8; 3; 4; 9; 7]] /\
  option_map ro_set (listen 1 fresh_router [] (concat (map (sent_on (after srv1 sched116)) [1%nat; 2%nat]))) = Some (ids [x4; x2]).
Proof.
  split; [vm_compute; intuition (discriminate || reflexivity || auto)|]. split; [vm_compute; reflexivity|]. split.
  { unfold later116. apply Forall2_cons; [|apply Forall2_cons; [|apply Forall2_nil]].
    - eexists. split; [vm_compute; reflexivity|]. split; [reflexivity|]. split; [repeat split; vm_compute; reflexivity|]. right. exists (day116 2). vm_compute. reflexivity.
    - eexists. split; [vm_compute; reflexivity|]. split; [reflexivity|]. split; [repeat split; vm_compute; reflexivity|]. left. vm_compute. reflexivity. }
  split; vm_compute; reflexivity.
Qed.

(** And it gets there: if all but the last question have been answered on a connection, the router
    asks it, reads what it is sent and the two goroutines of the connection go on getting turns,
    then, whatever else happens, there is a moment, within a number of turns bounded by what is
    queued and the notifier's steps, when the answer is there in full and the router in step. *)
Theorem C116_gets_there_partial : forall cfg s v tr keep l sched w i k reads cache chunk w0 k0, let srv := new_rtr_server cfg s in
  u16 s -> cfg_version cfg < 256 -> v <= cfg_version cfg -> acceptable (accept tr srv) v ->
  Forall (fun n => Forall wf_sd n /\ NoDup (ids n) /\ n <> []) (updates l) -> updates l <> [] -> timely keep [] None (l ++ [Poll]) ->
  nrun srv empty_net sched = Ok w -> asking srv tr v (start srv tr keep) (l ++ [Poll]) (reads ++ [(cache, chunk)]) [] ->
  nth_error (n_conns w) i = Some k -> k_tr k = tr -> k_phase k = Running -> k_flag k = true -> written k -> arrives srv i empty_net sched = reads ->
  nstep srv w (LRead i cache chunk) = Ok w0 -> nth_error (n_conns w0) i = Some k0 ->
  forall rs w', Forall (turn_each i) rs -> nrun srv w0 (concat rs) = Ok w' ->
    (outstanding k0 0 + 4 * notifier_steps (concat rs) <= length rs)%nat ->
    exists r1 r2 w1 r, concat rs = r1 ++ r2 /\ nrun srv w0 r1 = Ok w1 /\ served_on srv tr (sched ++ [LRead i cache chunk] ++ r1) w1 i (reads ++ [(cache, chunk)]) /\
      listen v fresh_router [] (sent_on w1 i) = Some r /\ in_sync v (keys_off tr cfg) r (latest l).
Proof.
  intros cfg s v tr keep l sched w i k reads cache chunk w0 k0 srv Hs Hb Hv HA HU HN HT H HK Ki K1 K2 K3 K4 K5 HR K0 rs w' HTE HRS HL.
  destruct (poll_in_sync cfg s v tr keep l Hs Hb Hv HA HU HN HT) as (w1 & P1 & P2 & P3).
  destruct (gets_there srv tr v sched w i k keep _ reads cache chunk w0 k0 H HK Ki K1 K2 K3 K4 K5 HR K0 rs w' HTE HRS HL) as (r1 & r2 & w2 & w3 & A & B & C & D & E).
  fold srv in P1. rewrite P1 in C. injection C as <-. exists r1, r2, w2, (wo_router w1). auto.
Qed.
(** The second poll of the router above, while the other one asks and there is a notification. *)
Definition begin116 := [LAccept TLS; LStart 0; LAccept TCP; LStart 1; LRead 1 (day116 1) reset_query] ++ many 6 (LReader 0 :: turns 1).
Definition rounds116 := [[LReader 1; LRead 0 (day116 2) reset_query; LNotify 1; LSender 1 WAll]]
  ++ repeat [LSender 1 WAll; LReader 0; LNotifier; LReader 1] 3 ++ repeat [LSender 1 WAll; LReader 1; LReader 0] 40.
Example C116_gets_there_case : exists w k w0 k0, runs srv1 begin116 = true /\ w = after srv1 begin116 /\
  asking srv1 TCP 1 (start srv1 TCP 3) ([Update [x1; x4]; Poll; Update [x4; x3]] ++ [Poll]) ([(day116 1, reset_query)] ++ [(day116 2, serial_query 0)]) [] /\
  nth_error (n_conns w) 1 = Some k /\ k_tr k = TCP /\ k_phase k = Running /\ k_flag k = true /\ written k /\ arrives srv1 1 empty_net begin116 = [(day116 1, reset_query)] /\
  nstep srv1 w (LRead 1 (day116 2) (serial_query 0)) = Ok w0 /\ nth_error (n_conns w0) 1 = Some k0 /\
  Forall (turn_each 1) rounds116 /\ (exists w', nrun srv1 w0 (concat rounds116) = Ok w') /\
  (outstanding k0 0 + 4 * notifier_steps (concat rounds116) <= length rounds116)%nat.
Proof.
  eexists _, _, _, _. split; [vm_compute; reflexivity|]. split; [reflexivity|]. split.
  { apply As_update. settle. eapply As_once; [split; [discriminate|reflexivity]|vm_compute; reflexivity|now left|].
    apply As_update. settle. eapply As_once; [split; [discriminate|vm_compute; reflexivity]|vm_compute; reflexivity|right; discriminate|]. apply As_nil. }
  split; [vm_compute; reflexivity|]. split; [reflexivity|]. split; [reflexivity|]. split; [reflexivity|].
  split; [split; [reflexivity|split; [reflexivity|vm_compute; reflexivity]]|]. split; [vm_compute; reflexivity|].
  split; [vm_compute; reflexivity|]. split; [vm_compute; reflexivity|]. split.
  { apply Forall_forall. intros r Hr. unfold rounds116 in Hr. rewrite !in_app_iff in Hr.
    destruct Hr as [[<-|[]]|[Hr|Hr]]; [|apply repeat_spec in Hr; subst r|apply repeat_spec in Hr; subst r];
      (split; [repeat (first [left; reflexivity|right])|split; [repeat (first [left; reflexivity|right])|
        repeat (apply Forall_cons; [cbv beta iota; first [exact I|discriminate|intros _; reflexivity|intros X; discriminate X]|]); apply Forall_nil]]). }
  split; [eexists; vm_compute; reflexivity|]. vm_compute. repeat constructor.
Qed.

(** False without that: two changes between polls, as in C95. *)
Definition life116b : list event := [Update [x1]; Poll; Update [x1; x3]; Update [x3]].
Definition sched116b := [LAccept TCP; LStart 0; LRead 0 (run (new_server 3) [[x1]]) reset_query] ++ many 6 (turns 0)
  ++ [LRead 0 (run (new_server 3) [[x1]; [x1; x3]; [x3]]) (serial_query 0)] ++ many 8 (turns 0).
Theorem C116_two_behind_refuted : ~ C116_statement.
Proof.
  intros H. destruct (H cfg1 7 1 TCP 3%Z life116b sched116b (after srv1 sched116b)
    [(run (new_server 3) [[x1]], reset_query); (run (new_server 3) [[x1]; [x1; x3]; [x3]], serial_query 0)] [] [0%nat]) as (r & HL & HS).
  - reflexivity.
  - reflexivity.
  - discriminate.
  - exact acceptable1.
  - assert (W : Forall wf_sd [x1; x3]) by (apply wf_sds_ok; vm_compute; reflexivity).
    assert (N13 : NoDup (ids [x1; x3])) by (constructor; [intros [E|[]]; discriminate E|]; constructor; [intros []|constructor]).
    inversion W as [|? ? W1 W2]; subst. inversion N13 as [|? ? _ N3]; subst.
    constructor; [split; [auto|constructor; [intros []|constructor]]|]. constructor; [auto|]. constructor; [auto|constructor].
  - apply after_ok. vm_compute. reflexivity.
  - apply As_update. settle. eapply As_once; [split; [discriminate|reflexivity]|vm_compute; reflexivity|now left|].
    do 2 apply As_update. settle. eapply As_once; [split; [discriminate|vm_compute; reflexivity]|vm_compute; reflexivity|right; discriminate|]. apply As_nil.
  - constructor; [|constructor]. eexists. split; [vm_compute; reflexivity|]. split; [reflexivity|]. split; [repeat split; vm_compute; reflexivity|]. left. vm_compute. reflexivity.
  - vm_compute in HL. injection HL as <-. specialize (HS (rid_of x1)). cbn [ro_set] in HS. destruct HS as [HS _].
    destruct HS as (d & [E|[]] & _ & EX); [now left|]. subst d. discriminate EX.
Qed.

Print Assumptions C115_alone.
Print Assumptions C115_others.
Print Assumptions C116_in_step_partial.
Print Assumptions C116_gets_there_partial.
Print Assumptions C116_two_behind_refuted.
