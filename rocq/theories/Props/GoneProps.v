(** Property C121 and the exact forms of C33 and C63: what a router that is gone, or does not read,
    does to the notification of the others. *)
From Coq Require Import ZArith ZifyBool ZifyNat ZifyN.
From Verif Require Import Model.Concurrent Spec.Response Spec.Net Spec.Conversation Spec.Reached Spec.Gone Proofs.ConnP
  Proofs.NetP Proofs.NetP2 Proofs.NetP3 Proofs.NetP4 Proofs.GoneP Props.ConnProps Props.ConcProps.
From Coq Require Import List.
Import ListNotations.
Local Open Scope N_scope.

(** C121 A router that is gone holds nothing up: false.  A router does not read until its
    channel is full and the notifier waits for it; then it closes its connection.  The
    server drops it from the list, its sender returns without taking another PDU off the
    channel, and the notifier waits for that channel for ever: whatever happens next, no
    router is sent a Serial Notify again. *)
Definition sched121 := sched33 ++ [LRead 0 cacheA []; LReader 0; LReader 0; LReader 0; LReturn 0; LSender 0 (WFail 0); LSender 0 WAll].
Theorem C121_gone_refuted : exists cfg s sched w p serial,
  nrun (new_rtr_server cfg s) empty_net sched = Ok w /\ Forall lab_ok sched /\
  n_clients w = [1%nat] /\ n_notif w = NPut p serial 0 [1%nat] /\
  (exists k, nth_error (n_conns w) 0 = Some k /\ k_phase k = Ended /\ k_pc k = SDone) /\
  (exists k, nth_error (n_conns w) 1 = Some k /\ k_phase k = Running /\ room k) /\
  forall sched' w', nrun (new_rtr_server cfg s) w sched' = Ok w' ->
    n_notif w' = NPut p serial 0 [1%nat] /\
    forall j k', nth_error (n_conns w') j = Some k' ->
      notes k' = match nth_error (n_conns w) j with Some k => notes k | None => [] end.
Proof.
  set (w := after srv1 sched121).
  assert (R : runs srv1 sched121 = true) by (vm_compute; reflexivity). apply after_ok in R. fold w in R.
  assert (HN : n_notif w = NPut (SerialNotify 0 7 2) 2 0 [1%nat]) by (vm_compute; reflexivity).
  assert (HC : n_clients w = [1%nat]) by (vm_compute; reflexivity).
  assert (HB : match nth_error (n_conns w) 0, nth_error (n_conns w) 1 with
    | Some k, Some k1 => match k_pc k, k_phase k, k_phase k1 with
                         | SDone, Ended, Running => (nlen (k_queue k) =? 256) && (nlen (k_queue k1) <? 256) | _, _, _ => false end
    | _, _ => false end = true) by (vm_compute; reflexivity).
  clearbody w. destruct (nth_error (n_conns w) 0) as [k|] eqn:E; [|discriminate HB].
  destruct (nth_error (n_conns w) 1) as [k1|] eqn:E1; [|discriminate HB].
  destruct (k_pc k) eqn:EP; try discriminate HB. destruct (k_phase k) eqn:EH; try discriminate HB. destruct (k_phase k1) eqn:EH1; try discriminate HB.
  exists cfg1, 7, sched121, w, (SerialNotify 0 7 2), 2. split; [exact R|]. split; [|split; [exact HC|]; split; [exact HN|]].
  { unfold sched121. apply Forall_app. split; [|repeat constructor]. unfold sched33. apply Forall_app. split; [repeat constructor|].
    apply Forall_app. split; [repeat constructor|]. apply Forall_app. split; [repeat constructor|]. apply Forall_app. split; [|repeat constructor].
    unfold many. generalize 256%nat as n. induction n as [|n IH]; [constructor|]. cbn [repeat concat]. apply Forall_app. split; [repeat constructor|exact IH]. }
  split; [exists k; auto|]. split; [exists k1; split; [exact E1|split; [exact EH1|right; lia]]|].
  assert (HD : deaf k) by (split; [split; [lia|now left]|right; exact EH]).
  intros sched' w' H. split; [exact (proj1 (deaf_run _ _ _ _ _ _ _ _ _ HN E HD H))|].
  exact (silence _ _ _ _ _ _ _ _ _ (hushed_run _ _ _ R) HN E HD H).
Qed.

(** What holds, exactly: the notifier, waiting for room on the channel of a router, waits
    for ever if and only if that channel is full and its sender has returned or is about
    to; in every other case at most three steps of that sender, then one of the notifier,
    let it go on. *)
Theorem C121_exact_partial : forall cfg s sched w p serial i rest, u16 s -> cfg_version cfg < 256 ->
  1 <= cfg_version cfg \/ cfg_enforce cfg = true -> Forall lab_ok sched ->
  nrun (new_rtr_server cfg s) empty_net sched = Ok w -> n_notif w = NPut p serial i rest ->
  exists k, nth_error (n_conns w) i = Some k /\
    ((forall sched' w', nrun (new_rtr_server cfg s) w sched' = Ok w' -> n_notif w' = n_notif w) <-> unattended k) /\
    (unattended k -> forall sched' w', nrun (new_rtr_server cfg s) w sched' = Ok w' ->
       forall j k', nth_error (n_conns w') j = Some k' ->
         notes k' = match nth_error (n_conns w) j with Some k => notes k | None => [] end) /\
    (~ unattended k -> exists n w', (n <= 3)%nat /\
       nrun (new_rtr_server cfg s) w (repeat (LSender i WAll) n ++ [LNotifier]) = Ok w' /\ n_notif w' = NLoop serial rest).
Proof.
  intros cfg s sched w p serial i rest Hs Hb HB HL R HN.
  destruct (aimed_run _ _ _ R) as (_ & HA). destruct (HA i) as (k & Hi & HS); [rewrite HN; left; reflexivity|].
  destruct (no_panic cfg s Hs Hb HB sched empty_net (ninv_empty cfg) HL) as (w1 & R1 & (HK & _)). rewrite R in R1. injection R1 as <-.
  assert (OUT : ~ unattended k -> exists n w', (n <= 3)%nat /\
       nrun (new_rtr_server cfg s) w (repeat (LSender i WAll) n ++ [LNotifier]) = Ok w' /\ n_notif w' = NLoop serial rest).
  { intros HU. apply (attended _ _ p serial i rest k HN Hi); [exact (capped_run _ _ _ R i k Hi)| |exact (in_hand_ok cfg k (HK i k Hi))|exact HU].
    exact (started_pc _ _ _ R i k Hi HS). }
  assert (IN : unattended k -> deaf k) by (intros HU; split; assumption).
  exists k. split; [exact Hi|]. split; [split|split; [|exact OUT]].
  - intros HF. destruct (unattended_dec k) as [HU|HU]; [exact HU|]. destruct (OUT HU) as (n & w' & _ & H & E). apply HF in H. congruence.
  - intros HU sched' w' H. rewrite HN. exact (proj1 (deaf_run _ _ _ _ _ _ _ _ _ HN Hi (IN HU) H)).
  - intros HU sched' w' H. exact (silence _ _ _ _ _ _ _ _ _ (hushed_run _ _ _ R) HN Hi (IN HU) H).
Qed.
(** A router whose sender sits in Write with a full channel, still connected: not
    unattended, and two states in which the notifier does wait for ever. *)
Example C121_case : exists k k', n_notif (after srv1 sched33) = NPut (SerialNotify 0 7 2) 2 0 [1%nat] /\
  nth_error (n_conns (after srv1 sched33)) 0 = Some k /\ ~ room k /\ ~ unattended k /\
  nth_error (n_conns (after srv1 sched121)) 0 = Some k' /\ unattended k'.
Proof.
  set (w := after srv1 sched33). set (w' := after srv1 sched121).
  assert (HN : n_notif w = NPut (SerialNotify 0 7 2) 2 0 [1%nat]) by (vm_compute; reflexivity).
  assert (HB : match nth_error (n_conns w) 0, nth_error (n_conns w') 0 with
    | Some k, Some k1 => match k_pc k, k_flag k, k_pc k1 with SWrite _, true, SDone => (nlen (k_queue k) =? 256) && (nlen (k_queue k1) =? 256) | _, _, _ => false end
    | _, _ => false end = true) by (vm_compute; reflexivity).
  clearbody w w'. destruct (nth_error (n_conns w) 0) as [k|] eqn:E; [|discriminate HB].
  destruct (nth_error (n_conns w') 0) as [k1|] eqn:E1; [|discriminate HB].
  destruct (k_pc k) eqn:EP; try discriminate HB. destruct (k_flag k) eqn:EF; try discriminate HB. destruct (k_pc k1) eqn:EP1; try discriminate HB.
  exists k, k1. split; [exact HN|]. split; [reflexivity|]. split; [unfold room; rewrite EP; intros [X|X]; [discriminate X|lia]|].
  split; [unfold unattended; rewrite EP, EF; intros (_ & [X|(X & _)]); discriminate X|]. split; [reflexivity|]. split; [lia|now left].
Qed.

(** C33, exactly: the notifier gets past a router when there is room on that router's
    channel, or its sender is parked, and waits otherwise; the state of every other
    connection is irrelevant. *)
Theorem C33_exact_partial : forall cfg s sched w p serial i rest,
  nrun (new_rtr_server cfg s) empty_net sched = Ok w -> n_notif w = NPut p serial i rest ->
  exists k, nth_error (n_conns w) i = Some k /\
    (room k -> exists w', nstep (new_rtr_server cfg s) w LNotifier = Ok w' /\ n_notif w' = NLoop serial rest) /\
    (~ room k -> nstep (new_rtr_server cfg s) w LNotifier = Ok w).
Proof.
  intros cfg s sched w p serial i rest R HN. destruct (aimed_run _ _ _ R) as (_ & HA). destruct (HA i) as (k & Hi & _); [rewrite HN; left; reflexivity|].
  exists k. split; [exact Hi|]. split; intros HR; [eapply notifier_room; eauto|eapply notifier_blocked; eauto].
Qed.
Definition sched33c := [LAccept TCP; LStart 0; LNotify 5; LNotifier; LNotifier].
Example C33_exact_case : exists k, nth_error (n_conns (after srv1 sched33c)) 0 = Some k /\ room k /\
  n_notif (after srv1 sched33c) = NPut (SerialNotify 0 7 5) 5 0 [].
Proof. eexists. split; [vm_compute; reflexivity|]. split; [right; vm_compute; reflexivity|vm_compute; reflexivity]. Qed.

(** C63, exactly: whatever happens between the two reads of the version, the Serial Notify has
    the version of the second and the session identifier of the first, so it is consistent
    if and only if the version is the same at both. *)
Theorem C63_exact_partial : forall cfg s sched w serial i rest l w', u16 s -> cfg_version cfg < 256 ->
  1 <= cfg_version cfg \/ cfg_enforce cfg = true -> Forall lab_ok sched -> Forall lab_ok l ->
  nrun (new_rtr_server cfg s) empty_net sched = Ok w -> n_notif w = NLoop serial (i :: rest) -> ~ In LNotifier l ->
  nrun (new_rtr_server cfg s) w (LNotifier :: l) = Ok w' ->
  exists k k' w2, nth_error (n_conns w) i = Some k /\ nth_error (n_conns w') i = Some k' /\
    nstep (new_rtr_server cfg s) w' LNotifier = Ok w2 /\
    n_notif w2 = NPut (SerialNotify (k_ver k') (session_of s (k_ver k)) serial) serial i rest /\
    (session_of s (k_ver k) = session_of s (k_ver k') <-> k_ver k = k_ver k').
Proof.
  intros cfg s sched w serial i rest l w' Hs Hb HB HL HL2 R HN NI H.
  destruct (aimed_run _ _ _ R) as (_ & HA). destruct (HA i) as (k & Hi & HS); [rewrite HN; left; reflexivity|].
  destruct (no_panic cfg s Hs Hb HB sched empty_net (ninv_empty cfg) HL) as (w1 & R1 & HI). rewrite R in R1. injection R1 as <-.
  assert (HI' : ninv cfg w').
  { destruct (no_panic cfg s Hs Hb HB (LNotifier :: l) w HI) as (w1 & R1 & HI1); [constructor; [exact I|exact HL2]|]. rewrite H in R1. injection R1 as <-. exact HI1. }
  assert (HU : up_at w' i).
  { assert (G : forall l w w', nrun (new_rtr_server cfg s) w l = Ok w' -> up_at w i -> up_at w' i).
    { clear. induction l as [|x l IH]; intros w w' H HU; cbn in H; [injection H as <-; exact HU|].
      destruct (nstep (new_rtr_server cfg s) w x) as [w1|e|] eqn:E; [|destruct e|discriminate]. cbn [bind] in H. eapply IH; [exact H|]. eapply up_step; eauto. }
    apply (G _ _ _ H). exists k. auto. }
  destruct HU as (k' & Hi' & _).
  assert (V : k_ver k <= cfg_version cfg) by (destruct HI as (HK & _); destruct (HK i k Hi) as (_ & V & _); exact V).
  assert (V' : k_ver k' <= cfg_version cfg) by (destruct HI' as (HK & _); destruct (HK i k' Hi') as (_ & V' & _); exact V').
  assert (HN' : n_notif w' = NSess serial (session_of s (k_ver k)) i rest).
  { cbn [nrun nstep] in H. unfold notifier_step in H. rewrite HN, Hi in H. unfold get_session_id in H. rewrite sess_nth in H by (assumption || lia). cbn [bind] in H.
    remember (mkNet (n_count w) (n_clients w) (n_conns w) (NSess serial (session_of s (k_ver k)) i rest)) as w1 eqn:E1.
    assert (E : n_notif w1 = NSess serial (session_of s (k_ver k)) i rest) by (rewrite E1; reflexivity). clear E1. rewrite <- E. 
    assert (NN : n_notif w1 <> NIdle) by (rewrite E; discriminate). clear -H NI NN. revert w1 H NN.
    induction l as [|x l IH]; intros w1 H NN; cbn in H; [injection H as <-; reflexivity|].
    destruct (nstep (new_rtr_server cfg s) w1 x) as [w2|e|] eqn:E; [|destruct e|discriminate]. cbn [bind] in H.
    assert (E2 : n_notif w2 = n_notif w1) by (eapply nstep_notif; [exact E|exact NN|intros ->; apply NI; now left]).
    rewrite <- E2. apply IH; [intros X; apply NI; now right|exact H|rewrite E2; exact NN]. }
  exists k, k'. eexists. split; [exact Hi|]. split; [exact Hi'|]. split; [cbn [nstep]; unfold notifier_step; rewrite HN', Hi'; reflexivity|].
  split; [reflexivity|]. split; [apply session_of_inj; lia|now intros ->].
Qed.
(** The router asks in version 1 between the two reads: version 1 with the session
    identifier of version 0. *)
Example C63_exact_case : let w := after srv1 [LAccept TCP; LStart 0; LNotify 5] in
  let l := [LRead 0 cacheA [1; 2; 0; 0; 0; 0; 0; 8]; LReader 0] in
  n_notif w = NLoop 5 [0%nat] /\ ~ In LNotifier l /\
  exists w', nrun srv1 w (LNotifier :: l) = Ok w' /\ nrun srv1 w' [LNotifier] = Ok (mkNet (n_count w') (n_clients w') (n_conns w') (NPut (SerialNotify 1 7 5) 5 0 [])) /\
    session_of 7 1 = 107.
Proof.
  cbv zeta. split; [vm_compute; reflexivity|]. split; [intros [E|[E|[]]]; discriminate E|]. eexists. split; [vm_compute; reflexivity|].
  split; [vm_compute; reflexivity|reflexivity].
Qed.

Print Assumptions C121_gone_refuted.
Print Assumptions C121_exact_partial.
Print Assumptions C33_exact_partial.
Print Assumptions C63_exact_partial.
