(** Property C75: SetMaxConnections on a running server. *)
From Coq Require Import ZifyBool ZifyNat ZifyN.
From Verif Require Import Model.Admin Spec.Net Spec.Admin Proofs.NetP3 Proofs.AdminP Props.CacheProps Props.ConnProps Props.ConcProps.

Definition srv75 := new_rtr_server (cfgMax 0) 7.
Definition start1 (i : nat) := [AStep (LAccept TCP); AStep (LStart i); AEnter i; AStep (LSender i WAll); AStep (LSender i WAll)].
(** Two clients, their readers in Read, their senders waiting. *)
Definition two := start1 0 ++ start1 1.
Definition call (n : Z) (d : nat) := ACall n :: repeat AAdmin (3 + 3 * d).
(** Read of connection [i] fails. *)
Definition fails (i : nat) := AReturn i (new_server 3) [] :: repeat (AStep (LReader i)) 3 ++ [AStep (LReturn i)].
Definition aafter (sched : list alabel) : anet := match arun srv75 (empty_anet srv75) sched with Ok a => a | _ => empty_anet srv75 end.
Definition aruns (sched : list alabel) : bool := match arun srv75 (empty_anet srv75) sched with Ok _ => true | _ => false end.
Lemma aafter_ok sched : aruns sched = true -> arun srv75 (empty_anet srv75) sched = Ok (aafter sched).
Proof. unfold aruns, aafter. destruct (arun srv75 (empty_anet srv75) sched); [reflexivity|discriminate|discriminate]. Qed.

(** C75 Changing the connection limit: false.  Two clients are connected, plainly, when
    SetMaxConnections(1) is called.  It disconnects the first and returns, with one client left.
    The sender of the first has closed its connection, so its Read fails: it is counted out a second
    time.  Then a third client, arriving alone, is let in beside the second. *)
Theorem C75_limit_refuted : exists a1 a2,
  arun srv75 (empty_anet srv75) (two ++ call 1 1) = Ok a1 /\ a_pc a1 = AIdle /\ a_max a1 = 1%Z /\ clients a1 = [1%nat] /\ counter a1 = 1%Z /\
  (exists k, nth_error (n_conns (a_net a1)) 0 = Some k /\ k_pc k = SDone) /\
  arun srv75 a1 (fails 0 ++ start1 2) = Ok a2 /\ a_max a2 = 1%Z /\ counter a2 = 1%Z /\ connected a2 1 /\ connected a2 2.
Proof.
  eexists _, _. split; [vm_compute; reflexivity|]. repeat (split; [reflexivity|]). split; [eexists; split; reflexivity|].
  split; [vm_compute; reflexivity|]. repeat (split; [reflexivity|]).
  split; (split; [cbn; tauto|eexists; split; reflexivity]).
Qed.
(** SetMaxConnections(0), which means no limit, disconnects everybody. *)
Theorem C75_zero_refuted : exists a, arun srv75 (empty_anet srv75) (two ++ call 0 2) = Ok a /\ a_pc a = AIdle /\ a_max a = 0%Z /\
  connected (aafter two) 0 /\ connected (aafter two) 1 /\ disconnected a 0 /\ disconnected a 1.
Proof.
  eexists. split; [vm_compute; reflexivity|]. repeat (split; [reflexivity|]).
  split; [split; [vm_compute; tauto|eexists; split; vm_compute; reflexivity]|].
  split; [split; [vm_compute; tauto|eexists; split; vm_compute; reflexivity]|].
  split; (split; [cbn; tauto|eexists; split; reflexivity]).
Qed.
(** If a client leaves between the comparison and the copying of the list, one too many is
    disconnected: nobody is left with a limit of 1. *)
Theorem C75_race_refuted : exists a, arun srv75 (empty_anet srv75) (two ++ [ACall 1; AAdmin] ++ fails 0 ++ repeat AAdmin 5) = Ok a /\
  a_pc a = AIdle /\ a_max a = 1%Z /\ connected (aafter (two ++ [ACall 1; AAdmin] ++ fails 0)) 1 /\ disconnected a 1 /\ clients a = [].
Proof.
  eexists. split; [vm_compute; reflexivity|]. repeat (split; [reflexivity|]).
  split; [split; [vm_compute; tauto|eexists; split; vm_compute; reflexivity]|].
  split; [|reflexivity]. split; [cbn; tauto|eexists; split; reflexivity].
Qed.

(** What holds.  If the counter is not below the number of clients when it is looked at, then, however
    everything is interleaved, at most [n] clients are left when the call returns, and those that
    have arrived meanwhile.  Missing: a counter that is too low. *)
Theorem C75_at_most_partial : forall srv a n sched a', a_pc a = AWant n -> (Z.of_nat (length (clients a)) <= counter a)%Z ->
  Forall no_call sched -> arun srv a (AAdmin :: sched) = Ok a' -> a_pc a' = AIdle ->
  a_max a' = n /\ (length (clients a') <= Z.to_nat n + starts sched)%nat.
Proof.
  intros srv a n sched a' HP HC HS H HI. cbn [arun] in H. destruct (astep srv a AAdmin) as [a1|[]|] eqn:E; [|discriminate].
  cbn in H. assert (HF : few n (Z.to_nat n) a1).
  { cbn in E. injection E as <-. unfold admin_step. rewrite HP. unfold counter in HC. destruct (n <? n_count (a_net a))%Z eqn:EN; unfold few, clients in *; cbn; split; auto; lia. }
  pose proof (few_run _ _ _ _ _ _ HF HS H) as G. unfold few in G. rewrite HI in G. exact G.
Qed.
Example C75_at_most_case : let a := aafter (two ++ [ACall 1]) in
  a_pc a = AWant 1 /\ (Z.of_nat (length (clients a)) <= counter a)%Z /\
  exists a', arun srv75 a (AAdmin :: AStep (LAccept TCP) :: AStep (LStart 2) :: repeat AAdmin 5) = Ok a' /\ a_pc a' = AIdle /\
    clients a' = [1; 2]%nat.
Proof. cbv zeta. split; [reflexivity|]. split; [vm_compute; discriminate|]. eexists. split; [vm_compute; reflexivity|]. split; reflexivity. Qed.

(** The clients disconnected are the first [d] of the list, that is, those connected longest: when
    the call returns they are gone for good, and every other client that has not been
    disconnected by its own reader is still there. *)
Theorem C75_first_partial : forall srv a n d sched a' i, areach srv a -> a_pc a = AList n d ->
  Forall no_call sched -> arun srv a (AAdmin :: sched) = Ok a' -> a_pc a' = AIdle ->
  (In i (firstn d (clients a)) -> disconnected a' i) /\
  (connected a i -> ~ In i (firstn d (clients a)) -> Forall (not_reader i) sched -> connected a' i).
Proof.
  intros srv a n d sched a' i HR HP HS H HI. destruct (ainv_reach _ _ HR) as (o & I1 & I2 & _).
  cbn [arun astep] in H. unfold admin_step in H. rewrite HP in H. cbn in H. fold (clients a) in H.
  split.
  - intros Hi. assert (G0 : going i (mkA (a_net a) (a_max a) (a_in a) (ALoop n (firstn d (clients a))))).
    { split; [|left; exact Hi]. apply I2. eapply in_firstn. exact Hi. }
    pose proof (arun_inv srv (going i) no_call (fun x l x' P Q => going_step srv x l x' i P Q) _ _ _ G0 HS H) as (_ & [G|((k & K1 & _ & K2) & [(m & r & G)|G])]).
    + rewrite HI in G. destruct G.
    + congruence.
    + split; [exact G|eauto].
  - intros (HC & k & Hk & FK) HN HRd. destruct (I2 i HC) as ((k1 & Hk1 & SK) & _). assert (k1 = k) by congruence. subst k1.
    assert (G0 : staying i (mkA (a_net a) (a_max a) (a_in a) (ALoop n (firstn d (clients a))))) by (split; [split; [exact HC|eauto]|split; [exact HN|exact I]]).
    assert (HB : Forall (fun l => no_call l /\ not_reader i l) sched).
    { rewrite Forall_forall in *. auto. }
    pose proof (arun_inv srv (staying i) _ (fun x l x' P Q => staying_step srv x l x' i P (proj1 Q) (proj2 Q)) _ _ _ G0 HB H) as ((G1 & k' & G2 & _ & G3) & _).
    split; [exact G1|eauto].
Qed.
Example C75_first_case : let a := aafter (two ++ start1 2 ++ [ACall 1; AAdmin]) in
  areach srv75 a /\ a_pc a = AList 1 2 /\ clients a = [0; 1; 2]%nat /\ connected a 2 /\
  exists a', arun srv75 a (AAdmin :: fails 0 ++ repeat AAdmin 7) = Ok a' /\ a_pc a' = AIdle /\ clients a' = [2%nat].
Proof.
  cbv zeta. split; [exists (two ++ start1 2 ++ [ACall 1; AAdmin]); apply aafter_ok; vm_compute; reflexivity|]. repeat (split; [vm_compute; reflexivity|]).
  split; [split; [vm_compute; tauto|eexists; split; vm_compute; reflexivity]|].
  eexists. split; [vm_compute; reflexivity|]. split; reflexivity.
Qed.
(** If the counter does not exceed the new limit, nobody is disconnected. *)
Theorem C75_room_partial : forall srv a n sched a' i, areach srv a -> a_pc a = AWant n -> (counter a <= n)%Z -> connected a i ->
  Forall no_call sched -> Forall (not_reader i) sched -> arun srv a (AAdmin :: sched) = Ok a' -> connected a' i /\ a_max a' = n.
Proof.
  intros srv a n sched a' i HR HP HC (HCl & k & Hk & FK) HS HN H. destruct (ainv_reach _ _ HR) as (o & I1 & I2 & _).
  cbn [arun astep] in H. unfold admin_step in H. rewrite HP in H. unfold counter in HC. destruct (n <? n_count (a_net a))%Z eqn:EN; [lia|]. cbn in H.
  destruct (I2 i HCl) as ((k1 & Hk1 & SK) & _). assert (k1 = k) by congruence. subst k1.
  assert (G0 : staying i (mkA (a_net a) n (a_in a) AIdle)) by (split; [split; [exact HCl|eauto]|split; [intros []|exact I]]).
  assert (HB : Forall (fun l => no_call l /\ not_reader i l) sched) by (rewrite Forall_forall in *; auto).
  pose proof (arun_inv srv (staying i) _ (fun x l x' P Q => staying_step srv x l x' i P (proj1 Q) (proj2 Q)) _ _ _ G0 HB H) as ((G1 & k' & G2 & _ & G3) & _).
  split; [split; [exact G1|eauto]|].
  assert (M0 : a_max (mkA (a_net a) n (a_in a) AIdle) = n /\ a_pc (mkA (a_net a) n (a_in a) AIdle) = AIdle) by auto.
  refine (proj1 (arun_inv srv (fun x => a_max x = n /\ a_pc x = AIdle) no_call _ _ _ _ M0 HS H)).
  intros x l x' (M1 & M2) HL HX. apply astep_kind in HX. destruct HX as [l0 -> _ _ E1 _ E2|_ _ E1 E2 _|j cache chunk kj r -> _ _ _ _ _ E1 E2| -> ->].
  - split; congruence.
  - destruct E2 as [E2|(_ & m & -> & _)]; [split; congruence|now destruct (HL m)].
  - split; congruence.
  - unfold admin_step. rewrite M2. auto.
Qed.
Example C75_room_case : let a := aafter (two ++ [ACall 2]) in
  areach srv75 a /\ a_pc a = AWant 2 /\ (counter a <= 2)%Z /\ connected a 0 /\
  exists a', arun srv75 a (AAdmin :: fails 1 ++ start1 2) = Ok a' /\ clients a' = [0; 2]%nat.
Proof.
  cbv zeta. split; [exists (two ++ [ACall 2]); apply aafter_ok; vm_compute; reflexivity|]. split; [vm_compute; reflexivity|]. split; [vm_compute; discriminate|].
  split; [split; [vm_compute; tauto|eexists; split; vm_compute; reflexivity]|]. eexists. split; [vm_compute; reflexivity|]. reflexivity.
Qed.
(** The counter, whatever is done: it is too low by exactly the number of times a client was counted
    out that was no longer in the list.  Missing: SSH. *)
Theorem C75_counter_partial : forall srv sched a, Forall a_no_ssh sched -> arun srv (empty_anet srv) sched = Ok a ->
  counter a = (Z.of_nat (length (clients a)) - Z.of_nat (repeats (outs srv (empty_anet srv) sched)))%Z.
Proof.
  intros srv sched a HS H. refine (exact_run srv sched _ _ [] (ainv_empty srv) _ _ HS H); [|reflexivity].
  intros i k Hk. destruct i; discriminate.
Qed.
Example C75_counter_case : let sched := two ++ call 1 1 ++ fails 0 ++ start1 2 in
  outs srv75 (empty_anet srv75) sched = [0; 0]%nat /\ aruns sched = true /\ (counter (aafter sched), clients (aafter sched)) = (1%Z, [1; 2]%nat).
Proof. cbv zeta. repeat (split; [vm_compute; reflexivity|]). vm_compute. reflexivity. Qed.

Print Assumptions C75_limit_refuted.
Print Assumptions C75_zero_refuted.
Print Assumptions C75_race_refuted.
Print Assumptions C75_at_most_partial.
Print Assumptions C75_first_partial.
Print Assumptions C75_room_partial.
Print Assumptions C75_counter_partial.
