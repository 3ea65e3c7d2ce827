(** Property C26: by how much the limit on the number of connections is exceeded. *)
From Coq Require Import ZArith ZifyBool ZifyNat ZifyN.
From Verif Require Import Model.Concurrent Spec.Response Spec.Net Spec.Limit Proofs.WireP Proofs.CacheP Proofs.ConnP Proofs.ConcCacheP Proofs.NetP Proofs.NetP2 Proofs.NetP3
  Props.ConnProps Props.ConcProps.
From Coq Require Import List.
Import ListNotations.
Local Open Scope list_scope.

(** * The bound *)
Lemma waits_set l i x y : nth_error l i = Some x ->
  (length (filter waits (set_nth l i y)) + (if waits x then 1 else 0) =
   length (filter waits l) + (if waits y then 1 else 0))%nat.
Proof.
  revert i. induction l as [|z l IH]; intros [|i] H; cbn in *; try discriminate.
  - injection H as ->. destruct (waits x), (waits y); cbn; lia.
  - specialize (IH i H). destruct (waits z); cbn; lia.
Qed.
Lemma over_step cfg s D w l w' : (0 < cfg_maxConn cfg)%Z -> late_by D w l -> nstep (new_rtr_server cfg s) w l = Ok w' ->
  (Z.of_nat (length (n_clients w)) + Z.of_nat (length (filter waits (n_conns w))) <= cfg_maxConn cfg + D)%Z ->
  (Z.of_nat (length (n_clients w')) + Z.of_nat (length (filter waits (n_conns w'))) <= cfg_maxConn cfg + D)%Z.
Proof.
  intros Hm HL H HI. apply nstep_cstep in H. destruct H as
    [E1 E2 E3|tr E0 EM E1 E2 E3|i k Hi Ht E2 (ph & d & HP & E1 & E3)|i k Hi Hp E1 E2 E3|i k r Hi Hp E1 E2 E3|i k Hi Hp Hg Hf E1 E2 E3]; rewrite E2.
  - destruct E3 as [->|(i & k & k' & Hi & -> & P1 & _)]; [exact HI|]. pose proof (waits_set _ _ _ k' Hi) as W. unfold waits in W at 2 4. rewrite P1 in W. lia.
  - subst l. cbn [late_by] in HL. unfold amiss in HL. change (s_maxconn (new_rtr_server cfg s)) with (cfg_maxConn cfg) in EM. rewrite E3, filter_app, app_length. cbn [filter waits new_conn k_phase length app]. lia.
  - rewrite E3. pose proof (waits_set _ _ _ (k_set_phase ph k) Hi) as W. destruct HP as [(P1 & -> & _)|(P1 & _ & _ & -> & _)]; unfold waits in W at 2 4; cbn [k_set_phase k_phase] in W; rewrite P1 in W; lia.
  - rewrite E3, app_length. cbn [length]. pose proof (waits_set _ _ _ (k_set_phase Running (k_set_pc SCheck (k_set_flag true k))) Hi) as W. unfold waits in W at 2 4. cbn [k_set_phase k_phase] in W.
    destruct Hp as [P1|P1]; rewrite P1 in W; lia.
  - rewrite E3. pose proof (waits_set _ _ _ (k_set_prog r k) Hi) as W. unfold waits in W at 2 4. cbn [k_set_prog k_phase] in W.
    assert (F : (length (filter (fun j => negb (Nat.eqb j i)) (n_clients w)) <= length (n_clients w))%nat).
    { clear. induction (n_clients w) as [|j l IH]; cbn [filter length]; [lia|]. destruct (negb (Nat.eqb j i)); cbn [length]; lia. }
    lia.
  - rewrite E3. pose proof (waits_set _ _ _ (k_set_phase Ended k) Hi) as W. unfold waits in W at 2 4. cbn [k_set_phase k_phase] in W. rewrite Hp in W. lia.
Qed.

(** C26, what holds under every schedule, with every transport and whatever the clients send: if
    the counter misses at most [D] connections whenever one more comes, there are at most [D] more
    clients than allowed.  Missing: the limit itself, [D] = 0. *)
Theorem C26_bound_partial : forall cfg s D sched w, (0 < cfg_maxConn cfg)%Z -> (0 <= D)%Z ->
  along (new_rtr_server cfg s) (late_by D) empty_net sched -> nrun (new_rtr_server cfg s) empty_net sched = Ok w ->
  (Z.of_nat (length (n_clients w)) <= cfg_maxConn cfg + D)%Z.
Proof.
  intros cfg s D sched w Hm HD HA H.
  enough (G : (Z.of_nat (length (n_clients w)) + Z.of_nat (length (filter waits (n_conns w))) <= cfg_maxConn cfg + D)%Z) by lia.
  assert (HI : (Z.of_nat (length (n_clients empty_net)) + Z.of_nat (length (filter waits (n_conns empty_net))) <= cfg_maxConn cfg + D)%Z) by (cbn; lia).
  revert HA HI H. generalize empty_net. induction sched as [|l r IH]; intros w0 HA HI H; cbn [nrun] in H; [injection H as <-; exact HI|].
  destruct HA as [H1 H2]. destruct (nstep (new_rtr_server cfg s) w0 l) as [w1|e|] eqn:E; [|destruct e|discriminate H]. cbn in H.
  apply (IH w1); auto. eapply over_step; eauto.
Qed.

(** * It is reached *)
Definition standing (c p : nat) (w : net) : Prop :=
  n_count w = Z.of_nat c /\ length (n_clients w) = c /\ length (n_conns w) = (c + p)%nat /\ length (filter waits (n_conns w)) = p /\
  forall i, (c <= i < c + p)%nat -> exists k, nth_error (n_conns w) i = Some k /\ k_phase k = Accepted /\ k_tr k = TCP.
Lemma one_comes cfg s c p w : (Z.of_nat c < cfg_maxConn cfg)%Z -> standing c p w ->
  exists w', nstep (new_rtr_server cfg s) w (LAccept TCP) = Ok w' /\ standing c (S p) w'.
Proof.
  intros Hm (H1 & H2 & H3 & H4 & H5). cbn [nstep]. change (s_maxconn (new_rtr_server cfg s)) with (cfg_maxConn cfg).
  replace ((0 <? cfg_maxConn cfg) && (cfg_maxConn cfg <=? n_count w))%Z with false by lia. eexists. split; [reflexivity|].
  split; [exact H1|]. split; [exact H2|]. cbn [n_conns]. split; [rewrite app_length, H3; cbn; lia|]. split; [rewrite filter_app, app_length, H4; cbn; lia|].
  intros i HI. destruct (Nat.eq_dec i (c + p)) as [->|N].
  - eexists. split; [rewrite nth_error_app2 by lia; rewrite H3, Nat.sub_diag; reflexivity|]. split; reflexivity.
  - destruct (H5 i) as (k & K1 & K2); [lia|]. exists k. split; [|exact K2]. rewrite nth_error_app1; [exact K1|]. apply nth_error_Some. congruence.
Qed.
Lemma one_starts cfg s c p w : standing c (S p) w -> exists w', nstep (new_rtr_server cfg s) w (LStart c) = Ok w' /\ standing (S c) p w'.
Proof.
  intros (H1 & H2 & H3 & H4 & H5). destruct (H5 c) as (k & K1 & K2 & K3); [lia|]. cbn [nstep]. rewrite K1. cbv zeta. rewrite K2, K3. eexists. split; [reflexivity|].
  unfold standing, client_connected, with_conn. cbn [n_count n_clients n_conns]. pose proof (waits_set _ _ _ (k_set_phase Running (k_set_pc SCheck (k_set_flag true k))) K1) as W.
  unfold waits in W at 2 4. cbn [k_set_phase k_phase] in W. rewrite K2 in W.
  split; [lia|]. split; [rewrite app_length; cbn; lia|]. split; [rewrite set_nth_length; lia|]. split; [lia|].
  intros i HI. destruct (H5 i) as (k' & K'); [lia|]. exists k'. rewrite set_nth_other by lia. exact K'.
Qed.
Lemma standing_amiss c p w : standing c p w -> amiss w = Z.of_nat p.
Proof. intros (H1 & H2 & H3 & H4 & _). unfold amiss. lia. Qed.
Lemma they_come cfg s D c j : (Z.of_nat c < cfg_maxConn cfg)%Z -> forall p w, standing c p w -> (Z.of_nat (p + j) <= D + 1)%Z ->
  exists w', nrun (new_rtr_server cfg s) w (repeat (LAccept TCP) j) = Ok w' /\ standing c (j + p) w' /\ along (new_rtr_server cfg s) (late_by D) w (repeat (LAccept TCP) j).
Proof.
  intros Hm. induction j as [|j IH]; intros p w HS HD; [exists w; repeat split; auto; apply HS|]. destruct (one_comes cfg s c p w Hm HS) as (w1 & E & HS1).
  destruct (IH (S p) w1 HS1) as (w' & E' & HS' & HA); [lia|]. exists w'. cbn [repeat nrun along]. rewrite E. split; [exact E'|]. split; [now replace (S j + p)%nat with (j + S p)%nat by lia|].
  split; [cbn [late_by]; rewrite (standing_amiss _ _ _ HS); lia|]. intros w2 [= <-]. exact HA.
Qed.
Lemma they_start cfg s D j : forall c p w, standing c (j + p) w ->
  exists w', nrun (new_rtr_server cfg s) w (map LStart (seq c j)) = Ok w' /\ standing (j + c) p w' /\ along (new_rtr_server cfg s) (late_by D) w (map LStart (seq c j)).
Proof.
  induction j as [|j IH]; intros c p w HS; [exists w; repeat split; auto; apply HS|]. destruct (one_starts cfg s c (j + p) w HS) as (w1 & E & HS1).
  destruct (IH (S c) p w1 HS1) as (w' & E' & HS' & HA). exists w'. cbn [seq map nrun along]. rewrite E. split; [exact E'|]. split; [now replace (S j + c)%nat with (j + S c)%nat by lia|].
  split; [exact I|]. intros w2 [= <-]. exact HA.
Qed.
Lemma along_app srv P a b : forall w w', nrun srv w a = Ok w' -> along srv P w a -> along srv P w' b -> along srv P w (a ++ b).
Proof.
  induction a as [|l a IH]; intros w w' H HA HB; cbn [nrun app along] in *; [injection H as <-; exact HB|]. destruct HA as [H1 H2]. split; [exact H1|].
  intros w1 E. rewrite E in H. apply (IH w1 w'); auto.
Qed.
Definition comes_or_starts (l : label) : Prop := l = LAccept TCP \/ exists i, l = LStart i.
Lemma comes_one cfg s D j : (0 <= D)%Z -> (Z.of_nat j < cfg_maxConn cfg)%Z ->
  exists sched w, nrun (new_rtr_server cfg s) empty_net sched = Ok w /\ standing j 0 w /\ along (new_rtr_server cfg s) (late_by D) empty_net sched /\ Forall comes_or_starts sched.
Proof.
  intros HD. induction j as [|j IH]; intros Hm.
  - exists [], empty_net. repeat split; auto. intros i HI. lia.
  - destruct IH as (sched & w & E & HS & HA & HF); [lia|]. destruct (they_come cfg s D j 1 ltac:(lia) 0 w HS ltac:(lia)) as (w1 & E1 & HS1 & HA1).
    destruct (they_start cfg s D 1 j 0 w1 HS1) as (w2 & E2 & HS2 & HA2). exists (sched ++ repeat (LAccept TCP) 1 ++ map LStart (seq j 1)), w2.
    split; [rewrite (nrun_app _ _ _ _ _ E), (nrun_app _ _ _ _ _ E1); exact E2|]. split; [exact HS2|]. split; [eapply along_app; eauto; eapply along_app; eauto|].
    apply Forall_app. split; [exact HF|]. constructor; [now left|]. constructor; [right; eauto|constructor].
Qed.

(** And that many there can be, whatever the limit and [D], over TCP and with clients that send
    nothing: so no number bounds the clients. *)
Theorem C26_excess_refuted : forall cfg s D, (0 < cfg_maxConn cfg)%Z -> (0 <= D)%Z -> exists sched w,
  along (new_rtr_server cfg s) (late_by D) empty_net sched /\ nrun (new_rtr_server cfg s) empty_net sched = Ok w /\
  Forall (fun l => l = LAccept TCP \/ exists i, l = LStart i) sched /\ Z.of_nat (length (n_clients w)) = (cfg_maxConn cfg + D)%Z.
Proof.
  intros cfg s D Hm HD. set (c := Z.to_nat (cfg_maxConn cfg - 1)). set (j := Z.to_nat (D + 1)).
  destruct (comes_one cfg s D c HD ltac:(unfold c; lia)) as (sched & w & E & HS & HA & HF).
  destruct (they_come cfg s D c j ltac:(unfold c; lia) 0 w HS ltac:(unfold j; lia)) as (w1 & E1 & HS1 & HA1).
  destruct (they_start cfg s D j c 0 w1 HS1) as (w2 & E2 & HS2 & HA2). exists (sched ++ repeat (LAccept TCP) j ++ map LStart (seq c j)), w2.
  split; [eapply along_app; eauto; eapply along_app; eauto|]. split; [rewrite (nrun_app _ _ _ _ _ E), (nrun_app _ _ _ _ _ E1); exact E2|]. split.
  - apply Forall_app. split; [exact HF|]. apply Forall_app. split; apply Forall_forall; intros l HL; [left; now apply repeat_spec in HL|right].
    apply in_map_iff in HL as (i & <- & _). eauto.
  - destruct HS2 as (_ & HS2 & _). unfold c, j in *. lia.
Qed.
(** Limit 1 and three connections, the second and third while the first is not yet counted. *)
Example C26_bound_case : let sched := [LAccept TCP; LAccept SSH; LAccept TCP; LStart 0; LSshBegin 1; LStart 1; LStart 2; LAccept TCP] in
  along (new_rtr_server (cfgMax 1) 7) (late_by 2) empty_net sched /\ ~ along (new_rtr_server (cfgMax 1) 7) (late_by 1) empty_net sched /\
  length (n_clients (after (new_rtr_server (cfgMax 1) 7) sched)) = 3%nat.
Proof.
  cbv zeta. split; [|split; [|vm_compute; reflexivity]].
  - apply (alongb_ok _ _ (fun w l => match l with LAccept _ => (amiss w <=? 2)%Z | _ => true end)); [|vm_compute; reflexivity].
    intros w l H. destruct l; cbn [late_by]; auto. lia.
  - intros (_ & H). specialize (H _ eq_refl). destruct H as (_ & H). specialize (H _ eq_refl). destruct H as (H & _). vm_compute in H. now apply H.
Qed.

Print Assumptions C26_bound_partial.
Print Assumptions C26_excess_refuted.
