(** The sender that misses the signal to stop. *)
From Coq Require Import ZArith ZifyBool ZifyNat ZifyN.
From Verif Require Import Model.Concurrent Spec.Response Spec.Net Proofs.WireP Proofs.CacheP Proofs.ConnP Proofs.ConcCacheP Proofs.NetP Proofs.NetP2 Proofs.NetP3 Proofs.NetP4.
From Coq Require Import List.
Import ListNotations.
Local Open Scope list_scope.

(** Waiting, and nothing has been queued since [q0]; or something has, and it will stop. *)
Definition missed (q0 : list pdu) (k : conn) : Prop :=
  k_flag k = false /\ started k /\ ~ In OQuit (k_prog k) /\
  (k_queued k = q0 /\ k_queue k = [] /\ (k_pc k = SEnter \/ k_pc k = SParked) \/
   (length q0 < length (k_queued k))%nat /\ match k_pc k with SDone | SCheck | SWrite _ => True | SEnter => k_queue k <> [] | _ => False end).
Lemma missed_put q0 k p k' : missed q0 k -> put k p = Some k' -> missed q0 k'.
Proof.
  intros (A & B & C & D) H. unfold put in H. unfold missed, started in *. destruct D as [(D1 & D2 & [D3|D3])|(D1 & D2)].
  - rewrite D3, D2 in H. cbn in H. injection H as <-. cbn. repeat split; auto. right. rewrite D1, app_length. cbn. split; [lia|discriminate].
  - rewrite D3 in H. injection H as <-. cbn. repeat split; auto. right. rewrite D1, app_length. cbn. split; [lia|exact I].
  - destruct (k_pc k) eqn:E; try contradiction; destruct (nlen (k_queue k) <? 256)%N; try discriminate; injection H as <-; cbn; repeat split; auto; right; rewrite app_length;
      (split; [lia|]); auto. destruct (k_queue k); discriminate.
Qed.
Lemma missed_kstep srv q0 k k' : missed q0 k -> kstep srv k k' -> missed q0 k'.
Proof.
  intros HM H. pose proof HM as (A & B & C & D). destruct H as [E F|E|cache chunk c prog E F G J|v r E|p r k1 E F|r E|r E|r E|E F G|o k1 E|p k1 E].
  - destruct B as [B|B]; congruence.
  - destruct B as [B|B], E as [[E _]|E]; congruence.
  - congruence.
  - rewrite E in C. cbn [In] in C. unfold missed, started in *. cbn. tauto.
  - pose proof (put_prog _ _ _ F) as P. destruct (missed_put _ _ _ _ HM F) as (A1 & B1 & C1 & D1). rewrite P, E in C1. cbn [In] in C1. unfold missed, started in *. cbn. tauto.
  - rewrite E in C. cbn [In] in C. unfold missed, started in *. cbn. tauto.
  - rewrite E in C. cbn [In] in C. unfold missed, started in *. cbn. tauto.
  - rewrite E in C. cbn [In] in C. tauto.
  - unfold missed, started in *. cbn. tauto.
  - unfold sender_step in E. unfold missed, started in *. destruct D as [(D1 & D2 & [D3|D3])|(D1 & D2)].
    + rewrite D3, D2 in E. injection E as <-. cbn. tauto.
    + rewrite D3 in E. injection E as <-. rewrite D3. tauto.
    + destruct (k_pc k) eqn:EP; try contradiction.
      * rewrite A in E. injection E as <-. cbn. tauto.
      * destruct (k_queue k) as [|p q]; [congruence|]. injection E as <-. cbn. tauto.
      * destruct (encode p) as [b|e|]; [|destruct e|discriminate]. cbn in E. injection E as <-. destruct (k_up k); [destruct o|]; cbn; tauto.
      * injection E as <-. rewrite EP. tauto.
  - exact (missed_put _ _ _ _ HM E).
Qed.
Lemma conns_last srv w l w' i k : nstep srv w l = Ok w' -> nth_error (n_conns w) i = Some k -> exists k', nth_error (n_conns w') i = Some k'.
Proof.
  intros H Hi. assert (L : (i < length (n_conns w))%nat) by (apply nth_error_Some; congruence).
  assert (G : (length (n_conns w) <= length (n_conns w'))%nat).
  { apply nstep_cstep in H. destruct H as [E1 E2 [->|(j & a & b & Hj & -> & _)]|tr E0 EM E1 E2 E3|j a Hj Ht E2 (ph & d & HP & E1 & E3)|j a Hj Hp E1 E2 E3|j a r Hj Hp E1 E2 E3|j a Hj Hp Hg Hf E1 E2 E3];
      try rewrite E3; rewrite ?set_nth_length, ?app_length; lia. }
  destruct (nth_error (n_conns w') i) as [k'|] eqn:E; [eauto|]. apply nth_error_None in E. lia.
Qed.
Lemma missed_run srv q0 i : forall sched w w' k, nth_error (n_conns w) i = Some k -> missed q0 k -> nrun srv w sched = Ok w' ->
  exists k', nth_error (n_conns w') i = Some k' /\ missed q0 k'.
Proof.
  induction sched as [|l r IH]; intros w w' k Hi HM H; cbn [nrun] in H; [injection H as <-; eauto|].
  destruct (nstep srv w l) as [w1|e|] eqn:E; [|destruct e|discriminate H]. cbn in H. destruct (conns_last _ _ _ _ _ _ E Hi) as (k1 & H1).
  apply (IH w1 w' k1 H1); [|exact H]. destruct (nstep_from _ _ _ _ E i k1 H1) as [(k0 & K0 & K1)|(tr & _ & K1)].
  - rewrite Hi in K0. injection K0 as <-. destruct K1 as [->|K1]; [exact HM|]. eapply missed_kstep; eauto.
  - exfalso. assert (i < length (n_conns w))%nat by (apply nth_error_Some; congruence). lia.
Qed.
Theorem quit_missed srv w i k r : nreach srv w -> nth_error (n_conns w) i = Some k -> k_prog k = OQuit :: r -> ~ In OQuit r ->
  k_pc k = SEnter -> k_queue k = [] -> forall sched w', nrun srv w (LReader i :: sched) = Ok w' ->
  exists k', nth_error (n_conns w') i = Some k' /\
    (k_queued k' = k_queued k -> k_pc k' = SEnter \/ k_pc k' = SParked) /\
    (k_queued k' <> k_queued k -> forall sched2 w2, nrun srv w' sched2 = Ok w2 -> (3 <= sender_steps i sched2)%nat ->
       exists k2, nth_error (n_conns w2) i = Some k2 /\ k_pc k2 = SDone).
Proof.
  intros [sched0 H0] Hi HP HR HE HQ sched w' H.
  destruct (qguarded_run _ _ _ H0 _ _ Hi) as [SH QG]. rewrite HP in QG. cbn in QG. destruct QG as [HF _].
  assert (LT : (i < length (n_conns w))%nat) by (apply nth_error_Some; congruence).
  cbn [nrun nstep bind] in H. rewrite Hi in H. unfold reader_step in H. rewrite HP, HE in H. cbn [bind] in H.
  destruct (missed_run srv (k_queued k) i sched (with_conn w i (k_set_prog r k)) w' (k_set_prog r k) ltac:(apply set_nth_same; exact LT)) with (2 := H) as (k' & K1 & (A & B & C & D)).
  - unfold missed, started. cbn. split; [exact HF|]. split; [|split; [exact HR|left; auto]]. unfold shape in SH. rewrite HP in SH. destruct (k_phase k); intuition congruence.
  - exists k'. split; [exact K1|]. destruct D as [(D1 & D2 & D3)|(D1 & D2)].
    + split; [auto|]. intros N. contradiction.
    + split; [intros N; rewrite N in D1; lia|]. intros _ sched2 w2 H2 HS. destruct (leaving_run srv i sched2 w' w2 k' K1) with (2 := H2) as (k2 & G1 & G2 & G3); [split; auto|].
      exists k2. split; [exact G1|]. assert (left_ k' <= 3)%nat by (unfold left_; destruct (k_pc k'); try contradiction; lia).
      assert (left_ k2 = 0)%nat as G4 by lia. unfold left_ in G4. destruct (k_pc k2); auto; discriminate.
Qed.
