From Coq Require Import ZifyBool ZifyNat ZifyN.
From Verif Require Import Model.Concurrent Spec.Response Spec.Net Proofs.WireP Proofs.CacheP Proofs.ConnP Proofs.ConcCacheP
  Proofs.NetP Proofs.NetP2 Proofs.NetP3.
Ltac Zify.zify_post_hook ::= Z.div_mod_to_equations.

(** A step, seen from connection [i] and the notifier. *)
Definition focus (l : label) (i : nat) : Prop :=
  match l with
  | LSshBegin j | LStart j | LRead j _ _ | LReader j | LReturn j | LSender j _ => j = i
  | _ => False
  end.
Lemma nstep_other srv w l w' i k : nstep srv w l = Ok w' -> nth_error (n_conns w) i = Some k -> ~ focus l i ->
  (l = LNotifier -> forall p serial rest, n_notif w <> NPut p serial i rest) -> nth_error (n_conns w') i = Some k.
Proof.
  intros H Hi HF HN.
  assert (SAME : @Ok net Empty_set w = Ok w' -> nth_error (n_conns w') i = Some k) by (intros [=<-]; auto).
  assert (SET : forall j kj, j <> i -> nth_error (set_nth (n_conns w) j kj) i = Some k).
  { intros j kj N. rewrite set_nth_other; auto. }
  destruct l; cbn [nstep focus] in *.
  - destruct (_ && _)%bool; [auto|]. injection H as <-. cbn. rewrite nth_error_app1; auto. apply nth_error_Some. congruence.
  - destruct (nth_error (n_conns w) i0) as [k0|]; [|auto]. destruct (k_phase k0), (k_tr k0); auto. injection H as <-. now apply SET.
  - destruct (nth_error (n_conns w) i0) as [k0|]; [|auto]. destruct (k_phase k0), (k_tr k0); auto; injection H as <-; now apply SET.
  - destruct (nth_error (n_conns w) i0) as [k0|]; [|auto]. destruct (k_phase k0), (k_prog k0), (k_flag k0); auto.
    destruct (read_ops srv cache (k_cli k0) chunk) as [r|e|]; [|destruct e|discriminate]. injection H as <-. now apply SET.
  - destruct (nth_error (n_conns w) i0) as [k0|]; [|auto]. injection H as <-. unfold reader_step.
    destruct (k_prog k0) as [|[v|p| | |] r]; auto; try (now apply SET). destruct (put k0 p); auto. now apply SET.
  - destruct (nth_error (n_conns w) i0) as [k0|]; [|auto]. destruct (k_phase k0), (k_prog k0), (k_flag k0); auto.
    injection H as <-. now apply SET.
  - destruct (nth_error (n_conns w) i0) as [k0|]; [|auto].
    destruct (sender_step k0 o) as [r|e|]; [|destruct e|discriminate]. injection H as <-. now apply SET.
  - destruct (n_notif w); auto. injection H as <-. auto.
  - unfold notifier_step in H. destruct (n_notif w) as [|serial [|j rest]|serial sess j rest|p serial j rest] eqn:EN.
    + auto.
    + injection H as <-; auto.
    + destruct (nth_error (n_conns w) j) as [k0|]; [|auto].
      destruct (get_session_id srv (k_ver k0)) as [x|e|]; [|destruct e|discriminate]. injection H as <-; auto.
    + destruct (nth_error (n_conns w) j) as [k0|]; [|auto]. injection H as <-; auto.
    + destruct (nth_error (n_conns w) j) as [k0|]; [|auto].
      destruct (put k0 p); [|auto]. injection H as <-. apply SET. intros ->. eapply (HN eq_refl); reflexivity.
Qed.

(** The notifier changes only by its own steps. *)
Lemma nstep_notif srv w l w' : nstep srv w l = Ok w' -> n_notif w <> NIdle -> l <> LNotifier -> n_notif w' = n_notif w.
Proof.
  intros H HI HL.
  assert (SAME : @Ok net Empty_set w = Ok w' -> n_notif w' = n_notif w) by (intros [=<-]; auto).
  destruct l; cbn [nstep] in *; try congruence.
  - destruct (_ && _)%bool; [auto|]. now injection H as <-.
  - destruct (nth_error (n_conns w) i) as [k0|]; [|auto]. destruct (k_phase k0), (k_tr k0); auto. now injection H as <-.
  - destruct (nth_error (n_conns w) i) as [k0|]; [|auto]. destruct (k_phase k0), (k_tr k0); auto; now injection H as <-.
  - destruct (nth_error (n_conns w) i) as [k0|]; [|auto]. destruct (k_phase k0), (k_prog k0), (k_flag k0); auto.
    destruct (read_ops srv cache (k_cli k0) chunk) as [r|e|]; [|destruct e|discriminate]. now injection H as <-.
  - destruct (nth_error (n_conns w) i) as [k0|]; [|auto]. injection H as <-. unfold reader_step.
    destruct (k_prog k0) as [|[v|p| | |] r]; auto. destruct (put k0 p); auto.
  - destruct (nth_error (n_conns w) i) as [k0|]; [|auto]. destruct (k_phase k0), (k_prog k0), (k_flag k0); auto. now injection H as <-.
  - destruct (nth_error (n_conns w) i) as [k0|]; [|auto].
    destruct (sender_step k0 o) as [r|e|]; [|destruct e|discriminate]. now injection H as <-.
  - destruct (n_notif w); auto; congruence.
Qed.

Lemma focus_dec l i : focus l i \/ ~ focus l i.
Proof. destruct l; cbn; try tauto; destruct (Nat.eq_dec i0 i); auto. Qed.
Lemma notifier_dec l : l = LNotifier \/ l <> LNotifier.
Proof. destruct l; auto; right; discriminate. Qed.
Lemma put_full k p : k_pc k <> SParked -> nlen (k_queue k) = 256 -> put k p = None.
Proof. intros H1 H2. unfold put. rewrite H2. destruct (k_pc k); try reflexivity. congruence. Qed.

(** * C33: a full queue whose sender does not move blocks the notifier for good *)
Definition full (q : pdu) (k : conn) : Prop := k_pc k = SWrite q /\ nlen (k_queue k) = 256 /\ started k.
Definition stuck (p : pdu) (serial : N) (i : nat) (rest : list nat) (w : net) : Prop :=
  n_notif w = NPut p serial i rest /\ exists k q, nth_error (n_conns w) i = Some k /\ full q k.

Lemma full_step srv w l w' i k q : nth_error (n_conns w) i = Some k -> full q k -> (forall o, l <> LSender i o) ->
  nstep srv w l = Ok w' -> exists k', nth_error (n_conns w') i = Some k' /\ full q k'.
Proof.
  intros Hi HF HL H. pose proof HF as (HP & HQ & HR).
  assert (LT : (i < length (n_conns w))%nat) by (apply nth_error_Some; congruence).
  assert (SAME : @Ok net Empty_set w = Ok w' -> exists k', nth_error (n_conns w') i = Some k' /\ full q k').
  { intros [=<-]. eauto. }
  assert (SET : forall k1, nth_error (n_conns w') i = Some k1 -> full q k1 -> exists k', nth_error (n_conns w') i = Some k' /\ full q k').
  { eauto. }
  assert (PU : forall p, put k p = None) by (intros p; apply put_full; congruence).
  destruct (notifier_dec l) as [->|DN].
  { destruct (n_notif w) as [|serial [|j rest]|serial sess j rest|p serial j rest] eqn:EN;
      try (eexists; split; [refine (nstep_other _ _ _ _ _ _ H Hi _ _); [intros []|intros _ p0 s0 r0; congruence]|exact HF]).
    destruct (Nat.eq_dec j i) as [->|NE].
    - cbn in H. unfold notifier_step in H. rewrite EN, Hi, PU in H. auto.
    - eexists; split; [refine (nstep_other _ _ _ _ _ _ H Hi _ _); [intros []|intros _ p0 s0 r0; congruence]|exact HF]. }
  destruct (focus_dec l i) as [DF|DF].
  2:{ eexists; split; [eapply nstep_other; eauto; congruence|exact HF]. }
  destruct l; cbn [focus] in DF; try contradiction; subst i0; cbn [nstep] in H; rewrite Hi in H.
  - destruct HR as [HR|HR]; rewrite HR in H; auto.
  - destruct HR as [HR|HR]; rewrite HR in H; auto.
  - destruct HR as [HR|HR]; rewrite HR in H; auto. destruct (k_prog k), (k_flag k); auto.
    destruct (read_ops srv cache (k_cli k) chunk) as [r|e|]; [|destruct e|discriminate]. injection H as <-.
    eapply SET; [apply set_nth_same; exact LT|]. exact HF.
  - injection H as H. unfold reader_step in H. destruct (k_prog k) as [|[v|p0| | |] r]; subst w'.
    + auto.
    + eapply SET; [apply set_nth_same; exact LT|]. exact HF.
    + rewrite PU in *. auto.
    + eapply SET; [apply set_nth_same; exact LT|]. exact HF.
    + eapply SET; [apply set_nth_same; exact LT|]. exact HF.
    + rewrite HP in *. eapply SET; [apply set_nth_same; exact LT|]. exact HF.
  - destruct HR as [HR|HR]; rewrite HR in H; auto. destruct (k_prog k), (k_flag k); auto. injection H as <-.
    eapply SET; [apply set_nth_same; exact LT|]. split; [auto|split; [auto|]]. right. reflexivity.
  - exfalso. eapply HL; reflexivity.
Qed.

Lemma stuck_step srv p serial i rest w l w' : stuck p serial i rest w -> (forall o, l <> LSender i o) ->
  nstep srv w l = Ok w' -> stuck p serial i rest w'.
Proof.
  intros (HN & k & q & Hi & HF) HL H. split; [|destruct (full_step _ _ _ _ _ _ _ Hi HF HL H) as (k' & ? & ?); eauto].
  destruct (notifier_dec l) as [->|D].
  - cbn in H. unfold notifier_step in H. rewrite HN, Hi in H.
    rewrite put_full in H by (destruct HF as (F1 & F2 & _); congruence). now injection H as <-.
  - rewrite <- HN. eapply nstep_notif; eauto. congruence.
Qed.
Lemma stuck_run srv p serial i rest : forall sched w w', stuck p serial i rest w ->
  (forall o, ~ In (LSender i o) sched) -> nrun srv w sched = Ok w' -> stuck p serial i rest w'.
Proof.
  induction sched as [|l r IH]; intros w w' HS HL H; cbn in H; [injection H as <-; auto|].
  destruct (nstep srv w l) as [w1|e|] eqn:E; [|destruct e|discriminate]. cbn in H.
  apply (IH w1); auto.
  - eapply stuck_step; eauto. intros o ->. apply (HL o). left; auto.
  - intros o G. apply (HL o). right; auto.
Qed.

(** * C24: a reader that goes on queueing after its sender has returned blocks for good *)
Definition blocked (k : conn) (prog : list op) : Prop :=
  k_pc k = SDone /\ nlen (k_queue k) = 256 /\ k_phase k = Running /\ k_prog k = prog.
Lemma blocked_step srv w l w' i k p r : nth_error (n_conns w) i = Some k -> blocked k (OPut p :: r) ->
  nstep srv w l = Ok w' -> exists k', nth_error (n_conns w') i = Some k' /\ blocked k' (OPut p :: r).
Proof.
  intros Hi HB H. pose proof HB as (HP & HQ & HR & HG).
  assert (LT : (i < length (n_conns w))%nat) by (apply nth_error_Some; congruence).
  assert (SAME : @Ok net Empty_set w = Ok w' -> exists k', nth_error (n_conns w') i = Some k' /\ blocked k' (OPut p :: r)).
  { intros [=<-]. eauto. }
  assert (PU : forall p, put k p = None) by (intros p0; apply put_full; congruence).
  destruct (notifier_dec l) as [->|DN].
  { destruct (n_notif w) as [|serial [|j rest]|serial sess j rest|p1 serial j rest] eqn:EN;
      try (eexists; split; [refine (nstep_other _ _ _ _ _ _ H Hi _ _); [intros []|intros _ p0 s0 r0; congruence]|exact HB]).
    destruct (Nat.eq_dec j i) as [->|NE].
    - cbn in H. unfold notifier_step in H. rewrite EN, Hi, PU in H. auto.
    - eexists; split; [refine (nstep_other _ _ _ _ _ _ H Hi _ _); [intros []|intros _ p0 s0 r0; congruence]|exact HB]. }
  destruct (focus_dec l i) as [DF|DF].
  2:{ eexists; split; [eapply nstep_other; eauto; congruence|exact HB]. }
  destruct l; cbn [focus] in DF; try contradiction; subst i0; cbn [nstep] in H; rewrite Hi in H; rewrite ?HR, ?HG in H; auto.
  - injection H as H. unfold reader_step in H. rewrite HG, PU in H. subst w'. auto.
  - unfold sender_step in H. rewrite HP in H. cbn in H. injection H as <-.
    exists k. split; [apply set_nth_same; exact LT|exact HB].
Qed.
Lemma blocked_run srv i p r : forall sched w w' k, nth_error (n_conns w) i = Some k -> blocked k (OPut p :: r) ->
  nrun srv w sched = Ok w' -> exists k', nth_error (n_conns w') i = Some k' /\ blocked k' (OPut p :: r).
Proof.
  induction sched as [|l rr IH]; intros w w' k Hi HB H; cbn in H; [injection H as <-; eauto|].
  destruct (nstep srv w l) as [w1|e|] eqn:E; [|destruct e|discriminate]. cbn in H.
  destruct (blocked_step _ _ _ _ _ _ _ _ Hi HB E) as (k1 & ? & ?). eauto.
Qed.

(** * C32: the missed quit signal *)
Definition unlisted (w : net) (i : nat) : Prop :=
  ~ In i (n_clients w) /\
  match n_notif w with
  | NIdle => True
  | NLoop _ rest => ~ In i rest
  | NSess _ _ j rest | NPut _ _ j rest => j <> i /\ ~ In i rest
  end.
Definition orphan (w : net) (i : nat) : Prop :=
  unlisted w i /\ exists k, nth_error (n_conns w) i = Some k /\ k_phase k = Ended /\ k_prog k = [] /\ k_pc k = SParked.

Lemma unlisted_step srv w l w' i k : unlisted w i -> nth_error (n_conns w) i = Some k -> k_phase k = Ended ->
  nstep srv w l = Ok w' -> unlisted w' i.
Proof.
  intros [HC HN] Hi HP H.
  assert (HC' : ~ In i (n_clients w')).
  { apply nstep_cstep in H as C. destruct C as
    [E1 E2 E3|tr E0 EM E1 E2 E3|j kj Hj Ht|j kj Hj Hp E1 E2 E3|j kj r Hj Hp E1 E2 E3|j kj Hj Hp Hg Hf E1 E2 E3];
    try (rewrite E2; auto).
    - (* SSH: the counter changes, the list does not *)
      destruct l; cbn [nstep] in H.
      + destruct (_ && _)%bool; injection H as <-; auto.
      + destruct (nth_error (n_conns w) i0) as [k0|]; [|injection H as <-; auto]. destruct (k_phase k0), (k_tr k0); injection H as <-; auto.
      + destruct (nth_error (n_conns w) i0) as [k0|] eqn:E0; [|injection H as <-; auto].
        assert (i0 <> i -> ~ In i (n_clients w ++ [i0])).
        { intros G. rewrite in_app_iff. cbn. intuition. }
        destruct (k_phase k0) eqn:EP, (k_tr k0); injection H as <-; auto; cbn;
          (match goal with H : _ -> ~ In i _ |- _ => apply H end; intros ->; rewrite Hi in E0; injection E0 as <-; congruence).
      + destruct (nth_error (n_conns w) i0) as [k0|]; [|injection H as <-; auto].
        destruct (k_phase k0), (k_prog k0), (k_flag k0); try (injection H as <-; auto; fail).
        destruct (read_ops srv cache (k_cli k0) chunk) as [r|e|]; [|destruct e|discriminate]. injection H as <-; auto.
      + destruct (nth_error (n_conns w) i0) as [k0|]; [|injection H as <-; auto]. injection H as <-. unfold reader_step.
        destruct (k_prog k0) as [|[v|p1| | |] r]; auto; [destruct (put k0 p1); auto|]. cbn.
        intros G. apply filter_In in G as [G _]. auto.
      + destruct (nth_error (n_conns w) i0) as [k0|]; [|injection H as <-; auto].
        destruct (k_phase k0), (k_prog k0), (k_flag k0); injection H as <-; auto.
      + destruct (nth_error (n_conns w) i0) as [k0|]; [|injection H as <-; auto].
        destruct (sender_step k0 o) as [r|e|]; [|destruct e|discriminate]. injection H as <-; auto.
      + destruct (n_notif w); injection H as <-; auto.
      + unfold notifier_step in H. destruct (n_notif w) as [|serial [|j0 rest]|serial sess j0 rest|p1 serial j0 rest]; try (injection H as <-; auto; fail).
        * destruct (nth_error (n_conns w) j0) as [k0|]; [|injection H as <-; auto].
          destruct (get_session_id srv (k_ver k0)) as [x|e|]; [|destruct e|discriminate]. injection H as <-; auto.
        * destruct (nth_error (n_conns w) j0) as [k0|]; injection H as <-; auto.
        * destruct (nth_error (n_conns w) j0) as [k0|]; [|injection H as <-; auto]. destruct (put k0 p1); injection H as <-; auto.
    - rewrite in_app_iff. cbn. intros [G|[->|[]]]; [auto|]. rewrite Hi in Hj. injection Hj as <-. intuition congruence.
    - intros G. apply filter_In in G as [G _]. auto. }
  split; [exact HC'|].
  destruct (notifier_dec l) as [->|DN].
  - cbn in H. unfold notifier_step in H. destruct (n_notif w) as [|serial [|j rest]|serial sess j rest|p1 serial j rest] eqn:EN.
    + injection H as <-. rewrite EN. exact I.
    + injection H as <-. exact I.
    + destruct (nth_error (n_conns w) j) as [k0|]; [|injection H as <-; rewrite EN; auto].
      destruct (get_session_id srv (k_ver k0)) as [x|e|]; [|destruct e|discriminate]. injection H as <-. cbn in *. intuition.
    + destruct (nth_error (n_conns w) j) as [k0|]; injection H as <-; cbn in *; [|rewrite EN]; auto.
    + destruct (nth_error (n_conns w) j) as [k0|]; [|injection H as <-; rewrite EN; auto].
      destruct (put k0 p1); injection H as <-; cbn; [|rewrite EN]; tauto.
  - destruct (n_notif w) eqn:EN; try (rewrite (nstep_notif _ _ _ _ H); [rewrite EN; auto|congruence|auto]).
    destruct l; cbn [nstep] in H; try congruence;
      try (destruct (nth_error (n_conns w) i0) as [k0|]; [|injection H as <-; rewrite EN; exact I]).
    + destruct (_ && _)%bool; injection H as <-; cbn; rewrite EN; exact I.
    + destruct (k_phase k0), (k_tr k0); injection H as <-; cbn; rewrite EN; exact I.
    + destruct (k_phase k0), (k_tr k0); injection H as <-; cbn; rewrite EN; exact I.
    + destruct (k_phase k0), (k_prog k0), (k_flag k0); try (injection H as <-; cbn; rewrite EN; exact I).
      destruct (read_ops srv cache (k_cli k0) chunk) as [r|e|]; [|destruct e|discriminate]. injection H as <-; cbn; rewrite EN; exact I.
    + injection H as <-. unfold reader_step. destruct (k_prog k0) as [|[v|p1| | |] r]; [|cbn| |cbn|cbn|cbn]; try (rewrite EN; exact I).
      destruct (put k0 p1); cbn; rewrite EN; exact I.
    + destruct (k_phase k0), (k_prog k0), (k_flag k0); injection H as <-; cbn; rewrite EN; exact I.
    + destruct (sender_step k0 o) as [r|e|]; [|destruct e|discriminate]. injection H as <-; cbn; rewrite EN; exact I.
    + rewrite EN in H. injection H as <-. cbn. exact HC.
Qed.

Lemma orphan_step srv w l w' i : orphan w i -> nstep srv w l = Ok w' -> orphan w' i.
Proof.
  intros (HU & k & Hi & HP & HG & HC) H. split; [eapply unlisted_step; eauto|].
  assert (LT : (i < length (n_conns w))%nat) by (apply nth_error_Some; congruence).
  destruct (focus_dec l i) as [DF|DF].
  - destruct l; cbn [focus] in DF; try contradiction; subst i0; cbn [nstep] in H; rewrite Hi in H; rewrite ?HP, ?HG in H;
      try (injection H as <-; exists k; auto; fail).
    + injection H as H. unfold reader_step in H. rewrite HG in H. subst w'. eauto.
    + unfold sender_step in H. rewrite HC in H. cbn in H. injection H as <-.
      exists k. split; [apply set_nth_same; exact LT|auto].
  - exists k. split; [|auto]. eapply nstep_other; eauto. intros _ p s r EN. destruct HU as [_ HU]. rewrite EN in HU. tauto.
Qed.
Lemma orphan_run srv i : forall sched w w', orphan w i -> nrun srv w sched = Ok w' -> orphan w' i.
Proof.
  induction sched as [|l r IH]; intros w w' HS H; cbn in H; [injection H as <-; auto|].
  destruct (nstep srv w l) as [w1|e|] eqn:E; [|destruct e|discriminate]. cbn in H.
  apply (IH w1); auto. eapply orphan_step; eauto.
Qed.

(** When the signal is not missed, at most three steps of the sender remain. *)
Definition left_ (k : conn) : nat :=
  match k_pc k with SDone => 0 | SCheck => 1 | SWrite _ => 2 | SEnter => 3 | _ => 4 end%nat.
Definition leaving (k : conn) : Prop :=
  k_flag k = false /\ started k /\
  match k_pc k with SDone | SCheck | SWrite _ => True | SEnter => k_queue k <> [] | _ => False end.
Lemma leaving_put k p k' : leaving k -> put k p = Some k' -> leaving k' /\ left_ k' = left_ k.
Proof.
  intros (A & B & C) H. unfold put in H. unfold leaving, left_, started in *.
  destruct (k_pc k) eqn:E; try contradiction; destruct (nlen (k_queue k) <? 256); try discriminate;
    injection H as <-; cbn; repeat split; auto. destruct (k_queue k); discriminate.
Qed.
Lemma leaving_step srv w l w' i k : nth_error (n_conns w) i = Some k -> leaving k -> nstep srv w l = Ok w' ->
  exists k', nth_error (n_conns w') i = Some k' /\ leaving k' /\
    (left_ k' <= left_ k - match l with LSender j _ => if Nat.eqb j i then 1 else 0 | _ => 0 end)%nat.
Proof.
  intros Hi HF H. pose proof HF as (HA & HR & HC).
  assert (LT : (i < length (n_conns w))%nat) by (apply nth_error_Some; congruence).
  assert (SAME : forall n, n = 0%nat -> @Ok net Empty_set w = Ok w' -> exists k', nth_error (n_conns w') i = Some k' /\ leaving k' /\ (left_ k' <= left_ k - n)%nat).
  { intros n -> [=<-]. exists k. split; [auto|split; [auto|lia]]. }
  destruct (notifier_dec l) as [->|DN].
  { destruct (n_notif w) as [|serial [|j rest]|serial sess j rest|p serial j rest] eqn:EN;
      try (exists k; split; [refine (nstep_other _ _ _ _ _ _ H Hi _ _); [intros []|intros _ p0 s0 r0; congruence]|split; [exact HF|lia]]).
    destruct (Nat.eq_dec j i) as [->|NE].
    - cbn in H. unfold notifier_step in H. rewrite EN, Hi in H. destruct (put k p) as [k1|] eqn:EU.
      + injection H as <-. destruct (leaving_put _ _ _ HF EU). exists k1. cbn. split; [apply set_nth_same; exact LT|split; [auto|lia]].
      + apply SAME; auto.
    - exists k; split; [refine (nstep_other _ _ _ _ _ _ H Hi _ _); [intros []|intros _ p0 s0 r0; congruence]|split; [exact HF|lia]]. }
  destruct (focus_dec l i) as [DF|DF].
  2:{ exists k; split; [eapply nstep_other; eauto; congruence|split; [exact HF|]]. destruct l; try lia.
      destruct (Nat.eqb_spec i0 i); [|lia]. cbn in DF. congruence. }
  destruct l; cbn [focus] in DF; try contradiction; subst i0; cbn [nstep] in H; rewrite Hi in H.
  - destruct HR as [HR|HR]; rewrite HR in H; apply SAME; auto.
  - destruct HR as [HR|HR]; rewrite HR in H; apply SAME; auto.
  - rewrite HA in H. destruct (k_phase k), (k_prog k); apply SAME; auto.
  - injection H as H. unfold reader_step in H. destruct (k_prog k) as [|[v|p0| | |] r]; subst w'.
    + apply SAME; auto.
    + eexists. split; [apply set_nth_same; exact LT|split; [exact HF|unfold left_; cbn; lia]].
    + destruct (put k p0) as [k1|] eqn:EU; [|apply SAME; auto].
      destruct (leaving_put _ _ _ HF EU) as [G1 G2]. eexists. split; [apply set_nth_same; exact LT|]. split; [exact G1|].
      unfold left_ in *. cbn. lia.
    + eexists. split; [apply set_nth_same; exact LT|]. split; [|unfold left_; cbn; lia]. split; [reflexivity|]. exact (conj HR HC).
    + eexists. split; [apply set_nth_same; exact LT|split; [exact HF|unfold left_; cbn; lia]].
    + eexists. split; [apply set_nth_same; exact LT|]. destruct (k_pc k) eqn:EP; try contradiction;
        (split; [split; [exact HA|split; [exact HR|cbn; rewrite EP; exact HC]]|unfold left_; cbn; rewrite EP; lia]).
  - rewrite HA in H. destruct (k_phase k), (k_prog k); try (apply SAME; now auto). injection H as <-.
    eexists. split; [apply set_nth_same; exact LT|]. split; [|unfold left_; cbn; lia].
    split; [exact HA|]. split; [right; reflexivity|exact HC].
  - rewrite Nat.eqb_refl. unfold sender_step in H. unfold left_ at 2. destruct (k_pc k) eqn:EP; try contradiction.
    + rewrite HA in H. cbn in H. injection H as <-. eexists. split; [apply set_nth_same; exact LT|].
      split; [split; [exact HA|split; [exact HR|exact I]]|cbn; lia].
    + destruct (k_queue k) as [|p q] eqn:EQ; [congruence|]. cbn in H. injection H as <-.
      eexists. split; [apply set_nth_same; exact LT|]. split; [split; [exact HA|split; [exact HR|exact I]]|cbn; lia].
    + destruct (encode p) as [b|e|]; [|destruct e|discriminate]. cbn in H. injection H as <-.
      eexists. split; [apply set_nth_same; exact LT|]. destruct (k_up k); [destruct o|];
        (split; [split; [exact HA|split; [exact HR|exact I]]|cbn; lia]).
    + cbn in H. injection H as <-. exists k. split; [apply set_nth_same; exact LT|]. split; [exact HF|]. unfold left_. rewrite EP. lia.
Qed.
Lemma leaving_run srv i : forall sched w w' k, nth_error (n_conns w) i = Some k -> leaving k -> nrun srv w sched = Ok w' ->
  exists k', nth_error (n_conns w') i = Some k' /\ leaving k' /\ (left_ k' <= left_ k - sender_steps i sched)%nat.
Proof.
  induction sched as [|l r IH]; intros w w' k Hi HF H; cbn in H.
  { injection H as <-. exists k. split; [auto|split; [auto|cbn; lia]]. }
  destruct (nstep srv w l) as [w1|e|] eqn:E; [|destruct e|discriminate]. cbn in H.
  destruct (leaving_step _ _ _ _ _ _ Hi HF E) as (k1 & G1 & G2 & G3).
  destruct (IH _ _ _ G1 G2 H) as (k2 & G4 & G5 & G6). exists k2. split; [auto|split; [auto|]].
  unfold sender_steps in *. cbn [filter]. destruct l; try (cbn in *; lia).
  destruct (Nat.eqb i0 i); cbn [length] in *; lia.
Qed.

(** * Notification completes when there is room *)
Lemma room_put k p : room k -> exists k', put k p = Some k' /\ k_queued k' = k_queued k ++ [p] /\ k_ver k' = k_ver k.
Proof.
  unfold room, put. intros [H|H].
  - rewrite H. eexists. split; [reflexivity|]. auto.
  - destruct (k_pc k); try (eexists; split; [reflexivity|auto]; fail);
      (assert (nlen (k_queue k) <? 256 = true) as -> by lia; eexists; split; [reflexivity|auto]).
Qed.
Lemma notify_completes cfg s serial : u16 s -> cfg_version cfg < 256 -> forall l w, NoDup l ->
  n_notif w = NLoop serial l ->
  (forall i, In i l -> exists k, nth_error (n_conns w) i = Some k /\ room k /\ k_ver k <= cfg_version cfg) ->
  exists w', nrun (new_rtr_server cfg s) w (repeat LNotifier (3 * length l + 1)) = Ok w' /\ n_notif w' = NIdle /\
    n_clients w' = n_clients w /\ n_count w' = n_count w /\
    forall i, match nth_error (n_conns w) i, nth_error (n_conns w') i with
              | Some k, Some k' => (In i l -> notified s serial k k') /\ (~ In i l -> k' = k)
              | None, None => True
              | _, _ => False
              end.
Proof.
  intros Hs Hb. induction l as [|i l IH]; intros w ND HN HR.
  { exists (mkNet (n_count w) (n_clients w) (n_conns w) NIdle).
    split; [cbn; unfold notifier_step; rewrite HN; reflexivity|].
    split; [reflexivity|split; [reflexivity|split; [reflexivity|]]]. intros i. cbn.
    destruct (nth_error (n_conns w) i); auto. split; [intros []|auto]. }
  destruct (HR i (or_introl eq_refl)) as (k & Hi & Hr & Hv).
  destruct (room_put k (SerialNotify (k_ver k) (session_of s (k_ver k)) serial) Hr) as (k1 & EU & EQ & EV).
  set (w1 := mkNet (n_count w) (n_clients w) (set_nth (n_conns w) i k1) (NLoop serial l)).
  assert (R3 : nrun (new_rtr_server cfg s) w [LNotifier; LNotifier; LNotifier] = Ok w1).
  { cbn. unfold notifier_step at 1. rewrite HN, Hi. unfold get_session_id. rewrite sess_nth by assumption. cbn.
    unfold notifier_step at 1. cbn. rewrite Hi. cbn. unfold notifier_step. cbn. rewrite Hi, EU. reflexivity. }
  inversion ND as [|? ? Hni ND']; subst.
  assert (LT : (i < length (n_conns w))%nat) by (apply nth_error_Some; congruence).
  destruct (IH w1 ND' eq_refl) as (w' & E1 & E2 & E3 & E4 & E5).
  { intros j Hj. destruct (HR j (or_intror Hj)) as (kj & A & B & C). exists kj. split; [|auto].
    cbn. rewrite set_nth_other; auto. intros ->. contradiction. }
  exists w'. split; [|split; [exact E2|split; [exact E3|split; [exact E4|]]]].
  - replace (3 * length (i :: l) + 1)%nat with (3 + (3 * length l + 1))%nat by (cbn; lia).
    rewrite repeat_app. rewrite (nrun_app _ (repeat LNotifier 3) _ w w1 R3). exact E1.
  - intros j. specialize (E5 j). cbn [w1 n_conns] in E5. destruct (Nat.eq_dec i j) as [<-|NE].
    + rewrite set_nth_same in E5 by exact LT. rewrite Hi. destruct (nth_error (n_conns w') i) as [k'|]; [|contradiction].
      destruct E5 as [_ E5]. rewrite (E5 Hni). split; [intros _; split; auto|]. intros G. exfalso. apply G. left; auto.
    + rewrite set_nth_other in E5 by auto. destruct (nth_error (n_conns w) j), (nth_error (n_conns w') j); auto.
      destruct E5 as [F1 F2]. split; [intros [G|G]; [contradiction|auto]|]. intros G. apply F2. intros X. apply G. right; auto.
Qed.

(** The send on quit comes after clearing the flag. *)
Fixpoint qguarded (flag : bool) (l : list op) : Prop :=
  match l with
  | [] => True
  | OFlag :: r => qguarded false r
  | OQuit :: r => flag = false /\ qguarded flag r
  | _ :: r => qguarded flag r
  end.
Lemma qguarded_app b l m : qguarded b l -> (forall b', qguarded b' m) -> qguarded b (l ++ m).
Proof. revert b. induction l as [|[] l IH]; intros b H1 H2; cbn in *; intuition auto. Qed.
Lemma qguarded_ops a : forall b, qguarded b (ops a).
Proof. induction a as [|[p|] a IH]; intros b; cbn; auto. Qed.
Lemma read_ops_qguarded srv cache c chunk c' l : read_ops srv cache c chunk = Ok (c', l) -> forall b, qguarded b l.
Proof.
  intros H b. unfold read_ops in H. destruct chunk as [|b0 chunk].
  { destruct (disconnect c) as [c1 a]. injection H as <- <-. apply qguarded_ops. }
  destruct (decode_bytes 64 (b0 :: chunk)) as [p|e|]; [| |discriminate].
  2:{ destruct (disconnect c) as [c1 a]. injection H as <- <-. apply qguarded_ops. }
  unfold process_ops in H.
  destruct (if c_disableVC c then (c, []) else check_version c (get_version p)) as [c1 a1].
  match type of H with (let '(_, _) := ?x in _) = _ => destruct x as [c2 a2] end.
  match type of H with (let '(_, _) := ?x in _) = _ => destruct x as [c4 a4] end.
  destruct (pass_simple_handler srv cache c4 p) as [r|e|]; [|destruct e|discriminate]. cbn [bind] in H.
  injection H as <- <-. cbn [qguarded].
  apply qguarded_app; [apply qguarded_ops|intros b1]. apply qguarded_app; [apply qguarded_ops|intros b2].
  apply qguarded_app; [apply qguarded_ops|intros b3]. cbn [qguarded]. apply qguarded_ops.
Qed.
Lemma qguarded_down l : forall b, qguarded b l -> qguarded false l.
Proof. induction l as [|[] l IH]; intros b; cbn; intuition eauto. Qed.
Lemma qguarded_run srv sched w : nrun srv empty_net sched = Ok w ->
  forall i k, nth_error (n_conns w) i = Some k -> shape k /\ qguarded (k_flag k) (k_prog k).
Proof.
  intros H i k Hk.
  apply (conn_inv srv (fun k => shape k /\ qguarded (k_flag k) (k_prog k))) with (4 := H) (5 := Hk); [| |apply empty_conns].
  { intros tr. split; [apply shape_new|exact I]. }
  clear. intros k k' [HS HQ] HK. split; [eapply shape_step; eauto|].
  destruct HK as [A B|A|cache chunk c prog A B C D|v r A|p r k1 A B|r A|r A|r A|A B C|o k1 A|p k1 A]; cbn.
  - exact HQ.
  - unfold shape in HS. destruct A as [[A _]|A]; rewrite A in HS; destruct HS as (_ & -> & _); exact I.
  - eapply read_ops_qguarded; eauto.
  - rewrite A in HQ. exact HQ.
  - apply put_shape in B as (_ & _ & -> & _). rewrite A in HQ. exact HQ.
  - rewrite A in HQ. exact HQ.
  - rewrite A in HQ. exact HQ.
  - rewrite A in HQ. destruct (k_pc k); cbn; apply HQ.
  - exact HQ.
  - unfold sender_step in A. destruct (k_pc k); try (injection A as <-; exact HQ).
    + destruct (k_queue k); injection A as <-; exact HQ.
    + destruct (encode p) as [b|e|]; [|destruct e|discriminate]. cbn in A. injection A as <-.
      destruct (k_up k); [destruct o|]; exact HQ.
  - apply put_shape in A as (_ & -> & -> & _). exact HQ.
Qed.

Lemma quit_leaving srv w i k r : nreach srv w -> nth_error (n_conns w) i = Some k -> k_prog k = OQuit :: r ->
  ~ (k_pc k = SEnter /\ k_queue k = []) ->
  forall sched w', nrun srv w (LReader i :: sched) = Ok w' -> (3 <= sender_steps i sched)%nat ->
  exists k', nth_error (n_conns w') i = Some k' /\ k_pc k' = SDone.
Proof.
  intros [sched0 H0] Hi HP HE sched w' H HS.
  destruct (qguarded_run _ _ _ H0 _ _ Hi) as [SH QG]. rewrite HP in QG. cbn in QG. destruct QG as [HF _].
  assert (LT : (i < length (n_conns w))%nat) by (apply nth_error_Some; congruence).
  cbn [nrun nstep bind] in H. rewrite Hi in H. unfold reader_step in H. rewrite HP in H. cbn [bind] in H.
  eapply leaving_run in H; [|apply set_nth_same; exact LT|].
  - destruct H as (k' & G1 & G2 & G3). exists k'. split; [exact G1|].
    assert (left_ (k_set_prog r (match k_pc k with SParked => k_set_pc SDone k | _ => k end)) <= 3)%nat.
    { destruct G2 as (_ & _ & G2). unfold left_. unfold shape in SH. rewrite HP in SH.
      destruct (k_pc k) eqn:EP; cbn; rewrite ?EP; try lia. destruct (k_phase k); intuition congruence. }
    assert (left_ k' = 0%nat) as G4 by lia. unfold left_ in G4. destruct (k_pc k'); auto; discriminate.
  - unfold leaving, started. unfold shape in SH. rewrite HP in SH.
    destruct (k_pc k) eqn:EP; cbn; rewrite ?EP.
    + destruct (k_phase k); intuition congruence.
    + destruct (k_phase k); intuition congruence.
    + destruct (k_phase k); try (intuition congruence).
    + destruct (k_phase k); intuition congruence.
    + destruct (k_phase k); intuition congruence.
    + destruct (k_phase k); intuition congruence.
Qed.

(** * C63: the session id of a Serial Notify *)
Definition matching (s : N) (w : net) : Prop :=
  match n_notif w with
  | NSess _ sess i _ => exists k, nth_error (n_conns w) i = Some k /\ sess = session_of s (k_ver k)
  | NPut p _ _ _ => exists v n, p = SerialNotify v (session_of s v) n
  | _ => True
  end.
Lemma sess_lookup cfg s v x : u16 s -> cfg_version cfg < 256 ->
  @get_session_id Empty_set (new_rtr_server cfg s) v = Ok x -> x = session_of s v.
Proof.
  intros Hs Hb H. unfold get_session_id in H. destruct (N.le_gt_cases v (cfg_version cfg)).
  - rewrite sess_nth in H by assumption. congruence.
  - rewrite sess_none in H by assumption. discriminate.
Qed.
Lemma ver_step srv w l w' i k : nstep srv w l = Ok w' -> no_change w l ->
  (exists serial sess rest, n_notif w = NSess serial sess i rest) ->
  nth_error (n_conns w) i = Some k -> exists k', nth_error (n_conns w') i = Some k' /\ k_ver k' = k_ver k.
Proof.
  intros H HC (serial & sess & rest & HN) Hi.
  assert (LT : (i < length (n_conns w))%nat) by (apply nth_error_Some; congruence).
  destruct (focus_dec l i) as [DF|DF].
  2:{ exists k. split; [|auto]. eapply nstep_other; eauto. congruence. }
  assert (SAME : @Ok net Empty_set w = Ok w' -> exists k', nth_error (n_conns w') i = Some k' /\ k_ver k' = k_ver k).
  { intros [=<-]. eauto. }
  destruct l; cbn [focus] in DF; try contradiction; subst i0; cbn [nstep] in H; rewrite Hi in H.
  - destruct (k_phase k), (k_tr k); auto. injection H as <-. eexists. split; [apply set_nth_same; exact LT|reflexivity].
  - destruct (k_phase k), (k_tr k); auto; injection H as <-; (eexists; split; [apply set_nth_same; exact LT|reflexivity]).
  - destruct (k_phase k), (k_prog k), (k_flag k); auto.
    destruct (read_ops srv cache (k_cli k) chunk) as [r|e|]; [|destruct e|discriminate]. injection H as <-.
    eexists. split; [apply set_nth_same; exact LT|reflexivity].
  - injection H as H. unfold reader_step in H. unfold no_change in HC. rewrite HN in HC. specialize (HC eq_refl k).
    destruct (k_prog k) as [|[v|p0| | |] r]; subst w'.
    + auto.
    + eexists. split; [apply set_nth_same; exact LT|]. cbn. eapply HC; eauto.
    + destruct (put k p0) as [k1|] eqn:EU; [|auto]. apply put_shape in EU as (_ & _ & _ & EV & _).
      eexists. split; [apply set_nth_same; exact LT|]. exact EV.
    + eexists. split; [apply set_nth_same; exact LT|reflexivity].
    + eexists. split; [apply set_nth_same; exact LT|reflexivity].
    + eexists. split; [apply set_nth_same; exact LT|]. destruct (k_pc k); reflexivity.
  - destruct (k_phase k), (k_prog k), (k_flag k); auto. injection H as <-. eexists. split; [apply set_nth_same; exact LT|reflexivity].
  - destruct (sender_step k o) as [k1|e|] eqn:E; [|destruct e|discriminate]. injection H as <-.
    eexists. split; [apply set_nth_same; exact LT|]. unfold sender_step in E.
    destruct (k_pc k); try (injection E as <-; reflexivity).
    + destruct (k_queue k); injection E as <-; reflexivity.
    + destruct (encode p) as [b|e|]; [|destruct e|discriminate]. cbn in E. injection E as <-.
      destruct (k_up k); [destruct o|]; reflexivity.
Qed.
Lemma matching_step cfg s w l w' : u16 s -> cfg_version cfg < 256 -> matching s w -> no_change w l ->
  nstep (new_rtr_server cfg s) w l = Ok w' -> matching s w'.
Proof.
  intros Hs Hb HM HC H. destruct (notifier_dec l) as [->|D].
  - cbn [nstep] in H. unfold notifier_step in H. unfold matching in HM.
    destruct (n_notif w) as [|serial [|j rest]|serial sess j rest|p serial j rest] eqn:EN.
    + injection H as <-. unfold matching. rewrite EN. exact I.
    + injection H as <-. exact I.
    + destruct (nth_error (n_conns w) j) as [k|] eqn:Ej; [|injection H as <-; unfold matching; rewrite EN; exact I].
      destruct (get_session_id (new_rtr_server cfg s) (k_ver k)) as [x|e|] eqn:E; [|destruct e|discriminate].
      injection H as <-. cbn. exists k. split; [exact Ej|]. eapply sess_lookup; eauto.
    + destruct HM as (k & Ek & ->). rewrite Ek in H. injection H as <-. cbn. eauto.
    + destruct (nth_error (n_conns w) j) as [k|] eqn:Ej.
      * destruct (put k p); injection H as <-; unfold matching; cbn; [exact I|rewrite EN; exact HM].
      * injection H as <-. unfold matching. rewrite EN. exact HM.
  - destruct (n_notif w) as [|serial rest|serial sess j rest|p serial j rest] eqn:EN.
    + assert (n_notif w' = NIdle \/ exists n, n_notif w' = NLoop n (n_clients w)) as [E|[n E]].
      { destruct l; cbn [nstep] in H; try congruence;
          try (destruct (nth_error (n_conns w) i) as [k0|]; [|injection H as <-; auto]).
        - destruct (_ && _)%bool; injection H as <-; auto.
        - destruct (k_phase k0), (k_tr k0); injection H as <-; auto.
        - destruct (k_phase k0), (k_tr k0); injection H as <-; auto.
        - destruct (k_phase k0), (k_prog k0), (k_flag k0); try (injection H as <-; auto; fail).
          destruct (read_ops (new_rtr_server cfg s) cache (k_cli k0) chunk) as [r|e|]; [|destruct e|discriminate]. injection H as <-; auto.
        - injection H as <-. unfold reader_step. destruct (k_prog k0) as [|[v|p1| | |] r]; auto. destruct (put k0 p1); auto.
        - destruct (k_phase k0), (k_prog k0), (k_flag k0); injection H as <-; auto.
        - destruct (sender_step k0 o) as [r|e|]; [|destruct e|discriminate]. injection H as <-; auto.
        - rewrite EN in H. injection H as <-. right. exists serial. reflexivity. }
      * unfold matching. rewrite E. exact I.
      * unfold matching. rewrite E. exact I.
    + unfold matching. rewrite (nstep_notif _ _ _ _ H), EN; [exact I|congruence|auto].
    + unfold matching in *. rewrite (nstep_notif _ _ _ _ H), EN; [|congruence|auto]. rewrite EN in HM. destruct HM as (k & Ek & ->).
      destruct (ver_step _ _ _ _ _ _ H HC (ex_intro _ serial (ex_intro _ _ (ex_intro _ rest EN))) Ek) as (k' & G1 & G2).
      exists k'. split; [exact G1|]. congruence.
    + unfold matching in *. rewrite (nstep_notif _ _ _ _ H), EN; [|congruence|auto]. rewrite EN in HM. exact HM.
Qed.
Lemma matching_run cfg s : u16 s -> cfg_version cfg < 256 -> forall sched w w', matching s w ->
  along (new_rtr_server cfg s) no_change w sched -> nrun (new_rtr_server cfg s) w sched = Ok w' -> matching s w'.
Proof.
  intros Hs Hb. induction sched as [|l r IH]; intros w w' HI HA H; cbn in H; [injection H as <-; auto|].
  destruct (nstep (new_rtr_server cfg s) w l) as [w1|e|] eqn:E; [|destruct e|discriminate].
  destruct HA as [HA HB]. cbn in H. apply (IH w1); auto. eapply matching_step; eauto.
Qed.
