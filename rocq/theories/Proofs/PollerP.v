From Coq Require Import ZifyBool ZifyNat ZifyN.
From Verif Require Import Model.Poller Spec.Polling.
Local Open Scope nat_scope.

Lemma yrun_app brk : forall a s s1 qs b, yrun brk s a = Some (s1, qs) ->
  yrun brk s (a ++ b) = match yrun brk s1 b with Some (s2, q2) => Some (s2, qs ++ q2) | None => None end.
Proof.
  induction a as [|l a IH]; intros s s1 qs b H; cbn in *.
  - injection H as <- <-. destruct (yrun brk s b) as [[? ?]|]; reflexivity.
  - destruct (ystep brk s l) as [[s' q]|]; [|discriminate]. destruct (yrun brk s' a) as [[s2 q2]|] eqn:E; [|discriminate].
    injection H as <- <-. rewrite (IH _ _ _ b E). destruct (yrun brk s2 b) as [[? ?]|]; [|reflexivity]. destruct q; reflexivity.
Qed.
Lemma yrun_split brk : forall a s b s2 qs, yrun brk s (a ++ b) = Some (s2, qs) ->
  exists s1 q1 q2, yrun brk s a = Some (s1, q1) /\ yrun brk s1 b = Some (s2, q2) /\ qs = q1 ++ q2.
Proof.
  induction a as [|l a IH]; intros s b s2 qs H; cbn in *; [exists s, [], qs; auto|].
  destruct (ystep brk s l) as [[s' q]|]; [|discriminate]. destruct (yrun brk s' (a ++ b)) as [[x y]|] eqn:E; [|discriminate].
  injection H as <- <-. destruct (IH _ _ _ _ E) as (s1 & q1 & q2 & E1 & E2 & ->). rewrite E1. do 3 eexists. split; [reflexivity|].
  split; [exact E2|]. destruct q; reflexivity.
Qed.
Lemma yrun_ind brk (P : list ylabel -> ystate -> Prop) :
  P [] yinit ->
  (forall sched s qs l s' q, yrun brk yinit sched = Some (s, qs) -> P sched s -> ystep brk s l = Some (s', q) -> P (sched ++ [l]) s') ->
  forall sched s qs, yrun brk yinit sched = Some (s, qs) -> P sched s.
Proof.
  intros H0 HS sched. induction sched as [|l r IH] using rev_ind; intros s qs H; [cbn in H; now injection H as <- _|].
  apply yrun_split in H as (s1 & q1 & q2 & E1 & E2 & _). cbn in E2. destruct (ystep brk s1 l) as [[s' q]|] eqn:E; [|discriminate].
  injection E2 as <- _. eapply HS; eauto.
Qed.
Lemma set_poll_nth : forall l i x y, nth_error l i = Some y -> nth_error (set_poll i x l) i = Some x.
Proof. induction l; destruct i; cbn; intros; try discriminate; auto. eauto. Qed.
Lemma set_poll_other : forall l i j x, i <> j -> nth_error (set_poll i x l) j = nth_error l j.
Proof. induction l; destruct i, j; cbn; intros; try lia; auto. Qed.
Lemma set_poll_len : forall l i x, length (set_poll i x l) = length l.
Proof. induction l; destruct i; cbn; auto. Qed.
Lemma closed_in k l : closed k l = true <-> In k l.
Proof. unfold closed. rewrite existsb_exists. split; [intros (x & H1 & H2); apply Nat.eqb_eq in H2; now subst|]. intros H. exists k. now rewrite Nat.eqb_refl. Qed.

Lemma pdus_app a b : pdus (a ++ b) = pdus a ++ pdus b.
Proof. apply flat_map_app. Qed.
Lemma heard_snoc a l : heard (a ++ [l]) = match l with YNew => [] | YPdu p => heard a ++ [p] | _ => heard a end.
Proof. unfold heard. rewrite fold_left_app. now destruct l. Qed.
Lemma sessions_snoc a l : sessions (a ++ [l]) = sessions a + match l with YNew => 1 | _ => 0 end.
Proof. unfold sessions. rewrite filter_app, app_length. now destruct l. Qed.
Lemma last_session_snoc l p : last_session (l ++ [p]) = match p with CacheResponse _ s => s | _ => last_session l end.
Proof. unfold last_session. rewrite fold_left_app. now destruct p. Qed.
Lemma last_serial_snoc l p : last_serial (l ++ [p]) = match p with EndOfData _ _ n _ _ _ => n | _ => last_serial l end.
Proof. unfold last_serial. rewrite fold_left_app. now destruct p. Qed.

(** The fields. *)
Definition yfields (sched : list ylabel) (s : ystate) : Prop :=
  y_sess s = last_session (pdus sched) /\ y_serial s = last_serial (pdus sched) /\ y_cur s = sessions sched.
Lemma client_disconnected_same s : let t := client_disconnected s in
  y_pc t = y_pc s /\ y_cur t = y_cur s /\ y_unlock t = y_unlock s /\ y_sess t = y_sess s /\ y_serial t = y_serial s /\ y_polls t = y_polls s /\
  In (y_cur s) (y_quit t) /\ (forall k, In k (y_quit s) -> In k (y_quit t)).
Proof.
  cbn. unfold client_disconnected. destruct (closed (y_cur s) (y_quit s)) eqn:E.
  - apply closed_in in E. tauto.
  - cbn. tauto.
Qed.
Lemma yhandle_same brk s p : let t := yhandle brk s p in
  y_cur t = y_cur s /\ y_unlock t = y_unlock s /\ y_polls t = y_polls s /\
  y_sess t = match p with CacheResponse _ x => x | _ => y_sess s end /\
  y_serial t = match p with EndOfData _ _ n _ _ _ => n | _ => y_serial s end /\
  (forall k, In k (y_quit s) -> In k (y_quit t)) /\ (y_pc t = y_pc s \/ y_pc t = SQuitting /\ In (y_cur s) (y_quit t)).
Proof.
  assert (Q : forall s, let t := set_spc SQuitting (client_disconnected s) in
    y_cur t = y_cur s /\ y_unlock t = y_unlock s /\ y_polls t = y_polls s /\ y_sess t = y_sess s /\ y_serial t = y_serial s /\
    (forall k, In k (y_quit s) -> In k (y_quit t)) /\ (y_pc t = y_pc s \/ y_pc t = SQuitting /\ In (y_cur s) (y_quit t))).
  { intros s0. cbn. pose proof (client_disconnected_same s0) as G. cbv zeta in G. tauto. }
  cbv zeta. destruct p; try exact (Q s); try (cbn; tauto).
  unfold yhandle. destruct brk; [|cbn; tauto]. 
  exact (Q (mkY (y_pc s) (y_cur s) (y_quit s) (y_unlock s) (y_sess s) serial (y_polls s))).
Qed.
Lemma yfields_run brk : forall sched s qs, yrun brk yinit sched = Some (s, qs) -> yfields sched s.
Proof.
  apply yrun_ind; [repeat split|]. intros sched s qs l s' q _ (H1 & H2 & H3) H. unfold yfields. rewrite sessions_snoc, pdus_app.
  destruct l; cbn [ystep pdus flat_map] in H |- *; rewrite ?app_nil_r, ?Nat.add_0_r.
  - destruct (y_pc s); try discriminate. injection H as <- _. cbn. lia.
  - destruct ok; destruct (y_pc s); try discriminate; injection H as <- _; cbn; auto.
  - destruct (y_pc s); try discriminate; injection H as <- _. change (pdus [YPdu p]) with [p]. rewrite last_session_snoc, last_serial_snoc.
    pose proof (yhandle_same brk s p) as G. cbv zeta in G. destruct G as (G1 & _ & _ & G2 & G3 & _). rewrite G1, G2, G3, H1, H2, H3. auto.
  - destruct (y_pc s); try discriminate; injection H as <- _. pose proof (client_disconnected_same s) as G. cbn in *. destruct G as (_ & G1 & _ & G2 & G3 & _).
    rewrite G1, G2, G3. auto.
  - destruct (y_pc s); try discriminate. destruct (closed (y_cur s) (y_quit s)); [|discriminate]. injection H as <- _. cbn. auto.
  - destruct (y_pc s); try discriminate; (destruct (nth_error (y_polls s) i); [|discriminate]; destruct (poll_step s p b) as [[? ?]|]; [|discriminate]; injection H as <- _; cbn; auto).
Qed.

(** What a step does to a poller. *)
Lemma ystep_poll brk s l s' q i p : ystep brk s l = Some (s', q) -> nth_error (y_polls s) i = Some p ->
  (forall b, l <> YPoll i b) -> nth_error (y_polls s') i = Some p.
Proof.
  intros H HN HL. destruct l; cbn [ystep] in H.
  - destruct (y_pc s); try discriminate. injection H as <- _. cbn. destruct brk; [exact HN|].
    rewrite nth_error_app1; [exact HN|]. apply nth_error_Some. congruence.
  - destruct ok; destruct (y_pc s); try discriminate; injection H as <- _; exact HN.
  - destruct (y_pc s); try discriminate; injection H as <- _. pose proof (yhandle_same brk s p0) as G. cbv zeta in G. destruct G as (_ & _ & -> & _). exact HN.
  - destruct (y_pc s); try discriminate; injection H as <- _. pose proof (client_disconnected_same s) as G. cbn in *. destruct G as (_ & _ & _ & _ & _ & -> & _). exact HN.
  - destruct (y_pc s); try discriminate. destruct (closed (y_cur s) (y_quit s)); [|discriminate]. injection H as <- _. exact HN.
  - assert (i0 <> i) by (intros ->; now apply (HL b)).
    destruct (y_pc s); try discriminate; (destruct (nth_error (y_polls s) i0); [|discriminate]; destruct (poll_step s p0 b) as [[? ?]|]; [|discriminate]; injection H as <- _; cbn; rewrite set_poll_other by assumption; exact HN).
Qed.
Lemma ystep_own brk s i b s' q : ystep brk s (YPoll i b) = Some (s', q) ->
  exists p pc, nth_error (y_polls s) i = Some p /\ poll_step s p b = Some (pc, q) /\ nth_error (y_polls s') i = Some (mkPl (pl_of p) pc) /\
    y_polls s' = set_poll i (mkPl (pl_of p) pc) (y_polls s).
Proof.
  cbn. intros H. destruct (y_pc s); try discriminate; (destruct (nth_error (y_polls s) i) as [p|] eqn:EN; [|discriminate]; destruct (poll_step s p b) as [[pc ?]|] eqn:EP; [|discriminate]; injection H as <- <-; exists p, pc; cbn; split; [reflexivity|]; split; [exact EP|]; split; [|reflexivity]; eapply set_poll_nth; eauto).
Qed.
Lemma keeps_poll brk i p : forall l s s' qs, (forall b, ~ In (YPoll i b) l) -> nth_error (y_polls s) i = Some p -> yrun brk s l = Some (s', qs) ->
  nth_error (y_polls s') i = Some p.
Proof.
  induction l as [|x l IH]; intros s s' qs HI HN H; cbn [yrun] in H; [now injection H as <- _|].
  destruct (ystep brk s x) as [[s1 q]|] eqn:E; [|discriminate]. destruct (yrun brk s1 l) as [[s2 q2]|] eqn:E2; [|discriminate]. injection H as <- _.
  apply (IH s1 _ q2); [intros b K; apply (HI b); now right| |exact E2].
  eapply ystep_poll; eauto. intros b ->. apply (HI b). now left.
Qed.

(** The query sent. *)
Lemma query_values brk p1 i b p2 s qs b2 s' k sess serial :
  yrun brk yinit (p1 ++ YPoll i b :: p2) = Some (s, qs) -> (forall b', ~ In (YPoll i b') p2) ->
  ystep brk s (YPoll i b2) = Some (s', Some (k, sess, serial)) ->
  sess = last_session (pdus p1) /\ serial = last_serial (pdus (p1 ++ p2)) /\
  exists s1 q1 p, yrun brk yinit p1 = Some (s1, q1) /\ nth_error (y_polls s1) i = Some p /\ pl_of p = k /\ pl_pc p = PFire.
Proof.
  intros H HI HQ. pose proof (yfields_run _ _ _ _ H) as (_ & F2 & _).
  apply yrun_split in H as (s1 & q1 & q2 & E1 & E2 & _). pose proof (yfields_run _ _ _ _ E1) as (F1 & _ & _).
  cbn [yrun] in E2. destruct (ystep brk s1 (YPoll i b)) as [[sa q]|] eqn:Ea; [|discriminate].
  destruct (yrun brk sa p2) as [[sb qb]|] eqn:Eb; [|discriminate]. injection E2 as -> _.
  apply ystep_own in Ea as (p & pc & N1 & P1 & N2 & _). pose proof (keeps_poll _ _ _ _ _ _ _ HI N2 Eb) as N3.
  apply ystep_own in HQ as (p' & pc' & N4 & P2 & _). rewrite N3 in N4. injection N4 as <-.
  unfold poll_step in P2. cbn [pl_pc pl_of] in P2. destruct pc; try discriminate P2.
  - destruct b2; [destruct (closed u (y_unlock s))|destruct (closed q0 (y_quit s))]; discriminate P2.
  - destruct b2; [|destruct (closed q0 (y_quit s))]; discriminate P2.
  - injection P2 as _ <- <- <-. unfold poll_step in P1. destruct (pl_pc p) eqn:EP; try discriminate P1.
    + destruct b; [destruct (closed u (y_unlock s1))|destruct (closed q0 (y_quit s1))]; discriminate P1.
    + destruct b; [|destruct (closed q0 (y_quit s1))]; discriminate P1.
    + injection P1 as <- _. split; [exact F1|]. split; [|do 3 eexists; repeat split; eauto]. rewrite F2. f_equal. rewrite !pdus_app. reflexivity.
Qed.

(** Frames. *)
Lemma last_session_skip : forall l acc, (forall p, In p l -> ~ frames p) ->
  fold_left (fun acc p => match p with CacheResponse _ s => s | _ => acc end) l acc = acc.
Proof.
  induction l as [|p l IH]; intros acc H; [reflexivity|]. cbn [fold_left]. rewrite IH by (intros; apply H; now right).
  pose proof (H p (or_introl eq_refl)) as Q. destruct p; cbn in Q; tauto.
Qed.
Lemma last_serial_skip : forall l acc, (forall p, In p l -> ~ frames p) ->
  fold_left (fun acc p => match p with EndOfData _ _ n _ _ _ => n | _ => acc end) l acc = acc.
Proof.
  induction l as [|p l IH]; intros acc H; [reflexivity|]. cbn [fold_left]. rewrite IH by (intros; apply H; now right).
  pose proof (H p (or_introl eq_refl)) as Q. destruct p; cbn in Q; tauto.
Qed.
Lemma complete_last l0 l sess serial : complete l sess serial -> last_session (l0 ++ l) = sess /\ last_serial (l0 ++ l) = serial.
Proof.
  intros (l1 & v & l2 & v' & x & y & z & l3 & -> & H). unfold last_session, last_serial. rewrite !app_assoc, !fold_left_app. cbn [fold_left].
  rewrite !fold_left_app. cbn [fold_left]. split.
  - rewrite !last_session_skip by auto. reflexivity.
  - now rewrite !last_serial_skip by auto.
Qed.
Lemma heard_suffix : forall sched, exists l0, pdus sched = l0 ++ heard sched.
Proof.
  induction sched as [|l r [l0 IH]] using rev_ind; [now exists []|]. rewrite pdus_app, heard_snoc.
  destruct l; cbn [pdus flat_map]; rewrite ?app_nil_r; try (exists l0; exact IH).
  - exists (pdus r). now rewrite app_nil_r.
  - exists l0. rewrite IH. change (pdus [YPdu p]) with [p]. now rewrite app_assoc.
Qed.
Lemma calm_serial i a p2 : (forall l, In l p2 -> calm i l) -> last_serial (pdus (a ++ p2)) = last_serial (pdus a).
Proof.
  intros H. rewrite pdus_app. unfold last_serial. rewrite fold_left_app. apply last_serial_skip.
  intros p K. unfold pdus in K. apply in_flat_map in K as (l & K1 & K2). specialize (H l K1). destruct l; cbn in K2; try contradiction.
  destruct K2 as [->|[]]. exact H.
Qed.

(** The channels. *)
Definition cinv (s : ystate) : Prop :=
  (forall k, 1 <= k < y_cur s -> In k (y_quit s)) /\
  (y_pc s = SBetween \/ y_pc s = SQuitting -> y_cur s = 0 \/ In (y_cur s) (y_quit s)) /\
  (forall p, In p (y_polls s) -> 1 <= pl_of p <= y_cur s /\
     match pl_pc p with PWait u q => 1 <= q <= y_cur s | PSelect q => 1 <= q <= y_cur s | _ => True end).
Lemma in_set_poll : forall l i x y, In y (set_poll i x l) -> y = x \/ In y l.
Proof. induction l as [|a l IH]; destruct i; cbn; intros x y H; auto; destruct H as [->|H]; auto. destruct (IH _ _ _ H); auto. Qed.
Lemma cinv_run brk : forall sched s qs, yrun brk yinit sched = Some (s, qs) -> cinv s.
Proof.
  apply (yrun_ind brk (fun _ s => cinv s)).
  - split; [cbn; lia|]. split; [auto|]. cbn. tauto.
  - intros sched s qs l s' q _ (H1 & H2 & H3) H. destruct l; cbn [ystep] in H.
    + destruct (y_pc s) eqn:EP; try discriminate. injection H as <- _. split; [|split]; cbn.
      * intros k K. destruct (Nat.eq_dec k (y_cur s)) as [->|N]; [|apply H1; lia]. destruct H2 as [H2|H2]; auto. lia.
      * intros [K|K]; discriminate.
      * intros p K. assert (K' : In p (y_polls s) \/ p = mkPl (S (y_cur s)) PFirst).
        { destruct brk; [auto|]. apply in_app_or in K as [K|[K|[]]]; auto. }
        destruct K' as [K'| ->]; [|cbn; lia]. apply H3 in K' as [K1 K2]. split; [lia|]. destruct (pl_pc p); auto; lia.
    + destruct ok; destruct (y_pc s) eqn:EP; try discriminate; injection H as <- _; (split; [exact H1|]; split; [cbn; intros [K|K]; discriminate|exact H3]).
    + destruct (y_pc s) eqn:EP; try discriminate; injection H as <- _. pose proof (yhandle_same brk s p) as G. cbv zeta in G.
      destruct G as (G1 & G2 & G3 & G4 & G5 & G6 & G7). unfold cinv. rewrite G1, G3. split; [auto|]. split; [|exact H3].
      destruct G7 as [G7|[G7 G8]]; [|auto]. rewrite G7, EP. intros [K|K]; discriminate.
    + destruct (y_pc s) eqn:EP; try discriminate; injection H as <- _. pose proof (client_disconnected_same s) as G. cbv zeta in G.
      destruct G as (G1 & G2 & G3 & G4 & G5 & G6 & G7 & G8). unfold cinv. cbn. rewrite G2, G6. split; [auto|]. split; [intros [K|K]; discriminate|exact H3].
    + destruct (y_pc s) eqn:EP; try discriminate. destruct (closed (y_cur s) (y_quit s)); [|discriminate]. injection H as <- _.
      split; [exact H1|]. split; [|exact H3]. intros _. apply H2. auto.
    + assert (HP : y_pc s <> SFatal) by (intros E; rewrite E in H; discriminate).
      destruct (ystep_own brk s i b s' q H) as (p & pc & N & P & _ & E).
      assert (EQ : y_pc s' = y_pc s /\ y_cur s' = y_cur s /\ y_quit s' = y_quit s).
      { rewrite N, P in H. destruct (y_pc s) eqn:EP; try discriminate; injection H as <-; cbn; auto. }
      destruct EQ as (Q1 & Q2 & Q3). unfold cinv. rewrite Q1, Q2, Q3. split; [exact H1|]. split; [exact H2|].
      intros p' K. rewrite E in K. apply in_set_poll in K as [->|K]; [|auto]. cbn. apply nth_error_In in N. apply H3 in N as [N1 N2].
      split; [exact N1|]. unfold poll_step in P. destruct (pl_pc p); try discriminate P.
      * injection P as <- _. lia.
      * destruct b; [destruct (closed u (y_unlock s))|destruct (closed q0 (y_quit s))]; try discriminate P; injection P as <- _; exact I.
      * injection P as <- _. lia.
      * destruct b; [|destruct (closed q0 (y_quit s))]; try discriminate P; injection P as <- _; exact I.
      * injection P as <- _. exact I.
      * injection P as <- _. exact I.
Qed.

(** With pollers that return in time there is one at most, that of the present session. *)
Definition single (s : ystate) : Prop :=
  forall i p, nth_error (y_polls s) i = Some p -> pl_pc p <> PEnd -> pl_of p = y_cur s /\ S i = length (y_polls s).
Lemma on_time_prefix brk a b : on_time brk (a ++ b) -> on_time brk a.
Proof. intros H x y s qs p E. apply (H x (y ++ b)). rewrite E, <- app_assoc. reflexivity. Qed.
Lemma single_run brk : forall sched s qs, on_time brk sched -> yrun brk yinit sched = Some (s, qs) -> single s.
Proof.
  intros sched s qs HT H. revert HT. revert sched s qs H.
  apply (yrun_ind brk (fun sched s => on_time brk sched -> single s)).
  - intros _ i p H. destruct i; discriminate.
  - intros sched s qs l s' q HR IH H HT. specialize (IH (on_time_prefix _ _ _ HT)).
    destruct l.
    + pose proof (fun p => HT sched [] s qs p eq_refl HR) as HE. cbn [ystep] in H. destruct (y_pc s); try discriminate. injection H as <- _.
      intros i p N HP. cbn in *. destruct brk.
      * apply nth_error_In in N. elim HP. now apply HE.
      * destruct (lt_dec i (length (y_polls s))) as [L|L].
        -- rewrite nth_error_app1 in N by lia. apply nth_error_In in N. elim HP. now apply HE.
        -- rewrite nth_error_app2 in N by lia. destruct (i - length (y_polls s)) eqn:E; [|now destruct n]. cbn in N. injection N as <-.
           split; [reflexivity|]. rewrite app_length. cbn. lia.
    + cbn [ystep] in H. destruct ok; destruct (y_pc s); try discriminate; injection H as <- _; exact IH.
    + cbn [ystep] in H. destruct (y_pc s); try discriminate; injection H as <- _. pose proof (yhandle_same brk s p) as G. cbv zeta in G.
      destruct G as (G1 & G2 & G3 & _). unfold single. rewrite G1, G3. exact IH.
    + cbn [ystep] in H. destruct (y_pc s); try discriminate; injection H as <- _. pose proof (client_disconnected_same s) as G. cbv zeta in G.
      destruct G as (G1 & G2 & G3 & G4 & G5 & G6 & _). unfold single. cbn. rewrite G2, G6. exact IH.
    + cbn [ystep] in H. destruct (y_pc s); try discriminate. destruct (closed (y_cur s) (y_quit s)); [|discriminate]. injection H as <- _. exact IH.
    + destruct (ystep_own brk s i b s' q H) as (p & pc & N & P & N' & E).
      assert (Q2 : y_cur s' = y_cur s).
      { cbn [ystep] in H. rewrite N, P in H. destruct (y_pc s); try discriminate; injection H as <-; cbn; auto. }
      intros j p' Nj HP. rewrite Q2, E, set_poll_len. rewrite E in Nj. destruct (Nat.eq_dec i j) as [->|D].
      * rewrite E in N'. rewrite N' in Nj. injection Nj as <-. cbn. apply (IH j p N). intros K. unfold poll_step in P. rewrite K in P. discriminate.
      * rewrite set_poll_other in Nj by assumption. now apply IH.
Qed.
(** A poller that can return. *)
Lemma poll_ends brk sched s qs i p : yrun brk yinit sched = Some (s, qs) -> y_pc s = SBetween \/ y_pc s = SQuitting ->
  nth_error (y_polls s) i = Some p -> pl_pc p <> PEnd ->
  exists bs s' qs', length bs <= 4 /\ yrun brk s (map (YPoll i) bs) = Some (s', qs') /\ length qs' <= 1 /\
    exists p', nth_error (y_polls s') i = Some p' /\ pl_pc p' = PEnd.
Proof.
  intros HR HP HN HE. pose proof (cinv_run _ _ _ _ HR) as (C1 & C2 & C3).
  assert (STEP : forall s pc b pc' q, y_pc s = SBetween \/ y_pc s = SQuitting -> nth_error (y_polls s) i = Some (mkPl (pl_of p) pc) ->
    poll_step s (mkPl (pl_of p) pc) b = Some (pc', q) ->
    exists s', ystep brk s (YPoll i b) = Some (s', q) /\ nth_error (y_polls s') i = Some (mkPl (pl_of p) pc') /\
      y_pc s' = y_pc s /\ y_cur s' = y_cur s /\ y_quit s' = y_quit s).
  { intros t pc b pc' q T1 T2 T3. cbn [ystep]. rewrite T2, T3. destruct T1 as [T1|T1]; rewrite T1; (eexists; split; [reflexivity|]); cbn;
    (split; [eapply set_poll_nth; eauto|auto]). }
  assert (CL : closed (y_cur s) (y_quit s) = true).
  { apply closed_in. destruct (C2 HP) as [Z|Z]; [|exact Z]. destruct (C3 p (nth_error_In _ _ HN)) as [K _]. lia. }
  assert (CQ : forall q, 1 <= q <= y_cur s -> closed q (y_quit s) = true).
  { intros q K. destruct (Nat.eq_dec q (y_cur s)) as [->|]; [exact CL|]. apply closed_in, C1. lia. }
  assert (SEL : forall t q, y_pc t = y_pc s -> y_cur t = y_cur s -> y_quit t = y_quit s -> 1 <= q <= y_cur s ->
     nth_error (y_polls t) i = Some (mkPl (pl_of p) (PSelect q)) ->
     exists t', yrun brk t (map (YPoll i) [false]) = Some (t', []) /\ exists p', nth_error (y_polls t') i = Some p' /\ pl_pc p' = PEnd).
  { intros t q T1 T2 T3 T4 T5. destruct (STEP t (PSelect q) false PEnd None) as (t' & K1 & K2 & _); [now rewrite T1|exact T5| |].
    - cbn. rewrite T3, CQ by assumption. reflexivity.
    - exists t'. cbn [map yrun]. rewrite K1. split; [reflexivity|]. eexists. split; [exact K2|reflexivity]. }
  assert (TOP : forall t, y_pc t = y_pc s -> y_cur t = y_cur s -> y_quit t = y_quit s -> nth_error (y_polls t) i = Some (mkPl (pl_of p) PTop) ->
     exists t', yrun brk t (map (YPoll i) [false; false]) = Some (t', []) /\ exists p', nth_error (y_polls t') i = Some p' /\ pl_pc p' = PEnd).
  { intros t T1 T2 T3 T5. destruct (STEP t PTop false (PSelect (y_cur t)) None) as (t' & K1 & K2 & K3 & K4 & K5); [now rewrite T1|exact T5|reflexivity|].
    destruct (SEL t' (y_cur t)) as (t2 & L1 & L2); [congruence|congruence|congruence| |exact K2|].
    - rewrite T2. destruct (C3 p (nth_error_In _ _ HN)) as [K _]. lia.
    - exists t2. cbn [map yrun]. cbn [map yrun] in L1. rewrite K1. destruct (ystep brk t' (YPoll i false)) as [[? ?]|]; [|discriminate L1]. rewrite L1. auto. }
  assert (HALF : forall t x, y_pc t = y_pc s -> y_cur t = y_cur s -> y_quit t = y_quit s -> nth_error (y_polls t) i = Some (mkPl (pl_of p) (PHalf x)) ->
     exists t' q, yrun brk t (map (YPoll i) [false; false; false]) = Some (t', [q]) /\ exists p', nth_error (y_polls t') i = Some p' /\ pl_pc p' = PEnd).
  { intros t x T1 T2 T3 T5. destruct (STEP t (PHalf x) false PTop (Some (pl_of p, x, y_serial t))) as (t' & K1 & K2 & K3 & K4 & K5); [now rewrite T1|exact T5|reflexivity|].
    destruct (TOP t') as (t2 & L1 & L2); [congruence|congruence|congruence|exact K2|].
    exists t2, (pl_of p, x, y_serial t). change (map (YPoll i) [false; false; false]) with (YPoll i false :: map (YPoll i) [false; false]).
    cbn [yrun]. rewrite K1, L1. auto. }
  destruct p as [k pc]. cbn [pl_of pl_pc] in *. destruct (C3 _ (nth_error_In _ _ HN)) as [K1 K2]. cbn in K1, K2. destruct pc.
  - destruct (STEP s PFirst false (PWait (y_cur s) (y_cur s)) None) as (t & L1 & L2 & L3 & L4 & L5); [exact HP|exact HN|reflexivity|].
    destruct (STEP t (PWait (y_cur s) (y_cur s)) false PEnd None) as (t2 & M1 & M2 & _); [now rewrite L3|exact L2|cbn; rewrite L5, CL; reflexivity|].
    exists [false; false], t2, []. split; [cbn; lia|]. cbn [map yrun]. rewrite L1, M1. split; [reflexivity|]. split; [cbn; lia|]. eexists. split; [exact M2|reflexivity].
  - destruct (STEP s (PWait u q) false PEnd None) as (t2 & M1 & M2 & _); [exact HP|exact HN|cbn; rewrite CQ by assumption; reflexivity|].
    exists [false], t2, []. split; [cbn; lia|]. cbn [map yrun]. rewrite M1. split; [reflexivity|]. split; [cbn; lia|]. eexists. split; [exact M2|reflexivity].
  - destruct (TOP s) as (t & L1 & L2); auto. exists [false; false], t, []. split; [cbn; lia|]. split; [exact L1|]. split; [cbn; lia|exact L2].
  - destruct (SEL s q) as (t & L1 & L2); auto. exists [false], t, []. split; [cbn; lia|]. split; [exact L1|]. split; [cbn; lia|exact L2].
  - destruct (STEP s PFire false (PHalf (y_sess s)) None) as (t & L1 & L2 & L3 & L4 & L5); [exact HP|exact HN|reflexivity|].
    destruct (HALF t (y_sess s)) as (t2 & q & M1 & M2); auto. exists [false; false; false; false], t2, [q]. split; [cbn; lia|].
    change (map (YPoll i) [false; false; false; false]) with (YPoll i false :: map (YPoll i) [false; false; false]). cbn [yrun]. rewrite L1, M1.
    split; [reflexivity|]. split; [cbn; lia|exact M2].
  - destruct (HALF s sess) as (t2 & q & M1 & M2); auto. exists [false; false; false], t2, [q]. split; [cbn; lia|]. split; [exact M1|]. split; [cbn; lia|exact M2].
  - congruence.
Qed.
Lemma no_polls : forall sched s qs, yrun true yinit sched = Some (s, qs) -> y_polls s = [].
Proof.
  apply (yrun_ind true (fun _ s => y_polls s = [])); [reflexivity|]. intros sched s qs l s' q _ IH H. destruct l; cbn [ystep] in H.
  - destruct (y_pc s); try discriminate. now injection H as <- _.
  - destruct ok; destruct (y_pc s); try discriminate; now injection H as <- _.
  - destruct (y_pc s); try discriminate; injection H as <- _. pose proof (yhandle_same true s p) as G. cbv zeta in G. destruct G as (_ & _ & -> & _). exact IH.
  - destruct (y_pc s); try discriminate; injection H as <- _. pose proof (client_disconnected_same s) as G. cbn in *. destruct G as (_ & _ & _ & _ & _ & -> & _). exact IH.
  - destruct (y_pc s); try discriminate. destruct (closed (y_cur s) (y_quit s)); [|discriminate]. now injection H as <- _.
  - rewrite IH in H. destruct (y_pc s); try discriminate; destruct i; discriminate.
Qed.
