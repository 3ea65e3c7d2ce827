From Coq Require Import ZifyBool ZifyNat ZifyN.
From Verif Require Import Model.Concurrent Spec.Response Spec.Net Proofs.ConcCacheP.
Ltac Zify.zify_post_hook ::= Z.div_mod_to_equations.

(** The ways one connection changes in one step of the server. *)
Inductive kstep (srv : rtrserver) (k : conn) : conn -> Prop :=
| ks_ssh : k_phase k = Accepted -> k_tr k = SSH -> kstep srv k (k_set_phase SshBegun k)
| ks_start : (k_phase k = Accepted /\ k_tr k <> SSH \/ k_phase k = SshBegun) ->
    kstep srv k (k_set_phase Running (k_set_pc SCheck (k_set_flag true k)))
| ks_read cache chunk c prog : k_phase k = Running -> k_prog k = [] -> k_flag k = true ->
    read_ops srv cache (k_cli k) chunk = Ok (c, prog) -> kstep srv k (k_set_read c prog k)
| ks_set v r : k_prog k = OSet v :: r -> kstep srv k (k_set_prog r (k_set_ver v k))
| ks_put p r k1 : k_prog k = OPut p :: r -> put k p = Some k1 -> kstep srv k (k_set_prog r k1)
| ks_flag r : k_prog k = OFlag :: r -> kstep srv k (k_set_prog r (k_set_flag false k))
| ks_disc r : k_prog k = ODisc :: r -> kstep srv k (k_set_prog r k)
| ks_quit r : k_prog k = OQuit :: r ->
    kstep srv k (k_set_prog r (match k_pc k with SParked => k_set_pc SDone k | _ => k end))
| ks_return : k_phase k = Running -> k_prog k = [] -> k_flag k = false -> kstep srv k (k_set_phase Ended k)
| ks_send o k' : sender_step k o = Ok k' -> kstep srv k k'
| ks_notify p k' : put k p = Some k' -> kstep srv k k'.

Lemma nth_set_nth {A} (l : list A) i j x y : nth_error (set_nth l i x) j = Some y ->
  (j = i /\ y = x /\ exists z, nth_error l i = Some z) \/ (j <> i /\ nth_error l j = Some y).
Proof.
  intros H. destruct (Nat.eq_dec j i) as [->|E].
  - left. assert (L : (i < length l)%nat).
    { rewrite <- (set_nth_length l i x). apply nth_error_Some. congruence. }
    rewrite set_nth_same in H by exact L. injection H as <-. split; [auto|split;[auto|]].
    destruct (nth_error l i) eqn:E; [eauto|]. apply nth_error_None in E. lia.
  - right. rewrite set_nth_other in H; auto.
Qed.

Definition from (srv : rtrserver) (w w' : net) : Prop :=
  forall j k', nth_error (n_conns w') j = Some k' ->
    (exists k, nth_error (n_conns w) j = Some k /\ (k' = k \/ kstep srv k k')) \/
    (exists tr, k' = new_conn tr srv /\ j = length (n_conns w)).

Lemma from_same srv w w' : n_conns w' = n_conns w -> from srv w w'.
Proof. intros E j k' H. rewrite E in H. left. eauto. Qed.
Lemma from_one srv w w' i k k1 : nth_error (n_conns w) i = Some k ->
  n_conns w' = set_nth (n_conns w) i k1 -> (k1 = k \/ kstep srv k k1) -> from srv w w'.
Proof.
  intros H E S j k' Hj. rewrite E in Hj. destruct (nth_set_nth _ _ _ _ _ Hj) as [(-> & -> & _)|(N & Hj')].
  - left. eauto.
  - left. eauto.
Qed.

Lemma put_prog k p k' : put k p = Some k' -> k_prog k' = k_prog k.
Proof. unfold put. destruct (k_pc k), (nlen (k_queue k) <? 256); intros [=<-]; reflexivity. Qed.

Lemma nstep_from srv w l w' : nstep srv w l = Ok w' -> from srv w w'.
Proof.
  destruct l; cbn [nstep]; intros H.
  - destruct ((0 <? s_maxconn srv) && (s_maxconn srv <=? n_count w))%Z; injection H as <-; [now apply from_same|].
    intros j k' Hj. cbn in Hj. destruct (Nat.lt_ge_cases j (length (n_conns w))).
    + rewrite nth_error_app1 in Hj by auto. left; eauto.
    + rewrite nth_error_app2 in Hj by auto. right. exists tr.
      destruct (j - length (n_conns w))%nat as [|m] eqn:E; cbn in Hj; [|destruct m; discriminate].
      injection Hj as <-. split; auto. lia.
  - destruct (nth_error (n_conns w) i) as [k|] eqn:Ei; [|injection H as <-; now apply from_same].
    destruct (k_phase k) eqn:EP, (k_tr k) eqn:ET; injection H as <-; try (now apply from_same).
    eapply from_one; [exact Ei|reflexivity|right]. now apply ks_ssh.
  - destruct (nth_error (n_conns w) i) as [k|] eqn:Ei; [|injection H as <-; now apply from_same].
    destruct (k_phase k) eqn:EP, (k_tr k) eqn:ET; injection H as <-; try (now apply from_same);
      (eapply from_one; [exact Ei|reflexivity|right]; apply ks_start; rewrite ?EP, ?ET; intuition discriminate).
  - destruct (nth_error (n_conns w) i) as [k|] eqn:Ei; [|injection H as <-; now apply from_same].
    destruct (k_phase k) eqn:EP, (k_prog k) eqn:ET, (k_flag k) eqn:EF; try (injection H as <-; now apply from_same).
    destruct (read_ops srv cache (k_cli k) chunk) as [[c prog]| |] eqn:ER; [|destruct e|discriminate].
    injection H as <-. eapply from_one; [exact Ei|reflexivity|right]. eapply ks_read; eauto.
  - destruct (nth_error (n_conns w) i) as [k|] eqn:Ei; [|injection H as <-; now apply from_same].
    injection H as <-. unfold reader_step. destruct (k_prog k) as [|[v|p| | |] r] eqn:EP.
    + now apply from_same.
    + eapply from_one; [exact Ei|reflexivity|right]. now apply ks_set.
    + destruct (put k p) eqn:EU; [|now apply from_same].
      eapply from_one; [exact Ei|reflexivity|right]. eapply ks_put; eauto.
    + eapply from_one; [exact Ei|reflexivity|right]. now apply ks_flag.
    + eapply from_one; [exact Ei|reflexivity|right]. now apply ks_disc.
    + eapply from_one; [exact Ei|reflexivity|right]. now apply ks_quit.
  - destruct (nth_error (n_conns w) i) as [k|] eqn:Ei; [|injection H as <-; now apply from_same].
    destruct (k_phase k) eqn:EP, (k_prog k) eqn:ET, (k_flag k) eqn:EF; try (injection H as <-; now apply from_same).
    injection H as <-. eapply from_one; [exact Ei|reflexivity|right]. now apply ks_return.
  - destruct (nth_error (n_conns w) i) as [k|] eqn:Ei; [|injection H as <-; now apply from_same].
    destruct (sender_step k o) as [k1| |] eqn:ES; [|destruct e|discriminate].
    injection H as <-. eapply from_one; [exact Ei|reflexivity|right]. eapply ks_send; eauto.
  - destruct (n_notif w); injection H as <-; now apply from_same.
  - unfold notifier_step in H. destruct (n_notif w) as [|serial [|i rest]|serial sess i rest|p serial i rest].
    + injection H as <-; now apply from_same.
    + injection H as <-; now apply from_same.
    + destruct (nth_error (n_conns w) i) as [k|] eqn:Ei; [|injection H as <-; now apply from_same].
      destruct (get_session_id srv (k_ver k)) as [x| |]; [|destruct e|discriminate].
      injection H as <-; now apply from_same.
    + destruct (nth_error (n_conns w) i) as [k|] eqn:Ei; injection H as <-; now apply from_same.
    + destruct (nth_error (n_conns w) i) as [k|] eqn:Ei; [|injection H as <-; now apply from_same].
      destruct (put k p) as [k1|] eqn:EU; injection H as <-; [|now apply from_same].
      eapply from_one; [exact Ei|reflexivity|right]. eapply ks_notify; eauto.
Qed.

(** Invariants. *)
Lemma nrun_inv srv (P : net -> Prop) : (forall w l w', P w -> nstep srv w l = Ok w' -> P w') ->
  forall sched w w', P w -> nrun srv w sched = Ok w' -> P w'.
Proof.
  intros HS. induction sched as [|l r IH]; intros w w' HP H; cbn in H.
  - injection H as <-. exact HP.
  - destruct (nstep srv w l) as [w1|e|] eqn:E; [|destruct e|discriminate]. cbn in H. eauto.
Qed.
Lemma nrun_app srv sched1 sched2 w w1 : nrun srv w sched1 = Ok w1 ->
  nrun srv w (sched1 ++ sched2) = nrun srv w1 sched2.
Proof.
  revert w. induction sched1 as [|l r IH]; intros w H; cbn in *.
  - injection H as <-. reflexivity.
  - destruct (nstep srv w l) as [w2|e|]; [|destruct e|discriminate]. cbn in *. auto.
Qed.

Lemma conn_inv srv (Q : conn -> Prop) : (forall tr, Q (new_conn tr srv)) ->
  (forall k k', Q k -> kstep srv k k' -> Q k') ->
  forall sched w w', (forall i k, nth_error (n_conns w) i = Some k -> Q k) ->
    nrun srv w sched = Ok w' -> forall i k, nth_error (n_conns w') i = Some k -> Q k.
Proof.
  intros H0 HS sched w w' Hw HR.
  apply (nrun_inv srv (fun w => forall i k, nth_error (n_conns w) i = Some k -> Q k)) with (2 := Hw) (3 := HR).
  intros w1 l w2 H1 H2 i k Hk. destruct (nstep_from _ _ _ _ H2 i k Hk) as [(k0 & A & [->|B])|(tr & -> & _)]; eauto.
Qed.
Lemma empty_conns (Q : conn -> Prop) : forall i k, nth_error (n_conns empty_net) i = Some k -> Q k.
Proof. intros [|i] k H; discriminate. Qed.

(** Shape of a connection in each phase. *)
Definition shape (k : conn) : Prop :=
  match k_phase k with
  | Accepted | SshBegun => k_pc k = SNone /\ k_prog k = [] /\ k_flag k = false
  | Running => k_pc k <> SNone
  | Ended => k_pc k <> SNone /\ k_prog k = [] /\ k_flag k = false
  end.
Lemma put_shape k p k' : put k p = Some k' ->
  k_phase k' = k_phase k /\ k_prog k' = k_prog k /\ k_flag k' = k_flag k /\
  k_ver k' = k_ver k /\ k_cli k' = k_cli k /\ k_tr k' = k_tr k /\
  (k_pc k' = k_pc k \/ k_pc k = SParked /\ k_pc k' = SWrite p).
Proof. unfold put. destruct (k_pc k) eqn:E, (nlen (k_queue k) <? 256); intros [=<-]; cbn; auto 10. Qed.
Lemma send_shape k o k' : sender_step k o = Ok k' ->
  k_phase k' = k_phase k /\ k_prog k' = k_prog k /\ k_flag k' = k_flag k /\
  k_ver k' = k_ver k /\ k_cli k' = k_cli k /\ k_tr k' = k_tr k /\ k_queued k' = k_queued k /\
  (k_pc k = SNone <-> k_pc k' = SNone).
Proof.
  unfold sender_step. destruct (k_pc k) eqn:E; intros H.
  - injection H as <-. rewrite E. intuition auto.
  - injection H as <-. destruct (k_flag k) eqn:F; cbn; rewrite ?F; intuition (auto; discriminate).
  - destruct (k_queue k); injection H as <-; cbn; intuition (auto; discriminate).
  - injection H as <-. rewrite E. intuition auto.
  - destruct (encode p) as [b|e|]; [|destruct e|discriminate]. cbn in H. injection H as <-.
    destruct (k_up k); [destruct o|]; cbn; intuition (auto; discriminate).
  - injection H as <-. rewrite E. intuition auto.
Qed.

Lemma shape_step srv k k' : shape k -> kstep srv k k' -> shape k'.
Proof.
  unfold shape. intros HK HS. destruct HS as [A B|A|ca ch c prog A B C D|v r A|p r k1 A B|r A|r A|r A|A B C|o k' A|p k' A].
  - rewrite A in HK. exact HK.
  - cbn. discriminate.
  - cbn. rewrite A in *. exact HK.
  - cbn. destruct (k_phase k); intuition congruence.
  - destruct (put_shape _ _ _ B) as (E1 & E2 & E3 & _ & _ & _ & E4). cbn. rewrite E1, E3.
    destruct (k_phase k); intuition congruence.
  - cbn. destruct (k_phase k); intuition congruence.
  - cbn. destruct (k_phase k); intuition congruence.
  - destruct (k_pc k) eqn:EP; cbn; destruct (k_phase k); intuition congruence.
  - cbn. rewrite A in *. auto.
  - destruct (send_shape _ _ _ A) as (E1 & E2 & E3 & _ & _ & _ & _ & E4). rewrite E1, E2, E3.
    destruct (k_phase k); intuition congruence.
  - destruct (put_shape _ _ _ A) as (E1 & E2 & E3 & _ & _ & _ & E4). rewrite E1, E2, E3.
    destruct (k_phase k); intuition congruence.
Qed.
Lemma shape_new srv tr : shape (new_conn tr srv).
Proof. unfold shape. cbn. auto. Qed.
Lemma shape_run srv sched w : nrun srv empty_net sched = Ok w ->
  forall i k, nth_error (n_conns w) i = Some k -> shape k.
Proof.
  apply conn_inv; [apply shape_new|apply shape_step|apply empty_conns].
Qed.

(** *** C31 *)
Definition fifo (k : conn) : Prop :=
  (k_pc k = SParked -> k_queue k = []) /\
  nlen (k_queue k) <= 256 /\
  exists sent, k_queued k = sent ++ in_hand k ++ k_queue k /\
    (k_up k = true -> k_wire k = wire_of sent) /\
    exists n, k_wire k = firstn n (wire_of sent).

Lemma wire_of_app a b : wire_of (a ++ b) = wire_of a ++ wire_of b.
Proof. apply flat_map_app. Qed.

Lemma fifo_put k p k' : fifo k -> put k p = Some k' -> fifo k'.
Proof.
  intros (HP & HL & sent & HQ & HU & n & HW). unfold put, in_hand in *.
  destruct (k_pc k) eqn:EP;
    try (destruct (nlen (k_queue k) <? 256) eqn:EL; [|discriminate]; intros [=<-];
         split; [cbn; congruence|split; [cbn; unfold nlen in *; rewrite app_length; cbn; lia|]];
         exists sent; split; [unfold in_hand; cbn [k_queued k_pc k_queue]; rewrite HQ, <- !app_assoc; reflexivity
         |split; [exact HU|exists n; exact HW]]).
  intros [=<-]. split; [cbn; congruence|split; [cbn; lia|]].
  exists sent. unfold in_hand in *. cbn. rewrite HQ, (HP eq_refl).
  split; [now rewrite !app_nil_r|]. split; [exact HU|exists n; exact HW].
Qed.

Lemma firstn_prefix {A} (l m : list A) n : firstn n l = firstn (Nat.min n (length l)) (l ++ m).
Proof.
  rewrite firstn_app. replace (Nat.min n (length l) - length l)%nat with 0%nat by lia.
  cbn. rewrite app_nil_r. destruct (Nat.le_ge_cases n (length l)).
  - now rewrite Nat.min_l.
  - rewrite Nat.min_r by auto. rewrite firstn_all, firstn_all2; auto.
Qed.

Lemma fifo_send k o k' : fifo k -> sender_step k o = Ok k' -> fifo k'.
Proof.
  intros (HP & HL & sent & HQ & HU & n & HW) H. unfold sender_step in H. destruct (k_pc k) eqn:EP.
  - injection H as <-. split; [congruence|]. split; [auto|]. exists sent; eauto.
  - injection H as <-. unfold fifo, in_hand in *. rewrite EP in HQ. cbn. split; [destruct (k_flag k); discriminate|].
    split; [auto|]. exists sent. destruct (k_flag k); cbn; eauto.
  - unfold in_hand in HQ. rewrite EP in HQ. destruct (k_queue k) as [|p q] eqn:EQ; injection H as <-.
    + unfold fifo, in_hand. cbn. rewrite EQ. split; [auto|]. split; [cbn; lia|]. exists sent; eauto.
    + unfold fifo, in_hand. cbn. split; [discriminate|].
      split; [unfold nlen in *; cbn in HL; lia|]. exists sent; eauto.
  - injection H as <-. split; [auto|]. split; [auto|]. exists sent; eauto.
  - destruct (encode p) as [b|e|] eqn:EB; [|destruct e|discriminate]. cbn in H.
    unfold in_hand in HQ. rewrite EP in HQ. rewrite app_assoc in HQ.
    assert (EW : wire_of (sent ++ [p]) = wire_of sent ++ b).
    { rewrite wire_of_app. cbn. rewrite EB, app_nil_r. reflexivity. }
    destruct (k_up k) eqn:EU; [destruct o as [|m]|]; injection H as <-;
      (unfold fifo, in_hand; cbn; split; [discriminate|]; split; [auto|]; exists (sent ++ [p]);
       split; [exact HQ|]; split; [intros; try discriminate|]).
    + rewrite EW, HU; auto.
    + exists (length (wire_of (sent ++ [p]))). rewrite firstn_all, EW, HU; auto.
    + rewrite (HU eq_refl). exists (length (wire_of sent) + m)%nat. rewrite EW, firstn_app_2. reflexivity.
    + rewrite HW, EW. exists (Nat.min n (length (wire_of sent))). apply firstn_prefix.
  - injection H as <-. split; [congruence|]. split; [auto|]. exists sent; eauto.
Qed.

Lemma fifo_step srv k k' : shape k /\ fifo k -> kstep srv k k' -> shape k' /\ fifo k'.
Proof.
  intros [HK HF] HS. split; [eapply shape_step; eauto|].
  destruct HS as [A B|A|ca ch c prog A B C D|v r A|p r k1 A B|r A|r A|r A|A B C|o k' A|p k' A]; try exact HF.
  - assert (E : k_pc k = SNone).
    { unfold shape in HK. destruct A as [[A _]|A]; rewrite A in HK; tauto. }
    destruct HF as (HP & HL & sent & HQ & HU & HW). unfold fifo, in_hand in *. rewrite E in HQ. cbn.
    split; [discriminate|]. split; [auto|]. exists sent; auto.
  - exact (fifo_put _ _ _ HF B).
  - destruct HF as (HP & HL & sent & HQ & HU & HW). unfold fifo, in_hand in *. destruct (k_pc k) eqn:EP; cbn; rewrite ?EP;
      (split; [auto; discriminate|split; [exact HL|exists sent; auto]]).
  - exact (fifo_send _ _ _ HF A).
  - exact (fifo_put _ _ _ HF A).
Qed.
Lemma fifo_run srv sched w : nrun srv empty_net sched = Ok w ->
  forall i k, nth_error (n_conns w) i = Some k -> fifo k.
Proof.
  intros H i k Hk.
  apply (conn_inv srv (fun k => shape k /\ fifo k)) with (4 := H) (5 := Hk); [|apply fifo_step|apply empty_conns].
  intros tr. split; [apply shape_new|]. unfold fifo. cbn. split; [auto|]. split; [lia|]. exists [].
  split; [reflexivity|]. split; [reflexivity|]. now exists 0%nat.
Qed.
