(** Lemmas about the notifier and a router whose connection has ended. *)
From Coq Require Import ZArith ZifyBool ZifyNat ZifyN.
From Verif Require Import Model.Concurrent Spec.Response Spec.Net Spec.Conversation Spec.Answered Spec.Reached Spec.Gone Proofs.ConnP Proofs.ConcCacheP
  Proofs.NetP Proofs.NetP2 Proofs.NetP3 Proofs.NetP4 Proofs.ConversationP Proofs.AnsweredP Proofs.ReachedP.
From Coq Require Import List.
Import ListNotations.
Local Open Scope N_scope.

(** * Whom the notifier has yet to reach *)
Definition todo (n : notifier) : list nat :=
  match n with NIdle => [] | NLoop _ r => r | NSess _ _ i r | NPut _ _ i r => i :: r end.
Definition up_at (w : net) (i : nat) : Prop := exists k, nth_error (n_conns w) i = Some k /\ started k.
Definition aimed (w : net) : Prop := (forall i, In i (n_clients w) -> up_at w i) /\ (forall i, In i (todo (n_notif w)) -> up_at w i).
Lemma up_step srv w l w' i : nstep srv w l = Ok w' -> up_at w i -> up_at w' i.
Proof.
  intros H HU. apply nstep_cstep in H. unfold up_at in *. destruct H as
    [E1 E2 E3|tr E0 EM E1 E2 E3|j k Hj Ht E2 (ph & d & HD & E1 & E3)|j k Hj Hp E1 E2 E3|j k r Hj Hp E1 E2 E3|j k Hj Hp Hg Hf E1 E2 E3].
  - destruct E3 as [->|(j & k & k' & Hj & -> & P1 & _)]; [exact HU|]. eapply set_nth_keep; eauto. unfold started. now rewrite P1.
  - destruct HU as (k & G1 & G2). exists k. split; [|exact G2]. rewrite E3, nth_error_app1; [exact G1|]. apply nth_error_Some. congruence.
  - rewrite E3. eapply set_nth_keep; eauto. unfold started. cbn [k_set_phase k_phase].
    destruct HD as [(A & -> & _)|(_ & _ & _ & -> & _)]; [rewrite A; intros [X|X]; discriminate X|intros _; right; reflexivity].
  - rewrite E3. eapply set_nth_keep; eauto. intros _. left. reflexivity.
  - rewrite E3. eapply set_nth_keep; eauto.
  - rewrite E3. eapply set_nth_keep; eauto. intros _. right. reflexivity.
Qed.
Lemma clients_step srv w l w' i : nstep srv w l = Ok w' -> In i (n_clients w') -> In i (n_clients w) \/ up_at w' i.
Proof.
  intros H HI. apply nstep_cstep in H. destruct H as
    [E1 E2 E3|tr E0 EM E1 E2 E3|j k Hj Ht E2 _|j k Hj Hp E1 E2 E3|j k r Hj Hp E1 E2 E3|j k Hj Hp Hg Hf E1 E2 E3];
    rewrite E2 in HI; auto.
  - apply in_app_iff in HI. destruct HI as [HI|[<-|[]]]; [left; exact HI|right]. unfold up_at. rewrite E3.
    eexists. split; [apply set_nth_same, nth_error_Some; congruence|left; reflexivity].
  - apply filter_In in HI. left. apply HI.
Qed.
Lemma todo_step srv w l w' i : nstep srv w l = Ok w' -> In i (todo (n_notif w')) -> In i (todo (n_notif w)) \/ In i (n_clients w).
Proof.
  intros H. assert (SAME : n_notif w' = n_notif w -> In i (todo (n_notif w')) -> In i (todo (n_notif w)) \/ In i (n_clients w)) by (intros ->; auto).
  destruct l; cbn [nstep] in H.
  - apply SAME. destruct (_ && _)%bool; injection H as <-; reflexivity.
  - apply SAME. destruct (nth_error (n_conns w) i0) as [k0|]; [|injection H as <-; reflexivity]. destruct (k_phase k0), (k_tr k0); injection H as <-; reflexivity.
  - apply SAME. destruct (nth_error (n_conns w) i0) as [k0|]; [|injection H as <-; reflexivity]. destruct (k_phase k0), (k_tr k0); injection H as <-; reflexivity.
  - apply SAME. destruct (nth_error (n_conns w) i0) as [k0|]; [|injection H as <-; reflexivity].
    destruct (k_phase k0), (k_prog k0), (k_flag k0); try (injection H as <-; reflexivity).
    destruct (read_ops srv cache (k_cli k0) chunk) as [r|e|]; [|destruct e|discriminate]. injection H as <-; reflexivity.
  - apply SAME. destruct (nth_error (n_conns w) i0) as [k0|]; [|injection H as <-; reflexivity]. injection H as <-. unfold reader_step.
    destruct (k_prog k0) as [|[v|p| | |] r]; try reflexivity. destruct (put k0 p); reflexivity.
  - apply SAME. destruct (nth_error (n_conns w) i0) as [k0|]; [|injection H as <-; reflexivity].
    destruct (k_phase k0), (k_prog k0), (k_flag k0); injection H as <-; reflexivity.
  - apply SAME. destruct (nth_error (n_conns w) i0) as [k0|]; [|injection H as <-; reflexivity].
    destruct (sender_step k0 o) as [r|e|]; [|destruct e|discriminate]. injection H as <-; reflexivity.
  - destruct (n_notif w) eqn:EN; injection H as <-; try (rewrite EN; auto). cbn [n_notif todo]. auto.
  - unfold notifier_step in H. destruct (n_notif w) as [|serial [|j rest]|serial sess j rest|p serial j rest] eqn:EN.
    + injection H as <-. rewrite EN. auto.
    + injection H as <-. cbn [n_notif todo In]. auto.
    + destruct (nth_error (n_conns w) j) as [k0|]; [|injection H as <-; rewrite EN; auto].
      destruct (get_session_id srv (k_ver k0)) as [x|e|]; [|destruct e|discriminate]. injection H as <-. cbn [n_notif todo]. auto.
    + destruct (nth_error (n_conns w) j) as [k0|]; injection H as <-; [cbn [n_notif todo]|rewrite EN]; auto.
    + destruct (nth_error (n_conns w) j) as [k0|]; [|injection H as <-; rewrite EN; auto].
      destruct (put k0 p); injection H as <-; [cbn [n_notif todo In]|rewrite EN]; auto.
Qed.
Lemma aimed_run srv sched w : nrun srv empty_net sched = Ok w -> aimed w.
Proof.
  apply nrun_inv.
  - intros w0 l w1 (A & B) H. split; intros i HI.
    + destruct (clients_step srv w0 l w1 i H HI) as [G|G]; [|exact G]. eapply up_step; eauto.
    + destruct (todo_step srv w0 l w1 i H HI) as [G|G]; eapply up_step; eauto.
  - split; intros i [].
Qed.

(** * Nobody empties the channel any more *)
Lemma put_none k p : k_pc k <> SParked -> 256 <= nlen (k_queue k) -> put k p = None.
Proof. intros H1 H2. unfold put. replace (nlen (k_queue k) <? 256) with false by lia. destruct (k_pc k); try reflexivity. congruence. Qed.
Lemma put_some k p : room k -> exists k', put k p = Some k'.
Proof. intros HR. destruct (room_put k p HR) as (k' & E & _). eauto. Qed.
Definition deaf (k : conn) : Prop := unattended k /\ started k.
Lemma deaf_pc k : deaf k -> k_pc k <> SParked.
Proof. intros ((_ & [E|(_ & [E|(q & E)])]) & _); rewrite E; discriminate. Qed.
Lemma deaf_step srv w l w' i k : nth_error (n_conns w) i = Some k -> deaf k -> nstep srv w l = Ok w' ->
  exists k', nth_error (n_conns w') i = Some k' /\ deaf k'.
Proof.
  intros Hi HF H. pose proof HF as ((HQ & HP) & HR).
  assert (LT : (i < length (n_conns w))%nat) by (apply nth_error_Some; congruence).
  assert (SAME : @Ok net Empty_set w = Ok w' -> exists k', nth_error (n_conns w') i = Some k' /\ deaf k').
  { intros [=<-]. eauto. }
  assert (SET : forall k1, n_conns w' = set_nth (n_conns w) i k1 -> deaf k1 -> exists k', nth_error (n_conns w') i = Some k' /\ deaf k').
  { intros k1 E HK. exists k1. split; [rewrite E; apply set_nth_same; exact LT|exact HK]. }
  assert (PU : forall p, put k p = None) by (intros p; apply put_none; [now apply deaf_pc|exact HQ]).
  destruct (notifier_dec l) as [->|DN].
  { destruct (n_notif w) as [|serial [|j rest]|serial sess j rest|p serial j rest] eqn:EN;
      try (eexists; split; [refine (nstep_other _ _ _ _ _ _ H Hi _ _); [intros []|intros _ p0 s0 r0; congruence]|exact HF]).
    destruct (Nat.eq_dec j i) as [->|NE].
    - cbn in H. unfold notifier_step in H. rewrite EN, Hi, PU in H. auto.
    - eexists; split; [refine (nstep_other _ _ _ _ _ _ H Hi _ _); [intros []|intros _ p0 s0 r0; congruence]|exact HF]. }
  destruct (focus_dec l i) as [DF|DF].
  2:{ eexists; split; [eapply nstep_other; eauto; congruence|exact HF]. }
  destruct l; cbn [focus] in DF; try contradiction; subst i0; cbn [nstep] in H; rewrite Hi in H.
  - destruct HR as [HR|HR]; rewrite HR in H; auto.
  - destruct HR as [HR|HR]; rewrite HR in H; auto.
  - destruct HR as [HR|HR]; rewrite HR in H; auto. destruct (k_prog k), (k_flag k) eqn:EF; auto.
    destruct (read_ops srv cache (k_cli k) chunk) as [r|e|]; [|destruct e|discriminate]. injection H as <-.
    eapply SET; [reflexivity|]. split; [split; [exact HQ|]|left; exact HR]. cbn [k_set_read k_pc k_flag]. rewrite EF. exact HP.
  - injection H as H. unfold reader_step in H. destruct (k_prog k) as [|[v|p0| | |] r]; subst w'.
    + auto.
    + eapply SET; [reflexivity|]. exact HF.
    + rewrite PU in *. auto.
    + eapply SET; [reflexivity|]. split; [split; [exact HQ|]|exact HR]. cbn [k_set_prog k_set_flag k_pc k_flag]. tauto.
    + eapply SET; [reflexivity|]. exact HF.
    + pose proof (deaf_pc k HF) as NP. eapply SET; [reflexivity|].
      replace (match k_pc k with SParked => k_set_pc SDone k | _ => k end) with k by (destruct (k_pc k); congruence). exact HF.
  - destruct HR as [HR|HR]; rewrite HR in H; auto. destruct (k_prog k), (k_flag k) eqn:EF; auto. injection H as <-.
    eapply SET; [reflexivity|]. split; [split; [exact HQ|]|right; reflexivity]. cbn [k_set_phase k_pc k_flag]. rewrite EF. exact HP.
  - destruct (sender_step k o) as [k1|e|] eqn:ES; [|destruct e|discriminate H]. cbn [bind] in H. injection H as <-.
    eapply SET; [reflexivity|]. unfold sender_step in ES. destruct HP as [E|(F & [E|(q & E)])]; rewrite E in ES.
    + injection ES as <-. exact HF.
    + injection ES as <-. rewrite F. split; [split; [exact HQ|left; reflexivity]|exact HR].
    + destruct (encode q) as [b|e|]; [|destruct e|discriminate ES]. cbn [bind] in ES. injection ES as <-.
      assert (G : forall b up, deaf (k_set_wire b up k)).
      { intros b0 up. split; [split; [exact HQ|right; split; [exact F|left; reflexivity]]|exact HR]. }
      destruct (k_up k); [destruct o|]; apply G.
Qed.
Lemma deaf_run srv p serial i rest : forall sched w w' k, n_notif w = NPut p serial i rest -> nth_error (n_conns w) i = Some k -> deaf k ->
  nrun srv w sched = Ok w' -> n_notif w' = NPut p serial i rest /\ exists k', nth_error (n_conns w') i = Some k' /\ deaf k'.
Proof.
  induction sched as [|l r IH]; intros w w' k HN Hi HD H; cbn in H; [injection H as <-; eauto|].
  destruct (nstep srv w l) as [w1|e|] eqn:E; [|destruct e|discriminate]. cbn in H.
  destruct (deaf_step srv w l w1 i k Hi HD E) as (k1 & Hi1 & HD1). apply (IH w1 w' k1); auto.
  destruct (notifier_dec l) as [->|D].
  - cbn in E. unfold notifier_step in E. rewrite HN, Hi in E. rewrite put_none in E; [|now apply deaf_pc|apply HD]. now injection E as <-.
  - rewrite <- HN. eapply nstep_notif; eauto. congruence.
Qed.

(** * Otherwise the notifier can go on *)
Lemma notifier_room srv w p serial i rest k : n_notif w = NPut p serial i rest -> nth_error (n_conns w) i = Some k -> room k ->
  exists w', nstep srv w LNotifier = Ok w' /\ n_notif w' = NLoop serial rest.
Proof.
  intros HN Hi HR. destruct (put_some k p HR) as (k' & E). cbn [nstep]. unfold notifier_step. rewrite HN, Hi, E. eexists. split; reflexivity.
Qed.
Lemma notifier_blocked srv w p serial i rest k : n_notif w = NPut p serial i rest -> nth_error (n_conns w) i = Some k -> ~ room k ->
  nstep srv w LNotifier = Ok w.
Proof.
  intros HN Hi HR. cbn [nstep]. unfold notifier_step. rewrite HN, Hi, put_none; [reflexivity| |].
  - intros E. apply HR. now left.
  - destruct (N.lt_ge_cases (nlen (k_queue k)) 256); [exfalso; apply HR; now right|assumption].
Qed.
Lemma send_one srv w i k o k' : nth_error (n_conns w) i = Some k -> sender_step k o = Ok k' ->
  nstep srv w (LSender i o) = Ok (with_conn w i k') /\ nth_error (n_conns (with_conn w i k')) i = Some k' /\ n_notif (with_conn w i k') = n_notif w.
Proof.
  intros Hi E. cbn [nstep]. rewrite Hi, E. split; [reflexivity|]. split; [|reflexivity].
  apply set_nth_same, nth_error_Some. congruence.
Qed.
Definition capped (k : conn) : Prop := nlen (k_queue k) <= 256.
Lemma capped_put k p k' : capped k -> put k p = Some k' -> capped k'.
Proof.
  unfold capped, put. intros HC H. destruct (k_pc k), (nlen (k_queue k) <? 256) eqn:E; try discriminate H; injection H as <-; cbn [k_queue];
    try exact HC; unfold nlen in *; rewrite app_length; cbn [length]; lia.
Qed.
Lemma capped_send k o k' : capped k -> sender_step k o = Ok k' -> capped k'.
Proof.
  unfold capped, sender_step. intros HC H. destruct (k_pc k).
  - injection H as <-. exact HC.
  - injection H as <-. exact HC.
  - destruct (k_queue k) as [|q l] eqn:E; injection H as <-; cbn [k_set_pc k_set_queue k_queue]; [rewrite E; exact HC|].
    unfold nlen in *. cbn [length] in HC. lia.
  - injection H as <-. exact HC.
  - destruct (encode p) as [b|e|]; [|destruct e|discriminate H]. cbn [bind] in H. injection H as <-.
    destruct (k_up k); [destruct o|]; exact HC.
  - injection H as <-. exact HC.
Qed.
Lemma capped_step srv k k' : capped k -> kstep srv k k' -> capped k'.
Proof.
  intros HK HS. destruct HS as [A B|A|ca ch c prog A B C D|v r A|p r k1 A B|r A|r A|r A|A B C|o k' A|p k' A]; try exact HK.
  - pose proof (capped_put _ _ _ HK B) as G. exact G.
  - destruct (k_pc k); exact HK.
  - eapply capped_send; eauto.
  - eapply capped_put; eauto.
Qed.
Lemma capped_run srv sched w : nrun srv empty_net sched = Ok w -> forall i k, nth_error (n_conns w) i = Some k -> capped k.
Proof.
  apply conn_inv; [intros tr; unfold capped; cbn; lia|apply capped_step|apply empty_conns].
Qed.
(** Three steps of the sender at most, then one of the notifier. *)
Lemma attended srv w p serial i rest k : n_notif w = NPut p serial i rest -> nth_error (n_conns w) i = Some k ->
  capped k -> k_pc k <> SNone -> Forall enc_ok (in_hand k) -> ~ unattended k ->
  exists n w', (n <= 3)%nat /\ nrun srv w (repeat (LSender i WAll) n ++ [LNotifier]) = Ok w' /\ n_notif w' = NLoop serial rest.
Proof.
  intros HN Hi HC HS HE HU. destruct (N.lt_ge_cases (nlen (k_queue k)) 256) as [HQ|HQ].
  { destruct (notifier_room srv w p serial i rest k HN Hi) as (w' & E1 & E2); [now right|]. exists 0%nat, w'. cbn [repeat app nrun]. rewrite E1. cbn [bind]. repeat split; auto. }
  assert (ENT : forall w k, n_notif w = NPut p serial i rest -> nth_error (n_conns w) i = Some k -> capped k -> 256 <= nlen (k_queue k) -> k_pc k = SEnter ->
    exists w', nrun srv w [LSender i WAll; LNotifier] = Ok w' /\ n_notif w' = NLoop serial rest).
  { clear. intros w k HN Hi HC HQ EP. unfold capped in HC. destruct (k_queue k) as [|q l] eqn:EQ; [unfold nlen in HQ; cbn in HQ; lia|].
    assert (ES : sender_step k WAll = Ok (k_set_queue l (SWrite q) k)) by (unfold sender_step; rewrite EP, EQ; reflexivity).
    destruct (send_one srv w i k WAll _ Hi ES) as (E1 & E2 & E3). rewrite HN in E3.
    destruct (notifier_room srv _ p serial i rest _ E3 E2) as (w' & E4 & E5).
    { right. cbn [k_set_queue k_queue]. unfold nlen in *. cbn [length] in HC. lia. }
    exists w'. cbn [nrun]. rewrite E1. cbn [bind]. rewrite E4. cbn [bind]. auto. }
  assert (CHK : forall w k, n_notif w = NPut p serial i rest -> nth_error (n_conns w) i = Some k -> capped k -> 256 <= nlen (k_queue k) -> k_pc k = SCheck -> k_flag k = true ->
    exists w', nrun srv w [LSender i WAll; LSender i WAll; LNotifier] = Ok w' /\ n_notif w' = NLoop serial rest).
  { clear - ENT. intros w k HN Hi HC HQ EP EF.
    assert (ES : sender_step k WAll = Ok (k_set_pc SEnter k)) by (unfold sender_step; rewrite EP, EF; reflexivity).
    destruct (send_one srv w i k WAll _ Hi ES) as (E1 & E2 & E3). rewrite HN in E3.
    destruct (ENT _ _ E3 E2 HC HQ eq_refl) as (w' & E4 & E5). exists w'. split; [|exact E5].
    change (nrun srv w [LSender i WAll; LSender i WAll; LNotifier]) with (bind (nstep srv w (LSender i WAll)) (fun w' => nrun srv w' [LSender i WAll; LNotifier])).
    rewrite E1. exact E4. }
  destruct (k_pc k) eqn:EP.
  - congruence.
  - destruct (k_flag k) eqn:EF; [|exfalso; apply HU; split; [exact HQ|right; split; [exact EF|left; exact EP]]].
    destruct (CHK w k HN Hi HC HQ EP EF) as (w' & E1 & E2). exists 2%nat, w'. cbn [repeat app]. repeat split; auto.
  - destruct (ENT w k HN Hi HC HQ EP) as (w' & E1 & E2). exists 1%nat, w'. cbn [repeat app]. repeat split; auto.
  - destruct (notifier_room srv w p serial i rest k HN Hi) as (w' & E1 & E2); [now left|]. exists 0%nat, w'. cbn [repeat app nrun]. rewrite E1. cbn [bind]. repeat split; auto.
  - destruct (k_flag k) eqn:EF; [|exfalso; apply HU; split; [exact HQ|right; split; [exact EF|right; eauto]]].
    unfold in_hand in HE. rewrite EP in HE. inversion HE as [|x y HX _]. subst x y. unfold enc_ok in HX.
    destruct (encode p0) as [b|e|] eqn:EE; [|destruct e|congruence].
    assert (ES : exists k1, sender_step k WAll = Ok k1 /\ k_queue k1 = k_queue k /\ k_pc k1 = SCheck /\ k_flag k1 = k_flag k).
    { unfold sender_step. rewrite EP, EE. cbn [bind]. destruct (k_up k); eexists; repeat split; reflexivity. }
    destruct ES as (k1 & ES & EQ1 & EP1 & EF1).
    destruct (send_one srv w i k WAll _ Hi ES) as (E1 & E2 & E3). rewrite HN in E3.
    destruct (CHK _ k1 E3 E2) as (w' & E4 & E5); [unfold capped; rewrite EQ1; exact HC|rewrite EQ1; exact HQ|exact EP1|congruence|].
    exists 3%nat, w'. split; [lia|]. split; [|exact E5]. cbn [repeat app].
    change (bind (nstep srv w (LSender i WAll)) (fun w' => nrun srv w' [LSender i WAll; LSender i WAll; LNotifier]) = Ok w').
    rewrite E1. exact E4.
  - exfalso. apply HU. split; [exact HQ|left; exact EP].
Qed.

(** * Readers send no Serial Notify *)
Definition hush (a : list act) : Prop := forall q, In (Queue q) a -> is_notify q = false.
Definition hush_op (o : op) : Prop := match o with OPut p => is_notify p = false | _ => True end.
Lemma hush_nil : hush []. Proof. intros q []. Qed.
Lemma hush_app a b : hush a -> hush b -> hush (a ++ b).
Proof. intros A B q HI. apply in_app_or in HI. destruct HI; auto. Qed.
Lemma hush_ops a : hush a -> Forall hush_op (ops a).
Proof.
  intros H. apply Forall_forall. intros o Ho. apply in_flat_map in Ho as (x & Hx & Ho).
  destruct x; cbn in Ho; [destruct Ho as [<-|[]]; cbn; auto|]. destruct Ho as [<-|[<-|[<-|[]]]]; exact I.
Qed.
Lemma hush_bye c c1 : hush (send_wrong_version_error c ++ snd (disconnect c1)).
Proof. intros q HI. cbn in HI. destruct HI as [E|[E|[]]]; [injection E as <-; reflexivity|discriminate E]. Qed.
Lemma hush_data c d : hush (send_data c d).
Proof.
  intros q. unfold send_data, send_pdu. destruct d as [pp aa mm ff|aa ss kk ff].
  - destruct (is6 (p_addr pp)); [intros [E|[]]; injection E as <-; reflexivity|]. destruct (is4 (p_addr pp)); [intros [E|[]]; injection E as <-; reflexivity|intros []].
  - destruct ((c_version c =? 0) || c_noBGPsec c); [intros []|]. intros [E|[]]; injection E as <-. reflexivity.
Qed.
Lemma hush_sds c sess serial l : hush (send_sds c sess serial l).
Proof.
  intros q. unfold send_sds. rewrite !in_app_iff. intros [[E|[]]|[H|[E|[]]]]; [injection E as <-; reflexivity| |injection E as <-; reflexivity].
  apply in_flat_map in H as (d & _ & H). eapply hush_data; eauto.
Qed.
Lemma hush_pass srv cache c p c' a : pass_simple_handler srv cache c p = Ok (c', a) -> hush a.
Proof.
  destruct p; cbn [pass_simple_handler]; try (intros [=<- <-] q []; fail).
  - unfold request_new_version, get_session_id. destruct (nth_error _ _) as [ss|]; cbn [bind]; [|discriminate].
    destruct (negb (sess =? ss)).
    + cbn [disconnect]. intros [=<- <-] q [E|[E|[]]]; [|discriminate]. injection E as <-. reflexivity.
    + destruct (get_current_serial cache) as [n valid]. destruct valid; cbn [negb].
      * destruct (get_sds_serial_diff cache serial) as [dd|e|]; [| |discriminate]; intros [=<- <-]; [apply hush_sds|].
        intros q [E|[]]. injection E as <-. reflexivity.
      * intros [=<- <-] q [E|[]]. injection E as <-. reflexivity.
  - unfold request_cache, get_session_id. destruct (nth_error _ _) as [ss|]; cbn [bind]; [|discriminate].
    destruct (get_current_serial cache) as [n valid]. destruct valid; cbn [negb]; intros [=<- <-]; [apply hush_sds|].
    intros q [E|[]]. injection E as <-. reflexivity.
Qed.
Lemma read_hush srv cache c chunk c' l : read_ops srv cache c chunk = Ok (c', l) -> Forall hush_op l.
Proof.
  assert (D : Forall hush_op (ops (snd (disconnect c)))) by (apply hush_ops; intros q [E|[]]; discriminate E).
  intros H. unfold read_ops in H. destruct chunk as [|b0 chunk]; [injection H as <- <-; exact D|].
  destruct (decode_bytes 64 (b0 :: chunk)) as [p|e|]; [|injection H as <- <-; exact D|discriminate H].
  unfold process_ops in H.
  destruct (if c_disableVC c then (c, []) else check_version c (get_version p)) as [c1 a1] eqn:E1.
  match type of H with (let '(_, _) := ?x in _) = _ => destruct x as [c2 a2] eqn:E2 end.
  match type of H with (let '(_, _) := ?x in _) = _ => destruct x as [c4 a4] eqn:E4 end.
  destruct (pass_simple_handler srv cache c4 p) as [r|e|] eqn:E5; [|destruct e|discriminate]. cbn [bind] in H. injection H as <- <-.
  assert (H1 : hush a1).
  { destruct (c_disableVC c); [injection E1 as _ <-; apply hush_nil|]. unfold check_version in E1.
    destruct (_ && _)%bool; injection E1 as _ <-; [apply hush_nil|apply (hush_bye c c)]. }
  assert (H2 : hush a2).
  { destruct (c_enforce c1); [|injection E2 as _ <-; apply hush_nil]. destruct (negb _); [injection E2 as _ <-; apply (hush_bye c1 c1)|injection E2 as _ <-; apply hush_nil]. }
  assert (H4 : hush a4).
  { unfold server_handle_pdu in E4. set (c3 := match p with SerialQuery _ _ serial => c_set_curserial serial c2 | _ => c2 end) in *. clearbody c3.
    destruct (s_enforce srv && negb (c_version c3 =? baseVersion srv)); injection E4 as _ <-; [apply (hush_bye c3 c3)|apply hush_nil]. }
  assert (H5 : hush (snd r)) by (destruct r; eapply hush_pass; exact E5).
  constructor; [exact I|]. apply Forall_app. split; [now apply hush_ops|]. apply Forall_app. split; [now apply hush_ops|].
  apply Forall_app. split; [now apply hush_ops|]. constructor; [exact I|]. now apply hush_ops.
Qed.
Definition hushed (k : conn) : Prop := Forall hush_op (k_prog k).
Lemma hushed_step srv k k' : hushed k -> kstep srv k k' -> hushed k'.
Proof.
  unfold hushed. intros HK HS. destruct HS as [A B|A|ca ch c prog A B C D|v r A|p r k1 A B|r A|r A|r A|A B C|o k' A|p k' A]; try exact HK;
    try (rewrite A in HK; inversion HK; subst; assumption).
  - exact (read_hush _ _ _ _ _ _ D).
  - destruct (send_shape _ _ _ A) as (_ & -> & _). exact HK.
  - destruct (put_shape _ _ _ A) as (_ & -> & _). exact HK.
Qed.
Lemma hushed_run srv sched w : nrun srv empty_net sched = Ok w -> forall i k, nth_error (n_conns w) i = Some k -> hushed k.
Proof. apply conn_inv; [intros tr; constructor|apply hushed_step|apply empty_conns]. Qed.

(** * Nobody is notified any more *)
Definition as_told (w w' : net) : Prop := forall j k', nth_error (n_conns w') j = Some k' ->
  notes k' = match nth_error (n_conns w) j with Some k => notes k | None => [] end.
Lemma as_told_refl w : as_told w w.
Proof. intros j k' E. now rewrite E. Qed.
Lemma as_told_set w w' i k k' : nth_error (n_conns w) i = Some k -> n_conns w' = set_nth (n_conns w) i k' -> notes k' = notes k -> as_told w w'.
Proof.
  intros Hi E EN j kj Hj. rewrite E in Hj. destruct (nth_set_nth _ _ _ _ _ Hj) as [(-> & -> & _)|(_ & G)]; [rewrite Hi; exact EN|now rewrite G].
Qed.
Lemma as_told_step srv w l w' : (forall i k, nth_error (n_conns w) i = Some k -> hushed k) -> l <> LNotifier -> nstep srv w l = Ok w' -> as_told w w'.
Proof.
  intros HH HL H.
  assert (SAME : @Ok net Empty_set w = Ok w' -> as_told w w') by (intros [=<-]; apply as_told_refl).
  destruct l; cbn [nstep] in H; try congruence.
  - destruct (_ && _)%bool; [auto|]. injection H as <-. intros j k' Hj. cbn [n_conns] in Hj.
    destruct (Nat.lt_ge_cases j (length (n_conns w))) as [LT|GE].
    + rewrite nth_error_app1 in Hj by exact LT. now rewrite Hj.
    + rewrite nth_error_app2 in Hj by exact GE. replace (nth_error (n_conns w) j) with (@None conn) by (symmetry; apply nth_error_None; exact GE).
      destruct (j - length (n_conns w))%nat as [|m]; [injection Hj as <-; reflexivity|destruct m; discriminate Hj].
  - destruct (nth_error (n_conns w) i) as [k|] eqn:Ei; [|auto]. destruct (k_phase k), (k_tr k); auto. injection H as <-. eapply as_told_set; [exact Ei|reflexivity|reflexivity].
  - destruct (nth_error (n_conns w) i) as [k|] eqn:Ei; [|auto]. destruct (k_phase k), (k_tr k); auto; injection H as <-; (eapply as_told_set; [exact Ei|reflexivity|reflexivity]).
  - destruct (nth_error (n_conns w) i) as [k|] eqn:Ei; [|auto]. destruct (k_phase k), (k_prog k), (k_flag k); auto.
    destruct (read_ops srv cache (k_cli k) chunk) as [r|e|]; [|destruct e|discriminate]. injection H as <-. eapply as_told_set; [exact Ei|reflexivity|reflexivity].
  - destruct (nth_error (n_conns w) i) as [k|] eqn:Ei; [|auto]. injection H as <-. unfold reader_step. pose proof (HH i k Ei) as HK. unfold hushed in HK.
    destruct (k_prog k) as [|[v|p| | |] r]; try (eapply as_told_set; [exact Ei|reflexivity|reflexivity]); [apply as_told_refl| |].
    + destruct (put k p) as [k1|] eqn:EU; [|apply as_told_refl]. eapply as_told_set; [exact Ei|reflexivity|].
      change (notes (k_set_prog r k1)) with (notes k1). destruct (put_queued _ _ _ EU) as [Q1 _]. rewrite (notes_app k k1 [p] Q1). cbn [filter].
      inversion HK as [|x y HX _]; subst x y. cbn [hush_op] in HX. rewrite HX. apply app_nil_r.
    + eapply as_told_set; [exact Ei|reflexivity|]. destruct (k_pc k); reflexivity.
  - destruct (nth_error (n_conns w) i) as [k|] eqn:Ei; [|auto]. destruct (k_phase k), (k_prog k), (k_flag k); auto. injection H as <-. eapply as_told_set; [exact Ei|reflexivity|reflexivity].
  - destruct (nth_error (n_conns w) i) as [k|] eqn:Ei; [|auto]. destruct (sender_step k o) as [k1|e|] eqn:ES; [|destruct e|discriminate].
    injection H as <-. eapply as_told_set; [exact Ei|reflexivity|]. destruct (send_queued _ _ _ ES) as [Q1 _]. unfold notes. now rewrite Q1.
  - destruct (n_notif w); auto. injection H as <-. exact (as_told_refl w).
Qed.
Lemma as_told_trans a b c : (forall j, nth_error (n_conns a) j <> None -> nth_error (n_conns b) j <> None) -> as_told a b -> as_told b c -> as_told a c.
Proof.
  intros HM A B j k Hj. rewrite (B j k Hj). destruct (nth_error (n_conns b) j) as [kb|] eqn:E; [exact (A j kb E)|].
  destruct (nth_error (n_conns a) j) eqn:EA; [|reflexivity]. exfalso. apply (HM j); congruence.
Qed.
Lemma conns_stay srv w l w' j : nstep srv w l = Ok w' -> nth_error (n_conns w) j <> None -> nth_error (n_conns w') j <> None.
Proof.
  intros H. rewrite !nth_error_Some. apply nstep_cstep in H. destruct H as
    [E1 E2 E3|tr E0 EM E1 E2 E3|i k Hj Ht E2 (ph & d & HD & E1 & E3)|i k Hj Hp E1 E2 E3|i k r Hj Hp E1 E2 E3|i k Hj Hp Hg Hf E1 E2 E3];
    try (rewrite E3, ?set_nth_length, ?app_length; lia).
  destruct E3 as [->|(i & k & k' & Hj & -> & _)]; rewrite ?set_nth_length; lia.
Qed.
Lemma silence srv p serial i rest : forall sched w w' k, (forall i k, nth_error (n_conns w) i = Some k -> hushed k) ->
  n_notif w = NPut p serial i rest -> nth_error (n_conns w) i = Some k -> deaf k -> nrun srv w sched = Ok w' -> as_told w w'.
Proof.
  induction sched as [|l r IH]; intros w w' k HH HN Hi HD H; cbn in H; [injection H as <-; apply as_told_refl|].
  destruct (nstep srv w l) as [w1|e|] eqn:E; [|destruct e|discriminate]. cbn [bind] in H.
  destruct (deaf_run srv p serial i rest [l] w w1 k HN Hi HD) as (HN1 & k1 & Hi1 & HD1); [cbn; rewrite E; reflexivity|].
  assert (HH1 : forall i k, nth_error (n_conns w1) i = Some k -> hushed k).
  { intros j kj Hj. destruct (nstep_from srv w l w1 E j kj Hj) as [(k0 & Hk0 & [->|HS])|(tr & -> & _)]; [eauto|eapply hushed_step; eauto|constructor]. }
  apply (as_told_trans w w1 w'); [intros j; now apply conns_stay with srv l| |exact (IH w1 w' k1 HH1 HN1 Hi1 HD1 H)].
  destruct (notifier_dec l) as [->|D]; [|eapply as_told_step; eauto].
  cbn in E. unfold notifier_step in E. rewrite HN, Hi in E. rewrite put_none in E; [|now apply deaf_pc|apply HD]. injection E as <-. apply as_told_refl.
Qed.

Lemma in_hand_ok cfg k : kinv cfg k -> Forall enc_ok (in_hand k).
Proof. intros (_ & _ & _ & _ & H). exact H. Qed.
Lemma started_pc srv sched w : nrun srv empty_net sched = Ok w -> forall i k, nth_error (n_conns w) i = Some k -> started k -> k_pc k <> SNone.
Proof.
  intros R i k Hi HS. pose proof (shape_run _ _ _ R i k Hi) as HH. unfold shape in HH.
  destruct HS as [E|E]; rewrite E in HH; [exact HH|apply HH].
Qed.
Lemma unattended_dec k : unattended k \/ ~ unattended k.
Proof.
  unfold unattended. destruct (N.le_gt_cases 256 (nlen (k_queue k))) as [L|L]; [|right; lia].
  destruct (k_pc k) as [| | | |q|], (k_flag k);
    try (left; split; [exact L|]; first [left; reflexivity|right; split; [reflexivity|]; first [left; reflexivity|right; eauto]]; fail);
    (right; intros (_ & [X|(X & Y)]); [discriminate X|]; first [discriminate X|destruct Y as [Y|(q' & Y)]; discriminate Y]).
Qed.
