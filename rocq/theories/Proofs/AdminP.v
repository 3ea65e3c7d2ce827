From Coq Require Import ZifyBool ZifyNat ZifyN.
From Verif Require Import Model.Admin Spec.Response Spec.Net Spec.Admin Proofs.ConcCacheP Proofs.NetP Proofs.NetP3.
Ltac Zify.zify_post_hook ::= Z.div_mod_to_equations.

(** The kinds of steps. *)
Inductive akind (srv : rtrserver) (a : anet) (l : alabel) (a' : anet) : Prop :=
| ak_net l0 : l = AStep l0 -> (forall i c b, l0 <> LRead i c b) -> nstep (with_max srv (a_max a)) (a_net a) l0 = Ok (a_net a') ->
    a_max a' = a_max a -> a_in a' = a_in a -> a_pc a' = a_pc a -> akind srv a l a'
| ak_same : l <> AAdmin -> a_net a' = a_net a -> a_max a' = a_max a ->
    (a_pc a' = a_pc a \/ a_pc a = AIdle /\ exists n, l = ACall n /\ a_pc a' = AWant n) -> (forall i, out_of a l <> [i]) -> akind srv a l a'
| ak_read i cache chunk k r : l = AReturn i cache chunk -> nth_error (n_conns (a_net a)) i = Some k -> k_phase k = Running ->
    k_prog k = [] -> read_ops srv cache (k_cli k) chunk = Ok r ->
    a_net a' = with_conn (a_net a) i (k_set_read (fst r) (snd r) k) -> a_max a' = a_max a -> a_pc a' = a_pc a -> akind srv a l a'
| ak_admin : l = AAdmin -> a' = admin_step a -> akind srv a l a'.

Lemma astep_kind srv a l a' : astep srv a l = Ok a' -> akind srv a l a'.
Proof.
  destruct l as [l|i|i cache chunk|n|]; cbn [astep]; intros H.
  - assert (ST : (forall i c b, l <> LRead i c b) ->
      (do w' <- nstep (with_max srv (a_max a)) (a_net a) l; Ok (mkA w' (a_max a) (a_in a) (a_pc a))) = Ok a' -> akind srv a (AStep l) a').
    { intros HL H1. destruct (nstep (with_max srv (a_max a)) (a_net a) l) as [w'|[]|] eqn:E; [|discriminate].
      injection H1 as <-. eapply ak_net; eauto. }
    assert (SA : (forall i, l <> LReader i) -> @Ok anet Empty_set a = Ok a' -> akind srv a (AStep l) a').
    { intros HL [=<-]. apply ak_same; auto; [discriminate|]. intros i. cbn. destruct l; try discriminate. now destruct (HL i0). }
    destruct l; try (apply ST; [discriminate|exact H]).
    + apply SA; [discriminate|exact H].
    + destruct (existsb (Nat.eqb i) (a_in a)); [apply SA; [discriminate|exact H]|apply ST; [discriminate|exact H]].
  - assert (SA : forall b, @Ok anet Empty_set (mkA (a_net a) (a_max a) b (a_pc a)) = Ok a' -> akind srv a (AEnter i) a').
    { intros b [=<-]. apply ak_same; auto; discriminate. }
    assert (SA' : @Ok anet Empty_set a = Ok a' -> akind srv a (AEnter i) a').
    { intros [=<-]. apply ak_same; auto; discriminate. }
    destruct (nth_error (n_conns (a_net a)) i) as [k|]; [|auto].
    destruct (k_phase k), (k_prog k), (k_flag k), (existsb (Nat.eqb i) (a_in a)); try (apply SA'; exact H). eapply SA; exact H.
  - assert (SA : @Ok anet Empty_set a = Ok a' -> akind srv a (AReturn i cache chunk) a').
    { intros [=<-]. apply ak_same; auto; discriminate. }
    destruct (nth_error (n_conns (a_net a)) i) as [k|] eqn:Ei; [|auto].
    destruct (k_phase k) eqn:EP, (k_prog k) eqn:EQ, (existsb (Nat.eqb i) (a_in a)); try (apply SA; exact H).
    destruct (read_ops srv cache (k_cli k) chunk) as [r|[]|] eqn:ER; [|discriminate]. injection H as <-.
    eapply ak_read; eauto.
  - injection H as <-. destruct (a_pc a) eqn:E; apply ak_same; cbn; auto; try discriminate; try (left; congruence).
    right. eauto.
  - injection H as <-. now apply ak_admin.
Qed.

(** The clients SetMaxConnections still has in hand. *)
Definition hand (p : apc) : list nat :=
  match p with AIdle | AWant _ | AList _ _ => [] | ALoop _ r => r | ACount _ i r | AQuit _ i r => i :: r end.
Definition begun (w : net) (i : nat) : Prop := exists k, nth_error (n_conns w) i = Some k /\ started k.

(** [o]: the clients counted out so far. *)
Definition ainv (a : anet) (o : list nat) : Prop :=
  let w := a_net a in
  NoDup (n_clients w) /\
  (forall i, In i (n_clients w) -> begun w i /\ ~ In i o) /\
  (forall i, begun w i -> In i (n_clients w) \/ In i o) /\
  (forall i, In i o -> begun w i) /\
  (forall i k, nth_error (n_conns w) i = Some k -> ~ started k -> k_prog k = []) /\
  (forall i, In i (hand (a_pc a)) -> begun w i).

Lemma started_dec k : {started k} + {~ started k}.
Proof. unfold started. destruct (k_phase k); auto; right; intuition discriminate. Qed.

(** Changes to the connections that leave alone which have been started. *)
Definition keeps_conns (w w' : net) : Prop :=
  (forall i, begun w' i <-> begun w i) /\
  (forall i k', nth_error (n_conns w') i = Some k' -> ~ started k' -> k_prog k' = [] \/ exists k, nth_error (n_conns w) i = Some k /\ ~ started k /\ k_prog k' = k_prog k).
Lemma kc_refl w w' : n_conns w' = n_conns w -> keeps_conns w w'.
Proof. intros E. unfold keeps_conns, begun. rewrite E. split; [tauto|]. intros i k H S. right. eauto. Qed.
Lemma kc_set w w' i k k' : nth_error (n_conns w) i = Some k -> n_conns w' = set_nth (n_conns w) i k' ->
  (started k' <-> started k) -> (~ started k -> k_prog k' = k_prog k \/ k_prog k' = []) -> keeps_conns w w'.
Proof.
  intros Hi E HS HP. unfold keeps_conns, begun. rewrite E. split.
  - intros j. split.
    + intros (z & Hz & Sz). destruct (nth_set_nth _ _ _ _ _ Hz) as [(-> & -> & _)|(_ & G)]; [exists k; tauto|eauto].
    + intros H. eapply set_nth_keep; eauto. tauto.
  - intros j z Hz Sz. destruct (nth_set_nth _ _ _ _ _ Hz) as [(-> & -> & _)|(_ & G)]; [|right; eauto].
    destruct HP as [HP|HP]; [tauto| |now left]. right. exists k. tauto.
Qed.
Lemma kc_ainv a a' o : ainv a o -> keeps_conns (a_net a) (a_net a') -> n_clients (a_net a') = n_clients (a_net a) ->
  (forall i, In i (hand (a_pc a')) -> In i (hand (a_pc a)) \/ begun (a_net a) i) -> ainv a' o.
Proof.
  intros (I1 & I2 & I3 & I4 & I5 & I6) (K1 & K2) EC HH. unfold ainv. rewrite EC. split; [exact I1|].
  split; [intros i Hi; rewrite K1; auto|]. split; [intros i; rewrite K1; auto|]. split; [intros i; rewrite K1; auto|].
  split; [|intros i Hi; rewrite K1; destruct (HH i Hi); auto].
  intros i k' Hk Sk. destruct (K2 i k' Hk Sk) as [->|(k & G1 & G2 & ->)]; eauto.
Qed.
Lemma out_ainv a a' i o : ainv a o -> begun (a_net a) i -> keeps_conns (a_net a) (a_net a') ->
  n_clients (a_net a') = filter (fun j => negb (Nat.eqb j i)) (n_clients (a_net a)) ->
  (forall j, In j (hand (a_pc a')) -> In j (hand (a_pc a))) -> ainv a' (o ++ [i]).
Proof.
  intros (I1 & I2 & I3 & I4 & I5 & I6) HB (K1 & K2) EC HH. unfold ainv. rewrite EC. split; [now apply NoDup_filter|].
  split. { intros j Hj. apply filter_In in Hj as [Hj E]. rewrite K1. destruct (I2 j Hj) as [G1 G2]. split; [auto|].
    rewrite in_app_iff. intros [G|[->|[]]]; [auto|]. rewrite Nat.eqb_refl in E. discriminate. }
  split. { intros j Hj. rewrite K1 in Hj. rewrite filter_In, in_app_iff. destruct (Nat.eqb_spec j i) as [->|N]; [right; right; now left|].
    destruct (I3 j Hj); [left|]; auto. }
  split. { intros j. rewrite in_app_iff, K1. intros [G|[<-|[]]]; auto. }
  split; [|intros j Hj; rewrite K1; auto].
  intros j k' Hk Sk. destruct (K2 j k' Hk Sk) as [->|(k & G1 & G2 & ->)]; eauto.
Qed.

Definition lbl (l : alabel) : label := match l with AStep l0 => l0 | _ => LNotifier end.
Lemma on_conn_kc w i f : (forall k, k_phase (f k) = k_phase k /\ k_prog (f k) = k_prog k) -> keeps_conns w (on_conn w i f) /\
  n_clients (on_conn w i f) = n_clients w /\ n_count (on_conn w i f) = n_count w.
Proof.
  intros HF. unfold on_conn. destruct (nth_error (n_conns w) i) as [k|] eqn:E; [|split; [now apply kc_refl|auto]].
  split; [|split; reflexivity]. eapply kc_set; [exact E|reflexivity| |]; destruct (HF k) as [H1 H2]; unfold started; rewrite ?H1; tauto.
Qed.
Lemma flag_keeps k : k_phase (k_set_flag false k) = k_phase k /\ k_prog (k_set_flag false k) = k_prog k.
Proof. auto. Qed.
Lemma wake_keeps k : k_phase (wake k) = k_phase k /\ k_prog (wake k) = k_prog k.
Proof. unfold wake. destruct (k_pc k); auto. Qed.

Lemma disc_out srv w i k r w' a : nth_error (n_conns w) i = Some k -> k_prog k = ODisc :: r -> a_net a = w ->
  nstep srv w (LReader i) = Ok w' -> out_of a (AStep (LReader i)) = [i].
Proof. intros Hi HP <- _. cbn. now rewrite Hi, HP. Qed.

Lemma in_firstn {A} (x : A) n l : In x (firstn n l) -> In x l.
Proof. revert n. induction l as [|y l IH]; intros [|n] H; cbn in *; auto; try contradiction. destruct H; eauto. Qed.

(** Which label it was: [cstep] forgets it for Disconnect and Start. *)
Lemma nstep_reader srv w l w' : nstep srv w l = Ok w' ->
  (exists i k r, l = LReader i /\ nth_error (n_conns w) i = Some k /\ k_prog k = ODisc :: r) \/
  ((n_clients w' = n_clients w /\ (n_count w' = n_count w \/ exists i k, nth_error (n_conns w) i = Some k /\ k_tr k = SSH) \/
    exists i, l = LStart i /\ n_clients w' = n_clients w ++ [i] /\ n_count w' = (n_count w + 1)%Z) /\
   forall a, a_net a = w -> out_of a (AStep l) = []).
Proof.
  intros H. assert (Q : (forall i, l <> LReader i) -> forall a, a_net a = w -> out_of a (AStep l) = []).
  { intros HL a _. cbn. destruct l; auto. now destruct (HL i). }
  destruct l; cbn [nstep] in H.
  - right. split; [|now apply Q]. left. destruct ((0 <? s_maxconn srv) && (s_maxconn srv <=? n_count w))%Z; injection H as <-; cbn; auto.
  - right. split; [|now apply Q]. left. destruct (nth_error (n_conns w) i) as [k|] eqn:Ei; [destruct (k_phase k), (k_tr k) eqn:ET|]; injection H as <-; cbn; eauto 6.
  - right. split; [|now apply Q]. destruct (nth_error (n_conns w) i) as [k|]; [destruct (k_phase k), (k_tr k)|]; injection H as <-; cbn; auto; right; exists i; auto.
  - right. split; [|now apply Q]. left. destruct (nth_error (n_conns w) i) as [k|] eqn:Ei; [|injection H as <-; cbn; auto].
    destruct (k_phase k), (k_prog k), (k_flag k); try (injection H as <-; cbn; auto).
    destruct (read_ops srv cache (k_cli k) chunk) as [r|[]|]; [|discriminate]. injection H as <-; cbn; auto.
  - destruct (nth_error (n_conns w) i) as [k|] eqn:Ei.
    + injection H as <-. unfold reader_step. destruct (k_prog k) as [|[v|p| | |] r] eqn:EP;
        try (right; split; [left|intros a <-; cbn; now rewrite Ei, EP]); cbn; auto.
      * destruct (put k p); cbn; auto.
      * left. eauto 10.
    + right. injection H as <-. split; [auto|]. intros a <-. cbn. now rewrite Ei.
  - right. split; [|now apply Q]. left. destruct (nth_error (n_conns w) i) as [k|] eqn:Ei; [|injection H as <-; cbn; auto].
    destruct (k_phase k), (k_prog k), (k_flag k); try (injection H as <-; cbn; auto; fail).
    destruct (k_tr k) eqn:ET; injection H as <-; cbn; eauto 6.
  - right. split; [|now apply Q]. left. destruct (nth_error (n_conns w) i) as [k|] eqn:Ei; [|injection H as <-; cbn; auto].
    destruct (sender_step k o) as [k1|[]|]; [|discriminate]. injection H as <-; cbn; auto.
  - right. split; [|now apply Q]. left. destruct (n_notif w); injection H as <-; cbn; auto.
  - right. split; [|now apply Q]. left. unfold notifier_step in H. destruct (n_notif w) as [|serial [|i rest]|serial sess i rest|p serial i rest];
      try (injection H as <-; cbn; auto); destruct (nth_error (n_conns w) i) as [k|]; try (injection H as <-; cbn; auto).
    + destruct (get_session_id srv (k_ver k)) as [x|[]|]; [|discriminate]. injection H as <-; cbn; auto.
    + destruct (put k p); injection H as <-; cbn; auto.
Qed.

Lemma kc_app w w' k : n_conns w' = n_conns w ++ [k] -> ~ started k -> k_prog k = [] -> keeps_conns w w'.
Proof.
  intros E HS HP. unfold keeps_conns, begun. rewrite E.
  assert (C : forall i z, nth_error (n_conns w ++ [k]) i = Some z -> nth_error (n_conns w) i = Some z \/ z = k).
  { intros i z Hz. destruct (Nat.lt_ge_cases i (length (n_conns w))).
    - rewrite nth_error_app1 in Hz by auto. auto.
    - rewrite nth_error_app2 in Hz by auto. destruct (i - length (n_conns w))%nat as [|m]; cbn in Hz; [|destruct m; discriminate].
      injection Hz as <-. auto. }
  split.
  - intros i. split.
    + intros (z & Hz & Sz). destruct (C i z Hz) as [G| ->]; [eauto|contradiction].
    + intros (z & Hz & Sz). exists z. split; [|auto]. rewrite nth_error_app1; auto. apply nth_error_Some. congruence.
  - intros i z Hz Sz. destruct (C i z Hz) as [G| ->]; [right; eauto|auto].
Qed.
Lemma begun_not w i k : nth_error (n_conns w) i = Some k -> ~ started k -> ~ begun w i.
Proof. intros H N (z & Hz & Sz). congruence. Qed.

Lemma ainv_step srv a l a' o : ainv a o -> astep srv a l = Ok a' -> ainv a' (o ++ out_of a l).
Proof.
  intros HI H. apply astep_kind in H. destruct H as [l0 -> HL HN EM EI EP|NA EN EM EP HO|i cache chunk k r -> Hi HP HG HR EN EM EP| -> ->].
  - pose proof (nstep_cstep _ _ _ _ HN) as HC. destruct (nstep_reader _ _ _ _ HN) as [(i0 & k0 & r0 & -> & Hi0 & Hp0)|(HCl & HO)].
    { (* Disconnect *) cbn [nstep] in HN. rewrite Hi0 in HN. injection HN as HN. unfold reader_step in HN. rewrite Hp0 in HN.
      cbn [out_of]. rewrite Hi0, Hp0. assert (SK : started k0).
      { destruct (started_dec k0) as [S|S]; [exact S|]. destruct HI as (_ & _ & _ & _ & I5 & _). rewrite (I5 _ _ Hi0 S) in Hp0. discriminate. }
      apply out_ainv with (a := a); auto; [eexists; eauto| | |rewrite EP; auto].
      - rewrite <- HN. eapply kc_set; [exact Hi0|reflexivity|unfold started; cbn; tauto|intros G; contradiction].
      - rewrite <- HN. reflexivity. }
    rewrite (HO a eq_refl), app_nil_r.
    assert (KC : keeps_conns (a_net a) (a_net a') -> n_clients (a_net a') = n_clients (a_net a) -> ainv a' o).
    { intros KC EC. eapply kc_ainv; eauto. rewrite EP. auto. }
    destruct HC as [E1 E2 E3|tr E0 EM' E1 E2 E3|i k Hi Ht E2 (ph & d & HD & E1 & E3)|i k Hi Hp E1 E2 E3|i k r Hi Hp E1 E2 E3|i k Hi Hp Hg Hf E1 E2 E3].
    + apply KC; [|exact E2]. destruct E3 as [E3|(i & k & k' & Hi & E3 & P1 & P2 & P3)]; [now apply kc_refl|].
      eapply kc_set; eauto; unfold started; rewrite ?P1; [tauto|]. intros S. left.
      destruct P3 as [(G & _)|[(q & G & _)|(cache & chunk & G & _)]]; [exact G| |now destruct (HL i cache chunk)].
      destruct HI as (_ & _ & _ & _ & I5 & _). rewrite (I5 i k Hi S) in G. discriminate.
    + apply KC; [|exact E2]. eapply kc_app; [exact E3| |reflexivity]. unfold started. cbn. intuition discriminate.
    + apply KC; [|exact E2]. eapply kc_set; [exact Hi|exact E3| |cbn; auto]. unfold started. cbn.
      destruct HD as [(-> & -> & _)|(-> & _ & _ & -> & _)]; intuition discriminate.
    + (* Start *) destruct HI as (I1 & I2 & I3 & I4 & I5 & I6).
      assert (S : ~ started k) by (unfold started; intuition congruence). pose proof (begun_not _ _ _ Hi S) as NB.
      assert (B : forall j, begun (a_net a') j <-> begun (a_net a) j \/ j = i).
      { intros j. unfold begun. rewrite E3. split.
        - intros (z & Hz & Sz). destruct (nth_set_nth _ _ _ _ _ Hz) as [(-> & -> & _)|(_ & G)]; [auto|left; eauto].
        - intros [G| ->].
          + eapply set_nth_keep; eauto. intros; contradiction.
          + eexists. split; [apply set_nth_same; apply nth_error_Some; congruence|]. unfold started. cbn. auto. }
      unfold ainv. rewrite E2, EP. split; [apply NoDup_snoc; auto; intros G; apply NB; now apply I2|].
      split. { intros j. rewrite in_app_iff, B. intros [G|[<-|[]]]; [destruct (I2 j G); auto|]. split; [auto|]. auto. }
      split. { intros j. rewrite in_app_iff, B. intros [G| ->]; [destruct (I3 j G); auto|]. left; right; now left. }
      split; [intros j Hj; rewrite B; auto|]. split; [|intros j Hj; rewrite B; auto].
      intros j z Hz Sz. rewrite E3 in Hz. destruct (nth_set_nth _ _ _ _ _ Hz) as [(-> & -> & _)|(_ & G)]; [|eauto].
      exfalso. apply Sz. unfold started. cbn. auto.
    + destruct HCl as [[EC _]|(i' & _ & EC & _)].
      * apply KC; [|exact EC]. eapply kc_set; [exact Hi|exact E3|unfold started; cbn; tauto|]. intros S.
        destruct HI as (_ & _ & _ & _ & I5 & _). rewrite (I5 i k Hi S) in Hp. discriminate.
      * exfalso. rewrite E2 in EC. apply (f_equal (@length nat)) in EC. rewrite app_length in EC. cbn in EC.
        rewrite filter_ne_length in EC by apply HI. destruct (in_dec Nat.eq_dec i (n_clients (a_net a))); lia.
    + apply KC; [|exact E2]. eapply kc_set; [exact Hi|exact E3|unfold started; cbn; rewrite Hp; tauto|auto].
  - assert (E : out_of a l = []).
    { destruct l as [l| | | |]; cbn in *; auto; [|now destruct NA]. destruct l; auto.
      destruct (nth_error (n_conns (a_net a)) i) as [k|]; [|auto]. destruct (k_prog k) as [|[]]; auto. now destruct (HO i). }
    rewrite E, app_nil_r. apply kc_ainv with (a := a); auto; [apply kc_refl; now rewrite EN|now rewrite EN|].
    destruct EP as [->|(_ & n & _ & ->)]; auto. cbn. tauto.
  - cbn [out_of]. rewrite app_nil_r. apply kc_ainv with (a := a); auto; [|now rewrite EN|rewrite EP; auto].
    rewrite EN. eapply kc_set; [exact Hi|reflexivity| |]; unfold started; cbn; [tauto|]. rewrite HP. tauto.
  - cbn [out_of]. unfold admin_step. destruct (a_pc a) as [|n|n d|n [|i r]|n i r|n i r] eqn:EP; rewrite ?app_nil_r.
    + exact HI.
    + destruct (n <? n_count (a_net a))%Z; (eapply kc_ainv; [exact HI|now apply kc_refl|reflexivity|cbn; tauto]).
    + eapply kc_ainv; [exact HI|now apply kc_refl|reflexivity|]. cbn. intros i Hi. apply in_firstn in Hi. right. exact (proj1 (proj1 (proj2 HI) i Hi)).
    + eapply kc_ainv; [exact HI|now apply kc_refl|reflexivity|]. cbn. tauto.
    + destruct (on_conn_kc (a_net a) i (k_set_flag false) flag_keeps) as (G1 & G2 & _).
      eapply kc_ainv; [exact HI|exact G1|exact G2|]. rewrite EP. cbn. auto.
    + eapply out_ainv; [exact HI| |now apply kc_refl|reflexivity|rewrite EP; cbn; auto].
      destruct HI as (_ & _ & _ & _ & _ & I6). apply I6. rewrite EP. now left.
    + destruct (on_conn_kc (a_net a) i wake wake_keeps) as (G1 & G2 & _).
      eapply kc_ainv; [exact HI|exact G1|exact G2|]. rewrite EP. cbn. auto.
Qed.

Lemma nflag srv w l w' i k : nstep srv w l = Ok w' -> nth_error (n_conns w) i = Some k -> started k ->
  exists k', nth_error (n_conns w') i = Some k' /\ started k' /\ (k_flag k' = k_flag k \/ l = LReader i /\ k_flag k' = false).
Proof.
  intros H Hi SK.
  assert (SAME : @Ok net Empty_set w = Ok w' -> exists k', nth_error (n_conns w') i = Some k' /\ started k' /\ (k_flag k' = k_flag k \/ l = LReader i /\ k_flag k' = false)).
  { intros [=<-]. eauto. }
  assert (SET : forall j kj k1, nth_error (n_conns w) j = Some kj -> (started kj -> started k1 /\ (k_flag k1 = k_flag kj \/ l = LReader j /\ k_flag k1 = false)) ->
     exists k', nth_error (set_nth (n_conns w) j k1) i = Some k' /\ started k' /\ (k_flag k' = k_flag k \/ l = LReader i /\ k_flag k' = false)).
  { intros j kj k1 Hj HS. destruct (Nat.eq_dec j i) as [->|N].
    - rewrite set_nth_same by (apply nth_error_Some; congruence). assert (kj = k) by congruence. subst kj. eexists. split; [reflexivity|]. auto.
    - rewrite set_nth_other by auto. eauto. }
  destruct l; cbn [nstep] in *.
  - destruct (_ && _)%bool; [auto|]. injection H as <-. cbn. exists k. rewrite nth_error_app1; [auto|]. apply nth_error_Some. congruence.
  - destruct (nth_error (n_conns w) i0) as [k0|] eqn:E0; [|auto]. destruct (k_phase k0) eqn:EP, (k_tr k0); auto. injection H as <-. eapply SET; eauto.
    unfold started. rewrite EP. intuition discriminate.
  - destruct (nth_error (n_conns w) i0) as [k0|] eqn:E0; [|auto]. destruct (k_phase k0) eqn:EP, (k_tr k0); auto; injection H as <-; (eapply SET; eauto;
    unfold started; rewrite EP; intuition discriminate).
  - destruct (nth_error (n_conns w) i0) as [k0|] eqn:E0; [|auto]. destruct (k_phase k0), (k_prog k0), (k_flag k0); auto.
    destruct (read_ops srv cache (k_cli k0) chunk) as [r|e|]; [|destruct e|discriminate]. injection H as <-. eapply SET; eauto.
  - destruct (nth_error (n_conns w) i0) as [k0|] eqn:E0; [|auto]. injection H as <-. unfold reader_step.
    destruct (k_prog k0) as [|[v|p| | |] r]; cbn [with_conn client_disconnected n_conns]; eauto; try (eapply SET; eauto; unfold started; cbn; tauto).
    + destruct (put k0 p) as [k1|] eqn:EU; [|eauto]. destruct (put_shape _ _ _ EU) as (E1 & E2 & E3 & _).
      eapply SET; eauto. unfold started. cbn. rewrite E1, E3. auto.
    + eapply SET; eauto. destruct (k_pc k0); unfold started; cbn; tauto.
  - destruct (nth_error (n_conns w) i0) as [k0|] eqn:E0; [|auto]. destruct (k_phase k0) eqn:EP, (k_prog k0), (k_flag k0) eqn:EF; auto.
    injection H as <-. eapply SET; eauto. unfold started. cbn. auto.
  - destruct (nth_error (n_conns w) i0) as [k0|] eqn:E0; [|auto].
    destruct (sender_step k0 o) as [r|e|] eqn:ES; [|destruct e|discriminate]. injection H as <-.
    destruct (send_shape _ _ _ ES) as (E1 & E2 & E3 & _). eapply SET; eauto. unfold started. rewrite E1, E3. auto.
  - destruct (n_notif w); auto. injection H as <-. eauto.
  - unfold notifier_step in H. destruct (n_notif w) as [|serial [|j rest]|serial sess j rest|p serial j rest] eqn:EN.
    + auto.
    + injection H as <-; eauto.
    + destruct (nth_error (n_conns w) j) as [k0|]; [|auto].
      destruct (get_session_id srv (k_ver k0)) as [x|e|]; [|destruct e|discriminate]. injection H as <-; eauto.
    + destruct (nth_error (n_conns w) j) as [k0|]; [|auto]. injection H as <-; eauto.
    + destruct (nth_error (n_conns w) j) as [k0|] eqn:E0; [|auto].
      destruct (put k0 p) as [k1|] eqn:EU; [|auto]. injection H as <-. destruct (put_shape _ _ _ EU) as (E1 & E2 & E3 & _).
      eapply SET; eauto. unfold started. rewrite E1, E3. auto.
Qed.

Lemma arun_inv srv (P : anet -> Prop) (Q : alabel -> Prop) : (forall a l a', P a -> Q l -> astep srv a l = Ok a' -> P a') ->
  forall sched a a', P a -> Forall Q sched -> arun srv a sched = Ok a' -> P a'.
Proof.
  intros HS. induction sched as [|l r IH]; intros a a' HP HQ H; cbn in H; [injection H as <-; exact HP|].
  inversion HQ; subst. destruct (astep srv a l) as [a1|[]|] eqn:E; [|discriminate]. cbn in H. eauto.
Qed.
Lemma arun_app srv sched1 sched2 a a1 : arun srv a sched1 = Ok a1 -> arun srv a (sched1 ++ sched2) = arun srv a1 sched2.
Proof.
  revert a. induction sched1 as [|l r IH]; intros a H; cbn in *; [injection H as <-; reflexivity|].
  destruct (astep srv a l) as [a2|[]|]; [|discriminate]. cbn in *. auto.
Qed.
Lemma ainv_empty srv : ainv (empty_anet srv) [].
Proof.
  unfold ainv, begun. cbn. split; [constructor|]. repeat split; try tauto.
  - intros i (k & H & _). destruct i; discriminate.
  - intros i k H. destruct i; discriminate.
Qed.
Lemma ainv_run srv : forall sched a a' o, ainv a o -> arun srv a sched = Ok a' -> ainv a' (o ++ outs srv a sched).
Proof.
  induction sched as [|l r IH]; intros a a' o HI H; cbn [arun outs] in *; [injection H as <-; now rewrite app_nil_r|].
  destruct (astep srv a l) as [a1|[]|] eqn:E; [|discriminate]. cbn in H. rewrite app_assoc. eauto using ainv_step.
Qed.
Lemma ainv_reach srv a : areach srv a -> exists o, ainv a o.
Proof. intros (sched & H). eexists. eapply ainv_run; [apply ainv_empty|exact H]. Qed.

(** * The counter *)
Lemma repeats_snoc o i : repeats (o ++ [i]) = (repeats o + if in_dec Nat.eq_dec i o then 1 else 0)%nat.
Proof.
  unfold repeats. induction o as [|j o IH].
  - reflexivity.
  - assert (LE : (length (nodup Nat.eq_dec o) <= length o)%nat).
    { apply NoDup_incl_length; [apply NoDup_nodup|intros x; apply nodup_In]. }
    assert (LE' : (length (nodup Nat.eq_dec (o ++ [i])) <= length (o ++ [i]))%nat).
    { apply NoDup_incl_length; [apply NoDup_nodup|intros x; apply nodup_In]. }
    rewrite app_length in *. cbn [app nodup length] in *.
    destruct (in_dec Nat.eq_dec j (o ++ [i])) as [G|G], (in_dec Nat.eq_dec j o) as [G'|G'], (in_dec Nat.eq_dec i o) as [F|F], (in_dec Nat.eq_dec i (j :: o)) as [F'|F'];
      cbn [length] in *; rewrite ?app_length in *; cbn [length] in *; try lia; exfalso.
    all: rewrite in_app_iff in *; cbn [In] in *; intuition congruence.
Qed.
Definition no_ssh_conn (w : net) : Prop := forall i k, nth_error (n_conns w) i = Some k -> k_tr k <> SSH.
Lemma tr_set w w' i k k' : no_ssh_conn w -> nth_error (n_conns w) i = Some k -> n_conns w' = set_nth (n_conns w) i k' -> k_tr k' = k_tr k -> no_ssh_conn w'.
Proof.
  intros HT Hi E T j z Hz. rewrite E in Hz. destruct (nth_set_nth _ _ _ _ _ Hz) as [(-> & -> & _)|(_ & G)]; [rewrite T|]; eauto.
Qed.
Lemma tr_on w i f : no_ssh_conn w -> (forall k, k_tr (f k) = k_tr k) -> no_ssh_conn (on_conn w i f).
Proof.
  intros HT HF. unfold on_conn. destruct (nth_error (n_conns w) i) as [k|] eqn:E; [|exact HT].
  eapply tr_set; [exact HT|exact E|reflexivity|apply HF].
Qed.
Lemma wake_tr k : k_tr (wake k) = k_tr k.
Proof. unfold wake. now destruct (k_pc k). Qed.
Lemma tr_step srv a l a' : no_ssh_conn (a_net a) -> a_no_ssh l -> astep srv a l = Ok a' -> no_ssh_conn (a_net a').
Proof.
  intros HT HL H. apply astep_kind in H. destruct H as [l0 -> HR HN EM EI EP|NA EN EM EP HO|i cache chunk k r -> Hi HP HG HR EN EM EP| -> ->].
  - apply nstep_cstep in HN. destruct HN as
      [E1 E2 E3|tr E0 EM' E1 E2 E3|i k Hi Ht E2 (ph & d & HD & E1 & E3)|i k Hi Hp E1 E2 E3|i k r Hi Hp E1 E2 E3|i k Hi Hp Hg Hf E1 E2 E3].
    + destruct E3 as [E3|(i & k & k' & Hi & E3 & P1 & P2 & _)]; [unfold no_ssh_conn; now rewrite E3|]. eapply tr_set; eauto.
    + intros j z Hz. rewrite E3 in Hz. destruct (Nat.lt_ge_cases j (length (n_conns (a_net a)))).
      * rewrite nth_error_app1 in Hz by auto. eauto.
      * rewrite nth_error_app2 in Hz by auto. destruct (j - length (n_conns (a_net a)))%nat as [|m]; cbn in Hz; [|destruct m; discriminate].
        injection Hz as <-. cbn. intros ->. apply HL. now rewrite E0.
    + eapply tr_set; [exact HT|exact Hi|exact E3|reflexivity].
    + eapply tr_set; [exact HT|exact Hi|exact E3|reflexivity].
    + eapply tr_set; [exact HT|exact Hi|exact E3|reflexivity].
    + eapply tr_set; [exact HT|exact Hi|exact E3|reflexivity].
  - now rewrite EN.
  - rewrite EN. eapply tr_set; [exact HT|exact Hi|reflexivity|reflexivity].
  - unfold admin_step. destruct (a_pc a) as [|n|n d|n [|i r]|n i r|n i r]; cbn; auto.
    + destruct (n <? n_count (a_net a))%Z; exact HT.
    + now apply tr_on.
    + apply tr_on; [exact HT|apply wake_tr].
Qed.
Definition exact_upto (a : anet) (o : list nat) : Prop :=
  n_count (a_net a) = (Z.of_nat (length (n_clients (a_net a))) - Z.of_nat (repeats o))%Z.
Lemma out_exact a a' i o : ainv a o -> begun (a_net a) i -> exact_upto a o -> n_count (a_net a') = (n_count (a_net a) - 1)%Z ->
  n_clients (a_net a') = filter (fun j => negb (Nat.eqb j i)) (n_clients (a_net a)) -> exact_upto a' (o ++ [i]).
Proof.
  intros (I1 & I2 & I3 & _) HB HE EC EL. unfold exact_upto in *. rewrite EC, EL, repeats_snoc, filter_ne_length by exact I1.
  destruct (in_dec Nat.eq_dec i (n_clients (a_net a))) as [G|G], (in_dec Nat.eq_dec i o) as [F|F].
  - now destruct (I2 i G).
  - destruct (n_clients (a_net a)); [destruct G|]. cbn [length] in *. lia.
  - lia.
  - destruct (I3 i HB); contradiction.
Qed.
Lemma exact_step srv a l a' o : ainv a o -> no_ssh_conn (a_net a) -> exact_upto a o -> astep srv a l = Ok a' -> exact_upto a' (o ++ out_of a l).
Proof.
  intros HI HT HE H. apply astep_kind in H. destruct H as [l0 -> HR HN EM EI EP|NA EN EM EP HO|i cache chunk k r -> Hi HP HG HR EN EM EP| -> ->].
  - destruct (nstep_reader _ _ _ _ HN) as [(i & k & r & -> & Hi & Hp)|(HC & HO)].
    + cbn [nstep] in HN. rewrite Hi in HN. injection HN as HN. unfold reader_step in HN. rewrite Hp in HN.
      cbn [out_of]. rewrite Hi, Hp. eapply out_exact; eauto; [|rewrite <- HN; reflexivity|rewrite <- HN; reflexivity].
      exists k. split; [exact Hi|]. destruct (started_dec k) as [S|S]; [exact S|]. destruct HI as (_ & _ & _ & _ & I5 & _).
      rewrite (I5 _ _ Hi S) in Hp. discriminate.
    + rewrite (HO a eq_refl), app_nil_r. unfold exact_upto in *. destruct HC as [[EC [EN|(i & k & Hi & Ht)]]|(i & _ & EC & EN)].
      * now rewrite EC, EN.
      * now destruct (HT i k Hi).
      * rewrite EC, EN, app_length. cbn. lia.
  - assert (E : out_of a l = []).
    { destruct l as [l| | | |]; cbn in *; auto; [|now destruct NA]. destruct l; auto.
      destruct (nth_error (n_conns (a_net a)) i) as [k|]; [|auto]. destruct (k_prog k) as [|[]]; auto. now destruct (HO i). }
    rewrite E, app_nil_r. unfold exact_upto. now rewrite EN.
  - cbn [out_of]. rewrite app_nil_r. unfold exact_upto. rewrite EN. exact HE.
  - cbn [out_of]. unfold admin_step. destruct (a_pc a) as [|n|n d|n [|i r]|n i r|n i r] eqn:EP; rewrite ?app_nil_r; try exact HE.
    + destruct (n <? n_count (a_net a))%Z; exact HE.
    + destruct (on_conn_kc (a_net a) i (k_set_flag false) flag_keeps) as (_ & G2 & G3). unfold exact_upto. cbn. rewrite G2, G3. exact HE.
    + eapply out_exact; eauto; try reflexivity. destruct HI as (_ & _ & _ & _ & _ & I6). apply I6. rewrite EP. now left.
    + destruct (on_conn_kc (a_net a) i wake wake_keeps) as (_ & G2 & G3). unfold exact_upto. cbn. rewrite G2, G3. exact HE.
Qed.
Lemma exact_run srv : forall sched a a' o, ainv a o -> no_ssh_conn (a_net a) -> exact_upto a o -> Forall a_no_ssh sched ->
  arun srv a sched = Ok a' -> exact_upto a' (o ++ outs srv a sched).
Proof.
  induction sched as [|l r IH]; intros a a' o HI HT HE HS H; cbn [arun outs] in *; [injection H as <-; now rewrite app_nil_r|].
  inversion HS; subst. destruct (astep srv a l) as [a1|[]|] eqn:E; [|discriminate]. cbn in H. rewrite app_assoc.
  apply (IH a1); auto; [eapply ainv_step|eapply tr_step|eapply exact_step]; eauto.
Qed.

(** * How many are left *)
Definition minus (l r : list nat) : list nat := filter (fun i => negb (existsb (Nat.eqb i) r)) l.
Lemma minus_app l m r : minus (l ++ m) r = minus l r ++ minus m r.
Proof. apply filter_app. Qed.
Lemma filter_le {A} (f : A -> bool) l : (length (filter f l) <= length l)%nat.
Proof. induction l as [|x l IH]; cbn; [lia|]. destruct (f x); cbn; lia. Qed.
Lemma minus_filter_le f l r : (length (minus (filter f l) r) <= length (minus l r))%nat.
Proof.
  unfold minus. induction l as [|x l IH]; cbn; [lia|]. destruct (f x); cbn; destruct (existsb (Nat.eqb x) r); cbn; lia.
Qed.
Lemma minus_cons l i r : minus l (i :: r) = minus (filter (fun j => negb (Nat.eqb j i)) l) r.
Proof.
  induction l as [|x l IH]; [reflexivity|]. unfold minus in *. cbn [filter]. change (existsb (Nat.eqb x) (i :: r)) with (Nat.eqb x i || existsb (Nat.eqb x) r)%bool.
  rewrite IH. destruct (Nat.eqb x i); reflexivity.
Qed.
Lemma minus_nil l : minus l [] = l.
Proof. unfold minus. induction l as [|x l IH]; [reflexivity|]. cbn [filter]. rewrite IH. reflexivity. Qed.
Lemma minus_sub l r : (forall x, In x l -> In x r) -> minus l r = [].
Proof.
  unfold minus. induction l as [|x l IH]; intros H; cbn; [reflexivity|].
  assert (E : existsb (Nat.eqb x) r = true) by (apply existsb_exists; exists x; split; [apply H; now left|apply Nat.eqb_refl]).
  rewrite E. apply IH. intros y Hy. apply H. now right.
Qed.
Lemma minus_firstn d l : (length (minus l (firstn d l)) <= length l - d)%nat.
Proof.
  pose proof (firstn_skipn d l) as E. rewrite <- E at 1. rewrite minus_app, app_length, (minus_sub (firstn d l)) by auto.
  cbn [length]. pose proof (filter_le (fun i => negb (existsb (Nat.eqb i) (firstn d l))) (skipn d l)). unfold minus. rewrite skipn_length in *. lia.
Qed.
Definition few (n : Z) (b : nat) (a : anet) : Prop :=
  match a_pc a with
  | AIdle => a_max a = n /\ (length (clients a) <= b)%nat
  | AWant _ => False
  | AList m d => m = n /\ (length (clients a) <= d + b)%nat
  | ALoop m r | AQuit m _ r => m = n /\ (length (minus (clients a) r) <= b)%nat
  | ACount m i r => m = n /\ (length (minus (clients a) (i :: r)) <= b)%nat
  end.
Lemma few_le n b b' a : few n b a -> (b <= b')%nat -> few n b' a.
Proof. unfold few. destruct (a_pc a); intuition lia. Qed.
Lemma few_net n b a a' : few n b a -> a_pc a' = a_pc a -> a_max a' = a_max a ->
  (forall r, (length (minus (clients a') r) <= length (minus (clients a) r))%nat) -> few n b a'.
Proof.
  unfold few. intros H -> -> HL. pose proof (HL []) as H0. rewrite !minus_nil in H0.
  destruct (a_pc a); intuition (try lia); eapply Nat.le_trans; eauto.
Qed.
Definition one_start (l : alabel) : nat := match l with AStep (LStart _) => 1 | _ => 0 end%nat.
Lemma starts_cons l r : starts (l :: r) = (one_start l + starts r)%nat.
Proof. unfold starts. cbn. destruct l as [[]| | | |]; reflexivity. Qed.
Lemma few_step srv n b a l a' : few n b a -> no_call l -> astep srv a l = Ok a' -> few n (b + one_start l) a'.
Proof.
  intros HF HL H. apply astep_kind in H. destruct H as [l0 -> HR HN EM EI EP|NA EN EM EP HO|i cache chunk k r -> Hi HP HG HR EN EM EP| -> ->].
  - destruct (nstep_reader _ _ _ _ HN) as [(i & k & r & -> & Hi & Hp)|([[EC _]|(i & -> & EC & _)] & _)].
    + cbn [nstep] in HN. rewrite Hi in HN. injection HN as HN. unfold reader_step in HN. rewrite Hp in HN.
      apply few_le with b; [|lia]. eapply few_net; eauto. intros q. unfold clients. rewrite <- HN. apply minus_filter_le.
    + apply few_le with b; [|lia]. eapply few_net; eauto. intros q. unfold clients. now rewrite EC.
    + cbn [one_start]. unfold few in *. unfold clients in *. rewrite EC, EP, EM.
      destruct (a_pc a) as [|m|m d|m r|m j r|m j r]; rewrite ?minus_app, ?app_length; cbn [length]; intuition (try lia).
      * pose proof (filter_le (fun i => negb (existsb (Nat.eqb i) r)) [i]). unfold minus in *. cbn [length] in *. lia.
      * pose proof (filter_le (fun i => negb (existsb (Nat.eqb i) (j :: r))) [i]). unfold minus in *. cbn [length] in *. lia.
      * pose proof (filter_le (fun i => negb (existsb (Nat.eqb i) r)) [i]). unfold minus in *. cbn [length] in *. lia.
  - apply few_le with b; [|lia]. eapply few_net; eauto; [|intros q; unfold clients; now rewrite EN].
    destruct EP as [EP|(_ & m & -> & _)]; [exact EP|now destruct (HL m)].
  - apply few_le with b; [|lia]. eapply few_net; eauto. intros q. unfold clients. rewrite EN. auto.
  - cbn [one_start]. rewrite Nat.add_0_r. unfold admin_step, few, clients in *. destruct (a_pc a) as [|m|m d|m [|i r]|m i r|m i r] eqn:EP; cbn [a_pc a_net a_max].
    + now rewrite EP.
    + destruct HF.
    + destruct HF as [-> HF]. split; [auto|]. pose proof (minus_firstn d (n_clients (a_net a))). lia.
    + rewrite minus_nil in HF. exact HF.
    + destruct (on_conn_kc (a_net a) i (k_set_flag false) flag_keeps) as (_ & -> & _). exact HF.
    + change (n_clients (client_disconnected (a_net a) i)) with (filter (fun j => negb (Nat.eqb j i)) (n_clients (a_net a))). rewrite <- minus_cons. exact HF.
    + destruct (on_conn_kc (a_net a) i wake wake_keeps) as (_ & -> & _). exact HF.
Qed.
Lemma few_run srv n : forall sched a a' b, few n b a -> Forall no_call sched -> arun srv a sched = Ok a' -> few n (b + starts sched) a'.
Proof.
  induction sched as [|l r IH]; intros a a' b HF HS H; cbn [arun] in H.
  - injection H as <-. apply few_le with b; [exact HF|lia].
  - inversion HS; subst. destruct (astep srv a l) as [a1|[]|] eqn:E; [|discriminate]. cbn in H.
    rewrite starts_cons, Nat.add_assoc. eapply IH; eauto. eapply few_step; eauto.
Qed.

(** * Those that are to go *)
Definition off (w : net) (i : nat) : Prop := exists k, nth_error (n_conns w) i = Some k /\ started k /\ k_flag k = false.
Definition todo (p : apc) : list nat :=
  match p with ALoop _ r | ACount _ _ r | AQuit _ _ r => r | _ => [] end.
Definition going (i : nat) (a : anet) : Prop :=
  begun (a_net a) i /\ (In i (todo (a_pc a)) \/ off (a_net a) i /\ ((exists n r, a_pc a = ACount n i r) \/ ~ In i (clients a))).
Lemma on_conn_at w j f i k : nth_error (n_conns w) i = Some k ->
  nth_error (n_conns (on_conn w j f)) i = Some (if Nat.eqb i j then f k else k).
Proof.
  intros H. unfold on_conn. destruct (Nat.eqb_spec i j) as [->|N].
  - rewrite H. cbn. apply set_nth_same. apply nth_error_Some. congruence.
  - destruct (nth_error (n_conns w) j); [|exact H]. cbn. now rewrite set_nth_other by auto.
Qed.
Lemma off_net srv w l w' i : nstep srv w l = Ok w' -> off w i -> off w' i.
Proof.
  intros H (k & Hi & S & F). destruct (nflag _ _ _ _ _ _ H Hi S) as (k' & G1 & G2 & G3). exists k'. intuition congruence.
Qed.
Lemma begun_net srv w l w' i : nstep srv w l = Ok w' -> begun w i -> begun w' i.
Proof. intros H (k & Hi & S). destruct (nflag _ _ _ _ _ _ H Hi S) as (k' & G1 & G2 & _). exists k'. auto. Qed.
Lemma in_rem i j l : ~ In i l -> ~ In i (filter (fun x => negb (Nat.eqb x j)) l).
Proof. intros H G. apply filter_In in G. tauto. Qed.
Lemma begun_on w j f i : (forall k, k_phase (f k) = k_phase k) -> begun w i -> begun (on_conn w j f) i.
Proof.
  intros HF (k & Hk & S). eexists. split; [eapply on_conn_at; eauto|]. unfold started in *. destruct (Nat.eqb i j); rewrite ?HF; auto.
Qed.
Lemma off_on w j f i : (forall k, k_phase (f k) = k_phase k) -> (forall k, k_flag k = false -> k_flag (f k) = false) -> off w i -> off (on_conn w j f) i.
Proof.
  intros HF HG (k & Hk & S & F). eexists. split; [eapply on_conn_at; eauto|]. unfold started in *. destruct (Nat.eqb i j); rewrite ?HF; auto.
Qed.
Lemma wake_flag k : k_flag (wake k) = k_flag k.
Proof. unfold wake. now destruct (k_pc k). Qed.
Lemma going_step srv a l a' i : going i a -> no_call l -> astep srv a l = Ok a' -> going i a'.
Proof.
  intros (HB & HG) HL H. apply astep_kind in H. destruct H as [l0 -> HR HN EM EI EP|NA EN EM EP HO|j cache chunk k r -> Hj HP HQ HR EN EM EP| -> ->].
  - split; [eapply begun_net; eauto|]. rewrite EP. destruct HG as [HG|(HO & HG)]; [auto|]. right. split; [eapply off_net; eauto|].
    destruct HG as [HG|HG]; [auto|]. right. unfold clients in *.
    destruct (nstep_reader _ _ _ _ HN) as [(j & k & r & -> & Hj & Hp)|([[EC _]|(j & -> & EC & _)] & _)].
    + cbn [nstep] in HN. rewrite Hj in HN. injection HN as HN. unfold reader_step in HN. rewrite Hp in HN. rewrite <- HN. cbn. now apply in_rem.
    + now rewrite EC.
    + rewrite EC, in_app_iff. intros [G|[->|[]]]; [auto|]. destruct HB as (k & Hk & SK).
      cbn [nstep] in HN. rewrite Hk in HN. destruct SK as [SK|SK]; rewrite SK in HN; injection HN as HN;
        apply (f_equal (fun w => length (n_clients w))) in HN; rewrite EC, app_length in HN; cbn in HN; lia.
  - assert (EP' : a_pc a' = a_pc a). { destruct EP as [EP|(_ & m & -> & _)]; [exact EP|now destruct (HL m)]. }
    unfold going, clients. rewrite EN, EP'. split; auto.
  - unfold going, clients. rewrite EN, EP. cbn. assert (ON : with_conn (a_net a) j (k_set_read (fst r) (snd r) k) = on_conn (a_net a) j (k_set_read (fst r) (snd r))) by (unfold on_conn; now rewrite Hj).
    rewrite ON. split; [now apply begun_on|]. destruct HG as [HG|(HO & HG)]; [auto|]. right. split; [now apply off_on|exact HG].
  - unfold admin_step, going, clients in *. destruct (a_pc a) as [|m|m d|m [|j r]|m j r|m j r] eqn:EP; cbn [a_pc a_net todo] in *.
    + rewrite EP. auto.
    + destruct (m <? n_count (a_net a))%Z; cbn; (split; [auto|]); destruct HG as [[]|(HO & [(n & r & [=])|HG])]; auto.
    + split; [auto|]. destruct HG as [[]|(HO & [(n & r & [=])|HG])]; auto.
    + split; [auto|]. destruct HG as [[]|(HO & [(n & r & [=])|HG])]; auto.
    + destruct (on_conn_kc (a_net a) j (k_set_flag false) flag_keeps) as (_ & -> & _). split; [now apply begun_on|].
      destruct HG as [[->|HG]|(HO & [(n & q & [=])|HG])]; auto.
      * right. split; [|left; eauto]. destruct HB as (k & Hk & S). eexists. split; [eapply on_conn_at; eauto|]. rewrite Nat.eqb_refl. auto.
      * right. split; [|auto]. now apply off_on.
    + split; [exact HB|]. destruct HG as [HG|(HO & [(n & q & [= <- -> <-])|HG])]; auto.
      * right. split; [exact HO|]. right. cbn. rewrite filter_In, Nat.eqb_refl. cbn. intuition discriminate.
      * right. split; [exact HO|]. right. cbn. now apply in_rem.
    + destruct (on_conn_kc (a_net a) j wake wake_keeps) as (_ & -> & _).
      assert (W : forall k, k_phase (wake k) = k_phase k) by (intros k; apply wake_keeps). split; [now apply begun_on|].
      destruct HG as [HG|(HO & [(n & q & [=])|HG])]; auto. right. split; [|auto]. apply off_on; auto. intros k. now rewrite wake_flag.
Qed.

(** * Those that stay *)
Definition staying (i : nat) (a : anet) : Prop :=
  (In i (clients a) /\ exists k, nth_error (n_conns (a_net a)) i = Some k /\ started k /\ k_flag k = true) /\
  ~ In i (hand (a_pc a)) /\ match a_pc a with AWant _ | AList _ _ => False | _ => True end.
Lemma staying_step srv a l a' i : staying i a -> no_call l -> not_reader i l -> astep srv a l = Ok a' -> staying i a'.
Proof.
  intros ((HC & k & Hk & SK & FK) & HH & HP) HL HNR H. apply astep_kind in H. destruct H as [l0 -> HR HN EM EI EP|NA EN EM EP HO|j cache chunk kj r -> Hj HPj HQ HR EN EM EP| -> ->].
  - unfold staying. rewrite EP. split; [|auto]. split.
    + unfold clients in *. destruct (nstep_reader _ _ _ _ HN) as [(j & kj & r & -> & Hj & Hp)|([[EC _]|(j & -> & EC & _)] & _)].
      * cbn [nstep] in HN. rewrite Hj in HN. injection HN as HN. unfold reader_step in HN. rewrite Hp in HN. rewrite <- HN. cbn.
        apply filter_In. split; [exact HC|]. destruct (Nat.eqb_spec i j) as [->|N]; [now destruct HNR|reflexivity].
      * now rewrite EC.
      * rewrite EC, in_app_iff. auto.
    + destruct (nflag _ _ _ _ _ _ HN Hk SK) as (k' & G1 & G2 & [G3|(-> & _)]); [|now destruct HNR]. exists k'. intuition congruence.
  - assert (EP' : a_pc a' = a_pc a). { destruct EP as [EP|(_ & m & -> & _)]; [exact EP|now destruct (HL m)]. }
    unfold staying, clients in *. rewrite EN, EP'. eauto 8.
  - unfold staying, clients in *. rewrite EN, EP. split; [|auto]. split; [exact HC|].
    cbn. destruct (Nat.eq_dec j i) as [->|N].
    + rewrite set_nth_same by (apply nth_error_Some; congruence). eexists. split; [reflexivity|]. assert (kj = k) by congruence. subst. auto.
    + rewrite set_nth_other by auto. eauto.
  - unfold admin_step, staying, clients in *. destruct (a_pc a) as [|m|m d|m [|j r]|m j r|m j r] eqn:EP; cbn [a_pc a_net hand] in *; try contradiction.
    + rewrite EP. eauto 8.
    + eauto 8.
    + destruct (on_conn_kc (a_net a) j (k_set_flag false) flag_keeps) as (_ & -> & _). split; [|auto]. split; [exact HC|].
      exists k. rewrite (on_conn_at _ j _ _ _ Hk). destruct (Nat.eqb_spec i j) as [->|N]; [|auto]. exfalso. apply HH. now left.
    + split; [|auto]. split; [|eauto]. cbn. apply filter_In. split; [exact HC|]. destruct (Nat.eqb_spec i j) as [->|N]; [|reflexivity].
      exfalso. apply HH. now left.
    + destruct (on_conn_kc (a_net a) j wake wake_keeps) as (_ & -> & _). split; [|split; [|exact I]]; [split; [exact HC|]|].
      * exists k. rewrite (on_conn_at _ j _ _ _ Hk). destruct (Nat.eqb_spec i j) as [->|N]; [|auto]. exfalso. apply HH. now left.
      * intros G. apply HH. now right.
Qed.
