(** Where the server can panic, for every base version. *)
From Coq Require Import ZArith ZifyBool ZifyNat ZifyN.
From Verif Require Import Model.Concurrent Spec.Response Spec.Net Proofs.WireP Proofs.CacheP Proofs.ConnP Proofs.ConcCacheP Proofs.NetP Proofs.NetP2.
From Coq Require Import List.
Local Open Scope list_scope.
Local Open Scope N_scope.
Ltac Zify.zify_post_hook ::= Z.div_mod_to_equations.

Section Panics.
Variables (cfg : config) (s : N).
Hypotheses (Hs : u16 s) (Hb : cfg_version cfg < 256).

(** The version is too high only between the two settings of the first PDU. *)
Definition high (l : list op) : Prop := cfg_version cfg = 0 /\ cfg_enforce cfg = false /\ exists r, l = OSet 0 :: r /\ Forall (op_ok cfg) r.
Definition prog_ok (l : list op) : Prop := Forall (op_ok cfg) l \/ exists r, l = OSet 1 :: r /\ high r.
Definition vinv (k : conn) : Prop :=
  cinv cfg (k_tr k) (k_cli k) /\ Forall enc_ok (k_queue k) /\ Forall enc_ok (in_hand k) /\
  (k_ver k <= cfg_version cfg /\ prog_ok (k_prog k) \/ k_ver k = 1 /\ high (k_prog k)).
Definition winv (w : net) : Prop :=
  (forall i k, nth_error (n_conns w) i = Some k -> vinv k) /\
  match n_notif w with NPut p _ _ _ => enc_ok p | _ => True end.
(** The step that panics. *)
Definition fault (w : net) : Prop := cfg_version cfg = 0 /\ cfg_enforce cfg = false /\
  exists serial i rest k r, n_notif w = NLoop serial (i :: rest) /\ nth_error (n_conns w) i = Some k /\ k_ver k = 1 /\ k_prog k = OSet 0 :: r.

Lemma read_prog tr cache c chunk : cinv cfg tr c -> bytes_ok chunk ->
  exists c' l, read_ops (new_rtr_server cfg s) cache c chunk = Ok (c', l) /\ cinv cfg tr c' /\ prog_ok l.
Proof.
  intros HI Hc.
  assert (D : exists c' l, Ok (c_set_disconnected c, ops [Disc]) = @Ok (client * list op) Empty_set (c', l) /\ cinv cfg tr c' /\ prog_ok l).
  { exists (c_set_disconnected c), (ops [Disc]). split; [reflexivity|]. split; [exact HI|]. left. repeat constructor. }
  unfold read_ops. destruct chunk as [|b0 chunk]; [exact D|].
  destruct (decode_bytes 64 (b0 :: chunk)) as [p|e|] eqn:E.
  - destruct (acceptable_dec c (get_version p)) as [HA|HA].
    + destruct (process_ops_ok cfg s tr cache c p Hs HI HA) as (c4 & E4 & B1 & B2 & HI4).
      destruct (pass_total cfg s tr cache c4 p Hs Hb HI4) as (c5 & a5 & E5 & _ & _ & _ & HI5 & _).
      rewrite E4, E5. cbn [bind fst snd]. eexists _, _. split; [reflexivity|]. split; [exact HI5|].
      assert (HO : Forall (op_ok cfg) (ops a5)) by (apply op_ok_ops; intros q; eapply enc_pass; eauto).
      destruct (N.le_gt_cases (get_version p) (cfg_version cfg)) as [Hv|Hv].
      * left. apply Forall_cons; [exact Hv|]. apply Forall_cons; [cbn; lia|exact HO].
      * destruct HA as [HV HS]. right. assert (get_version p = 1) as -> by lia. exists (OSet (c_version c4) :: ops a5). split; [reflexivity|].
        split; [lia|]. split.
        -- destruct (cfg_enforce cfg) eqn:EE; [|reflexivity]. destruct HI as (I1 & _ & _ & _ & I5 & _). destruct (I5 EE) as [J1 J2]. specialize (HS J1). lia.
        -- exists (ops a5). split; [f_equal; f_equal; lia|exact HO].
    + destruct (process_ops_bad cfg s tr cache c p Hs HI HA) as (c4 & E4 & B1 & B2 & HI4).
      destruct (pass_total cfg s tr cache c4 p Hs Hb HI4) as (c5 & a5 & E5 & _ & _ & _ & HI5 & _).
      rewrite E4, E5. cbn [bind fst snd]. eexists _, _. split; [reflexivity|]. split; [exact HI5|]. left.
      destruct HI as (I1 & _).
      repeat (constructor; [first [exact I|cbn; lia|cbn; unfold enc_ok; cbn; discriminate]|]).
      apply op_ok_ops. intros q. eapply enc_pass; eauto.
  - exact D.
  - exfalso. unfold decode_bytes in E. pose proof (decode_no_panic (b0 :: chunk) Hc) as N.
    destruct (decode 64 (b0 :: chunk)) as [[p r]|e|]; cbn in E; congruence.
Qed.

Lemma vinv_put k p k' : vinv k -> enc_ok p -> put k p = Some k' -> vinv k'.
Proof.
  intros (H1 & H2 & H3 & H4) Hp H. unfold put in H. unfold vinv, in_hand in *.
  destruct (k_pc k) eqn:EP, (nlen (k_queue k) <? 256); try discriminate; injection H as <-; cbn;
    (split; [exact H1|split; [|split; [|exact H4]]]); auto; apply Forall_app; auto.
Qed.
(** A step of the reader that is no setting of the version. *)
Lemma vinv_next k o r : vinv k -> k_prog k = o :: r -> (forall v, o <> OSet v) -> op_ok cfg o /\ k_ver k <= cfg_version cfg /\ Forall (op_ok cfg) r.
Proof.
  intros (_ & _ & _ & H4) E N. rewrite E in H4. destruct H4 as [[H [G|(r' & G & _)]]|[_ (_ & _ & r' & G & _)]]; [|injection G as G _; now apply N in G|injection G as G _; now apply N in G].
  inversion G; subst. auto.
Qed.

Lemma winv_step w l : winv w -> lab_ok l ->
  (exists w', nstep (new_rtr_server cfg s) w l = Ok w' /\ winv w') \/ (l = LNotifier /\ fault w).
Proof.
  intros [HK HN] HL.
  assert (SAME : (exists w', @Ok net Empty_set w = Ok w' /\ winv w') \/ (l = LNotifier /\ fault w)) by (left; exists w; split; [reflexivity|split; auto]).
  assert (ONE : forall i k k1 w1, nth_error (n_conns w) i = Some k -> (vinv k -> vinv k1) ->
     n_conns w1 = set_nth (n_conns w) i k1 ->
     match n_notif w1 with NPut p _ _ _ => enc_ok p | _ => True end ->
     (exists w', @Ok net Empty_set w1 = Ok w' /\ winv w') \/ (l = LNotifier /\ fault w)).
  { intros i k k1 w1 Hi Hk E1 E2. left. exists w1. split; [reflexivity|]. split; [|exact E2].
    rewrite E1. intros j kj Hj. destruct (nth_set_nth _ _ _ _ _ Hj) as [(-> & -> & _)|(_ & Hj')]; eauto. }
  assert (SET : forall i k k1 c m, nth_error (n_conns w) i = Some k -> (vinv k -> vinv k1) ->
     (exists w', @Ok net Empty_set (mkNet m c (set_nth (n_conns w) i k1) (n_notif w)) = Ok w' /\ winv w') \/ (l = LNotifier /\ fault w)).
  { intros i k k1 c m Hi Hk. eapply (ONE i k k1); eauto. }
  destruct l; cbn [nstep].
  - destruct (_ && _)%bool; [exact SAME|]. left. eexists; split; [reflexivity|]. split; [|exact HN].
    intros j k Hj. cbn [n_conns] in Hj. destruct (Nat.lt_ge_cases j (length (n_conns w))).
    + rewrite nth_error_app1 in Hj by auto. eauto.
    + rewrite nth_error_app2 in Hj by auto.
      destruct (j - length (n_conns w))%nat as [|m]; cbn in Hj; [|destruct m; discriminate].
      injection Hj as <-. pose proof (cinv_accept cfg s tr) as H0. split; [exact H0|]. split; [constructor|]. split; [constructor|]. left. split; [apply H0|left; constructor].
  - destruct (nth_error (n_conns w) i) as [k|] eqn:Ei; [|exact SAME].
    destruct (k_phase k), (k_tr k); try exact SAME. now apply (SET i k).
  - destruct (nth_error (n_conns w) i) as [k|] eqn:Ei; [|exact SAME].
    destruct (k_phase k), (k_tr k); try exact SAME; (apply (SET i k); [exact Ei|]; intros (H1 & H2 & H3 & H4);
      (split; [exact H1|split; [exact H2|split; [constructor|exact H4]]])).
  - destruct (nth_error (n_conns w) i) as [k|] eqn:Ei; [|exact SAME].
    destruct (k_phase k), (k_prog k) eqn:EP, (k_flag k); try exact SAME.
    destruct (HK _ _ Ei) as (H1 & H2 & H3 & H4).
    destruct (read_prog (k_tr k) cache (k_cli k) chunk H1 HL) as (c' & l & E & HI & HO).
    rewrite E. cbn [bind fst snd]. apply (SET i k); [exact Ei|]. intros _.
    split; [exact HI|]. split; [exact H2|]. split; [exact H3|]. left. rewrite EP in H4. split; [|exact HO].
    destruct H4 as [[H4 _]|[_ (_ & _ & r & H4 & _)]]; [exact H4|discriminate H4].
  - destruct (nth_error (n_conns w) i) as [k|] eqn:Ei; [|exact SAME].
    unfold reader_step. destruct (k_prog k) as [|[v|p| | |] r] eqn:EP; [exact SAME| | | | |].
    + apply (SET i k); [exact Ei|]. intros (H1 & H2 & H3 & H4). rewrite EP in H4.
      split; [exact H1|]. split; [exact H2|]. split; [exact H3|]. cbn [k_ver k_prog k_set_prog k_set_ver].
      destruct H4 as [[_ [G|(r' & G & H)]]|[_ (A & B & r' & G & H)]].
      * left. inversion G; subst. split; [assumption|now left].
      * injection G as -> <-. now right.
      * injection G as -> <-. left. split; [lia|now left].
    + destruct (put k p) as [k1|] eqn:EU; [|exact SAME]. apply (SET i k); [exact Ei|].
      intros HKk. destruct (vinv_next k _ r HKk EP ltac:(discriminate)) as (A & B & C).
      destruct (vinv_put k p k1 HKk A EU) as (G1 & G2 & G3 & G4).
      split; [exact G1|]. split; [exact G2|]. split; [exact G3|]. left. split; [|now left].
      cbn [k_ver k_prog k_set_prog]. unfold put in EU. destruct (k_pc k), (nlen (k_queue k) <? 256); try discriminate; injection EU as <-; exact B.
    + apply (SET i k); [exact Ei|]. intros HKk. destruct (vinv_next k _ r HKk EP ltac:(discriminate)) as (A & B & C). destruct HKk as (H1 & H2 & H3 & _).
      split; [exact H1|]. split; [exact H2|]. split; [exact H3|]. left. split; [exact B|now left].
    + unfold client_disconnected, with_conn. cbn [n_conns n_count n_clients n_notif]. apply (SET i k); [exact Ei|].
      intros HKk. destruct (vinv_next k _ r HKk EP ltac:(discriminate)) as (A & B & C). destruct HKk as (H1 & H2 & H3 & _).
      split; [exact H1|]. split; [exact H2|]. split; [exact H3|]. left. split; [exact B|now left].
    + apply (SET i k); [exact Ei|]. intros HKk. destruct (vinv_next k _ r HKk EP ltac:(discriminate)) as (A & B & C). destruct HKk as (H1 & H2 & H3 & _).
      unfold vinv, in_hand in *. destruct (k_pc k) eqn:EC; cbn; rewrite ?EC; (split; [exact H1|split; [exact H2|split; [auto|left; split; [exact B|now left]]]]).
  - destruct (nth_error (n_conns w) i) as [k|] eqn:Ei; [|exact SAME].
    destruct (k_phase k), (k_prog k) eqn:EP, (k_flag k); try exact SAME.
    apply (SET i k); [exact Ei|]. intros (H1 & H2 & H3 & H4).
    split; [exact H1|split; [assumption|split; auto]].
  - destruct (nth_error (n_conns w) i) as [k|] eqn:Ei; [|exact SAME].
    destruct (HK _ _ Ei) as (H1 & H2 & H3 & H4).
    unfold sender_step. destruct (k_pc k) eqn:EC; cbn [bind].
    + apply (SET i k); [exact Ei|auto].
    + apply (SET i k); [exact Ei|]. intros _. split; [exact H1|split; [assumption|split; [|exact H4]]].
      unfold in_hand. cbn. destruct (k_flag k); constructor.
    + destruct (k_queue k) as [|q0 q] eqn:EQ; cbn [bind]; (apply (SET i k); [exact Ei|]; intros _;
        split; [exact H1|]); unfold in_hand; cbn; rewrite ?EQ.
      * split; [constructor|]. split; [constructor|exact H4].
      * inversion H2; subst. split; [assumption|]. split; [now repeat constructor|exact H4].
    + apply (SET i k); [exact Ei|auto].
    + unfold in_hand in H3. rewrite EC in H3. inversion H3 as [|? ? He _]; subst. unfold enc_ok in He.
      destruct (encode p) as [b|e|]; [|destruct e|congruence]. cbn [bind].
      apply (SET i k); [exact Ei|]. intros _.
      destruct (k_up k); [destruct o|]; (split; [exact H1|split; [assumption|split; [constructor|exact H4]]]).
    + apply (SET i k); [exact Ei|auto].
  - left. destruct (n_notif w) eqn:EN; try (exists w; split; [reflexivity|split; [exact HK|rewrite EN; exact HN]]).
    eexists; split; [reflexivity|split; [exact HK|exact I]].
  - unfold notifier_step. destruct (n_notif w) as [|serial [|i rest]|serial sess i rest|p serial i rest] eqn:EN.
    + left. exists w; split; [reflexivity|split; [exact HK|rewrite EN; exact I]].
    + left. eexists; split; [reflexivity|split; [exact HK|exact I]].
    + destruct (nth_error (n_conns w) i) as [k|] eqn:Ei; [|left; exists w; split; [reflexivity|split; [exact HK|rewrite EN; exact I]]].
      destruct (HK _ _ Ei) as (H1 & H2 & H3 & [[H4 _]|[H4 (A & B & r & H5 & _)]]).
      * left. unfold get_session_id. rewrite sess_nth by assumption. cbn.
        eexists; split; [reflexivity|split; [exact HK|exact I]].
      * right. split; [reflexivity|]. split; [exact A|]. split; [exact B|]. exists serial, i, rest, k, r. auto.
    + left. destruct (nth_error (n_conns w) i) as [k|] eqn:Ei; [|exists w; split; [reflexivity|split; [exact HK|rewrite EN; exact I]]].
      eexists; split; [reflexivity|split; [exact HK|]]. cbn. unfold enc_ok. cbn. discriminate.
    + destruct (nth_error (n_conns w) i) as [k|] eqn:Ei; [|left; exists w; split; [reflexivity|split; [exact HK|rewrite EN; exact HN]]].
      destruct (put k p) as [k1|] eqn:EU; [|left; exists w; split; [reflexivity|split; [exact HK|rewrite EN; exact HN]]].
      eapply (ONE i k k1); [exact Ei| |reflexivity|exact I]. intros G. eapply vinv_put; eauto.
Qed.
Lemma fault_panics w : fault w -> nstep (new_rtr_server cfg s) w LNotifier = Panic.
Proof.
  intros (A & _ & serial & i & rest & k & r & E1 & E2 & E3 & _). cbn [nstep]. unfold notifier_step. rewrite E1, E2. unfold get_session_id.
  rewrite sess_none by (rewrite E3; lia). reflexivity.
Qed.
Lemma panics sched : forall w, winv w -> Forall lab_ok sched ->
  (exists w', nrun (new_rtr_server cfg s) w sched = Ok w' /\ winv w') \/
  (nrun (new_rtr_server cfg s) w sched = Panic /\ exists s1 s2 w', sched = s1 ++ LNotifier :: s2 /\ nrun (new_rtr_server cfg s) w s1 = Ok w' /\ fault w').
Proof.
  induction sched as [|l r IH]; intros w HW HL.
  - left. exists w. auto.
  - inversion HL; subst. cbn [nrun]. destruct (winv_step w l HW) as [(w1 & E1 & HW1)|[-> F]]; [assumption| |].
    + rewrite E1. cbn [bind]. destruct (IH w1 HW1) as [G|(G & s1 & s2 & w' & -> & R & F)]; [assumption|now left|right].
      split; [exact G|]. exists (l :: s1), s2, w'. split; [reflexivity|]. split; [|exact F]. cbn [nrun]. rewrite E1. exact R.
    + right. rewrite (fault_panics w F). split; [reflexivity|]. exists [], r, w. auto.
Qed.
End Panics.
