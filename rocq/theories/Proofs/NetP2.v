From Coq Require Import ZifyBool ZifyNat ZifyN.
From Verif Require Import Model.Concurrent Spec.Response Spec.Net Proofs.WireP Proofs.CacheP Proofs.ConnP Proofs.ConcCacheP Proofs.NetP.
Ltac Zify.zify_post_hook ::= Z.div_mod_to_equations.

(** * What the reader goes through for one PDU *)
Lemma process_ops_ok cfg s tr cache c p : u16 s -> cinv cfg tr c -> acceptable c (get_version p) ->
  exists c4, process_ops (new_rtr_server cfg s) cache c p =
    (do r <- pass_simple_handler (new_rtr_server cfg s) cache c4 p;
     Ok (fst r, OSet (get_version p) :: OSet (c_version c4) :: ops (snd r))) /\
    c_version c4 = N.min (get_version p) (cfg_version cfg) /\
    c_connected c4 = c_connected c /\ cinv cfg tr c4.
Proof.
  intros Hs (I1 & I2 & I3 & I4 & I5 & I6 & I7 & I8 & I9) (HV & HS).
  unfold process_ops. rewrite I4. unfold check_version.
  assert (((negb (c_versionset c) || (get_version p =? c_version c))
           && ((get_version p =? 1) || (get_version p =? 0)))%bool = true) as ->.
  { destruct (c_versionset c); [|cbn; lia]. specialize (HS eq_refl). rewrite HS, N.eqb_refl. cbn. lia. }
  replace (c_enforce (c_set_version (get_version p) c)) with false by (symmetry; exact I3).
  set (c3 := match p with SerialQuery _ _ serial => _ | _ => _ end).
  assert (H3 : c_version c3 = get_version p /\ c_versionset c3 = true /\ c_connected c3 = c_connected c /\
    c_enforce c3 = c_enforce c /\ c_disableVC c3 = c_disableVC c /\ c_refresh c3 = c_refresh c /\
    c_retry c3 = c_retry c /\ c_expire c3 = c_expire c /\ c_noBGPsec c3 = c_noBGPsec c).
  { subst c3. destruct p; cbn; repeat split; reflexivity. }
  destruct H3 as (A1 & A2 & A3 & A4 & A5 & A6 & A7 & A8 & A9). clearbody c3.
  unfold server_handle_pdu. cbn [new_rtr_server s_enforce baseVersion].
  assert (cfg_enforce cfg && negb (c_version c3 =? cfg_version cfg) = false)%bool as ->.
  { destruct (cfg_enforce cfg) eqn:E; [|reflexivity]. destruct (I5 eq_refl) as [J1 J2].
    cbn. rewrite A1, (HS J1), J2, N.eqb_refl. reflexivity. }
  set (c4 := if cfg_version cfg <? c_version c3 then _ else _).
  exists c4.
  assert (H4 : c_version c4 = N.min (get_version p) (cfg_version cfg) /\ c_versionset c4 = true /\
    c_connected c4 = c_connected c /\
    c_enforce c4 = c_enforce c /\ c_disableVC c4 = c_disableVC c /\ c_refresh c4 = c_refresh c /\
    c_retry c4 = c_retry c /\ c_expire c4 = c_expire c /\ c_noBGPsec c4 = c_noBGPsec c).
  { subst c4. destruct (cfg_version cfg <? c_version c3) eqn:E; cbn.
    - repeat split; auto; lia.
    - repeat split; auto; lia. }
  destruct H4 as (B1 & B2 & B3 & B4 & B5 & B6 & B7 & B8 & B9). clearbody c4.
  split; [|split; [exact B1|split; [exact B3|]]].
  - destruct (pass_simple_handler (new_rtr_server cfg s) cache c4 p) as [[c5 a5]|e|]; cbn; reflexivity.
  - repeat split; try congruence; try lia.
    match goal with H : cfg_enforce cfg = true |- _ => destruct (I5 H) as [J1 J2] end.
    rewrite B1, (HS J1), J2. lia.
Qed.

Lemma process_ops_bad cfg s tr cache c p : u16 s -> cinv cfg tr c -> ~ acceptable c (get_version p) ->
  exists c4, process_ops (new_rtr_server cfg s) cache c p =
    (do r <- pass_simple_handler (new_rtr_server cfg s) cache c4 p;
     Ok (fst r, OSet (c_version c) :: OPut (bad_version (c_version c)) :: OFlag :: ODisc :: OQuit ::
                OSet (c_version c) :: ops (snd r))) /\
    c_version c4 = c_version c /\ c_connected c4 = false /\ cinv cfg tr c4.
Proof.
  intros Hs (I1 & I2 & I3 & I4 & I5 & I6 & I7 & I8 & I9) HN.
  unfold process_ops. rewrite I4. unfold check_version.
  assert (((negb (c_versionset c) || (get_version p =? c_version c))
           && ((get_version p =? 1) || (get_version p =? 0)))%bool = false) as ->.
  { apply not_true_iff_false. intros G. apply HN. split; [lia|].
    intros E. rewrite E in G. cbn in G. lia. }
  cbn [disconnect].
  replace (c_enforce (c_set_disconnected c)) with false by (symmetry; exact I3).
  set (c3 := match p with SerialQuery _ _ serial => _ | _ => _ end).
  assert (H3 : c_version c3 = c_version c /\ c_versionset c3 = c_versionset c /\ c_connected c3 = false /\
    c_enforce c3 = c_enforce c /\ c_disableVC c3 = c_disableVC c /\ c_refresh c3 = c_refresh c /\
    c_retry c3 = c_retry c /\ c_expire c3 = c_expire c /\ c_noBGPsec c3 = c_noBGPsec c).
  { subst c3. destruct p; cbn; repeat split; reflexivity. }
  destruct H3 as (A1 & A2 & A3 & A4 & A5 & A6 & A7 & A8 & A9). clearbody c3.
  unfold server_handle_pdu. cbn [new_rtr_server s_enforce baseVersion].
  assert (cfg_enforce cfg && negb (c_version c3 =? cfg_version cfg) = false)%bool as ->.
  { destruct (cfg_enforce cfg) eqn:E; [|reflexivity]. destruct (I5 eq_refl) as [J1 J2].
    cbn. rewrite A1, J2, N.eqb_refl. reflexivity. }
  assert (cfg_version cfg <? c_version c3 = false) as -> by lia.
  exists c3. split; [|split; [assumption|split; [assumption|]]].
  - destruct (pass_simple_handler (new_rtr_server cfg s) cache c3 p) as [[c5 a5]|e|]; cbn; rewrite ?A1; reflexivity.
  - unfold cinv. rewrite A1, A2, A4, A5, A6, A7, A8, A9. tauto.
Qed.

(** The steps of Model/Concurrent.v are those of Model/Conn.v. *)
Definition acts_of (l : list op) : list op := filter (fun o => match o with OSet _ => false | _ => true end) l.
Lemma acts_of_ops a : acts_of (ops a) = ops a.
Proof. unfold acts_of, ops. induction a as [|[p|] a IH]; cbn in *; rewrite ?IH; auto. Qed.
Lemma ops_app a b : ops (a ++ b) = ops a ++ ops b.
Proof. apply flat_map_app. Qed.
Lemma acts_of_app a b : acts_of (a ++ b) = acts_of a ++ acts_of b.
Proof. apply filter_app. Qed.
Lemma process_ops_acts srv cache c p :
  match process srv cache c p, process_ops srv cache c p with
  | Ok (c1, a), Ok (c2, l) => c1 = c2 /\ acts_of l = ops a
  | Panic, Panic => True
  | _, _ => False
  end.
Proof.
  unfold process, process_ops.
  destruct (if c_disableVC c then (c, []) else check_version c (get_version p)) as [c1 a1].
  destruct (if c_enforce c1 then _ else (c1, [])) as [c2 a2].
  destruct (server_handle_pdu srv match p with SerialQuery _ _ serial => c_set_curserial serial c2 | _ => c2 end) as [c4 a4].
  destruct (pass_simple_handler srv cache c4 p) as [[c5 a5]|e|]; cbn; [|destruct e|exact I].
  split; [reflexivity|]. rewrite !acts_of_app. cbn. rewrite !acts_of_ops, !ops_app. reflexivity.
Qed.

(** * No PDU put on a channel makes the sender panic *)
Definition enc_ok (p : pdu) : Prop := encode p <> Panic.
Lemma enc_send_data c d q : In (Queue q) (send_data c d) -> enc_ok q.
Proof.
  unfold send_data, send_pdu, enc_ok. destruct d as [pp aa mm ff|aa ss kk ff].
  - destruct (is6 (p_addr pp)) eqn:E6; [intros [E|[]]; injection E as <-; cbn; discriminate|].
    destruct (is4 (p_addr pp)) eqn:E4; [intros [E|[]]; injection E as <-|intros []].
    cbn. destruct (p_addr pp); cbn in *; discriminate.
  - destruct ((c_version c =? 0) || c_noBGPsec c); [intros []|].
    intros [E|[]]; injection E as <-. cbn. destruct (negb (nlen ss =? 20)); discriminate.
Qed.
Lemma enc_send_sds c sess serial l q : In (Queue q) (send_sds c sess serial l) -> enc_ok q.
Proof.
  unfold send_sds. rewrite !in_app_iff. intros [[E|[]]|[H|[E|[]]]].
  - injection E as <-. unfold enc_ok. cbn. discriminate.
  - apply in_flat_map in H as (d & _ & H). eapply enc_send_data; eauto.
  - injection E as <-. unfold enc_ok. cbn. discriminate.
Qed.
Lemma enc_pass srv cache c p c' a q : pass_simple_handler srv cache c p = Ok (c', a) -> In (Queue q) a -> enc_ok q.
Proof.
  assert (H1 : forall c x y q, In (Queue q) [Queue (set_version (c_version c) (ErrorReport 0 x [] y))] -> enc_ok q).
  { intros c0 x y q0 [E|[]]. injection E as <-. unfold enc_ok. cbn. discriminate. }
  destruct p; cbn [pass_simple_handler]; try (intros [=<- <-] []; fail).
  - unfold request_new_version, get_session_id. destruct (nth_error _ _) as [ss|]; cbn [bind]; [|discriminate].
    destruct (negb (sess =? ss)).
    + cbn [disconnect]. intros [=<- <-] [E|[E|[]]]; [|discriminate]. injection E as <-. unfold enc_ok. cbn. discriminate.
    + destruct (get_current_serial cache) as [n valid]. destruct valid; cbn [negb].
      * destruct (get_sds_serial_diff cache serial) as [dd|e|]; [| |discriminate]; intros [=<- <-].
        -- apply enc_send_sds.
        -- intros [E|[]]. injection E as <-. unfold enc_ok. cbn. discriminate.
      * intros [=<- <-]. apply H1.
  - unfold request_cache, get_session_id. destruct (nth_error _ _) as [ss|]; cbn [bind]; [|discriminate].
    destruct (get_current_serial cache) as [n valid]. destruct valid; cbn [negb]; intros [=<- <-].
    + apply enc_send_sds.
    + apply H1.
Qed.

(** * C30: the invariant of a connection *)
Definition op_ok (cfg : config) (o : op) : Prop :=
  match o with OSet v => v <= cfg_version cfg | OPut p => enc_ok p | _ => True end.
Definition kinv (cfg : config) (k : conn) : Prop :=
  cinv cfg (k_tr k) (k_cli k) /\ k_ver k <= cfg_version cfg /\ Forall (op_ok cfg) (k_prog k) /\
  Forall enc_ok (k_queue k) /\ Forall enc_ok (in_hand k).

Lemma op_ok_ops cfg a : (forall q, In (Queue q) a -> enc_ok q) -> Forall (op_ok cfg) (ops a).
Proof.
  intros H. apply Forall_forall. intros o Ho. apply in_flat_map in Ho as (x & Hx & Ho).
  destruct x; cbn in Ho; [destruct Ho as [<-|[]]; cbn; auto|].
  destruct Ho as [<-|[<-|[<-|[]]]]; exact I.
Qed.

Lemma read_ops_ok cfg s tr cache c chunk : u16 s -> cfg_version cfg < 256 ->
  1 <= cfg_version cfg \/ cfg_enforce cfg = true -> cinv cfg tr c -> bytes_ok chunk ->
  exists c' l, read_ops (new_rtr_server cfg s) cache c chunk = Ok (c', l) /\ cinv cfg tr c' /\ Forall (op_ok cfg) l.
Proof.
  intros Hs Hb HB HI Hc.
  assert (D : exists c' l, Ok (c_set_disconnected c, ops [Disc]) = @Ok (client * list op) Empty_set (c', l) /\ cinv cfg tr c' /\ Forall (op_ok cfg) l).
  { exists (c_set_disconnected c), (ops [Disc]). split; [reflexivity|]. split; [exact HI|]. repeat constructor. }
  unfold read_ops. destruct chunk as [|b0 chunk]; [exact D|].
  destruct (decode_bytes 64 (b0 :: chunk)) as [p|e|] eqn:E.
  - destruct (acceptable_dec c (get_version p)) as [HA|HA].
    + destruct (process_ops_ok cfg s tr cache c p Hs HI HA) as (c4 & E4 & B1 & B2 & HI4).
      destruct (pass_total cfg s tr cache c4 p Hs Hb HI4) as (c5 & a5 & E5 & _ & _ & _ & HI5 & _).
      rewrite E4, E5. cbn. eexists _, _. split; [reflexivity|]. split; [exact HI5|].
      constructor; [|constructor; [cbn; lia|]].
      * cbn. destruct HB as [HB|HB]; [destruct HA as [HA _]; lia|].
        destruct HI as (I1 & _ & _ & _ & I5 & _). destruct (I5 HB) as [J1 J2].
        destruct HA as [_ HA]. rewrite (HA J1). lia.
      * apply op_ok_ops. intros q. eapply enc_pass; eauto.
    + destruct (process_ops_bad cfg s tr cache c p Hs HI HA) as (c4 & E4 & B1 & B2 & HI4).
      destruct (pass_total cfg s tr cache c4 p Hs Hb HI4) as (c5 & a5 & E5 & _ & _ & _ & HI5 & _).
      rewrite E4, E5. cbn. eexists _, _. split; [reflexivity|]. split; [exact HI5|].
      destruct HI as (I1 & _).
      repeat (constructor; [first [exact I|cbn; lia|cbn; unfold enc_ok; cbn; discriminate]|]).
      apply op_ok_ops. intros q. eapply enc_pass; eauto.
  - exact D.
  - exfalso. unfold decode_bytes in E. pose proof (decode_no_panic (b0 :: chunk) Hc) as N.
    destruct (decode 64 (b0 :: chunk)) as [[p r]|e|]; cbn in E; congruence.
Qed.

(** Data read from the network are bytes. *)

Lemma kinv_put cfg k p k' : kinv cfg k -> enc_ok p -> put k p = Some k' -> kinv cfg k'.
Proof.
  intros (H1 & H2 & H3 & H4 & H5) Hp H. unfold put in H. unfold kinv, in_hand in *.
  destruct (k_pc k) eqn:EP, (nlen (k_queue k) <? 256); try discriminate; injection H as <-; cbn;
    (split; [exact H1|split; [exact H2|split; [exact H3|split; [|auto]]]]); auto;
    apply Forall_app; auto.
Qed.

Definition ninv (cfg : config) (w : net) : Prop :=
  (forall i k, nth_error (n_conns w) i = Some k -> kinv cfg k) /\
  match n_notif w with NPut p _ _ _ => enc_ok p | _ => True end.

Lemma kinv_new cfg s tr : kinv cfg (new_conn tr (new_rtr_server cfg s)).
Proof.
  pose proof (cinv_accept cfg s tr) as H. split; [exact H|]. split; [apply H|]. repeat constructor.
Qed.

Lemma ninv_step cfg s w l : u16 s -> cfg_version cfg < 256 ->
  1 <= cfg_version cfg \/ cfg_enforce cfg = true -> ninv cfg w -> lab_ok l ->
  exists w', nstep (new_rtr_server cfg s) w l = Ok w' /\ ninv cfg w'.
Proof.
  intros Hs Hb HB [HK HN] HL.
  assert (SAME : exists w', @Ok net Empty_set w = Ok w' /\ ninv cfg w') by (exists w; split; [reflexivity|split; auto]).
  assert (ONE : forall i k k1 w1, nth_error (n_conns w) i = Some k -> (kinv cfg k -> kinv cfg k1) ->
     n_conns w1 = set_nth (n_conns w) i k1 ->
     match n_notif w1 with NPut p _ _ _ => enc_ok p | _ => True end ->
     exists w', @Ok net Empty_set w1 = Ok w' /\ ninv cfg w').
  { intros i k k1 w1 Hi Hk E1 E2. exists w1. split; [reflexivity|]. split; [|exact E2].
    rewrite E1. intros j kj Hj. destruct (nth_set_nth _ _ _ _ _ Hj) as [(-> & -> & _)|(_ & Hj')]; eauto. }
  assert (SET : forall i k k1 c m, nth_error (n_conns w) i = Some k -> (kinv cfg k -> kinv cfg k1) ->
     exists w', @Ok net Empty_set (mkNet m c (set_nth (n_conns w) i k1) (n_notif w)) = Ok w' /\ ninv cfg w').
  { intros i k k1 c m Hi Hk. eapply (ONE i k k1); eauto. }
  destruct l; cbn [nstep].
  - destruct (_ && _)%bool; [exact SAME|]. eexists; split; [reflexivity|]. split; [|exact HN].
    intros j k Hj. cbn [n_conns] in Hj. destruct (Nat.lt_ge_cases j (length (n_conns w))).
    + rewrite nth_error_app1 in Hj by auto. eauto.
    + rewrite nth_error_app2 in Hj by auto.
      destruct (j - length (n_conns w))%nat as [|m]; cbn in Hj; [|destruct m; discriminate].
      injection Hj as <-. apply kinv_new.
  - destruct (nth_error (n_conns w) i) as [k|] eqn:Ei; [|exact SAME].
    destruct (k_phase k), (k_tr k); try exact SAME. now apply (SET i k).
  - destruct (nth_error (n_conns w) i) as [k|] eqn:Ei; [|exact SAME].
    destruct (k_phase k), (k_tr k); try exact SAME; (apply (SET i k); [exact Ei|]; intros (H1 & H2 & H3 & H4 & H5);
      (split; [exact H1|split; [exact H2|split; [exact H3|split; [exact H4|constructor]]]])).
  - destruct (nth_error (n_conns w) i) as [k|] eqn:Ei; [|exact SAME].
    destruct (k_phase k), (k_prog k) eqn:EP, (k_flag k); try exact SAME.
    destruct (HK _ _ Ei) as (H1 & H2 & H3 & H4 & H5).
    destruct (read_ops_ok cfg s (k_tr k) cache (k_cli k) chunk Hs Hb HB H1 HL) as (c' & l & E & HI & HO).
    rewrite E. cbn [bind fst snd]. apply (SET i k); [exact Ei|]. intros _.
    split; [exact HI|]. split; [exact H2|]. split; [exact HO|]. auto.
  - destruct (nth_error (n_conns w) i) as [k|] eqn:Ei; [|exact SAME].
    unfold reader_step. destruct (k_prog k) as [|[v|p| | |] r] eqn:EP; [exact SAME| | | | |].
    + apply (SET i k); [exact Ei|]. intros (H1 & H2 & H3 & H4 & H5). rewrite EP in H3. inversion H3; subst.
      split; [exact H1|split; [assumption|split; auto]].
    + destruct (put k p) as [k1|] eqn:EU; [|exact SAME]. apply (SET i k); [exact Ei|].
      intros HKk. pose proof HKk as (H1 & H2 & H3 & H4 & H5). rewrite EP in H3. inversion H3; subst.
      destruct (kinv_put cfg k p k1 HKk) as (G1 & G2 & G3 & G4 & G5); auto.
      split; [exact G1|split; [exact G2|split; auto]].
    + apply (SET i k); [exact Ei|]. intros (H1 & H2 & H3 & H4 & H5). rewrite EP in H3. inversion H3; subst.
      split; [exact H1|split; [assumption|split; auto]].
    + unfold client_disconnected, with_conn. cbn. apply (SET i k); [exact Ei|].
      intros (H1 & H2 & H3 & H4 & H5). rewrite EP in H3. inversion H3; subst.
      split; [exact H1|split; [assumption|split; auto]].
    + apply (SET i k); [exact Ei|]. intros (H1 & H2 & H3 & H4 & H5). rewrite EP in H3. inversion H3; subst.
      unfold kinv, in_hand in *. destruct (k_pc k) eqn:EC; cbn; rewrite ?EC; auto 10.
  - destruct (nth_error (n_conns w) i) as [k|] eqn:Ei; [|exact SAME].
    destruct (k_phase k), (k_prog k) eqn:EP, (k_flag k); try exact SAME.
    apply (SET i k); [exact Ei|]. intros (H1 & H2 & H3 & H4 & H5).
    split; [exact H1|split; [assumption|split; auto]].
  - destruct (nth_error (n_conns w) i) as [k|] eqn:Ei; [|exact SAME].
    destruct (HK _ _ Ei) as (H1 & H2 & H3 & H4 & H5).
    unfold sender_step. destruct (k_pc k) eqn:EC; cbn [bind].
    + apply (SET i k); [exact Ei|auto].
    + apply (SET i k); [exact Ei|]. intros _. split; [exact H1|split; [assumption|split; [assumption|split; [assumption|]]]].
      unfold in_hand. cbn. destruct (k_flag k); constructor.
    + destruct (k_queue k) as [|q0 q] eqn:EQ; cbn [bind]; (apply (SET i k); [exact Ei|]; intros _;
        split; [exact H1|split; [assumption|split; [assumption|]]]); unfold in_hand; cbn; rewrite ?EQ.
      * auto.
      * inversion H4; subst. auto.
    + apply (SET i k); [exact Ei|auto].
    + unfold in_hand in H5. rewrite EC in H5. inversion H5 as [|? ? He _]; subst. unfold enc_ok in He.
      destruct (encode p) as [b|e|]; [|destruct e|congruence]. cbn [bind].
      apply (SET i k); [exact Ei|]. intros _.
      destruct (k_up k); [destruct o|]; (split; [exact H1|split; [assumption|split; [assumption|split; [assumption|]]]];
        constructor).
    + apply (SET i k); [exact Ei|auto].
  - destruct (n_notif w) eqn:EN; try (exists w; split; [reflexivity|split; [exact HK|rewrite EN; exact HN]]).
    eexists; split; [reflexivity|split; [exact HK|exact I]].
  - unfold notifier_step. destruct (n_notif w) as [|serial [|i rest]|serial sess i rest|p serial i rest] eqn:EN.
    + exists w; split; [reflexivity|split; [exact HK|rewrite EN; exact I]].
    + eexists; split; [reflexivity|split; [exact HK|exact I]].
    + destruct (nth_error (n_conns w) i) as [k|] eqn:Ei; [|exists w; split; [reflexivity|split; [exact HK|rewrite EN; exact I]]].
      destruct (HK _ _ Ei) as (H1 & H2 & H3 & H4 & H5).
      unfold get_session_id. rewrite sess_nth by assumption. cbn.
      eexists; split; [reflexivity|split; [exact HK|exact I]].
    + destruct (nth_error (n_conns w) i) as [k|] eqn:Ei; [|exists w; split; [reflexivity|split; [exact HK|rewrite EN; exact I]]].
      eexists; split; [reflexivity|split; [exact HK|]]. cbn. unfold enc_ok. cbn. discriminate.
    + destruct (nth_error (n_conns w) i) as [k|] eqn:Ei; [|exists w; split; [reflexivity|split; [exact HK|rewrite EN; exact HN]]].
      destruct (put k p) as [k1|] eqn:EU; [|exists w; split; [reflexivity|split; [exact HK|rewrite EN; exact HN]]].
      eapply (ONE i k k1); [exact Ei| |reflexivity|exact I]. intros G. eapply kinv_put; eauto.
Qed.

Lemma no_panic cfg s : u16 s -> cfg_version cfg < 256 -> 1 <= cfg_version cfg \/ cfg_enforce cfg = true ->
  forall sched w, ninv cfg w -> Forall lab_ok sched ->
  exists w', nrun (new_rtr_server cfg s) w sched = Ok w' /\ ninv cfg w'.
Proof.
  intros Hs Hb HB. induction sched as [|l r IH]; intros w HW HL.
  - exists w. auto.
  - inversion HL; subst. destruct (ninv_step cfg s w l Hs Hb HB HW) as (w1 & E1 & HW1); auto.
    cbn. rewrite E1. cbn. auto.
Qed.
Lemma ninv_empty cfg : ninv cfg empty_net.
Proof. split; [apply (empty_conns (kinv cfg))|exact I]. Qed.
