(** Answers are complete and in one piece. *)
From Coq Require Import ZArith ZifyBool ZifyNat ZifyN.
From Verif Require Import Model.Concurrent Spec.Response Spec.Net Spec.Conversation
  Proofs.ConnP Proofs.ConcCacheP Proofs.NetP Proofs.NetP2.
Local Open Scope list_scope.
Local Open Scope N_scope.
Ltac Zify.zify_post_hook ::= Z.div_mod_to_equations.

(** * What one read gives rise to *)
Definition queued_by (a : list act) : list pdu := flat_map (fun x => match x with Queue p => [p] | Disc => [] end) a.
Definition puts (l : list op) : list pdu := flat_map (fun o => match o with OPut p => [p] | _ => [] end) l.
Lemma puts_ops a : puts (ops a) = queued_by a.
Proof. unfold puts, ops, queued_by. induction a as [|[p|] a IH]; cbn in *; rewrite ?IH; auto. Qed.
Lemma puts_app a b : puts (a ++ b) = puts a ++ puts b.
Proof. apply flat_map_app. Qed.
Lemma queued_app a b : queued_by (a ++ b) = queued_by a ++ queued_by b.
Proof. apply flat_map_app. Qed.
Definition whole (l : list pdu) : Prop := exists bs, Forall answer bs /\ concat bs = l.
Lemma whole_nil : whole [].
Proof. exists []. split; [constructor|reflexivity]. Qed.
Lemma whole_app a b : whole a -> whole b -> whole (a ++ b).
Proof. intros (x & X1 & <-) (y & Y1 & <-). exists (x ++ y). split; [apply Forall_app; auto|apply concat_app]. Qed.
Lemma whole_one b : answer b -> whole b.
Proof. intros H. exists [b]. split; [constructor; [exact H|constructor]|cbn; apply app_nil_r]. Qed.
Lemma send_data_data c d : Forall (fun p => is_data p = true /\ get_version p = c_version c) (queued_by (send_data c d)).
Proof.
  unfold send_data, send_pdu. destruct d as [p a m f|a s k f].
  - destruct (is6 (p_addr p)); [repeat constructor|]. destruct (is4 (p_addr p)); repeat constructor.
  - destruct ((c_version c =? 0) || c_noBGPsec c); repeat constructor.
Qed.
Lemma send_sds_whole c sess serial l : whole (queued_by (send_sds c sess serial l)).
Proof.
  apply whole_one. unfold send_sds. rewrite !queued_app. cbn [queued_by send_pdu flat_map set_version app].
  apply A_data. induction l as [|d l IH]; cbn [flat_map]; [constructor|]. rewrite queued_app. apply Forall_app. split; [apply send_data_data|exact IH].
Qed.
Lemma pass_whole srv cache c p c' a : pass_simple_handler srv cache c p = Ok (c', a) -> whole (queued_by a).
Proof.
  assert (ER : forall c x y, whole (queued_by [Queue (set_version (c_version c) (ErrorReport 0 x [] y))])) by (intros; apply whole_one, A_error).
  destruct p; cbn [pass_simple_handler]; try (intros [=<- <-]; apply whole_nil).
  - unfold request_new_version, get_session_id. destruct (nth_error _ _) as [ss|]; cbn [bind]; [|discriminate].
    destruct (negb (sess =? ss)); [cbn [disconnect]; intros [=<- <-]; apply (ER c)|].
    destruct (get_current_serial cache) as [n valid]. destruct valid; cbn [negb].
    + destruct (get_sds_serial_diff cache serial) as [dd|e|]; [| |discriminate]; intros [=<- <-]; [apply send_sds_whole|apply whole_one, A_reset].
    + intros [=<- <-]. apply (ER c).
  - unfold request_cache, get_session_id. destruct (nth_error _ _) as [ss|]; cbn [bind]; [|discriminate].
    destruct (get_current_serial cache) as [n valid]. destruct valid; cbn [negb]; intros [=<- <-]; [apply send_sds_whole|apply (ER c)].
Qed.
Lemma read_whole srv cache c chunk c' l : read_ops srv cache c chunk = Ok (c', l) -> whole (puts l).
Proof.
  assert (ER : forall c, whole (queued_by (send_wrong_version_error c ++ [Disc]))) by (intros; apply whole_one, A_error).
  unfold read_ops. destruct chunk as [|b0 chunk]; [intros [=<- <-]; apply whole_nil|].
  destruct (decode_bytes 64 (b0 :: chunk)) as [p|e|]; [|intros [=<- <-]; apply whole_nil|discriminate].
  unfold process_ops.
  destruct (if c_disableVC c then (c, []) else check_version c (get_version p)) as [c1 a1] eqn:E1.
  destruct (if c_enforce c1 then _ else (c1, [])) as [c2 a2] eqn:E2.
  destruct (server_handle_pdu srv match p with SerialQuery _ _ serial => c_set_curserial serial c2 | _ => c2 end) as [c4 a4] eqn:E4.
  destruct (pass_simple_handler srv cache c4 p) as [[c5 a5]|x|] eqn:E5; [|destruct x|discriminate]. cbn. intros [=<- <-].
  change (whole (puts (ops a1 ++ ops a2 ++ ops a4 ++ [OSet (c_version c4)] ++ ops a5))).
  rewrite !puts_app, !puts_ops. change (puts [OSet (c_version c4)]) with (@nil pdu).
  apply whole_app; [|apply whole_app; [|apply whole_app; [|apply whole_app]]].
  - destruct (c_disableVC c); [injection E1 as <- <-; apply whole_nil|]. unfold check_version in E1.
    destruct (_ && _)%bool; injection E1 as <- <-; [apply whole_nil|apply ER].
  - destruct (c_enforce c1); [|injection E2 as <- <-; apply whole_nil].
    destruct (negb _); injection E2 as <- <-; [apply ER|apply whole_nil].
  - unfold server_handle_pdu in E4. destruct (s_enforce srv && _)%bool; cbn [disconnect] in E4; injection E4 as <- <-; [apply ER|apply whole_nil].
  - apply whole_nil.
  - eapply pass_whole; eauto.
Qed.
Lemma answer_real b : answer b -> answers b = b.
Proof.
  destruct 1 as [v code copy msg|v|v sess serial r t e data HD]; try reflexivity. cbn [answers filter is_notify negb]. f_equal.
  unfold answers. rewrite filter_app. cbn. f_equal. induction HD as [|p l (HP & _) _ IH]; [reflexivity|]. cbn. destruct p; try discriminate HP; cbn; now rewrite IH.
Qed.
Lemma answers_length l : (length (answers l) <= length l)%nat.
Proof. unfold answers. induction l as [|p l IH]; cbn; [lia|]. destruct (negb _); cbn; lia. Qed.
Lemma answers_app a b : answers (a ++ b) = answers a ++ answers b.
Proof. apply filter_app. Qed.
Lemma whole_real l : whole l -> answers l = l.
Proof.
  intros (bs & H & <-). induction H as [|b bs Hb _ IH]; [reflexivity|]. cbn [concat]. rewrite answers_app, IH. f_equal. now apply answer_real.
Qed.

(** * The invariant *)
Definition kwhole (k : conn) : Prop := whole (answers (k_queued k) ++ puts (k_prog k)) /\ answers (puts (k_prog k)) = puts (k_prog k).
Definition nwhole (w : net) : Prop :=
  (forall i k, nth_error (n_conns w) i = Some k -> kwhole k) /\
  match n_notif w with NPut p _ _ _ => is_notify p = true | _ => True end.
Lemma put_queued k p k' : put k p = Some k' -> k_queued k' = k_queued k ++ [p] /\ k_prog k' = k_prog k.
Proof. unfold put. destruct (k_pc k), (nlen (k_queue k) <? 256); intros [=<-]; auto. Qed.
Lemma send_queued k o k' : sender_step k o = Ok k' -> k_queued k' = k_queued k /\ k_prog k' = k_prog k.
Proof.
  unfold sender_step. destruct (k_pc k); try (intros [=<-]; auto; fail).
  - destruct (k_queue k); intros [=<-]; auto.
  - destruct (encode p) as [b|e|]; [|destruct e|discriminate]. cbn. intros [=<-]. destruct (k_up k); [destruct o|]; auto.
Qed.
Lemma kwhole_step k k' : k_queued k' = k_queued k -> puts (k_prog k') = puts (k_prog k) -> kwhole k -> kwhole k'.
Proof. unfold kwhole. intros -> ->. auto. Qed.

Lemma nwhole_step srv w l w' : nwhole w -> nstep srv w l = Ok w' -> nwhole w'.
Proof.
  intros [HK HN].
  assert (SET : forall i k k1 m cl nt, nth_error (n_conns w) i = Some k -> kwhole k1 ->
     (nwhole (mkNet m cl (n_conns w) nt)) -> nwhole (mkNet m cl (set_nth (n_conns w) i k1) nt)).
  { intros i k k1 m cl nt Hi Hk [_ E2]. split; [|exact E2]. cbn [n_conns].
    intros j kj Hj. destruct (nth_set_nth _ _ _ _ _ Hj) as [(-> & -> & _)|(_ & Hj')]; eauto. }
  assert (SAME : forall m cl, nwhole (mkNet m cl (n_conns w) (n_notif w))) by (intros; split; auto).
  assert (SELF : nwhole w) by (split; auto).
  destruct l; cbn [nstep]; intros H.
  - destruct (_ && _)%bool; injection H as <-; [exact SELF|]. split; [|exact HN].
    intros j k Hj. cbn [n_conns] in Hj. destruct (Nat.lt_ge_cases j (length (n_conns w))).
    + rewrite nth_error_app1 in Hj by auto. eauto.
    + rewrite nth_error_app2 in Hj by auto.
      destruct (j - length (n_conns w))%nat as [|m]; cbn in Hj; [|destruct m; discriminate].
      injection Hj as <-. split; [apply whole_nil|reflexivity].
  - destruct (nth_error (n_conns w) i) as [k|] eqn:Ei; [|injection H as <-; exact SELF].
    pose proof (HK _ _ Ei) as HKk.
    destruct (k_phase k), (k_tr k); injection H as <-; try exact SELF. now apply (SET i k).
  - destruct (nth_error (n_conns w) i) as [k|] eqn:Ei; [|injection H as <-; exact SELF].
    pose proof (HK _ _ Ei) as HKk.
    destruct (k_phase k), (k_tr k); injection H as <-; try exact SELF; now apply (SET i k).
  - destruct (nth_error (n_conns w) i) as [k|] eqn:Ei; [|injection H as <-; exact SELF].
    pose proof (HK _ _ Ei) as (HW & _).
    destruct (k_phase k), (k_prog k) eqn:EP, (k_flag k); try (injection H as <-; exact SELF).
    destruct (read_ops srv cache (k_cli k) chunk) as [[c1 l1]|x|] eqn:ER; [|destruct x|discriminate].
    cbn [bind fst snd] in H. injection H as <-. apply read_whole in ER.
    apply (SET i k); [exact Ei| |apply SAME]. cbn in HW. rewrite app_nil_r in HW. split; [now apply whole_app|now apply whole_real].
  - destruct (nth_error (n_conns w) i) as [k|] eqn:Ei; [|injection H as <-; exact SELF].
    pose proof (HK _ _ Ei) as HKk. injection H as <-.
    unfold reader_step. destruct (k_prog k) as [|[v|p| | |] r] eqn:EP; [exact SELF| | | | |].
    + apply (SET i k); [exact Ei| |apply SAME]. apply (kwhole_step k); auto. now rewrite EP.
    + destruct (put k p) as [k1|] eqn:EU; [|exact SELF]. apply (SET i k); [exact Ei| |apply SAME].
      destruct (put_queued _ _ _ EU) as [Q1 Q2]. destruct HKk as [W1 W2]. rewrite EP in W1, W2.
      change (puts (OPut p :: r)) with (p :: puts r) in *. assert (NP : is_notify p = false).
      { destruct (is_notify p) eqn:X; [|reflexivity]. exfalso. cbn [answers filter] in W2. rewrite X in W2. cbn [negb] in W2.
        pose proof (f_equal (@length _) W2) as L. cbn [length] in L. pose proof (answers_length (puts r)). unfold answers in *. lia. }
      split.
      * cbn [k_set_prog k_queued k_prog]. rewrite Q1, answers_app. cbn [answers filter]. rewrite NP. cbn [negb]. rewrite <- app_assoc. exact W1.
      * cbn [k_set_prog k_prog]. cbn [answers filter] in W2. rewrite NP in W2. cbn [negb] in W2. injection W2 as W2. exact W2.
    + apply (SET i k); [exact Ei| |apply SAME]. apply (kwhole_step k); auto. now rewrite EP.
    + unfold client_disconnected, with_conn. cbn. apply (SET i k); [exact Ei| |apply SAME]. apply (kwhole_step k); auto. now rewrite EP.
    + apply (SET i k); [exact Ei| |apply SAME]. apply (kwhole_step k); auto; [destruct (k_pc k); reflexivity|]. now rewrite EP.
  - destruct (nth_error (n_conns w) i) as [k|] eqn:Ei; [|injection H as <-; exact SELF].
    pose proof (HK _ _ Ei) as HKk.
    destruct (k_phase k), (k_prog k) eqn:EP, (k_flag k); injection H as <-; try exact SELF.
    apply (SET i k); [exact Ei| |apply SAME]. apply (kwhole_step k); auto.
  - destruct (nth_error (n_conns w) i) as [k|] eqn:Ei; [|injection H as <-; exact SELF].
    destruct (sender_step k o) as [k1|x|] eqn:ES; [|destruct x|discriminate]. cbn in H. injection H as <-.
    destruct (send_queued _ _ _ ES) as [Q1 Q2].
    apply (SET i k); [exact Ei| |apply SAME]. apply (kwhole_step k); auto; [now rewrite Q2|eauto].
  - destruct (n_notif w) eqn:EN; injection H as <-; try exact SELF. split; [exact HK|exact I].
  - unfold notifier_step in H. destruct (n_notif w) as [|serial [|i rest]|serial sess i rest|p serial i rest] eqn:EN.
    + injection H as <-. exact SELF.
    + injection H as <-. split; [exact HK|exact I].
    + destruct (nth_error (n_conns w) i) as [k|] eqn:Ei; [|injection H as <-; exact SELF].
      destruct (get_session_id srv (k_ver k)) as [x|x|] eqn:EG; [|destruct x|discriminate].
      cbn in H. injection H as <-. split; [exact HK|exact I].
    + destruct (nth_error (n_conns w) i) as [k|] eqn:Ei; injection H as <-; [|exact SELF]. split; [exact HK|reflexivity].
    + destruct (nth_error (n_conns w) i) as [k|] eqn:Ei; [|injection H as <-; exact SELF].
      destruct (put k p) as [k1|] eqn:EU; injection H as <-; [|exact SELF].
      destruct (put_queued _ _ _ EU) as [Q1 Q2]. destruct (HK _ _ Ei) as [W1 W2].
      apply (SET i k); [exact Ei| |split; [exact HK|exact I]].
      split; rewrite Q2; [|exact W2]. rewrite Q1, answers_app. cbn [answers filter]. rewrite HN. cbn [negb]. now rewrite app_nil_r.
Qed.
Theorem all_whole srv sched w i k : nrun srv empty_net sched = Ok w -> nth_error (n_conns w) i = Some k ->
  exists bs rest, Forall answer bs /\ concat bs = answers (k_queued k) ++ rest /\ (k_prog k = [] -> rest = []).
Proof.
  intros H Hk. assert (HW : nwhole w).
  { apply (nrun_inv srv nwhole (nwhole_step srv) sched empty_net w); [|exact H]. split; [apply (empty_conns kwhole)|exact I]. }
  destruct (proj1 HW _ _ Hk) as [(bs & B1 & B2) _]. exists bs, (puts (k_prog k)). split; [exact B1|]. split; [exact B2|]. intros ->. reflexivity.
Qed.
