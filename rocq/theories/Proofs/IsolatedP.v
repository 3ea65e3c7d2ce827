(** One connection among others. *)
From Coq Require Import ZArith ZifyBool ZifyNat ZifyN.
From Verif Require Import Model.Concurrent Spec.Response Spec.Net Spec.Conversation Spec.Answered Spec.Reached Spec.Isolated
  Proofs.ConnP Proofs.ConcCacheP Proofs.NetP Proofs.NetP2 Proofs.NetP3 Proofs.NetP4 Proofs.ConversationP Proofs.AnsweredP.
From Coq Require Import List.
Local Open Scope list_scope.
Local Open Scope nat_scope.

(** * Disconnecting *)
Definition no_flag (l : list op) : bool := forallb (fun o => match o with OFlag => false | _ => true end) l.
Lemma no_flag_app a b : no_flag (a ++ b) = (no_flag a && no_flag b)%bool.
Proof. apply forallb_app. Qed.
Lemma send_data_keeps c d : no_flag (ops (send_data c d)) = true.
Proof.
  unfold send_data, send_pdu. destruct d as [p a m f|a s k f].
  - destruct (is6 (p_addr p)), (is4 (p_addr p)); reflexivity.
  - destruct ((c_version c =? 0)%N || c_noBGPsec c); reflexivity.
Qed.
Lemma send_sds_keeps c sess serial l : no_flag (ops (send_sds c sess serial l)) = true.
Proof.
  assert (F : no_flag (ops (flat_map (send_data c) l)) = true).
  { induction l as [|d l IH]; [reflexivity|]. cbn [flat_map]. now rewrite ops_app, no_flag_app, send_data_keeps, IH. }
  unfold send_sds. rewrite !ops_app, !no_flag_app, F. reflexivity.
Qed.
Lemma pass_keeps srv cache c p c' a : pass_simple_handler srv cache c p = Ok (c', a) ->
  c_connected c' = (c_connected c && no_flag (ops a))%bool.
Proof.
  destruct p; cbn [pass_simple_handler]; try (intros [=<- <-]; cbn; now rewrite Bool.andb_true_r).
  - unfold request_new_version, get_session_id. destruct (nth_error _ _) as [ss|]; cbn [bind]; [|discriminate].
    destruct (negb (sess =? ss)%N).
    + cbn [disconnect]. intros [=<- <-]. cbn. now rewrite Bool.andb_false_r.
    + destruct (get_current_serial cache) as [n valid]. destruct valid; cbn [negb].
      * destruct (get_sds_serial_diff cache serial) as [dd|e|]; [| |discriminate]; intros [=<- <-]; [rewrite send_sds_keeps|cbn]; now rewrite Bool.andb_true_r.
      * intros [=<- <-]. cbn. now rewrite Bool.andb_true_r.
  - unfold request_cache, get_session_id. destruct (nth_error _ _) as [ss|]; cbn [bind]; [|discriminate].
    destruct (get_current_serial cache) as [n valid]. destruct valid; cbn [negb]; intros [=<- <-]; [rewrite send_sds_keeps|cbn]; now rewrite Bool.andb_true_r.
Qed.
Lemma process_keeps srv cache c p c' l : process_ops srv cache c p = Ok (c', l) -> c_connected c' = (c_connected c && no_flag l)%bool.
Proof.
  unfold process_ops.
  destruct (if c_disableVC c then (c, []) else check_version c (get_version p)) as [c1 a1] eqn:E1.
  destruct (if c_enforce c1 then _ else (c1, [])) as [c2 a2] eqn:E2.
  destruct (server_handle_pdu srv match p with SerialQuery _ _ serial => c_set_curserial serial c2 | _ => c2 end) as [c4 a4] eqn:E4.
  destruct (pass_simple_handler srv cache c4 p) as [[c5 a5]|x|] eqn:E5; [|destruct x|discriminate]. cbn [bind fst snd]. intros [=<- <-].
  change (c_connected c5 = (c_connected c && no_flag (ops a1 ++ ops a2 ++ ops a4 ++ [OSet (c_version c4)] ++ ops a5))%bool).
  rewrite !no_flag_app. cbn [no_flag forallb]. apply pass_keeps in E5. rewrite E5.
  assert (c_connected c1 = (c_connected c && no_flag (ops a1))%bool) as X1.
  { destruct (c_disableVC c); [injection E1 as <- <-; cbn; now rewrite Bool.andb_true_r|]. unfold check_version in E1.
    destruct (_ && _)%bool; cbn [disconnect] in E1; injection E1 as <- <-; cbn; now rewrite ?Bool.andb_true_r, ?Bool.andb_false_r. }
  assert (c_connected c2 = (c_connected c1 && no_flag (ops a2))%bool) as X2.
  { destruct (c_enforce c1); [|injection E2 as <- <-; cbn; now rewrite Bool.andb_true_r].
    destruct (negb _); cbn [disconnect] in E2; injection E2 as <- <-; cbn; now rewrite ?Bool.andb_true_r, ?Bool.andb_false_r. }
  assert (c_connected c4 = (c_connected c2 && no_flag (ops a4))%bool) as X4.
  { unfold server_handle_pdu in E4. assert (E3 : c_connected match p with SerialQuery _ _ serial => c_set_curserial serial c2 | _ => c2 end = c_connected c2) by (destruct p; reflexivity).
    set (c3 := match p with SerialQuery _ _ serial => c_set_curserial serial c2 | _ => c2 end) in *. clearbody c3.
    destruct (s_enforce srv && _)%bool; cbn [disconnect] in E4; injection E4 as <- <-.
    - cbn [ops flat_map app no_flag forallb send_wrong_version_error send_pdu andb]. rewrite Bool.andb_false_r. destruct (_ <? _)%N; reflexivity.
    - cbn [ops flat_map app no_flag forallb andb]. rewrite Bool.andb_true_r, <- E3. destruct (_ <? _)%N; reflexivity. }
  rewrite X4, X2, X1. destruct (c_connected c), (no_flag (ops a1)), (no_flag (ops a2)), (no_flag (ops a4)), (no_flag (ops a5)); reflexivity.
Qed.
Lemma puts_acts l : puts (acts_of l) = puts l.
Proof. unfold puts, acts_of. induction l as [|[v|p| | |] l IH]; cbn in *; rewrite ?IH; auto. Qed.

(** What a reader does in pieces is what it does at once. *)
Lemma read_at_once srv cache c chunk c' l : read_ops srv cache c chunk = Ok (c', l) ->
  exists a stop, on_read srv cache c chunk = Ok (c', a, stop) /\ puts l = queued_by a /\
    c_connected c' = (c_connected c && no_flag l)%bool /\ (stop = true -> c_connected c' = false).
Proof.
  unfold read_ops, on_read. destruct chunk as [|b chunk].
  - cbn [disconnect]. intros [=<- <-]. eexists _, _. split; [reflexivity|]. split; [reflexivity|]. cbn. now rewrite Bool.andb_false_r.
  - destruct (decode_bytes 64 (b :: chunk)) as [p|e|]; [| |discriminate].
    + intros H. pose proof (process_keeps _ _ _ _ _ _ H) as HK. pose proof (process_ops_acts srv cache c p) as HA. rewrite H in HA.
      destruct (process srv cache c p) as [[c1 a]|x|]; [|destruct x|contradiction]. destruct HA as [-> HA].
      exists a, false. split; [reflexivity|]. split; [rewrite <- puts_acts, HA; apply puts_ops|]. split; [exact HK|discriminate].
    + cbn [disconnect]. intros [=<- <-]. eexists _, _. split; [reflexivity|]. split; [reflexivity|]. cbn. now rewrite Bool.andb_false_r.
Qed.
Lemma session_snoc srv x : forall reads c c' a, session srv c reads = Ok (c', a) -> c_connected c' = true ->
  session srv c (reads ++ [x]) = (do r <- on_read srv (fst x) c' (snd x); Ok (fst (fst r), a ++ snd (fst r))).
Proof.
  induction reads as [|[cache chunk] reads IH]; intros c c' a H HC; cbn [session app] in *.
  - assert (c = c' /\ a = []) as [-> ->] by (destruct (negb (c_connected c)); injection H as <- <-; auto). rewrite HC. cbn [negb].
    destruct x as [cache chunk]. cbn [fst snd]. destruct (on_read srv cache c' chunk) as [[[c1 a1] stop]|e|]; cbn [bind fst snd]; try reflexivity.
    destruct stop; [reflexivity|]. destruct (negb (c_connected c1)); cbn; now rewrite app_nil_r.
  - destruct (negb (c_connected c)) eqn:EC.
    { injection H as -> _. rewrite HC in EC. discriminate EC. }
    destruct (on_read srv cache c chunk) as [[[c1 a1] stop]|e|] eqn:EO; cbn [bind] in *; [|destruct e|discriminate H].
    destruct stop.
    + exfalso. injection H as <- <-. unfold on_read in EO. destruct chunk as [|b chunk].
      * cbn [disconnect] in EO. injection EO as <- <-. discriminate HC.
      * destruct (decode_bytes 64 (b :: chunk)) as [p|e|]; [|cbn [disconnect] in EO; discriminate EO|discriminate].
        destruct (process srv cache c p) as [[c2 a2]|e|]; [cbn in EO; discriminate EO|destruct e|discriminate].
    + destruct (session srv c1 reads) as [[c2 a2]|e|] eqn:ES; cbn [bind fst snd] in H; [|destruct e|discriminate H]. injection H as <- <-.
      rewrite (IH _ _ _ ES HC). destruct (on_read srv (fst x) c2 (snd x)) as [[[c3 a3] stop]|e|]; cbn [bind fst snd]; try reflexivity.
      now rewrite app_assoc.
Qed.

(** * The invariant *)
Definition going (k : conn) : bool :=
  match k_phase k with Accepted | SshBegun => true | _ => (k_flag k && no_flag (k_prog k))%bool end.
Definition alone (srv : rtrserver) (k : conn) (reads : list (server * bytes)) : Prop :=
  going k = c_connected (k_cli k) /\
  exists a, session srv (accept (k_tr k) srv) reads = Ok (k_cli k, a) /\ content k = queued_by a.
(** A step that is no Read of this connection. *)
Definition quiet (k k' : conn) : Prop := k_tr k' = k_tr k /\ k_cli k' = k_cli k /\ content k' = content k /\ going k' = going k.
Lemma quiet_alone srv k k' reads : quiet k k' -> alone srv k reads -> alone srv k' reads.
Proof. intros (A & B & C & D) (E & a & F & G). unfold alone. rewrite A, B, C, D. eauto. Qed.
Lemma quiet_refl k : quiet k k.
Proof. repeat split. Qed.

Lemma put_keeps k p k' : put k p = Some k' -> k_tr k' = k_tr k /\ k_cli k' = k_cli k /\ k_queued k' = k_queued k ++ [p] /\ k_prog k' = k_prog k /\ going k' = going k.
Proof. unfold put, going. destruct (k_pc k), (nlen (k_queue k) <? 256)%N; intros [=<-]; cbn; auto 10. Qed.
Lemma send_keeps k o k' : sender_step k o = Ok k' -> quiet k k'.
Proof.
  unfold sender_step. destruct (k_pc k); try (intros [=<-]; repeat split; fail).
  - destruct (k_queue k); intros [=<-]; repeat split.
  - destruct (encode p) as [b|e|]; [|destruct e|discriminate]. cbn. intros [=<-]. destruct (k_up k); [destruct o|]; repeat split.
Qed.
Lemma reader_keeps w i k : nth_error (n_conns w) i = Some k -> kwhole k -> exists k', nth_error (n_conns (reader_step w i k)) i = Some k' /\ quiet k k'.
Proof.
  intros Hi [_ HW]. assert (LT : i < length (n_conns w)) by (apply nth_error_Some; congruence).
  unfold reader_step. destruct (k_prog k) as [|[v|p| | |] r] eqn:EP; unfold with_conn, client_disconnected; cbn [n_conns].
  - eauto using quiet_refl.
  - rewrite set_nth_same by auto. eexists. split; [reflexivity|]. unfold quiet, content, going. cbn. rewrite EP. repeat split.
  - destruct (put k p) as [k1|] eqn:EU; [|eauto using quiet_refl]. cbn [n_conns]. rewrite set_nth_same by auto. eexists. split; [reflexivity|].
    destruct (put_keeps _ _ _ EU) as (A & B & C & D & G). unfold quiet. cbn [k_tr k_cli k_set_prog]. split; [exact A|]. split; [exact B|]. split.
    + unfold content. cbn [k_queued k_prog k_set_prog]. rewrite C, EP, answers_app, <- app_assoc. f_equal.
      change (puts (OPut p :: r)) with ([p] ++ puts r) in *. f_equal.
      rewrite answers_app in HW. destruct (is_notify p) eqn:X; [|cbn [answers filter]; rewrite X; reflexivity].
      exfalso. cbn [answers filter] in HW. rewrite X in HW. cbn [negb app] in HW.
      pose proof (f_equal (@length _) HW) as L. cbn [length] in L. pose proof (answers_length (puts r)). unfold answers in *. lia.
    + rewrite <- G. unfold going in *. cbn [k_phase k_flag k_prog k_set_prog]. rewrite D, EP. reflexivity.
  - rewrite set_nth_same by auto. eexists. split; [reflexivity|]. unfold quiet, content, going. cbn. rewrite EP. cbn. rewrite Bool.andb_false_r. repeat split.
  - rewrite set_nth_same by auto. eexists. split; [reflexivity|]. unfold quiet, content, going. cbn. rewrite EP. repeat split.
  - rewrite set_nth_same by auto. eexists. split; [reflexivity|]. unfold quiet, content, going. destruct (k_pc k); cbn; rewrite EP; repeat split.
Qed.

(** A step, seen from connection [i]. *)
Lemma step_seen srv w l w' i k : nwhole w -> shape k -> nstep srv w l = Ok w' -> nth_error (n_conns w) i = Some k ->
  (exists cache chunk c prog, l = LRead i cache chunk /\ waiting k = true /\ read_ops srv cache (k_cli k) chunk = Ok (c, prog) /\
     nth_error (n_conns w') i = Some (k_set_read c prog k)) \/
  (exists k', nth_error (n_conns w') i = Some k' /\ quiet k k' /\ forall cache chunk, l = LRead i cache chunk -> waiting k = false).
Proof.
  intros [HW HN] HS H Hi. assert (LT : i < length (n_conns w)) by (apply nth_error_Some; congruence).
  destruct (notifier_dec l) as [->|NL].
  { right. cbn [nstep] in H. unfold notifier_step in H.
    assert (SAME : forall w1, n_conns w1 = n_conns w -> exists k', nth_error (n_conns w1) i = Some k' /\ quiet k k' /\ forall cache chunk, LNotifier = LRead i cache chunk -> waiting k = false).
    { intros w1 ->. exists k. split; [exact Hi|]. split; [apply quiet_refl|discriminate]. }
    destruct (n_notif w) as [|serial [|j rest]|serial sess j rest|p serial j rest].
    - injection H as <-; auto.
    - injection H as <-; auto.
    - destruct (nth_error (n_conns w) j) as [kj|]; [|injection H as <-; auto].
      destruct (get_session_id srv (k_ver kj)) as [x|x|]; [|destruct x|discriminate]. injection H as <-; auto.
    - destruct (nth_error (n_conns w) j) as [kj|]; injection H as <-; auto.
    - destruct (nth_error (n_conns w) j) as [kj|] eqn:Ej; [|injection H as <-; auto].
      destruct (put kj p) as [k1|] eqn:EU; injection H as <-; auto. cbn [n_conns].
      destruct (Nat.eq_dec j i) as [->|N].
      + rewrite set_nth_same by auto. rewrite Hi in Ej. injection Ej as <-. destruct (put_keeps _ _ _ EU) as (A & B & C & D & G).
        exists k1. split; [reflexivity|]. split; [|discriminate]. split; [exact A|]. split; [exact B|]. split; [|exact G].
        unfold content. rewrite C, D, answers_app. cbn [answers filter]. rewrite HN. cbn [negb]. now rewrite app_nil_r.
      + rewrite set_nth_other by auto. exists k. split; [exact Hi|]. split; [apply quiet_refl|discriminate]. }
  destruct (focus_dec l i) as [HF|HF].
  2:{ right. exists k. split; [eapply nstep_other; eauto; intros X; now destruct NL|]. split; [apply quiet_refl|].
      intros cache chunk ->. exfalso. apply HF. reflexivity. }
  assert (KEEP : forall w1, w1 = w -> (forall cache chunk, l = LRead i cache chunk -> waiting k = false) ->
     exists k', nth_error (n_conns w1) i = Some k' /\ quiet k k' /\ forall cache chunk, l = LRead i cache chunk -> waiting k = false).
  { intros w1 -> X. exists k. split; [exact Hi|]. split; [apply quiet_refl|exact X]. }
  destruct l; cbn [focus] in HF; try contradiction; subst; cbn [nstep] in H; rewrite Hi in H.
  - right. destruct (k_phase k) eqn:EP, (k_tr k) eqn:ET; injection H as <-; try (apply KEEP; [reflexivity|discriminate]).
    cbn [n_conns]. rewrite set_nth_same by auto. eexists. split; [reflexivity|]. split; [|discriminate]. unfold quiet, content, going. cbn. now rewrite EP.
  - right. destruct (k_phase k) eqn:EP, (k_tr k) eqn:ET; injection H as <-; try (apply KEEP; [reflexivity|discriminate]);
      (unfold with_conn, client_connected; cbn [n_conns]; rewrite set_nth_same by auto; eexists; split; [reflexivity|]; split; [|discriminate];
       unfold shape in HS; rewrite EP in HS; destruct HS as (_ & HP & _); unfold quiet, content, going; cbn; rewrite EP, HP; auto).
  - unfold waiting in *. destruct (k_phase k) eqn:EP, (k_prog k) eqn:ET, (k_flag k) eqn:EF;
      try (injection H as <-; right; apply KEEP; [reflexivity|intros; reflexivity]).
    destruct (read_ops srv cache (k_cli k) chunk) as [[c prog]|e|] eqn:ER; [|destruct e|discriminate]. cbn [bind fst snd] in H. injection H as <-.
    left. exists cache, chunk, c, prog. split; [reflexivity|]. split; [reflexivity|]. split; [exact ER|].
    unfold with_conn. cbn [n_conns]. now rewrite set_nth_same.
  - right. injection H as <-. destruct (reader_keeps w i k Hi (HW _ _ Hi)) as (k1 & A & B). exists k1. split; [exact A|]. split; [exact B|discriminate].
  - right. destruct (k_phase k) eqn:EP, (k_prog k) eqn:ET, (k_flag k) eqn:EF; injection H as <-; try (apply KEEP; [reflexivity|discriminate]).
    cbn [n_conns]. rewrite set_nth_same by auto. eexists. split; [reflexivity|]. split; [|discriminate]. unfold quiet, content, going. cbn. rewrite EP, EF, ET. auto.
  - right. destruct (sender_step k o) as [k1|x|] eqn:ES; [|destruct x|discriminate]. cbn [bind] in H. injection H as <-.
    unfold with_conn. cbn [n_conns]. rewrite set_nth_same by auto. exists k1. split; [reflexivity|]. split; [eapply send_keeps; eauto|discriminate].
Qed.

Lemma arrives_app srv i : forall s1 s2 w w1, nrun srv w s1 = Ok w1 -> arrives srv i w (s1 ++ s2) = arrives srv i w s1 ++ arrives srv i w1 s2.
Proof.
  induction s1 as [|l s1 IH]; intros s2 w w1 H; cbn [nrun] in H.
  - injection H as <-. reflexivity.
  - destruct (nstep srv w l) as [w2|e|] eqn:E; [|destruct e|discriminate]. cbn [bind] in H. cbn [arrives app]. rewrite E, (IH _ _ _ H), app_assoc. reflexivity.
Qed.
Lemma unborn srv i : forall sched w w', nrun srv w sched = Ok w' -> nth_error (n_conns w') i = None -> arrives srv i w sched = [].
Proof.
  assert (LEN : forall w l w', nstep srv w l = Ok w' -> nth_error (n_conns w') i = None -> nth_error (n_conns w) i = None).
  { intros w l w' H HN. destruct (nth_error (n_conns w) i) as [k|] eqn:E; [|reflexivity]. exfalso. apply nth_error_None in HN.
    assert (LT : i < length (n_conns w)) by (apply nth_error_Some; congruence).
    assert (forall w l w', nstep srv w l = Ok w' -> length (n_conns w) <= length (n_conns w')) as G; [|specialize (G _ _ _ H); lia].
    clear. intros w l w' H. assert (SAME : @Ok net Empty_set w = Ok w' -> length (n_conns w) <= length (n_conns w')) by (intros [=<-]; auto).
    destruct l; cbn [nstep] in H.
    - destruct (_ && _)%bool; [auto|]. injection H as <-. cbn. rewrite app_length. cbn. lia.
    - destruct (nth_error _ _) as [k|]; [|auto]. destruct (k_phase k), (k_tr k); auto. injection H as <-. cbn. now rewrite set_nth_length.
    - destruct (nth_error _ _) as [k|]; [|auto]. destruct (k_phase k), (k_tr k); auto; injection H as <-; cbn; now rewrite set_nth_length.
    - destruct (nth_error _ _) as [k|]; [|auto]. destruct (k_phase k), (k_prog k), (k_flag k); auto.
      destruct (read_ops _ _ _ _) as [r|e|]; [|destruct e|discriminate]. injection H as <-. cbn. now rewrite set_nth_length.
    - destruct (nth_error _ _) as [k|]; [|auto]. injection H as <-. unfold reader_step.
      destruct (k_prog k) as [|[v|p| | |] r]; cbn; rewrite ?set_nth_length; auto. destruct (put k p); cbn; rewrite ?set_nth_length; auto.
    - destruct (nth_error _ _) as [k|]; [|auto]. destruct (k_phase k), (k_prog k), (k_flag k); auto. injection H as <-. cbn. now rewrite set_nth_length.
    - destruct (nth_error _ _) as [k|]; [|auto]. destruct (sender_step k o) as [r|e|]; [|destruct e|discriminate]. injection H as <-. cbn. now rewrite set_nth_length.
    - destruct (n_notif w); auto. injection H as <-. auto.
    - unfold notifier_step in H. destruct (n_notif w) as [|serial [|j rest]|serial sess j rest|p serial j rest].
      + auto.
      + injection H as <-; auto.
      + destruct (nth_error _ _) as [k|]; [|auto]. destruct (get_session_id srv (k_ver k)) as [x|e|]; [|destruct e|discriminate]. injection H as <-; auto.
      + destruct (nth_error _ _) as [k|]; [|auto]. injection H as <-; auto.
      + destruct (nth_error _ _) as [k|]; [|auto]. destruct (put k p); [|auto]. injection H as <-. cbn. now rewrite set_nth_length. }
  induction sched as [|l sched IH]; intros w w' H HN; [reflexivity|]. cbn [nrun] in H.
  destruct (nstep srv w l) as [w1|e|] eqn:E; [|destruct e|discriminate]. cbn [bind] in H. cbn [arrives]. rewrite E, (IH _ _ H HN), app_nil_r.
  assert (H1 : nth_error (n_conns w1) i = None).
  { clear - H HN LEN. revert w1 H. induction sched as [|l sched IH]; intros w1 H; cbn [nrun] in H; [injection H as <-; exact HN|].
    destruct (nstep srv w1 l) as [w2|e|] eqn:E; [|destruct e|discriminate]. cbn [bind] in H. eauto. }
  rewrite (LEN _ _ _ E H1). destruct l; reflexivity.
Qed.

Theorem alone_run srv : forall sched w i k, nrun srv empty_net sched = Ok w -> nth_error (n_conns w) i = Some k ->
  alone srv k (arrives srv i empty_net sched).
Proof.
  induction sched as [|l sched IH] using rev_ind; intros w i k H Hi.
  { cbn in H. injection H as <-. destruct i; discriminate Hi. }
  assert (exists w0, nrun srv empty_net sched = Ok w0) as (w0 & H0).
  { clear - H. revert H. generalize empty_net. induction sched as [|l0 sched IH]; intros w0 H; cbn in *; [eauto|].
    destruct (nstep srv w0 l0) as [w1|e|]; [|destruct e|discriminate]. cbn in *. eauto. }
  rewrite (nrun_app _ _ _ _ _ H0) in H. cbn [nrun] in H. destruct (nstep srv w0 l) as [w1|e|] eqn:E; [|destruct e|discriminate]. cbn [bind] in H. injection H as ->.
  rewrite (arrives_app srv i _ _ _ _ H0). cbn [arrives]. rewrite E, app_nil_r.
  destruct (nth_error (n_conns w0) i) as [k0|] eqn:E0.
  - assert (HW : nwhole w0) by (apply (nrun_inv srv nwhole (nwhole_step srv) sched empty_net w0); [split; [apply (empty_conns kwhole)|exact I]|exact H0]).
    specialize (IH _ _ _ H0 E0). destruct (step_seen srv w0 l w i k0 HW (shape_run _ _ _ H0 _ _ E0) E E0) as [(cache & chunk & c & prog & -> & A & B & C)|(k' & A & B & C)].
    + rewrite Nat.eqb_refl, A. cbn [andb]. rewrite Hi in C. injection C as ->. destruct IH as (G & a & S1 & S2).
      destruct (read_at_once _ _ _ _ _ _ B) as (a1 & stop & R1 & R2 & R3 & R4).
      unfold waiting in A. destruct (k_phase k0) eqn:EP; try discriminate A. destruct (k_prog k0) eqn:EG; try discriminate A. destruct (k_flag k0) eqn:EF; try discriminate A.
      assert (CC : c_connected (k_cli k0) = true) by (rewrite <- G; unfold going; rewrite EP, EF, EG; reflexivity). split.
      * unfold going. cbn [k_phase k_flag k_prog k_cli k_set_read]. rewrite EP, EF, R3, CC. reflexivity.
      * exists (a ++ a1). cbn [k_tr k_cli k_set_read]. rewrite (session_snoc srv (cache, chunk) _ _ _ _ S1 CC). cbn [fst snd]. rewrite R1. split; [reflexivity|].
        unfold content in *. cbn [k_queued k_prog k_set_read]. rewrite EG in S2. cbn [puts flat_map] in S2. rewrite app_nil_r in S2. rewrite S2, R2, queued_app. reflexivity.
    + rewrite Hi in A. injection A as <-.
      assert (match l with LRead j cache chunk => if (Nat.eqb j i && waiting k0)%bool then [(cache, chunk)] else [] | _ => [] end = []) as ->.
      { destruct l; try reflexivity. destruct (Nat.eqb i0 i) eqn:X; [|reflexivity]. apply Nat.eqb_eq in X. subst i0. rewrite (C _ _ eq_refl). reflexivity. }
      rewrite app_nil_r. eapply quiet_alone; eauto.
  - rewrite (unborn srv i _ _ _ H0 E0). destruct (nstep_from _ _ _ _ E i k Hi) as [(k0 & A & _)|(tr & -> & _)]; [congruence|].
    replace (match l with LRead j cache chunk => [] | _ => @nil (server * bytes) end) with (@nil (server * bytes)) by (destruct l; reflexivity).
    split; [unfold new_conn, going, accept; cbn; destruct (s_enforce srv), tr, (s_disableBGPSec srv); reflexivity|]. exists []. split; [|reflexivity].
    cbn. destruct (negb _); reflexivity.
Qed.
