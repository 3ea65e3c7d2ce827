(** A query gets its answer. *)
From Coq Require Import ZArith ZifyBool ZifyNat ZifyN.
From Verif Require Import Model.Concurrent Spec.Sets Spec.History Spec.Response Spec.Net Spec.Conversation Spec.Answered
  Proofs.DataP Proofs.CacheP Proofs.ConnP Proofs.ConcCacheP Proofs.NetP Proofs.NetP2 Proofs.NetP3 Proofs.NetP4 Proofs.ConversationP.
Local Open Scope list_scope.
Local Open Scope nat_scope.

Definition alive (k : conn) : Prop := k_flag k = true -> k_pc k <> SDone.
Lemma alive_run srv sched w : nrun srv empty_net sched = Ok w -> forall i k, nth_error (n_conns w) i = Some k -> alive k.
Proof.
  intros H i k Hk. enough (X : (shape k /\ qguarded (k_flag k) (k_prog k)) /\ alive k) by apply X.
  apply (conn_inv srv (fun k => (shape k /\ qguarded (k_flag k) (k_prog k)) /\ alive k)) with (4 := H) (5 := Hk); [| |apply empty_conns].
  { intros tr. split; [split; [apply shape_new|exact I]|]. intros X. discriminate X. }
  clear. intros k k' [[HS HQ] HA] HK. split.
  - split; [eapply shape_step; eauto|].
    destruct HK as [A B|A|cache chunk c prog A B C D|v r A|p r k1 A B|r A|r A|r A|A B C|o k1 A|p k1 A]; cbn.
    + exact HQ.
    + unfold shape in HS. destruct A as [[A _]|A]; rewrite A in HS; destruct HS as (_ & -> & _); exact I.
    + eapply read_ops_qguarded; eauto.
    + rewrite A in HQ. exact HQ.
    + apply put_shape in B as (_ & _ & -> & _). rewrite A in HQ. exact HQ.
    + rewrite A in HQ. exact HQ.
    + rewrite A in HQ. exact HQ.
    + rewrite A in HQ. destruct (k_pc k); cbn; apply HQ.
    + exact HQ.
    + unfold sender_step in A. destruct (k_pc k); try (injection A as <-; exact HQ).
      * destruct (k_queue k); injection A as <-; exact HQ.
      * destruct (encode p) as [b|e|]; [|destruct e|discriminate]. cbn in A. injection A as <-.
        destruct (k_up k); [destruct o|]; exact HQ.
    + apply put_shape in A as (_ & -> & -> & _). exact HQ.
  - unfold alive in *.
    assert (PUT : forall p k1, put k p = Some k1 -> k_flag k1 = true -> k_pc k1 <> SDone).
    { intros p k1 E. unfold put in E. destruct (k_pc k), (nlen (k_queue k) <? 256)%N; try discriminate; injection E as <-; cbn; auto; try discriminate. }
    destruct HK as [A B|A|cache chunk c prog A B C D|v r A|p r k1 A B|r A|r A|r A|A B C|o k1 A|p k1 A]; cbn; try exact HA; try discriminate.
    + apply (PUT p k1 B).
    + rewrite A in HQ. cbn in HQ. destruct HQ as [HF _]. destruct (k_pc k); cbn; rewrite HF; discriminate.
    + unfold sender_step in A. destruct (k_pc k) eqn:EP; try (injection A as <-; rewrite ?EP; exact HA).
      * injection A as <-. cbn. intros ->. discriminate.
      * destruct (k_queue k); injection A as <-; cbn; discriminate.
      * destruct (encode p) as [b|e|]; [|destruct e|discriminate]. cbn in A. injection A as <-.
        destruct (k_up k); [destruct o|]; cbn; discriminate.
    + apply (PUT p k1 A).
Qed.

(** * One connection being served *)
Definition plain (o : op) : Prop := match o with OSet _ => True | OPut p => is_notify p = false | _ => False end.
Definition serving (k : conn) : Prop :=
  k_phase k = Running /\ k_flag k = true /\ k_up k = true /\ Forall plain (k_prog k) /\ k_pc k <> SDone /\ k_pc k <> SNone.
Definition rank (p : spc) : nat := match p with SWrite _ => 3 | SCheck => 2 | SEnter => 1 | _ => 0 end.
Definition work (k : conn) : nat := 4 * length (k_prog k) + 3 * length (k_queue k) + rank (k_pc k).
Definition content (k : conn) : list pdu := answers (k_queued k) ++ puts (k_prog k).

Lemma put_served k p k' : serving k -> put k p = Some k' -> serving k' /\ work k' <= work k + 3 /\ k_prog k' = k_prog k /\ k_queued k' = k_queued k ++ [p].
Proof.
  intros (S1 & S2 & S3 & S4 & S5 & S6) H. unfold put in H.
  destruct (k_pc k) eqn:EP; try congruence; try (destruct (nlen (k_queue k) <? 256)%N; [|discriminate]); injection H as <-;
    unfold serving, work; cbn [k_phase k_flag k_up k_prog k_pc k_queue k_queued rank]; rewrite ?EP, ?app_length; cbn [length rank];
    (split; [repeat split; auto; discriminate|]); repeat split; lia.
Qed.
Lemma reader_served w i k : serving k -> nth_error (n_conns w) i = Some k ->
  reader_step w i k = w /\ (k_prog k = [] \/ k_pc k <> SParked) \/
  exists k', reader_step w i k = with_conn w i k' /\ serving k' /\ work k' < work k /\ content k' = content k.
Proof.
  intros HS Hi. pose proof HS as (S1 & S2 & S3 & S4 & S5 & S6). unfold reader_step. destruct (k_prog k) as [|[v|p| | |] r] eqn:EP; inversion S4 as [|? ? P1 P2]; subst; try now destruct P1.
  - left; auto.
  - right. eexists. split; [reflexivity|]. split; [repeat split; auto|]. split; [unfold work; cbn [k_set_prog k_set_ver k_prog k_queue k_pc]; rewrite EP; cbn [length]; lia|].
    unfold content. cbn. now rewrite EP.
  - destruct (put k p) as [k1|] eqn:EU.
    + right. destruct (put_served _ _ _ HS EU) as (A & B & C & D). exists (k_set_prog r k1). split; [reflexivity|].
      destruct A as (A1 & A2 & A3 & A4 & A5 & A6). split; [repeat split; auto|]. split.
      * unfold work in *. cbn [k_set_prog k_prog k_queue k_pc]. rewrite C, EP in B. cbn [length] in B. rewrite EP. cbn [length]. lia.
      * unfold content. cbn [k_set_prog k_prog k_queued]. rewrite D, EP, answers_app. cbn [answers filter]. unfold plain in P1. rewrite P1. cbn [negb].
        rewrite <- app_assoc. reflexivity.
    + left. split; [reflexivity|]. right. intros X. unfold put in EU. rewrite X in EU. discriminate.
Qed.
Lemma sender_served k k' : serving k -> sender_step k WAll = Ok k' -> (k_pc k = SParked -> k_queue k = []) ->
  (k' = k /\ k_pc k = SParked) \/ (serving k' /\ work k' < work k /\ content k' = content k).
Proof.
  intros (S1 & S2 & S3 & S4 & S5 & S6) H HQ. unfold sender_step in H. destruct (k_pc k) eqn:EP; try congruence.
  - right. injection H as <-. rewrite S2. unfold serving, work, content. cbn. rewrite ?EP. cbn. repeat split; auto; try discriminate; lia.
  - right. destruct (k_queue k) as [|p q] eqn:EQ; injection H as <-; unfold serving, work, content; cbn; rewrite ?EP, ?EQ; cbn; repeat split; auto; try discriminate; lia.
  - left. injection H as <-. auto.
  - right. destruct (encode p) as [b|e|]; [|destruct e|discriminate]. cbn in H. rewrite S3 in H. injection H as <-.
    unfold serving, work, content. cbn. rewrite ?EP. cbn. repeat split; auto; try discriminate; lia.
Qed.
Lemma reach_step srv w l w' : nreach srv w -> nstep srv w l = Ok w' -> nreach srv w'.
Proof. intros [s H] E. exists (s ++ [l]). rewrite (nrun_app _ _ _ _ _ H). cbn. now rewrite E. Qed.

Definition allowed (i : nat) (l : label) : Prop :=
  match l with LRead j _ _ => j <> i | LSender j o => j = i -> o = WAll | _ => True end.
Definition is_notifier (l : label) : nat := match l with LNotifier => 1 | _ => 0 end.
Lemma step_served srv w l w' i k : nreach srv w -> serving k -> nth_error (n_conns w) i = Some k -> allowed i l ->
  nstep srv w l = Ok w' -> exists k', nth_error (n_conns w') i = Some k' /\ serving k' /\ content k' = content k /\
    (work k' + 1 <= work k + 4 * is_notifier l \/
     (k' = k /\ is_notifier l = 0 /\ (l = LSender i WAll -> k_pc k = SParked) /\ (l = LReader i -> k_prog k = [] \/ k_pc k <> SParked))).
Proof.
  intros HR HS Hi HA H. destruct HR as [sched HR]. destruct (fifo_run _ _ _ HR _ _ Hi) as [F1 _].
  assert (LT : i < length (n_conns w)) by (apply nth_error_Some; congruence).
  assert (HNF : match n_notif w with NPut p _ _ _ => is_notify p = true | _ => True end).
  { apply (nrun_inv srv nwhole (nwhole_step srv) sched empty_net w); [|exact HR]. split; [apply (empty_conns kwhole)|exact I]. }
  pose proof HS as (S1 & S2 & S3 & S4 & S5 & S6).
  destruct (notifier_dec l) as [->|NL].
  { cbn [is_notifier]. cbn [nstep] in H. unfold notifier_step in H.
    assert (SAME : forall w1, n_conns w1 = n_conns w -> exists k', nth_error (n_conns w1) i = Some k' /\ serving k' /\ content k' = content k /\
      (work k' + 1 <= work k + 4 * 1 \/ (k' = k /\ 1 = 0 /\ (LNotifier = LSender i WAll -> k_pc k = SParked) /\ (LNotifier = LReader i -> k_prog k = [] \/ k_pc k <> SParked)))).
    { intros w1 ->. exists k. repeat split; auto. left; lia. }
    destruct (n_notif w) as [|serial [|j rest]|serial sess j rest|p serial j rest].
    - injection H as <-; auto.
    - injection H as <-; auto.
    - destruct (nth_error (n_conns w) j) as [kj|]; [|injection H as <-; auto].
      destruct (get_session_id srv (k_ver kj)) as [x|x|]; [|destruct x|discriminate]. injection H as <-; auto.
    - destruct (nth_error (n_conns w) j) as [kj|]; injection H as <-; auto.
    - destruct (nth_error (n_conns w) j) as [kj|] eqn:Ej; [|injection H as <-; auto].
      destruct (put kj p) as [k1|] eqn:EU; injection H as <-; auto. cbn [n_conns].
      destruct (Nat.eq_dec j i) as [->|N].
      + rewrite set_nth_same by auto. rewrite Hi in Ej. injection Ej as <-. destruct (put_served _ _ _ HS EU) as (A & B & C & D).
        exists k1. repeat split; try apply A. 2:{ left; lia. }
        unfold content. rewrite C, D, answers_app. cbn [answers filter]. rewrite HNF. cbn [negb]. now rewrite app_nil_r.
      + rewrite set_nth_other by auto. exists k. repeat split; auto. left; lia. }
  assert (IN : is_notifier l = 0) by (destruct l; congruence || reflexivity).
  destruct (focus_dec l i) as [HF|HF].
  2:{ exists k. split; [eapply nstep_other; eauto; intros X; now destruct NL|]. split; [exact HS|]. split; [reflexivity|]. right.
      split; [reflexivity|]. split; [exact IN|]. split; intros ->; exfalso; apply HF; reflexivity. }
  assert (KEEP : w' = w -> (l = LSender i WAll -> k_pc k = SParked) -> (l = LReader i -> k_prog k = [] \/ k_pc k <> SParked) ->
    exists k', nth_error (n_conns w') i = Some k' /\ serving k' /\ content k' = content k /\
    (work k' + 1 <= work k + 4 * is_notifier l \/
     (k' = k /\ is_notifier l = 0 /\ (l = LSender i WAll -> k_pc k = SParked) /\ (l = LReader i -> k_prog k = [] \/ k_pc k <> SParked)))).
  { intros -> A B. exists k. repeat split; auto. }
  destruct l; cbn [focus] in HF; try contradiction; subst; cbn [nstep] in H; rewrite Hi in H; cbn [allowed] in HA.
  - rewrite S1 in H. injection H as <-. apply KEEP; [reflexivity|discriminate|discriminate].
  - rewrite S1 in H. injection H as <-. apply KEEP; [reflexivity|discriminate|discriminate].
  - injection H as <-. destruct (reader_served w i k HS Hi) as [(E & X)|(k1 & E & A & B & C)].
    + apply KEEP; [exact E|discriminate|auto].
    + rewrite E. exists k1. unfold with_conn. cbn [n_conns]. rewrite set_nth_same by auto. split; [reflexivity|]. split; [exact A|]. split; [exact C|]. left. rewrite IN. lia.
  - rewrite S1, S2 in H. destruct (k_prog k); injection H as <-; apply KEEP; try reflexivity; discriminate.
  - rewrite (HA eq_refl) in *. destruct (sender_step k WAll) as [k1|x|] eqn:ES; [|destruct x|discriminate]. cbn in H. injection H as <-.
    unfold with_conn. cbn [n_conns]. rewrite set_nth_same by auto. exists k1. split; [reflexivity|].
    destruct (sender_served k k1 HS ES F1) as [(-> & X)|(A & B & C)].
    + split; [exact HS|]. split; [reflexivity|]. right. split; [reflexivity|]. split; [reflexivity|]. split; [auto|discriminate].
    + split; [exact A|]. split; [exact C|]. left. rewrite IN. lia.
Qed.

(** * Rounds *)
Definition done (k : conn) : Prop := k_prog k = [] /\ k_pc k = SParked.
Lemma count_cons l r : notifier_steps (l :: r) = is_notifier l + notifier_steps r.
Proof. unfold notifier_steps. destruct l; reflexivity. Qed.
Lemma count_app a b : notifier_steps (a ++ b) = notifier_steps a + notifier_steps b.
Proof. unfold notifier_steps. rewrite filter_app, app_length. reflexivity. Qed.
Lemma round_served srv i : forall r w w' k, nreach srv w -> serving k -> nth_error (n_conns w) i = Some k -> Forall (allowed i) r ->
  nrun srv w r = Ok w' -> exists k', nth_error (n_conns w') i = Some k' /\ serving k' /\ content k' = content k /\ nreach srv w' /\
    (work k' + 1 <= work k + 4 * notifier_steps r \/
     (k' = k /\ notifier_steps r = 0 /\ (In (LSender i WAll) r -> k_pc k = SParked) /\ (In (LReader i) r -> k_prog k = [] \/ k_pc k <> SParked))).
Proof.
  induction r as [|l r IH]; intros w w' k HR HS Hi HA H.
  - cbn in H. injection H as <-. exists k. repeat split; try exact HR; try apply HS; auto. right. repeat split; intros [].
  - cbn [nrun] in H. destruct (nstep srv w l) as [w1|x|] eqn:E; [|destruct x|discriminate]. cbn [bind] in H.
    inversion HA as [|? ? A1 A2]; subst. destruct (step_served srv w l w1 i k HR HS Hi A1 E) as (k1 & K1 & K2 & K3 & K4).
    destruct (IH w1 w' k1 (reach_step _ _ _ _ HR E) K2 K1 A2 H) as (k2 & L1 & L2 & L3 & L4 & L5).
    exists k2. split; [exact L1|]. split; [exact L2|]. split; [congruence|]. split; [exact L4|]. rewrite count_cons.
    destruct K4 as [K4|(-> & K5 & K6 & K7)]; [destruct L5 as [L5|(-> & L5 & _)]; left; lia|].
    rewrite K5. cbn [Nat.add]. destruct L5 as [L5|(-> & L5 & L6 & L7)]; [left; lia|]. right.
    split; [reflexivity|]. split; [exact L5|]. split; intros [X|X]; auto.
Qed.
Lemma rounds_served srv i : forall rs w w' k, nreach srv w -> serving k -> nth_error (n_conns w) i = Some k -> Forall (turn_each i) rs ->
  nrun srv w (concat rs) = Ok w' -> work k + 4 * notifier_steps (concat rs) <= length rs ->
  exists r1 r2 w1 k1, concat rs = r1 ++ r2 /\ nrun srv w r1 = Ok w1 /\ nreach srv w1 /\ nth_error (n_conns w1) i = Some k1 /\ serving k1 /\ done k1 /\ content k1 = content k.
Proof.
  induction rs as [|r rs IH]; intros w w' k HR HS Hi HA H HL.
  - cbn in HL. exists [], [], w, k. cbn in *. split; [reflexivity|]. split; [reflexivity|]. split; [exact HR|]. split; [exact Hi|]. split; [exact HS|]. split; [|reflexivity].
    unfold work in HL. destruct HS as (_ & _ & _ & _ & S5 & S6). split; [destruct (k_prog k); [reflexivity|cbn in HL; lia]|].
    destruct (k_pc k); cbn in HL; try lia; congruence.
  - cbn [concat] in H, HL |- *. inversion HA as [|? ? A1 A2]; subst.
    assert (exists wm, nrun srv w r = Ok wm /\ nrun srv wm (concat rs) = Ok w') as (wm & HM & HM').
    { destruct (nrun srv w r) as [wm|x|] eqn:E; [|destruct x|].
      - exists wm. split; [reflexivity|]. now rewrite (nrun_app _ _ _ _ _ E) in H.
      - exfalso. revert E H. clear. revert w. induction r as [|l r IHr]; cbn; intros w E H; [discriminate|].
        destruct (nstep srv w l) as [w1|x|]; [|destruct x|discriminate]. cbn in *. eauto. }
    destruct A1 as (B1 & B2 & B3).
    destruct (round_served srv i r w wm k HR HS Hi B3 HM) as (k1 & L1 & L2 & L3 & L4 & L5).
    rewrite count_app in HL. cbn [length] in HL.
    destruct L5 as [L5|(-> & L5 & L6 & L7)].
    + destruct (IH wm w' k1 L4 L2 L1 A2 HM' ltac:(lia)) as (r1 & r2 & w1 & k2 & E1 & E2 & E3 & E4 & E5 & E6 & E7).
      exists (r ++ r1), r2, w1, k2. split; [rewrite <- app_assoc; now rewrite E1|]. split; [now rewrite (nrun_app _ _ _ _ _ HM)|]. rewrite E7. auto 6.
    + exists [], (r ++ concat rs), w, k. split; [reflexivity|]. split; [reflexivity|]. split; [exact HR|]. split; [exact Hi|]. split; [exact HS|]. split; [|reflexivity].
      split; [|auto]. destruct (L7 B1); [auto|]. now destruct (H0 (L6 B2)).
Qed.
Theorem all_served srv i rs w w' k : nreach srv w -> serving k -> nth_error (n_conns w) i = Some k -> Forall (turn_each i) rs ->
  nrun srv w (concat rs) = Ok w' -> outstanding k 0 + 4 * notifier_steps (concat rs) <= length rs ->
  exists r1 r2 w1 k1, concat rs = r1 ++ r2 /\ nrun srv w r1 = Ok w1 /\ nth_error (n_conns w1) i = Some k1 /\ written k1 /\
    answers (k_queued k1) = answers (k_queued k) ++ puts (k_prog k).
Proof.
  intros HR HS Hi HA H HL. destruct (rounds_served srv i rs w w' k HR HS Hi HA H) as (r1 & r2 & w1 & k1 & E1 & E2 & E3 & E4 & E5 & (E6 & E7) & E8).
  { unfold outstanding in HL. unfold work. destruct (k_pc k); cbn [rank]; lia. }
  exists r1, r2, w1, k1. split; [exact E1|]. split; [exact E2|]. split; [exact E4|]. destruct E3 as [sc E3].
  destruct (fifo_run _ _ _ E3 _ _ E4) as (F1 & F2 & sent & F3 & F4 & _). destruct E5 as (_ & _ & U & _). split.
  - split; [exact E6|]. split; [exact U|]. rewrite (F4 U), F3, (F1 E7). unfold in_hand. rewrite E7. cbn. now rewrite app_nil_r.
  - unfold content in E8. rewrite E6 in E8. cbn in E8. now rewrite app_nil_r in E8.
Qed.

(** * The answer to a query *)
Lemma cinv_net cfg s sched w : u16 s -> nrun (new_rtr_server cfg s) empty_net sched = Ok w ->
  forall i k, nth_error (n_conns w) i = Some k -> cinv cfg (k_tr k) (k_cli k).
Proof.
  intros Hs H i k Hk. apply (conn_inv (new_rtr_server cfg s) (fun k => cinv cfg (k_tr k) (k_cli k))) with (4 := H) (5 := Hk); [apply cinv_accept| |apply empty_conns].
  clear - Hs. intros k k' HI HK. destruct HK as [A B|A|cache chunk c prog A B C D|v r A|p r k1 A B|r A|r A|r A|A B C|o k1 A|p k1 A]; cbn; auto.
  - now apply (read_ops_cinv cfg s (k_tr k) cache (k_cli k) chunk c prog Hs HI D).
  - unfold put in B. destruct (k_pc k), (nlen (k_queue k) <? 256)%N; try discriminate; injection B as <-; exact HI.
  - destruct (k_pc k); exact HI.
  - unfold sender_step in A. destruct (k_pc k); try (injection A as <-; exact HI).
    + destruct (k_queue k); injection A as <-; exact HI.
    + destruct (encode p) as [b|e|]; [|destruct e|discriminate]. cbn in A. injection A as <-.
      destruct (k_up k); [destruct o|]; exact HI.
  - unfold put in A. destruct (k_pc k), (nlen (k_queue k) <? 256)%N; try discriminate; injection A as <-; exact HI.
Qed.
Lemma pass_expected cfg s tr keep h c4 v q : u16 s -> (cfg_version cfg < 256)%N -> Forall (Forall wf_sd) h -> cinv cfg tr c4 ->
  query s (c_version c4) v q ->
  exists l, expected cfg s tr (run (new_server keep) h) (c_version c4) q l /\
    pass_simple_handler (new_rtr_server cfg s) (run (new_server keep) h) c4 q = Ok (c4, map Queue l).
Proof.
  intros Hs Hb Hh HI [->|(n & ->)]; cbn [pass_simple_handler].
  - rewrite (request_cache_eq cfg s tr) by (auto; apply run_inv; auto using inv_new).
    destruct (sdCurrent (run (new_server keep) h)) as [|x l] eqn:E.
    + eexists. split; [apply E_none; exact E|reflexivity].
    + eexists. split; [apply E_all; unfold get_current_sds; rewrite E; discriminate|]. unfold get_current_sds. rewrite E. reflexivity.
  - set (cache := run (new_server keep) h).
    pose proof (request_new_version_eq cfg s tr cache c4 (session_of s (c_version c4)) n Hs Hb HI) as HR.
    cbv zeta in HR. rewrite HR by (intros d; now apply serial_diff_wf). clear HR. rewrite N.eqb_refl. cbn [negb].
    destruct (sdCurrent cache) as [|x l] eqn:EC.
    + eexists. split; [apply E_none; exact EC|reflexivity].
    + assert (NE : get_current_sds cache <> []) by (unfold get_current_sds; rewrite EC; discriminate).
      destruct (serial_diff_cases cache n) as [(_ & E)|[(H & E)|(_ & _ & d & _ & E)]]; rewrite E.
      * eexists. split; [apply (E_since _ _ _ _ _ _ _ _ []); auto|reflexivity].
      * eexists. split; [apply E_gone; [auto|lia]|reflexivity].
      * eexists. split; [apply (E_since _ _ _ _ _ _ _ _ d); auto|reflexivity].
Qed.
Lemma expected_plain cfg s tr cache v q l : expected cfg s tr cache v q l -> Forall (fun p => is_notify p = false) l.
Proof.
  assert (R : forall v a b c d e f g, Forall (fun p => is_notify p = false) (response v a b c d e f g)).
  { intros. unfold response. cbn [app]. constructor; [reflexivity|]. apply Forall_app. split; [|constructor; [reflexivity|constructor]].
    apply Forall_forall. intros p Hp. apply in_map_iff in Hp as (x & <- & _). destruct x as [[[] ?] ? ? ?|? ? ? ?]; reflexivity. }
  intros [q0 H|u H|u sess n H H1|u sess n d H H1]; auto; constructor; auto.
Qed.
Theorem query_served cfg s keep h w i k u q chunk w0 : u16 s -> (cfg_version cfg < 256)%N -> Forall (Forall wf_sd) h ->
  let srv := new_rtr_server cfg s in let cache := run (new_server keep) h in let v := negotiated srv u in
  nreach srv w -> nth_error (n_conns w) i = Some k ->
  k_phase k = Running -> k_flag k = true -> k_up k = true -> k_prog k = [] ->
  chunk <> [] -> decode_bytes 64 chunk = Ok q -> query s v u q -> acceptable (k_cli k) u -> nstep srv w (LRead i cache chunk) = Ok w0 ->
  exists l, expected cfg s (k_tr k) cache v q l /\
    forall rs w', Forall (turn_each i) rs -> nrun srv w0 (concat rs) = Ok w' ->
      outstanding k (2 + length l) + 4 * notifier_steps (concat rs) <= length rs ->
      exists r1 r2 w1 k1, concat rs = r1 ++ r2 /\ nrun srv w0 r1 = Ok w1 /\ nth_error (n_conns w1) i = Some k1 /\
        written k1 /\ answers (k_queued k1) = answers (k_queued k) ++ l.
Proof.
  intros Hs Hb Hh srv cache v HR Hi P1 P2 P3 P4 HC HD HQ HA H.
  pose proof HR as [sched HR']. pose proof (cinv_net cfg s sched w Hs HR' i k Hi) as HI.
  assert (GV : get_version q = u) by (destruct HQ as [->|(n & ->)]; reflexivity).
  rewrite <- GV in HA. destruct (process_ops_ok cfg s (k_tr k) cache (k_cli k) q Hs HI HA) as (c4 & E4 & B1 & B2 & HI4).
  rewrite GV in B1. assert (BV : c_version c4 = v) by (rewrite B1; reflexivity).
  destruct (pass_expected cfg s (k_tr k) keep h c4 u q Hs Hb Hh HI4) as (l & L1 & L2); [now rewrite BV|].
  fold cache in L1, L2. rewrite L2 in E4. rewrite BV in L1. exists l. split; [exact L1|].
  cbn [nstep] in H. rewrite Hi, P1, P2, P4 in H. unfold read_ops in H. destruct chunk as [|b0 chunk]; [congruence|].
  rewrite HD in H. fold srv in E4. rewrite E4 in H. cbn [bind fst snd] in H. injection H as <-.
  set (k0 := k_set_read c4 (OSet (get_version q) :: OSet (c_version c4) :: ops (map Queue l)) k).
  assert (LT : i < length (n_conns w)) by (apply nth_error_Some; congruence).
  assert (K0 : nth_error (n_conns (with_conn w i k0)) i = Some k0) by (cbn; now rewrite set_nth_same).
  assert (RO : nreach srv (with_conn w i k0)).
  { apply (reach_step srv w (LRead i cache (b0 :: chunk))); [exact HR|]. cbn [nstep]. rewrite Hi, P1, P2, P4. unfold read_ops. rewrite HD, E4. reflexivity. }
  assert (OL : length (ops (map Queue l)) = length l) by (clear; unfold ops; induction l; cbn; auto).
  assert (PU : puts (k_prog k0) = l).
  { cbn. change (puts (ops (map Queue l)) = l). rewrite puts_ops. clear. unfold queued_by. induction l; cbn in *; congruence. }
  assert (SV : serving k0).
  { split; [exact P1|]. split; [exact P2|]. split; [exact P3|]. split.
    - cbn [k0 k_set_read k_prog]. constructor; [exact I|]. constructor; [exact I|].
      pose proof (expected_plain _ _ _ _ _ _ _ L1) as HP. clear - HP. unfold ops. induction HP; cbn; constructor; auto.
    - split; [apply (alive_run srv sched w HR' i k Hi P2)|].
      pose proof (shape_run srv sched w HR' i k Hi) as SH. unfold shape in SH. rewrite P1 in SH. cbn. tauto. }
  intros rs w' HT HN HL.
  destruct (all_served srv i rs _ w' k0 RO SV K0 HT HN) as (r1 & r2 & w1 & k1 & F1 & F2 & F3 & F4 & F5).
  { unfold outstanding in *. cbn [k0 k_set_read k_prog k_queue length]. rewrite OL. rewrite P4 in HL. cbn [length] in HL. lia. }
  exists r1, r2, w1, k1. rewrite PU in F5. cbn [k0 k_set_read k_queued] in F5. auto.
Qed.
