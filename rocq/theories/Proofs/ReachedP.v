(** A notification reaches every router. *)
From Coq Require Import ZArith ZifyBool ZifyNat ZifyN.
From Verif Require Import Model.Concurrent Spec.Sets Spec.History Spec.Response Spec.Net Spec.Conversation Spec.Answered Spec.Reached
  Proofs.DataP Proofs.CacheP Proofs.ConnP Proofs.ConcCacheP Proofs.NetP Proofs.NetP2 Proofs.NetP3 Proofs.NetP4 Proofs.ConversationP Proofs.ClientGaugeP Proofs.AnsweredP.
From Coq Require Import List.
Local Open Scope list_scope.
Local Open Scope nat_scope.

(** * Sums *)
Lemma sum_ext f g l : (forall i, In i l -> g i = f i) -> add_up g l = add_up f l.
Proof. induction l as [|x l IH]; cbn; intros H; [reflexivity|]. rewrite H, IH; auto. Qed.
Lemma sum_le f g l : (forall i, In i l -> g i <= f i) -> add_up g l <= add_up f l.
Proof. induction l as [|x l IH]; cbn; intros H; [lia|]. pose proof (H x (or_introl eq_refl)). specialize (IH ltac:(auto)). lia. Qed.
Lemma sum_lt f g l j : (forall i, In i l -> g i <= f i) -> In j l -> g j < f j -> add_up g l < add_up f l.
Proof.
  induction l as [|x l IH]; cbn; intros H [] HJ.
  - subst x. assert (add_up g l <= add_up f l) by (apply (sum_le f g l); auto). lia.
  - pose proof (H x (or_introl eq_refl)). specialize (IH ltac:(auto) H0 HJ). lia.
Qed.
Lemma sum_one f g l j : NoDup l -> (forall i, i <> j -> g i = f i) -> g j <= f j + 3 -> add_up g l <= add_up f l + 3.
Proof.
  intros ND HO HJ. induction ND as [|x l HX _ IH]; cbn; [lia|].
  destruct (Nat.eq_dec x j) as [->|N].
  - assert (add_up g l <= add_up f l) by (apply sum_le; intros i Hi; rewrite HO; [lia|]; intros ->; auto). lia.
  - rewrite (HO x N). lia.
Qed.

(** * Steps other than those of the notifier, seen from one client *)
Definition still (k k' : conn) : Prop :=
  notes k' = notes k /\ (k_prog k = [] -> k_prog k' = [] /\ k_ver k' = k_ver k).
Lemma still_refl k : still k k.
Proof. split; auto. Qed.
Lemma notes_app k k' l : k_queued k' = k_queued k ++ l -> notes k' = notes k ++ filter is_notify l.
Proof. unfold notes. intros ->. apply filter_app. Qed.
Lemma step_still srv w l w' i k : nreach srv w -> serving k -> nth_error (n_conns w) i = Some k -> allowed i l -> l <> LNotifier ->
  nstep srv w l = Ok w' -> exists k', nth_error (n_conns w') i = Some k' /\ still k k'.
Proof.
  intros HR (S1 & S2 & S3 & S4 & S5 & S6) Hi HA NL H.
  assert (LT : i < length (n_conns w)) by (apply nth_error_Some; congruence).
  destruct (focus_dec l i) as [HF|HF].
  2:{ exists k. split; [eapply nstep_other; eauto; intros X; now destruct NL|apply still_refl]. }
  destruct l; cbn [focus] in HF; try contradiction; subst; cbn [nstep] in H; rewrite Hi in H; cbn [allowed] in HA; try congruence.
  - rewrite S1 in H. injection H as <-. eauto using still_refl.
  - rewrite S1 in H. injection H as <-. eauto using still_refl.
  - injection H as <-. unfold reader_step. destruct (k_prog k) as [|[v|p| | |] r] eqn:EP; inversion S4 as [|? ? P1 P2]; subst; try now destruct P1.
    + eauto using still_refl.
    + eexists. unfold with_conn. cbn [n_conns]. rewrite set_nth_same by auto. split; [reflexivity|]. split; [reflexivity|]. rewrite EP. discriminate.
    + destruct (put k p) as [k1|] eqn:EU; [|eauto using still_refl]. eexists. unfold with_conn. cbn [n_conns]. rewrite set_nth_same by auto. split; [reflexivity|].
      destruct (put_queued _ _ _ EU) as [Q1 Q2]. split; [|rewrite EP; discriminate].
      change (notes (k_set_prog r k1)) with (notes k1). rewrite (notes_app k k1 [p] Q1). cbn [filter]. cbn [plain] in P1. rewrite P1. apply app_nil_r.
  - rewrite S1, S2 in H. destruct (k_prog k); injection H as <-; eauto using still_refl.
  - destruct (sender_step k o) as [k1|x|] eqn:ES; [|destruct x|discriminate]. cbn in H. injection H as <-.
    unfold with_conn. cbn [n_conns]. rewrite set_nth_same by auto. exists k1. split; [reflexivity|].
    destruct (send_queued _ _ _ ES) as [Q1 Q2]. split; [unfold notes; now rewrite Q1|]. intros EP. split; [congruence|].
    unfold sender_step in ES. destruct (k_pc k); try (injection ES as <-; reflexivity).
    + destruct (k_queue k); injection ES as <-; reflexivity.
    + destruct (encode p) as [b|e|]; [|destruct e|discriminate]. cbn in ES. injection ES as <-. destruct (k_up k); [destruct o|]; reflexivity.
Qed.
Lemma step_notif srv w l w' : l <> LNotifier -> (forall n, l <> LNotify n) -> nstep srv w l = Ok w' -> n_notif w' = n_notif w.
Proof.
  intros N1 N2 H. destruct l; cbn [nstep] in H; try congruence.
  - destruct ((0 <? s_maxconn srv) && (s_maxconn srv <=? n_count w))%Z; injection H as <-; reflexivity.
  - destruct (nth_error (n_conns w) i) as [k|]; [|injection H as <-; reflexivity]. destruct (k_phase k), (k_tr k); injection H as <-; reflexivity.
  - destruct (nth_error (n_conns w) i) as [k|]; [|injection H as <-; reflexivity]. destruct (k_phase k), (k_tr k); injection H as <-; reflexivity.
  - destruct (nth_error (n_conns w) i) as [k|]; [|injection H as <-; reflexivity].
    destruct (k_phase k), (k_prog k), (k_flag k); try (injection H as <-; reflexivity).
    destruct (read_ops srv cache (k_cli k) chunk) as [x|x|]; [|destruct x|discriminate]. injection H as <-. reflexivity.
  - destruct (nth_error (n_conns w) i) as [k|]; [|injection H as <-; reflexivity]. injection H as <-. unfold reader_step.
    destruct (k_prog k) as [|[v|p| | |] r]; try reflexivity. destruct (put k p); reflexivity.
  - destruct (nth_error (n_conns w) i) as [k|]; [|injection H as <-; reflexivity].
    destruct (k_phase k), (k_prog k), (k_flag k); injection H as <-; reflexivity.
  - destruct (nth_error (n_conns w) i) as [k|]; [|injection H as <-; reflexivity].
    destruct (sender_step k o) as [k1|x|]; [|destruct x|discriminate]. injection H as <-. reflexivity.
Qed.

(** * The whole *)
Section Notification.
Variables (cfg : config) (s serial : N) (w0 : net) (cs : list nat).
Hypotheses (Hs : u16 s) (ND : NoDup cs) (Hb : (cfg_version cfg < 256)%N).
Notation srv := (new_rtr_server cfg s).

(** The Serial Notify for [k0], the client at the beginning. *)
Definition note_for (k0 : conn) (p : pdu) : Prop :=
  exists v sess, p = SerialNotify v sess serial /\ (k_prog k0 = [] -> v = k_ver k0 /\ sess = session_of s (k_ver k0)).
Definition pending (n : notifier) : list nat :=
  match n with NIdle => [] | NLoop _ r => r | NSess _ _ i r => i :: r | NPut _ _ i r => i :: r end.
Definition steps_left (n : notifier) : nat :=
  match n with NIdle => 0 | NLoop _ r => 1 + 3 * length r | NSess _ _ i r => 3 + 3 * length r | NPut _ _ i r => 2 + 3 * length r end.
Definition notif_ok (n : notifier) : Prop :=
  match n with
  | NIdle => True
  | NLoop n _ => n = serial
  | NSess n sess i _ => n = serial /\ forall k0, nth_error (n_conns w0) i = Some k0 -> k_prog k0 = [] -> sess = session_of s (k_ver k0)
  | NPut p n i _ => n = serial /\ forall k0, nth_error (n_conns w0) i = Some k0 -> note_for k0 p
  end.
Definition client_ok (pend : list nat) (i : nat) (k : conn) : Prop :=
  exists k0, nth_error (n_conns w0) i = Some k0 /\ serving k /\ content k = content k0 /\
    (k_prog k0 = [] -> k_prog k = [] /\ k_ver k = k_ver k0 /\ (k_ver k0 <= cfg_version cfg)%N) /\
    (In i pend -> notes k = notes k0) /\ (~ In i pend -> exists p, note_for k0 p /\ notes k = notes k0 ++ [p]).
Definition all_ok (w : net) : Prop :=
  nreach srv w /\ notif_ok (n_notif w) /\ NoDup (pending (n_notif w)) /\ incl (pending (n_notif w)) cs /\
  forall i, In i cs -> exists k, nth_error (n_conns w) i = Some k /\ client_ok (pending (n_notif w)) i k.
Definition load (w : net) (i : nat) : nat := match nth_error (n_conns w) i with Some k => work k | None => 0 end.
Definition total (w : net) : nat := add_up (load w) cs + 4 * steps_left (n_notif w).

(** Nothing moves: the position of client and notifier at which a turn changes nothing. *)
Definition idle_at (w : net) (l : label) : Prop :=
  (l = LNotifier -> n_notif w = NIdle \/ exists i, In i cs /\ forall k, nth_error (n_conns w) i = Some k -> k_pc k <> SParked) /\
  (forall i k, In i cs -> nth_error (n_conns w) i = Some k ->
     (l = LSender i WAll -> k_pc k = SParked) /\ (l = LReader i -> k_prog k = [] \/ k_pc k <> SParked)).
Definition unmoved (w w' : net) : Prop := n_notif w' = n_notif w /\ forall i, In i cs -> nth_error (n_conns w') i = nth_error (n_conns w) i.

Lemma total_same w w' : unmoved w w' -> total w' = total w.
Proof.
  intros [A B]. unfold total. rewrite A. f_equal. apply sum_ext. intros i Hi. unfold load. now rewrite B by auto.
Qed.
Lemma step_all w l w' : all_ok w -> (forall i, In i cs -> allowed i l) -> (forall n, l <> LNotify n) -> nstep srv w l = Ok w' ->
  all_ok w' /\ (total w' < total w \/ (unmoved w w' /\ idle_at w l)).
Proof.
  intros (HR & HN & NP & IP & HC) HA NL H. pose proof (reach_step _ _ _ _ HR H) as HR'.
  assert (HNF : match n_notif w with NPut p _ _ _ => is_notify p = true | _ => True end).
  { destruct HR as [sc HR]. apply (nrun_inv srv nwhole (nwhole_step srv) sc empty_net w); [|exact HR]. split; [apply (empty_conns kwhole)|exact I]. }
  destruct (notifier_dec l) as [->|NN].
  - assert (HL : forall i, In i cs -> exists k, nth_error (n_conns w) i = Some k) by (intros i Hi; destruct (HC i Hi) as (k & E & _); eauto).
    assert (MOVE : forall n, n_notif w' = n -> n_conns w' = n_conns w -> notif_ok n -> NoDup (pending n) -> pending n = pending (n_notif w) ->
      steps_left n < steps_left (n_notif w) -> all_ok w' /\ (total w' < total w \/ (unmoved w w' /\ idle_at w LNotifier))).
    { intros n E1 E2 A B C D. split.
      - split; [exact HR'|]. rewrite E1, E2. split; [exact A|]. split; [exact B|]. rewrite C. split; [exact IP|exact HC].
      - left. unfold total. rewrite E1. assert (add_up (load w') cs = add_up (load w) cs) as ->; [|lia].
        apply sum_ext. intros i Hi. unfold load. now rewrite E2. }
    cbn [nstep] in H. unfold notifier_step in H. destruct (n_notif w) as [|n [|j rest]|n sess j rest|p n j rest] eqn:EN; cbn [pending notif_ok] in *.
    + injection H as <-. split; [repeat split; auto; rewrite EN; auto|]. right. split; [split; auto|]. split; [auto|]. intros i k Hi Hk. split; discriminate.
    + injection H as <-. apply (MOVE NIdle); auto; try constructor; cbn; try lia; auto.
    + assert (Hj : In j cs) by (apply IP; left; reflexivity). destruct (HC j Hj) as (k & Ek & k0 & K0 & K1 & K2 & K3 & K4).
      rewrite Ek in H. destruct (get_session_id srv (k_ver k)) as [sess|x|] eqn:EG; [|destruct x|discriminate]. cbn [bind] in H. injection H as <-.
      apply (MOVE (NSess n sess j rest)); auto; cbn [notif_ok steps_left length]; try lia. split; [exact HN|]. intros k1 E1 P1. rewrite K0 in E1. injection E1 as <-.
      destruct (K3 P1) as (_ & EV & LE). rewrite EV in EG. unfold get_session_id in EG. rewrite sess_nth in EG by auto. now injection EG as <-.
    + assert (Hj : In j cs) by (apply IP; left; reflexivity). destruct (HC j Hj) as (k & Ek & k0 & K0 & K1 & K2 & K3 & K4).
      rewrite Ek in H. injection H as <-. destruct HN as [-> HN].
      apply (MOVE (NPut (SerialNotify (k_ver k) sess serial) serial j rest)); auto; cbn [notif_ok steps_left]; try lia.
      split; [reflexivity|]. intros k1 E1. rewrite K0 in E1. injection E1 as <-. exists (k_ver k), sess. split; [reflexivity|].
      intros P1. split; [apply (K3 P1)|apply (HN k0 K0 P1)].
    + assert (Hj : In j cs) by (apply IP; left; reflexivity). destruct (HC j Hj) as (k & Ek & k0 & K0 & K1 & K2 & K3 & K4).
      rewrite Ek in H. destruct (put k p) as [k1|] eqn:EU.
      * injection H as <-. destruct HN as [-> HN]. destruct (put_served _ _ _ K1 EU) as (A1 & A2 & A3 & A4).
        assert (LT : j < length (n_conns w)) by (apply nth_error_Some; congruence).
        inversion NP as [|? ? NP1 NP2]; subst. split.
        -- split; [exact HR'|]. cbn [n_notif n_conns pending notif_ok]. split; [reflexivity|]. split; [exact NP2|]. split; [intros x Hx; apply IP; right; exact Hx|].
           intros i Hi. destruct (Nat.eq_dec i j) as [->|NE].
           ++ rewrite set_nth_same by auto. exists k1. split; [reflexivity|]. exists k0. split; [exact K0|]. split; [exact A1|].
              split; [unfold content; rewrite A3, A4, answers_app; cbn [answers filter]; rewrite HNF; cbn [negb]; rewrite app_nil_r; exact K2|].
              split.
              { intros P0. destruct (K3 P0) as (P1 & P2 & P3). rewrite A3. split; [exact P1|]. split; [|exact P3]. rewrite <- P2.
                unfold put in EU. destruct (k_pc k), (nlen (k_queue k) <? 256)%N; try discriminate; injection EU as <-; reflexivity. }
              split; [intros X; now destruct NP1|]. intros _. exists p. split; [apply HN; exact K0|].
              rewrite (notes_app k k1 [p] A4). cbn [filter]. rewrite HNF. f_equal. apply K4. left; reflexivity.
           ++ rewrite set_nth_other by auto. destruct (HC i Hi) as (ki & Ei & ki0 & B0 & B1 & B2 & B3 & B4 & B5). exists ki. split; [exact Ei|].
              exists ki0. repeat (split; [assumption|]). split; intros X; [apply B4; right; exact X|].
              apply B5. intros [E|X']; [congruence|auto].
        -- left. unfold total. cbn [n_notif steps_left]. rewrite EN. cbn [steps_left].
           match goal with |- add_up (load ?W) cs + _ < _ => pose proof (sum_one (load w) (load W) cs j ND) as SO end.
           assert (add_up (load (mkNet (n_count w) (n_clients w) (set_nth (n_conns w) j k1) (NLoop serial rest))) cs <= add_up (load w) cs + 3); [|lia].
           apply SO.
           ++ intros i NE. unfold load. cbn [n_conns]. now rewrite set_nth_other by auto.
           ++ unfold load. cbn [n_conns]. rewrite set_nth_same by auto. rewrite Ek. exact A2.
      * injection H as <-. split; [split; [exact HR|]; rewrite EN; repeat split; auto; apply HN|]. right. split; [split; auto|]. split.
        -- intros _. right. exists j. split; [exact Hj|]. intros k1 E1. rewrite Ek in E1. injection E1 as <-. intros X. unfold put in EU. rewrite X in EU. discriminate.
        -- intros i ki Hi Hki. split; discriminate.
  - pose proof (step_notif srv w l w' NN NL H) as EN.
    assert (EACH : forall i, In i cs -> exists k k', nth_error (n_conns w) i = Some k /\ nth_error (n_conns w') i = Some k' /\ client_ok (pending (n_notif w)) i k' /\
      (work k' < work k \/ (k' = k /\ (l = LSender i WAll -> k_pc k = SParked) /\ (l = LReader i -> k_prog k = [] \/ k_pc k <> SParked)))).
    { intros i Hi. destruct (HC i Hi) as (k & Ek & k0 & K0 & K1 & K2 & K3 & K4 & K5).
      destruct (step_served srv w l w' i k HR K1 Ek (HA i Hi) H) as (k' & E' & A1 & A2 & A3).
      destruct (step_still srv w l w' i k HR K1 Ek (HA i Hi) NN H) as (k'' & E'' & B1 & B2). rewrite E' in E''. injection E'' as <-.
      exists k, k'. split; [exact Ek|]. split; [exact E'|]. split.
      - exists k0. split; [exact K0|]. split; [exact A1|]. split; [congruence|]. split.
        + intros P0. destruct (K3 P0) as (P1 & P2 & P3). destruct (B2 P1) as [P4 P5]. split; [exact P4|]. split; [congruence|exact P3].
        + rewrite B1. auto.
      - destruct A3 as [A3|(A3 & _ & A4)]; [left|right; auto]. assert (is_notifier l = 0) as IN by (destruct l; congruence || reflexivity). rewrite IN in A3. lia. }
    split.
    { split; [exact HR'|]. rewrite EN. split; [exact HN|]. split; [exact NP|]. split; [exact IP|]. intros i Hi. destruct (EACH i Hi) as (k & k' & _ & E & C & _). eauto. }
    assert (LE : forall i, In i cs -> load w' i <= load w i).
    { intros i Hi. destruct (EACH i Hi) as (k & k' & E1 & E2 & _ & [X|(-> & _)]); unfold load; rewrite E1, E2; lia. }
    assert (DEC : (exists i, In i cs /\ load w' i < load w i) \/ (forall i, In i cs -> ~ load w' i < load w i)).
    { clear -cs. induction cs as [|x l IH]; [right; intros i []|]. destruct IH as [(i & Hi & X)|IH]; [left; exists i; split; [right; exact Hi|exact X]|].
      destruct (Nat.lt_ge_cases (load w' x) (load w x)) as [X|X]; [left; exists x; split; [left; reflexivity|exact X]|].
      right. intros i [<-|Hi]; [lia|auto]. }
    destruct DEC as [(i & Hi & X)|X].
    + left. unfold total. rewrite EN. pose proof (sum_lt (load w) (load w') cs i LE Hi X). lia.
    + right. assert (SAME : forall i, In i cs -> exists k, nth_error (n_conns w) i = Some k /\ nth_error (n_conns w') i = Some k /\
        (l = LSender i WAll -> k_pc k = SParked) /\ (l = LReader i -> k_prog k = [] \/ k_pc k <> SParked)).
      { intros i Hi. specialize (X i Hi). destruct (EACH i Hi) as (k & k' & E1 & E2 & _ & [Y|(-> & Y)]); [|exists k; auto].
        unfold load in X. rewrite E1, E2 in X. lia. }
      split; [split; [exact EN|intros i Hi; destruct (SAME i Hi) as (k & E1 & E2 & _); congruence]|]. split; [congruence|].
      intros i k Hi Hk. destruct (SAME i Hi) as (k' & E1 & E2 & Y). rewrite Hk in E1. injection E1 as <-. exact Y.
Qed.
Lemma round_all : forall r w w', all_ok w -> (forall i, In i cs -> Forall (allowed i) r) -> (forall n, ~ In (LNotify n) r) -> nrun srv w r = Ok w' ->
  all_ok w' /\ (total w' < total w \/ (unmoved w w' /\ forall l, In l r -> idle_at w l)).
Proof.
  induction r as [|l r IH]; intros w w' HO HA HN H.
  - cbn in H. injection H as <-. split; [exact HO|]. right. split; [split; auto|]. intros l [].
  - cbn [nrun] in H. destruct (nstep srv w l) as [w1|x|] eqn:E; [|destruct x|discriminate]. cbn [bind] in H.
    destruct (step_all w l w1 HO) as (A1 & A2); [intros i Hi; specialize (HA i Hi); now inversion HA|intros n ->; apply (HN n); left; reflexivity|exact E|].
    destruct (IH w1 w' A1) as (B1 & B2); [intros i Hi; specialize (HA i Hi); now inversion HA|intros n Hn; apply (HN n); right; exact Hn|exact H|].
    split; [exact B1|]. destruct A2 as [A2|(A2 & A3)].
    + left. destruct B2 as [B2|(B2 & _)]; [lia|]. rewrite (total_same _ _ B2). exact A2.
    + rewrite <- (total_same _ _ A2). destruct B2 as [B2|(B2 & B3)]; [left; exact B2|]. right.
      destruct A2 as [U1 U2], B2 as [V1 V2]. split; [split; [congruence|intros i Hi; rewrite V2, U2; auto]|].
      intros l' [<-|Hl]; [exact A3|]. destruct (B3 l' Hl) as [C1 C2]. split.
      * intros ->. destruct (C1 eq_refl) as [C|(i & Hi & C)]; [left; congruence|right]. exists i. split; [exact Hi|]. rewrite <- (U2 i Hi). exact C.
      * intros i k Hi Hk. apply (C2 i k Hi). now rewrite U2.
Qed.
Lemma rounds_all : forall rs w w', all_ok w -> Forall (turn_all cs) rs -> nrun srv w (concat rs) = Ok w' -> total w <= length rs ->
  exists r1 r2 w1, concat rs = r1 ++ r2 /\ nrun srv w r1 = Ok w1 /\ all_ok w1 /\ n_notif w1 = NIdle /\
    forall i k, In i cs -> nth_error (n_conns w1) i = Some k -> done k.
Proof.
  induction rs as [|r rs IH]; intros w w' HO HT H HL.
  - cbn in HL. exists [], [], w. split; [reflexivity|]. split; [reflexivity|]. split; [exact HO|]. unfold total in HL.
    split; [destruct (n_notif w); cbn in HL; try lia; reflexivity|]. intros i k Hi Hk.
    assert (work k = 0).
    { assert (load w i <= add_up (load w) cs).
      { clear -Hi. induction cs as [|x l IHl]; [destruct Hi|]. cbn. destruct Hi as [->|Hi]; [lia|]. specialize (IHl Hi). lia. }
      unfold load in H0 at 1. rewrite Hk in H0. lia. }
    destruct HO as (_ & _ & _ & _ & HC). destruct (HC i Hi) as (k' & Ek & k0 & _ & S & _). rewrite Hk in Ek. injection Ek as <-.
    destruct S as (_ & _ & _ & _ & S5 & S6). unfold work in H0. split; [destruct (k_prog k); [reflexivity|cbn in H0; lia]|].
    destruct (k_pc k); cbn in H0; try lia; congruence.
  - cbn [concat length] in H, HL |- *. inversion HT as [|? ? T1 T2]; subst.
    assert (exists wm, nrun srv w r = Ok wm /\ nrun srv wm (concat rs) = Ok w') as (wm & HM & HM').
    { destruct (nrun srv w r) as [wm|x|] eqn:E; [|destruct x|].
      - exists wm. split; [reflexivity|]. now rewrite (nrun_app _ _ _ _ _ E) in H.
      - exfalso. revert E H. clear. revert w. induction r as [|l r IHr]; cbn; intros w E H; [discriminate|].
        destruct (nstep srv w l) as [w1|x|]; [|destruct x|discriminate]. cbn in *. eauto. }
    destruct T1 as (T1 & T3 & T4).
    destruct (round_all r w wm HO) as (A & [B|(B & C)]); [intros i Hi; apply (T1 i Hi)|exact T4|exact HM| |].
    + destruct (IH wm w' A T2 HM' ltac:(lia)) as (r1 & r2 & w1 & E1 & E2 & E3).
      exists (r ++ r1), r2, w1. split; [rewrite <- app_assoc; now rewrite E1|]. split; [now rewrite (nrun_app _ _ _ _ _ HM)|exact E3].
    + exists [], (r ++ concat rs), w. split; [reflexivity|]. split; [reflexivity|]. split; [exact HO|].
      assert (PK : forall i k, In i cs -> nth_error (n_conns w) i = Some k -> k_pc k = SParked).
      { intros i k Hi Hk. apply (C (LSender i WAll) (proj1 (proj2 (T1 i Hi)))) with (i := i); auto. }
      split.
      * destruct (proj1 (C LNotifier T3) eq_refl) as [X|(i & Hi & X)]; [exact X|]. destruct HO as (_ & _ & _ & _ & HC).
        destruct (HC i Hi) as (k & Ek & _). destruct (X k Ek). eauto.
      * intros i k Hi Hk. split; [|eauto]. destruct (proj2 (proj2 (C (LReader i) (proj1 (T1 i Hi))) i k Hi Hk) eq_refl) as [X|X]; [exact X|].
        destruct X. eauto.
Qed.
End Notification.

(** * Reachable states *)
Lemma net_ok_reach srv w : nreach srv w -> net_ok w.
Proof. intros [sc H]. exact (nrun_inv srv net_ok (net_ok_step srv) sc empty_net w net_ok_empty H). Qed.
Lemma stay_serving srv w i k : nreach srv w -> In i (n_clients w) -> nth_error (n_conns w) i = Some k -> staying k -> serving k.
Proof.
  intros HR Hi Hk (F & U & NF). destruct (net_ok_reach _ _ HR) as (_ & _ & HC). destruct (HC i k Hk) as [_ C].
  destruct HR as [sc HR]. destruct (k_phase k) eqn:EP; try (destruct C as (_ & C & _); congruence).
  destruct C as [[C _]|(r & _ & _ & C)]; [|congruence].
  split; [exact EP|]. split; [exact F|]. split; [exact U|]. split.
  - pose proof (proj2 (qguarded_run srv sc w HR i k Hk)) as Q. rewrite F in Q.
    assert (HW : kwhole k).
    { assert (X : nwhole w) by (apply (nrun_inv srv nwhole (nwhole_step srv) sc empty_net w); [|exact HR]; split; [apply (empty_conns kwhole)|exact I]).
      apply (proj1 X i k Hk). }
    destruct HW as [_ HW]. revert C Q NF HW. generalize (k_prog k). clear. intros l. induction l as [|o l IH]; intros P Q NF HW; [constructor|].
    assert (A : plain o /\ paired l /\ qguarded true l).
    { destruct o as [v|p| | |]; cbn [paired qguarded] in *; auto.
      - split; [exact I|auto].
      - cbn in HW. unfold plain. destruct (is_notify p) eqn:E; cbn in HW; [|auto].
        exfalso. pose proof (answers_length (puts l)) as L. unfold answers, puts in L. rewrite HW in L. cbn in L. lia.
      - destruct NF. left; reflexivity.
      - contradiction.
      - destruct Q. discriminate. }
    destruct A as (A1 & A2 & A3). constructor; [exact A1|]. apply IH; auto.
    + intros X. apply NF. right. exact X.
    + destruct o; cbn in HW; auto. cbn [plain] in A1. rewrite A1 in HW. cbn in HW. now injection HW.
  - split; [apply (alive_run srv sc w HR i k Hk F)|]. pose proof (shape_run srv sc w HR i k Hk) as SH. unfold shape in SH. rewrite EP in SH. tauto.
Qed.

(** The version seen by others is the reader's once it has nothing left to do. *)
Definition last_set (v : N) (l : list op) : N := fold_left (fun v o => match o with OSet u => u | _ => v end) l v.
Definition ver_ok (k : conn) : Prop := last_set (k_ver k) (k_prog k) = c_version (k_cli k).
Lemma last_set_app v a b : last_set v (a ++ b) = last_set (last_set v a) b.
Proof. apply fold_left_app. Qed.
Lemma last_set_ops v a : last_set v (ops a) = v.
Proof. unfold ops, last_set. revert v. induction a as [|[p|] a IH]; intros v; [reflexivity| |]; cbn [flat_map app fold_left]; apply IH. Qed.
Lemma pass_version srv cache c p c' a : pass_simple_handler srv cache c p = Ok (c', a) -> c_version c' = c_version c.
Proof.
  destruct p; cbn [pass_simple_handler]; try (intros [=<- <-]; reflexivity).
  - unfold request_new_version. destruct (get_session_id srv (c_version c)) as [x|x|]; cbn [bind]; [|destruct x|discriminate].
    destruct (negb (sess =? x)%N); [intros [=<- <-]; reflexivity|]. destruct (get_current_serial cache) as [n valid]. destruct (negb valid); [intros [=<- <-]; reflexivity|].
    destruct (get_sds_serial_diff cache serial) as [d|e|]; [| |discriminate]; intros [=<- <-]; reflexivity.
  - unfold request_cache. destruct (get_session_id srv (c_version c)) as [x|x|]; cbn [bind]; [|destruct x|discriminate].
    destruct (get_current_serial cache) as [n valid]. destruct (negb valid); intros [=<- <-]; reflexivity.
Qed.
Lemma read_version srv cache c chunk c' l v : read_ops srv cache c chunk = Ok (c', l) -> v = c_version c -> last_set v l = c_version c'.
Proof.
  unfold read_ops. intros H ->. destruct chunk as [|b0 chunk]; [cbn [disconnect] in H; injection H as <- <-; reflexivity|].
  destruct (decode_bytes 64 (b0 :: chunk)) as [p|e|]; [|cbn [disconnect] in H; injection H as <- <-; reflexivity|discriminate].
  unfold process_ops in H.
  destruct (if c_disableVC c then (c, []) else check_version c (get_version p)) as [c1 a1].
  destruct (if c_enforce c1 then _ else (c1, [])) as [c2 a2].
  destruct (server_handle_pdu srv _) as [c4 a4].
  destruct (pass_simple_handler srv cache c4 p) as [[c5 a5]|e|] eqn:EP; cbn [bind fst snd] in H; [|destruct e|discriminate].
  injection H as <- <-. cbn [last_set fold_left]. change (last_set (c_version c1) (ops a1 ++ ops a2 ++ ops a4 ++ OSet (c_version c4) :: ops a5) = c_version c5).
  rewrite !last_set_app, !last_set_ops. cbn [last_set fold_left]. change (last_set (c_version c4) (ops a5) = c_version c5).
  rewrite last_set_ops. symmetry. eapply pass_version; eauto.
Qed.
Lemma ver_run srv sched w : nrun srv empty_net sched = Ok w -> forall i k, nth_error (n_conns w) i = Some k -> ver_ok k.
Proof.
  intros H i k Hk. apply (conn_inv srv ver_ok) with (4 := H) (5 := Hk); [reflexivity| |apply empty_conns]. clear.
  unfold ver_ok. intros k k' HI HK.
  assert (PUT : forall p k1, put k p = Some k1 -> k_ver k1 = k_ver k /\ k_prog k1 = k_prog k /\ k_cli k1 = k_cli k).
  { intros p k1 E. unfold put in E. destruct (k_pc k), (nlen (k_queue k) <? 256)%N; try discriminate; injection E as <-; auto. }
  destruct HK as [A B|A|cache chunk c prog A B C D|v r A|p r k1 A B|r A|r A|r A|A B C|o k1 A|p k1 A]; cbn; try exact HI.
  - eapply read_version; [exact D|]. rewrite B in HI. exact HI.
  - rewrite A in HI. exact HI.
  - destruct (PUT _ _ B) as (-> & _ & ->). rewrite A in HI. exact HI.
  - rewrite A in HI. exact HI.
  - rewrite A in HI. exact HI.
  - rewrite A in HI. destruct (k_pc k); exact HI.
  - unfold sender_step in A. destruct (k_pc k); try (injection A as <-; exact HI).
    + destruct (k_queue k); injection A as <-; exact HI.
    + destruct (encode p) as [b|e|]; [|destruct e|discriminate]. cbn in A. injection A as <-. destruct (k_up k); [destruct o|]; exact HI.
  - destruct (PUT _ _ A) as (-> & -> & ->). exact HI.
Qed.

Theorem all_reached cfg s w n w0 : u16 s -> (cfg_version cfg < 256)%N ->
  let srv := new_rtr_server cfg s in
  nreach srv w -> n_notif w = NIdle -> (forall i k, In i (n_clients w) -> nth_error (n_conns w) i = Some k -> staying k) ->
  nstep srv w (LNotify n) = Ok w0 ->
  forall rs w', Forall (turn_all (n_clients w)) rs -> nrun srv w0 (concat rs) = Ok w' ->
    patience w <= length rs ->
    exists r1 r2 w1, concat rs = r1 ++ r2 /\ nrun srv w0 r1 = Ok w1 /\ n_notif w1 = NIdle /\
      forall i k, In i (n_clients w) -> nth_error (n_conns w) i = Some k ->
        exists k1 v sess, nth_error (n_conns w1) i = Some k1 /\ written k1 /\
          notes k1 = notes k ++ [SerialNotify v sess n] /\ (k_prog k = [] -> v = k_ver k /\ sess = session_of s v) /\
          answers (k_queued k1) = answers (k_queued k) ++ rest_of_answer k.
Proof.
  intros Hs Hb srv HR HI HS H rs w' HT HN HL. unfold patience in HL. destruct (net_ok_reach _ _ HR) as (ND & LT & _).
  assert (E0 : w0 = mkNet (n_count w) (n_clients w) (n_conns w) (NLoop n (n_clients w))) by (cbn [nstep] in H; rewrite HI in H; now injection H).
  assert (OK0 : all_ok cfg s n w (n_clients w) w0).
  { split; [exact (reach_step _ _ _ _ HR H)|]. rewrite E0. cbn [n_notif n_conns notif_ok pending]. split; [reflexivity|]. split; [exact ND|]. split; [intros x Hx; exact Hx|].
    intros i Hi. destruct (nth_error (n_conns w) i) as [k|] eqn:Ek; [|apply nth_error_None in Ek; specialize (LT i Hi); lia].
    exists k. split; [reflexivity|]. exists k. split; [exact Ek|]. split; [eapply stay_serving; eauto|]. split; [reflexivity|]. split.
    - intros P. split; [exact P|]. split; [reflexivity|]. destruct HR as [sc HR].
      pose proof (ver_run srv sc w HR i k Ek) as V. unfold ver_ok in V. rewrite P in V. cbn in V. rewrite V.
      apply (cinv_net cfg s sc w Hs HR i k Ek).
    - split; [reflexivity|]. intros X. now destruct X. }
  assert (TT : total (n_clients w) w0 <= length rs).
  { unfold total. rewrite E0 at 2. cbn [n_notif steps_left].
    assert (add_up (load w0) (n_clients w) <= add_up (undone w) (n_clients w)); [|lia]. apply sum_le. intros i Hi. unfold load, undone. rewrite E0. cbn [n_conns].
    destruct (nth_error (n_conns w) i) as [k|]; [|lia]. unfold work, outstanding. destruct (k_pc k); cbn [rank]; lia. }
  destruct (rounds_all cfg s n w (n_clients w) Hs ND Hb rs w0 w' OK0 HT HN TT) as (r1 & r2 & w1 & E1 & E2 & E3 & E4 & E5).
  exists r1, r2, w1. split; [exact E1|]. split; [exact E2|]. split; [exact E4|]. intros i k Hi Hk.
  destruct E3 as (R1 & _ & _ & _ & C). destruct (C i Hi) as (k1 & K1 & k0 & K0 & S & CT & _ & _ & NT). rewrite Hk in K0. injection K0 as <-.
  rewrite E4 in NT. destruct (NT (fun X => X)) as (p & (v & sess & -> & PV) & NE). exists k1, v, sess. split; [exact K1|].
  destruct (E5 i k1 Hi K1) as [D1 D2]. destruct R1 as [sc R1]. destruct (fifo_run _ _ _ R1 _ _ K1) as (F1 & F2 & sent & F3 & F4 & _). destruct S as (_ & _ & U & _).
  split; [split; [exact D1|]; split; [exact U|]; rewrite (F4 U), F3, (F1 D2); unfold in_hand; rewrite D2; cbn; now rewrite app_nil_r|].
  split; [exact NE|]. split; [intros P; destruct (PV P) as [-> ->]; auto|].
  unfold content in CT. rewrite D1 in CT. cbn in CT. now rewrite app_nil_r in CT.
Qed.
