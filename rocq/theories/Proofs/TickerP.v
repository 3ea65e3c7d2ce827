From Coq Require Import ZifyBool ZifyNat ZifyN.
From Verif Require Import Model.Ticker Spec.Cadence.
Local Open Scope Z_scope.

Lemma rrun_app i s1 : forall s sa sb, rrun i s sa = Some s1 -> rrun i s (sa ++ sb) = rrun i s1 sb.
Proof.
  intros s sa sb. revert s. induction sa as [|l r IH]; intros s H; cbn in *; [now injection H as ->|].
  destruct (rstep i s l); [auto|discriminate].
Qed.
Lemma rrun_inv i (P : rstate -> Prop) : (forall s l s', P s -> rstep i s l = Some s' -> P s') ->
  forall sched s s', P s -> rrun i s sched = Some s' -> P s'.
Proof.
  intros HS. induction sched as [|l r IH]; intros s s' HP H; cbn in H; [now injection H as <-|].
  destruct (rstep i s l) as [s1|] eqn:E; [eauto|discriminate].
Qed.
Lemma duration_exact i : 0 < i * second < 2 ^ 63 -> duration i = i * second.
Proof. unfold duration, iwrap. intros H. rewrite Z.mod_small; lia. Qed.

(** The ticker ticks after at most a period; without a failed first reading its period is the
    interval. *)
Definition tinv (D : Z) (s : rstate) : Prop :=
  0 < r_period s /\ r_now s < r_next s <= r_now s + r_period s /\
  (r_flag s = false -> r_period s = D /\ (r_pc s <> RHead -> r_zero s = false)) /\
  (r_pc s = RSelect -> r_period s = if r_zero s then half_minute else D).
Lemma pass_next d s : 0 < r_period s -> r_now s < r_next s <= r_now s + r_period s -> 0 <= d ->
  r_now (pass d s) < r_next (pass d s) <= r_now (pass d s) + r_period s.
Proof.
  intros HP HN HD. unfold pass. destruct (r_next s <=? r_now s + d) eqn:E; cbn; [|lia].
  pose proof (Z.div_mod (r_now s + d - r_next s) (r_period s) ltac:(lia)).
  pose proof (Z.mod_pos_bound (r_now s + d - r_next s) (r_period s) HP). lia.
Qed.
Lemma pass_same d s : r_now (pass d s) = r_now s + d /\ r_zero (pass d s) = r_zero s /\ r_flag (pass d s) = r_flag s /\
  r_period (pass d s) = r_period s /\ r_pc (pass d s) = r_pc s.
Proof. unfold pass. destruct (r_next s <=? r_now s + d); cbn; auto. Qed.
Lemma tinv_step i s l s' : 0 < duration i -> tinv (duration i) s -> rstep i s l = Some s' -> tinv (duration i) s'.
Proof.
  intros HD (HP & HN & HF & HS) H. unfold rstep in H. destruct l.
  - assert (Q : 0 <= d -> tinv (duration i) (pass d s)).
    { intros Hd. destruct (pass_same d s) as (E1 & E2 & E3 & E4 & E5). pose proof (pass_next d s HP HN Hd) as G.
      unfold tinv. rewrite E4, E3, E2, E5. auto. }
    destruct (r_pc s); [discriminate| |]; destruct (0 <=? d) eqn:Ed; cbn [andb] in H; try discriminate.
    + destruct (negb (r_full s) && (r_now s + d <=? r_next s)); [|discriminate]. injection H as <-. apply Q. lia.
    + injection H as <-. apply Q. lia.
  - destruct (r_pc s) eqn:EP; [|discriminate|discriminate]. injection H as <-. unfold loop_head.
    destruct (r_zero s) eqn:EZ; [|destruct (r_flag s) eqn:EF]; unfold tinv, at_pc, reset, half_minute, second in *; cbn.
    + rewrite EZ. intuition (try discriminate; try lia).
    + rewrite EZ, EF. intuition (try discriminate; try lia).
    + rewrite EZ, EF. intuition (try discriminate; try lia).
  - destruct (r_pc s) eqn:EP; try discriminate. destruct (r_full s); [|discriminate]. injection H as <-. unfold tinv; cbn.
    split; [lia|]. split; [lia|]. split; [|discriminate]. intros G. destruct (HF G) as [G1 G2]. split; [exact G1|]. intros _. apply G2. try rewrite EP; discriminate.
  - destruct (r_pc s) eqn:EP; try discriminate. injection H as <-. unfold tinv, at_pc, update_delay, reset, half_minute, second; cbn.
    destruct (r_zero s) eqn:EZ.
    + split; [lia|]. split; [lia|]. split; [|discriminate]. intros G. destruct (HF G) as [_ G2]. specialize (G2 ltac:(discriminate)); discriminate.
    + split; [lia|]. split; [lia|]. split; [|discriminate]. auto.
  - destruct (r_pc s) eqn:EP; try discriminate. injection H as <-. unfold tinv, at_pc, update_delay, reset, half_minute, second; cbn.
    destruct (r_zero s) eqn:EZ.
    + split; [lia|]. split; [lia|]. split; [|discriminate]. intros G. destruct (HF G) as [_ G2]. specialize (G2 ltac:(discriminate)); discriminate.
    + split; [lia|]. split; [lia|]. split; [|discriminate]. auto.
  - destruct (r_pc s) eqn:EP; try discriminate. injection H as <-. unfold tinv; cbn. split; [lia|]. split; [lia|]. split; [|discriminate].
    intros G. destruct (HF G) as [G1 G2]. split; [exact G1|]. intros K. exfalso. now apply K.
Qed.
Lemma tinv_init i now zero s : rinit i now zero = Some s -> 0 < duration i /\ tinv (duration i) s.
Proof.
  unfold rinit. destruct (duration i <=? 0) eqn:E; [discriminate|]. intros [=<-]. split; [lia|]. unfold tinv; cbn. split; [lia|].
  split; [lia|]. split; [|discriminate]. intros _. split; [reflexivity|]. intros K. exfalso. now apply K.
Qed.
Lemma reached_inv i zero pre s : reached i zero pre s -> 0 < duration i /\ tinv (duration i) s.
Proof.
  intros (now & s0 & H0 & H). destruct (tinv_init _ _ _ _ H0) as [HD HI]. split; [exact HD|].
  eapply (rrun_inv i (tinv (duration i))); eauto. intros. eapply tinv_step; eauto.
Qed.

(** Waiting in the select. *)
Definition waiting (T : Z) (s : rstate) : Prop :=
  r_pc s = RSelect /\ r_now s <= T /\ (r_full s = false -> r_now s < r_next s <= T).
Lemma waiting_run i T : forall ws s s', 0 < r_period s -> waiting T s -> rrun i s (map RPass ws) = Some s' ->
  waiting T s' /\ r_period s' = r_period s /\ r_zero s' = r_zero s /\ r_now s' = r_now s + total ws.
Proof.
  induction ws as [|d ws IH]; intros s s' HP HW H; cbn [map rrun] in H; [injection H as <-; cbn; auto with zarith|].
  destruct (rstep i s (RPass d)) as [s1|] eqn:E; [|discriminate]. destruct HW as (W1 & W2 & W3).
  unfold rstep in E. rewrite W1 in E. destruct (0 <=? d) eqn:Ed; [|discriminate]. cbn [andb] in E.
  destruct (r_full s) eqn:EF; [discriminate|]. cbn [negb andb] in E. destruct (r_now s + d <=? r_next s) eqn:EN; [|discriminate].
  injection E as <-. destruct (pass_same d s) as (E1 & E2 & E3 & E4 & E5). specialize (W3 eq_refl).
  assert (W : waiting T (pass d s)).
  { split; [congruence|]. split; [lia|]. unfold pass. destruct (r_next s <=? r_now s + d) eqn:E6; cbn; [discriminate|]. lia. }
  destruct (IH (pass d s) s' ltac:(lia) W H) as (G1 & G2 & G3 & G4). cbn [total fold_right]. fold (total ws).
  split; [exact G1|]. split; [congruence|]. split; [congruence|lia].
Qed.
Lemma waiting_ready i T s : waiting T s -> exists ws s', rrun i s (map RPass ws) = Some s' /\ ready i s' /\ r_now s' <= T.
Proof.
  intros (W1 & W2 & W3). destruct (r_full s) eqn:EF.
  - exists [], s. split; [reflexivity|]. split; [|exact W2]. unfold ready, rstep. rewrite W1, EF. eauto.
  - specialize (W3 eq_refl). exists [r_next s - r_now s]. cbn. unfold rstep. rewrite W1, EF. cbn [negb andb].
    replace (0 <=? r_next s - r_now s) with true by lia. cbn. replace (r_now s + (r_next s - r_now s) <=? r_next s) with true by lia.
    eexists. split; [reflexivity|]. unfold ready, rstep, pass. replace (r_next s <=? r_now s + (r_next s - r_now s)) with true by lia. cbn.
    rewrite W1. split; [eauto|lia].
Qed.

(** With refreshes shorter than the interval. *)
Definition binv (D : Z) (b : option Z) (s : rstate) : Prop :=
  match r_pc s, b with
  | RSelect, None => r_full s = true -> r_next s = r_now s + r_period s
  | RBusy, Some acc => 0 <= acc < D /\ (r_flag s = false -> r_full s = false /\ r_next s = r_now s + D - acc)
  | RHead, None => r_flag s = false -> r_full s = false
  | _, _ => False
  end.
(** The bookkeeping of [brisk]. *)
Definition book (b : option Z) (l : rlabel) : option Z :=
  match l, b with
  | RPass d, Some acc => Some (acc + d)
  | RPass _, None => None
  | RTick, _ | RHup, _ | RTrig, _ => Some 0
  | RDone _, _ => None
  | RLoop, b => b
  end.
Lemma brisk_cons D b l r : brisk D b (l :: r) -> brisk D (book b l) r /\ (forall d acc, l = RPass d -> b = Some acc -> acc + d < D).
Proof. destruct l, b; cbn; intuition (try discriminate); congruence. Qed.
Lemma binv_step i s l s' b : 0 < duration i -> tinv (duration i) s -> binv (duration i) b s ->
  (forall d acc, l = RPass d -> b = Some acc -> acc + d < duration i) -> rstep i s l = Some s' -> binv (duration i) (book b l) s'.
Proof.
  intros HD (HP & HN & HF & HS) HB HL H. unfold rstep in H. unfold binv in HB. destruct l; destruct (r_pc s) eqn:EP; try discriminate; destruct b as [acc|]; try contradiction.
  - destruct (0 <=? d) eqn:Ed; [|discriminate]. cbn [andb] in H. destruct (r_full s) eqn:EF; [discriminate|]. cbn in H.
    destruct (r_now s + d <=? r_next s) eqn:EN; [|discriminate]. injection H as <-. unfold binv, pass. cbn.
    destruct (r_next s <=? r_now s + d) eqn:E1; cbn; rewrite EP; [|congruence]. intros _.
    replace (r_now s + d - r_next s) with 0 by lia. rewrite Z.div_0_l by lia. lia.
  - destruct (0 <=? d) eqn:Ed; [|discriminate]. injection H as <-. destruct HB as [HA HB]. specialize (HL d acc eq_refl eq_refl).
    destruct (pass_same d s) as (E1 & E2 & E3 & E4 & E5). unfold binv. rewrite E5, EP, E3. cbn. split; [lia|]. intros G.
    destruct (HB G) as [G1 G2]. unfold pass. destruct (r_next s <=? r_now s + d) eqn:E6; cbn; [lia|]. split; [exact G1|lia].
  - injection H as <-. unfold binv, at_pc; cbn. unfold loop_head. destruct (r_zero s); [cbn; discriminate|]. destruct (r_flag s); [cbn; discriminate|].
    intros G. rewrite HB in G by reflexivity. discriminate.
  - destruct (r_full s) eqn:EF; [|discriminate]. injection H as <-. unfold binv; cbn. split; [lia|]. intros G. destruct (HF G) as [G1 _].
    specialize (HB eq_refl). split; [reflexivity|lia].
  - injection H as <-. unfold binv, at_pc, update_delay, reset; cbn. split; [lia|]. intros G. destruct (HF G) as [_ G2]. rewrite G2 by (try rewrite EP; discriminate). split; [reflexivity|lia].
  - injection H as <-. unfold binv, at_pc, update_delay, reset; cbn. split; [lia|]. intros G. destruct (HF G) as [_ G2]. rewrite G2 by (try rewrite EP; discriminate). split; [reflexivity|lia].
  - injection H as <-. unfold binv; cbn. intros G. now apply HB.
Qed.
Lemma brisk_app D : forall x b y, brisk D b (x ++ y) -> brisk D b x /\ brisk D (fold_left book x b) y.
Proof.
  induction x as [|l x IH]; intros b y H; [cbn; auto|]. cbn [app] in H.
  destruct l, b as [acc|]; cbn in H |- *; try (destruct H as [H0 H]); apply IH in H; tauto.
Qed.
Lemma binv_run i : forall sched s s' b, 0 < duration i -> tinv (duration i) s -> binv (duration i) b s -> brisk (duration i) b sched ->
  rrun i s sched = Some s' -> binv (duration i) (fold_left book sched b) s'.
Proof.
  induction sched as [|l r IH]; intros s s' b HD HT HB HK H; cbn [rrun fold_left] in *; [now injection H as <-|].
  destruct (rstep i s l) as [s1|] eqn:E; [|discriminate]. apply brisk_cons in HK as [HK1 HK2].
  apply (IH s1); auto; [eapply tinv_step|eapply binv_step]; eauto.
Qed.
(** Busy for a while. *)
Lemma busy_run i : forall ds s s', r_pc s = RBusy -> rrun i s (map RPass ds) = Some s' ->
  r_pc s' = RBusy /\ r_flag s' = r_flag s /\ r_zero s' = r_zero s /\ r_period s' = r_period s /\ r_now s' = r_now s + total ds /\
  0 <= total ds /\ (r_now s + total ds < r_next s -> r_next s' = r_next s /\ r_full s' = r_full s).
Proof.
  induction ds as [|d ds IH]; intros s s' HP H; cbn [map rrun] in H; [injection H as <-; cbn; repeat split; auto with zarith|].
  destruct (rstep i s (RPass d)) as [s1|] eqn:E; [|discriminate]. unfold rstep in E. rewrite HP in E. destruct (0 <=? d) eqn:Ed; [|discriminate].
  injection E as <-. destruct (pass_same d s) as (E1 & E2 & E3 & E4 & E5). destruct (IH (pass d s) s') as (G1 & G2 & G3 & G4 & G5 & G6 & G7); [congruence|exact H|].
  cbn [total fold_right] in *. fold (total ds) in *. rewrite E1 in *. repeat split; try congruence; try lia.
  - unfold pass in G7. destruct (r_next s <=? r_now s + d) eqn:E6; cbn in G7; [lia|]. apply G7. lia.
  - unfold pass in G7. destruct (r_next s <=? r_now s + d) eqn:E6; cbn in G7; [lia|]. apply G7. lia.
Qed.
(** A pause ends exactly with the tick. *)
Lemma pause_end i : forall ws s s', r_pc s = RSelect -> r_full s = false -> r_now s < r_next s -> rrun i s (map RPass ws) = Some s' -> ready i s' ->
  r_now s' = r_next s /\ r_now s' = r_now s + total ws.
Proof.
  induction ws as [|d ws IH]; intros s s' HP HF HN H HR; cbn [map rrun] in H.
  - injection H as <-. destruct HR as (s1 & HR). unfold rstep in HR. rewrite HP, HF in HR. discriminate.
  - destruct (rstep i s (RPass d)) as [s1|] eqn:E; [|discriminate]. unfold rstep in E. rewrite HP, HF in E. destruct (0 <=? d) eqn:Ed; [|discriminate].
    cbn in E. destruct (r_now s + d <=? r_next s) eqn:EN; [|discriminate]. injection E as <-.
    destruct (pass_same d s) as (E1 & E2 & E3 & E4 & E5). cbn [total fold_right]. fold (total ws).
    destruct (r_next s <=? r_now s + d) eqn:E6.
    + assert (EQ : r_now s + d = r_next s) by lia. destruct ws as [|d' ws].
      * cbn in H. injection H as <-. cbn. lia.
      * exfalso. cbn [map rrun] in H. unfold rstep in H. rewrite E5, HP in H. unfold pass in H. rewrite E6 in H. cbn in H.
        rewrite Bool.andb_false_r in H. discriminate.
    + assert (EX : r_next (pass d s) = r_next s /\ r_full (pass d s) = r_full s) by (unfold pass; rewrite E6; auto).
      destruct EX as [EX1 EX2]. destruct (IH (pass d s) s' ltac:(congruence) ltac:(congruence) ltac:(lia) H HR) as (G1 & G2). lia.
Qed.

Lemma rrun_split i : forall sa s s' sb, rrun i s (sa ++ sb) = Some s' -> exists s1, rrun i s sa = Some s1 /\ rrun i s1 sb = Some s'.
Proof.
  induction sa as [|l r IH]; intros s s' sb H; cbn in *; [eauto|]. destruct (rstep i s l); [eauto|discriminate].
Qed.
Lemma flag_step i s l s' : rstep i s l = Some s' -> (r_zero s = false -> r_zero s' = false /\ r_flag s' = r_flag s) /\ (r_flag s = true -> r_flag s' = true).
Proof.
  unfold rstep. intros H. destruct l; destruct (r_pc s); try discriminate.
  - destruct ((0 <=? d) && negb (r_full s) && (r_now s + d <=? r_next s)); [|discriminate]. injection H as <-.
    destruct (pass_same d s) as (E1 & E2 & E3 & E4 & E5). rewrite E2, E3. auto.
  - destruct (0 <=? d); [|discriminate]. injection H as <-.
    destruct (pass_same d s) as (E1 & E2 & E3 & E4 & E5). rewrite E2, E3. auto.
  - injection H as <-. unfold loop_head. destruct (r_zero s) eqn:EZ; cbn; [split; [discriminate|auto]|]. destruct (r_flag s) eqn:EF; cbn; rewrite ?EZ, ?EF; auto.
  - destruct (r_full s); [|discriminate]. injection H as <-. cbn. auto.
  - injection H as <-. cbn. auto.
  - injection H as <-. cbn. auto.
  - injection H as <-. cbn. split; [|auto]. intros ->. auto.
Qed.
Lemma flag_false i : forall sched s s', r_zero s = false -> r_flag s = false -> rrun i s sched = Some s' -> r_flag s' = false.
Proof.
  intros sched s s' HZ HF H. refine (proj2 (rrun_inv i (fun s => r_zero s = false /\ r_flag s = false) _ sched s s' (conj HZ HF) H)).
  intros s1 l s2 [A B] K. destruct (flag_step _ _ _ _ K) as [G _]. destruct (G A). split; congruence.
Qed.
(** After a failed first reading the flag is up from the first select on. *)
Lemma flag_true i now s0 sched s : rinit i now true = Some s0 -> rrun i s0 sched = Some s -> r_pc s <> RHead -> r_flag s = true.
Proof.
  intros H0 H HP. unfold rinit in H0. destruct (duration i <=? 0); [discriminate|]. injection H0 as <-.
  destruct sched as [|l r]; [injection H as <-; cbn in HP; congruence|]. cbn [rrun] in H.
  destruct l; cbn in H; try discriminate.
  refine (rrun_inv i (fun s => r_flag s = true) _ r _ s _ H); [|reflexivity].
  intros s1 l s2 A K. now apply (flag_step _ _ _ _ K).
Qed.
Lemma begin_step i s l s' : begins l -> rstep i s l = Some s' -> r_pc s = RSelect /\ r_pc s' = RBusy /\ r_now s' = r_now s /\ r_zero s' = r_zero s /\ r_flag s' = r_flag s.
Proof.
  unfold rstep. intros [->|[->| ->]] H; destruct (r_pc s); try discriminate.
  - destruct (r_full s); [|discriminate]. injection H as <-. cbn. auto.
  - injection H as <-. cbn. auto.
  - injection H as <-. cbn. auto.
Qed.
Lemma book_passes : forall ds b, fold_left book (map RPass ds) b = match b with Some a => Some (a + total ds) | None => None end.
Proof.
  induction ds as [|d ds IH]; intros [a|]; cbn [map fold_left book].
  - cbn. now rewrite Z.add_0_r.
  - reflexivity.
  - rewrite IH. cbn [total fold_right]. fold (total ds). f_equal. lia.
  - apply IH.
Qed.

(** A refresh and the pause after it. *)
Lemma refresh_pause i zero pre s1 l ds ok ws s3 : reached i zero pre s1 -> begins l ->
  rrun i s1 (refresh_then l ds ok ws) = Some s3 -> ready i s3 ->
  brisk (duration i) None (pre ++ refresh_then l ds ok ws) ->
  (zero = true -> r_now s3 - r_now s1 = total ds + (if r_zero s3 then half_minute else duration i)) /\
  (zero = false -> r_now s3 - r_now s1 = duration i) /\ 0 <= total ds /\ (zero = false -> r_zero s3 = false).
Proof.
  intros HR HB H HY HK. destruct (reached_inv _ _ _ _ HR) as [HD HI]. destruct HR as (now & s0 & H0 & HP).
  destruct (brisk_app _ _ _ _ HK) as [HK1 HK2].
  assert (B0 : binv (duration i) None s0).
  { unfold rinit in H0. destruct (duration i <=? 0); [discriminate|]. injection H0 as <-. unfold binv; cbn. auto. }
  destruct (tinv_init _ _ _ _ H0) as [_ T0]. pose proof (binv_run i pre s0 s1 None HD T0 B0 HK1 HP) as B1.
  unfold refresh_then in H. cbn [rrun] in H. destruct (rstep i s1 l) as [sa|] eqn:E1; [|discriminate].
  destruct (begin_step _ _ _ _ HB E1) as (P1 & Pa & Na & Za & Fa). pose proof (tinv_step _ _ _ _ HD HI E1) as Ia.
  assert (Ba : binv (duration i) (Some 0) sa).
  { assert (Q : book (fold_left book pre None) l = Some 0) by (destruct HB as [->|[->| ->]]; reflexivity).
    rewrite <- Q. apply (binv_step i s1); auto. intros d acc L. subst l. destruct HB as [HB|[HB|HB]]; discriminate. }
  apply rrun_split in H as (sb & Hb & H). cbn [rrun] in H.
  assert (HK3 : brisk (duration i) (Some 0) (map RPass ds)).
  { unfold refresh_then in HK2. assert (Q : brisk (duration i) (Some 0) (map RPass ds ++ RDone ok :: RLoop :: map RPass ws)) by
      (destruct HB as [->|[->| ->]]; exact HK2). apply brisk_app in Q. tauto. }
  destruct (busy_run i ds sa sb Pa Hb) as (Pb & Fb & Zb & Db & Nb & Ob & Xb).
  pose proof (binv_run i _ sa sb _ HD Ia Ba HK3 Hb) as Bb. rewrite book_passes in Bb. unfold binv in Bb. rewrite Pb in Bb.
  assert (Ib : tinv (duration i) sb) by (eapply (rrun_inv i (tinv (duration i))); eauto; intros; eapply tinv_step; eauto).
  destruct (rstep i sb (RDone ok)) as [sc|] eqn:Ec; [|discriminate]. pose proof (tinv_step _ _ _ _ HD Ib Ec) as Ic.
  destruct (rstep i sc RLoop) as [sd|] eqn:Ed; [|discriminate]. pose proof (tinv_step _ _ _ _ HD Ic Ed) as Id.
  assert (Vc : r_now sc = r_now sb /\ r_flag sc = r_flag sb /\ r_next sc = r_next sb /\ r_full sc = r_full sb /\ r_pc sc = RHead /\ (r_zero sb = false -> r_zero sc = false)).
  { unfold rstep in Ec. rewrite Pb in Ec. injection Ec as <-. cbn. repeat split. intros ->. reflexivity. }
  destruct Vc as (Nc & Fc & Xc & Uc & Pc & Zc).
  assert (Vd : r_now sd = r_now sc /\ r_pc sd = RSelect /\ r_zero sd = r_zero sc /\
               (r_zero sc = false -> r_flag sc = false -> r_full sd = r_full sc /\ r_next sd = r_next sc) /\
               (r_zero sc = true \/ r_flag sc = true -> r_full sd = false /\ r_next sd = r_now sd + (if r_zero sc then half_minute else duration i))).
  { unfold rstep in Ed. rewrite Pc in Ed. injection Ed as <-. unfold loop_head. destruct (r_zero sc) eqn:Ez; [|destruct (r_flag sc) eqn:Ef]; cbn; rewrite ?Ez.
    - repeat split; auto; discriminate.
    - repeat split; auto; discriminate.
    - repeat split; auto; match goal with H : _ \/ _ |- _ => destruct H; discriminate end. }
  destruct Vd as (Nd & Pd & Zd & Xd & Rd).
  assert (W3 : r_zero s3 = r_zero sd).
  { assert (W : waiting (Z.max (r_now sd) (r_next sd)) sd) by (split; [exact Pd|]; split; [lia|]; intros _; destruct Id as (_ & Id & _); lia).
    destruct (waiting_run i _ ws sd s3 (proj1 Id) W H) as (_ & _ & W3 & _). exact W3. }
  assert (Fin : r_full sd = false -> r_now s3 = r_next sd).
  { intros U. destruct Id as (_ & Id & _). destruct (pause_end i ws sd s3 Pd U (proj1 Id) H HY). assumption. }
  split; [|split; [|split; [exact Ob|]]].
  - intros ->. assert (Fs : r_flag s1 = true) by (eapply flag_true; [exact H0|exact HP|congruence]).
    destruct (Rd ltac:(right; congruence)) as [R1 R2]. rewrite (Fin R1), R2, W3, Zd. lia.
  - intros ->. assert (Fs : r_flag s1 = false).
    { unfold rinit in H0. destruct (duration i <=? 0); [discriminate|]. injection H0 as <-. eapply flag_false; [| |exact HP]; reflexivity. }
    assert (Zs : r_zero sb = false).
    { destruct Ib as (_ & _ & Ib & _). destruct (Ib ltac:(congruence)) as [_ Q]. apply Q. congruence. }
    destruct Bb as [_ Bb]. destruct (Bb ltac:(congruence)) as [B3 B4].
    destruct (Xd (Zc Zs) ltac:(congruence)) as [D1 D2]. rewrite (Fin ltac:(congruence)), D2, Xc, B4. lia.
  - intros ->. assert (Fs : r_flag s1 = false).
    { unfold rinit in H0. destruct (duration i <=? 0); [discriminate|]. injection H0 as <-. eapply flag_false; [| |exact HP]; reflexivity. }
    assert (Zs : r_zero sb = false).
    { destruct Ib as (_ & _ & Ib & _). destruct (Ib ltac:(congruence)) as [_ Q]. apply Q. congruence. }
    rewrite W3, Zd. auto.
Qed.

(** Whether a file has been read. *)
Lemma zero_step i s l s' : rstep i s l = Some s' -> r_zero s' = r_zero s && negb (match l with RDone true => true | _ => false end).
Proof.
  unfold rstep. intros H. destruct l; destruct (r_pc s); try discriminate; cbn [negb]; rewrite ?Bool.andb_true_r.
  - destruct ((0 <=? d) && negb (r_full s) && (r_now s + d <=? r_next s)); [|discriminate]. injection H as <-. apply pass_same.
  - destruct (0 <=? d); [|discriminate]. injection H as <-. apply pass_same.
  - injection H as <-. unfold loop_head. destruct (r_zero s) eqn:EZ; [exact EZ|]. destruct (r_flag s); exact EZ.
  - destruct (r_full s); [|discriminate]. injection H as <-. reflexivity.
  - injection H as <-. reflexivity.
  - injection H as <-. reflexivity.
  - injection H as <-. cbn. now destruct ok.
Qed.
Lemma zero_run i : forall pre s s', rrun i s pre = Some s' -> r_zero s' = unread (r_zero s) pre.
Proof.
  induction pre as [|l r IH]; intros s s' H; cbn in H; [injection H as <-; unfold unread; cbn; now rewrite Bool.andb_true_r|].
  destruct (rstep i s l) as [s1|] eqn:E; [|discriminate]. rewrite (IH _ _ H), (zero_step _ _ _ _ E). unfold unread. cbn [existsb].
  now rewrite Bool.negb_orb, Bool.andb_assoc.
Qed.
Lemma reached_unread i zero pre s : reached i zero pre s -> r_zero s = unread zero pre.
Proof.
  intros (now & s0 & H0 & H). rewrite (zero_run _ _ _ _ H). unfold rinit in H0. destruct (duration i <=? 0); [discriminate|]. now injection H0 as <-.
Qed.
Lemma reached_app i zero pre s sched s' : reached i zero pre s -> rrun i s sched = Some s' -> reached i zero (pre ++ sched) s'.
Proof. intros (now & s0 & H0 & H) K. exists now, s0. split; [exact H0|]. now rewrite (rrun_app i s _ _ _ H). Qed.
