From Coq Require Import ZifyBool ZifyNat ZifyN.
From Verif Require Import Model.Concurrent Spec.Response Spec.Net Proofs.WireP Proofs.CacheP Proofs.ConnP Proofs.ConcCacheP Proofs.NetP Proofs.NetP2.
Ltac Zify.zify_post_hook ::= Z.div_mod_to_equations.

(** * Disconnect calls of a reader *)
Lemma discs_app a b : discs (a ++ b) = (discs a + discs b)%nat.
Proof. unfold discs. rewrite filter_app, app_length. reflexivity. Qed.

(** Every ClientDisconnected comes after clearing the flag. *)
Fixpoint guarded (flag : bool) (l : list op) : Prop :=
  match l with
  | [] => True
  | OFlag :: r => guarded false r
  | ODisc :: r => flag = false /\ guarded flag r
  | _ :: r => guarded flag r
  end.
Lemma guarded_down b l : guarded b l -> guarded false l.
Proof. induction l as [|[] l IH]; cbn; intuition auto. Qed.
Lemma guarded_app b l m : guarded b l -> (forall b', guarded b' m) -> guarded b (l ++ m).
Proof. revert b. induction l as [|[] l IH]; intros b H1 H2; cbn in *; intuition auto. Qed.
Lemma guarded_ops b a : guarded b (ops a).
Proof. revert b. induction a as [|[p|] a IH]; intros b; cbn; auto. Qed.

Lemma pass_discs srv cache c p c' a : pass_simple_handler srv cache c p = Ok (c', a) ->
  (discs (ops a) <= match p with SerialQuery _ _ _ => 1 | _ => 0 end)%nat.
Proof.
  assert (HD : forall d, discs (ops (send_data c d)) = 0%nat).
  { intros d. unfold send_data, send_pdu. destruct d as [pp aa mm ff|aa ss kk ff].
    - destruct (is6 (p_addr pp)), (is4 (p_addr pp)); reflexivity.
    - destruct ((c_version c =? 0) || c_noBGPsec c); reflexivity. }
  assert (HS : forall sess serial l, discs (ops (send_sds c sess serial l)) = 0%nat).
  { intros sess serial l. unfold send_sds. rewrite !ops_app, !discs_app.
    assert (HF : discs (ops (flat_map (send_data c) l)) = 0%nat).
    { induction l as [|d l IH]; [reflexivity|]. cbn [flat_map]. rewrite ops_app, discs_app, HD, IH. reflexivity. }
    rewrite HF. reflexivity. }
  destruct p; cbn [pass_simple_handler]; try (intros [=<- <-]; cbn; lia).
  - unfold request_new_version, get_session_id. destruct (nth_error _ _) as [ss|]; cbn [bind]; [|discriminate].
    destruct (negb (sess =? ss)).
    + cbn [disconnect]. intros [=<- <-]. cbn. lia.
    + destruct (get_current_serial cache) as [n valid]. destruct valid; cbn [negb].
      * destruct (get_sds_serial_diff cache serial) as [dd|e|]; [| |discriminate]; intros [=<- <-].
        -- rewrite HS. lia.
        -- cbn. lia.
      * intros [=<- <-]. cbn. lia.
  - unfold request_cache, get_session_id. destruct (nth_error _ _) as [ss|]; cbn [bind]; [|discriminate].
    destruct (get_current_serial cache) as [n valid]. destruct valid; cbn [negb]; intros [=<- <-].
    + rewrite HS. lia.
    + cbn. lia.
Qed.

Lemma pass_cinv cfg srv tr cache c p c' a : cinv cfg tr c -> pass_simple_handler srv cache c p = Ok (c', a) -> cinv cfg tr c'.
Proof.
  intros HI. destruct p; cbn [pass_simple_handler]; try (intros [=<- <-]; exact HI).
  - unfold request_new_version, get_session_id. destruct (nth_error _ _) as [ss|]; cbn [bind]; [|discriminate].
    destruct (negb (sess =? ss)).
    + cbn [disconnect]. intros [=<- <-]. exact HI.
    + destruct (get_current_serial cache) as [n valid]. destruct valid; cbn [negb].
      * destruct (get_sds_serial_diff cache serial) as [dd|e|]; [| |discriminate]; intros [=<- <-]; exact HI.
      * intros [=<- <-]. exact HI.
  - unfold request_cache, get_session_id. destruct (nth_error _ _) as [ss|]; cbn [bind]; [|discriminate].
    destruct (get_current_serial cache) as [n valid]. destruct valid; cbn [negb]; intros [=<- <-]; exact HI.
Qed.

Lemma read_ops_cinv cfg s tr cache c chunk c' l : u16 s -> cinv cfg tr c ->
  read_ops (new_rtr_server cfg s) cache c chunk = Ok (c', l) ->
  cinv cfg tr c' /\ (forall b, guarded b l) /\
  ((forall v sess n, decode_bytes 64 chunk = Ok (SerialQuery v sess n) -> acceptable c v) -> (discs l <= 1)%nat).
Proof.
  intros Hs HI. unfold read_ops.
  assert (D : Ok (c_set_disconnected c, ops [Disc]) = @Ok (client * list op) Empty_set (c', l) ->
    cinv cfg tr c' /\ (forall b, guarded b l) /\ (discs l <= 1)%nat).
  { intros [=<- <-]. split; [exact HI|]. split; [intros b; cbn; auto|]. cbn. lia. }
  destruct chunk as [|b0 chunk]; [cbn [disconnect]; intros H; destruct (D H) as (? & ? & ?); auto|].
  destruct (decode_bytes 64 (b0 :: chunk)) as [p|e|] eqn:E; [|cbn [disconnect]; intros H; destruct (D H) as (? & ? & ?); auto|discriminate].
  destruct (acceptable_dec c (get_version p)) as [HA|HA].
  - destruct (process_ops_ok cfg s tr cache c p Hs HI HA) as (c4 & E4 & B1 & B2 & HI4).
    rewrite E4. destruct (pass_simple_handler (new_rtr_server cfg s) cache c4 p) as [[c5 a5]|e|] eqn:EP; cbn [bind fst snd]; [|destruct e|discriminate].
    intros [=<- <-]. split; [eapply pass_cinv; eauto|]. split; [intros b; cbn; apply guarded_ops|].
    intros _. change (discs (OSet (get_version p) :: OSet (c_version c4) :: ops a5)) with (discs (ops a5)).
    pose proof (pass_discs _ _ _ _ _ _ EP) as HP. destruct p; cbv beta iota in HP; lia.
  - destruct (process_ops_bad cfg s tr cache c p Hs HI HA) as (c4 & E4 & B1 & B2 & HI4).
    rewrite E4. destruct (pass_simple_handler (new_rtr_server cfg s) cache c4 p) as [[c5 a5]|e|] eqn:EP; cbn [bind fst snd]; [|destruct e|discriminate].
    intros [=<- <-]. split; [eapply pass_cinv; eauto|]. split; [intros b; cbn; split; [auto|apply guarded_ops]|].
    intros HQ. pose proof (pass_discs _ _ _ _ _ _ EP) as HP.
    assert (H0 : discs (ops a5) = 0%nat).
    { destruct p; cbv beta iota in HP; try lia. exfalso. apply HA. eapply HQ. reflexivity. }
    unfold discs in *. cbn. lia.
Qed.

(** * C25: the counter *)
Definition started (k : conn) : Prop := k_phase k = Running \/ k_phase k = Ended.
Definition cn_inv (w : net) : Prop :=
  NoDup (n_clients w) /\
  (forall i, In i (n_clients w) -> exists k, nth_error (n_conns w) i = Some k /\ started k) /\
  (forall i k, nth_error (n_conns w) i = Some k -> k_tr k <> SSH /\ k_phase k <> SshBegun).

Lemma filter_ne_length l i : NoDup l ->
  length (filter (fun j => negb (Nat.eqb j i)) l) = (length l - (if in_dec Nat.eq_dec i l then 1 else 0))%nat.
Proof.
  induction 1 as [|x l Hx Hl IH]; [reflexivity|]. cbn [filter].
  destruct (Nat.eqb_spec x i) as [->|Hne]; cbn [negb].
  - rewrite IH. destruct (in_dec Nat.eq_dec i l); [contradiction|].
    destruct (in_dec Nat.eq_dec i (i :: l)) as [_|G]; [cbn; lia|]. exfalso; apply G; left; auto.
  - cbn [length]. rewrite IH.
    destruct (in_dec Nat.eq_dec i l) as [G|G], (in_dec Nat.eq_dec i (x :: l)) as [G'|G'].
    + assert (length l <> 0)%nat by (destruct l; [destruct G|cbn; lia]). cbn. lia.
    + exfalso; apply G'; right; auto.
    + destruct G' as [G'|G']; [congruence|contradiction].
    + cbn. lia.
Qed.

(** One step, seen from the counter: what happens to the counter, the client list and
    the connections. *)
Inductive cstep (srv : rtrserver) (w : net) (l : label) (w' : net) : Prop :=
| cs_quiet : n_count w' = n_count w -> n_clients w' = n_clients w ->
    (n_conns w' = n_conns w \/
     exists i k k', nth_error (n_conns w) i = Some k /\ n_conns w' = set_nth (n_conns w) i k' /\
       k_phase k' = k_phase k /\ k_tr k' = k_tr k /\
       ((k_prog k' = k_prog k /\ k_flag k' = k_flag k /\ k_cli k' = k_cli k) \/
        (exists o, k_prog k = o :: k_prog k' /\ k_cli k' = k_cli k /\
           match o with OFlag => k_flag k' = false | ODisc => False | _ => k_flag k' = k_flag k end) \/
        (exists cache chunk, l = LRead i cache chunk /\ k_prog k = [] /\ k_flag k = true /\ k_flag k' = true /\
           k_phase k = Running /\ read_ops srv cache (k_cli k) chunk = Ok (k_cli k', k_prog k')))) ->
    cstep srv w l w'
| cs_accept tr : l = LAccept tr -> (s_maxconn srv <= 0 \/ n_count w < s_maxconn srv)%Z ->
    n_count w' = n_count w -> n_clients w' = n_clients w ->
    n_conns w' = n_conns w ++ [new_conn tr srv] -> cstep srv w l w'
| cs_ssh i k : nth_error (n_conns w) i = Some k -> k_tr k = SSH -> n_clients w' = n_clients w ->
    (exists ph d, (k_phase k = Accepted /\ ph = SshBegun /\ d = 1%Z \/
                   k_phase k = Running /\ k_prog k = [] /\ k_flag k = false /\ ph = Ended /\ d = (-1)%Z) /\
       n_count w' = (n_count w + d)%Z /\ n_conns w' = set_nth (n_conns w) i (k_set_phase ph k)) -> cstep srv w l w'
| cs_start i k : nth_error (n_conns w) i = Some k -> (k_phase k = Accepted \/ k_phase k = SshBegun) ->
    n_count w' = (n_count w + 1)%Z -> n_clients w' = n_clients w ++ [i] ->
    n_conns w' = set_nth (n_conns w) i (k_set_phase Running (k_set_pc SCheck (k_set_flag true k))) ->
    (k_phase k = Accepted -> k_tr k <> SSH) -> cstep srv w l w'
| cs_disc i k r : nth_error (n_conns w) i = Some k -> k_prog k = ODisc :: r ->
    n_count w' = (n_count w - 1)%Z -> n_clients w' = filter (fun j => negb (Nat.eqb j i)) (n_clients w) ->
    n_conns w' = set_nth (n_conns w) i (k_set_prog r k) -> cstep srv w l w'
| cs_return i k : nth_error (n_conns w) i = Some k -> k_phase k = Running -> k_prog k = [] -> k_flag k = false ->
    n_count w' = n_count w -> n_clients w' = n_clients w ->
    n_conns w' = set_nth (n_conns w) i (k_set_phase Ended k) -> k_tr k <> SSH -> cstep srv w l w'.

Lemma nstep_cstep srv w l w' : nstep srv w l = Ok w' -> cstep srv w l w'.
Proof.
  assert (SAME : forall l, @Ok net Empty_set w = Ok w' -> cstep srv w l w').
  { intros l0 [=<-]. apply cs_quiet; auto. }
  destruct l; cbn [nstep]; intros H.
  - destruct ((0 <? s_maxconn srv) && (s_maxconn srv <=? n_count w))%Z eqn:EM; [now apply SAME|].
    injection H as <-. eapply cs_accept; try reflexivity. lia.
  - destruct (nth_error (n_conns w) i) as [k|] eqn:Ei; [|now apply SAME].
    destruct (k_phase k) eqn:EP, (k_tr k) eqn:ET; try (now apply SAME). injection H as <-. eapply cs_ssh; eauto.
    exists SshBegun, 1%Z. split; [left; auto|]. split; reflexivity.
  - destruct (nth_error (n_conns w) i) as [k|] eqn:Ei; [|now apply SAME].
    destruct (k_phase k) eqn:EP, (k_tr k) eqn:ET; try (now apply SAME); injection H as <-;
      (eapply cs_start; [exact Ei|rewrite EP; auto|reflexivity|reflexivity|reflexivity|rewrite EP, ET; discriminate]).
  - destruct (nth_error (n_conns w) i) as [k|] eqn:Ei; [|now apply SAME].
    destruct (k_phase k) eqn:EP, (k_prog k) eqn:ET, (k_flag k) eqn:EF; try (now apply SAME).
    destruct (read_ops srv cache (k_cli k) chunk) as [[c prog]|e|] eqn:ER; [|destruct e|discriminate].
    injection H as <-. apply cs_quiet; try reflexivity. right. eexists i, k, _. split; [exact Ei|].
    split; [reflexivity|]. split; [reflexivity|]. split; [reflexivity|]. right; right.
    exists cache, chunk. cbn. auto 10.
  - destruct (nth_error (n_conns w) i) as [k|] eqn:Ei; [|now apply SAME].
    injection H as <-. unfold reader_step. destruct (k_prog k) as [|[v|p| | |] r] eqn:EP.
    + apply cs_quiet; auto.
    + apply cs_quiet; try reflexivity. right. eexists i, k, _. split; [exact Ei|]. split; [reflexivity|].
      split; [reflexivity|]. split; [reflexivity|]. right; left. exists (OSet v). cbn. auto.
    + destruct (put k p) as [k1|] eqn:EU; [|apply cs_quiet; auto].
      destruct (put_shape _ _ _ EU) as (E1 & E2 & E3 & _ & E5 & E4 & _).
      apply cs_quiet; try reflexivity. right. eexists i, k, _. split; [exact Ei|]. split; [reflexivity|].
      split; [exact E1|]. split; [exact E4|]. right; left. exists (OPut p). cbn. auto.
    + apply cs_quiet; try reflexivity. right. eexists i, k, _. split; [exact Ei|]. split; [reflexivity|].
      split; [reflexivity|]. split; [reflexivity|]. right; left. exists OFlag. cbn. auto.
    + eapply cs_disc; [exact Ei|exact EP|reflexivity|reflexivity|reflexivity].
    + apply cs_quiet; try reflexivity. right. eexists i, k, _. split; [exact Ei|]. split; [reflexivity|].
      split; [destruct (k_pc k); reflexivity|]. split; [destruct (k_pc k); reflexivity|]. right; left. exists OQuit.
      destruct (k_pc k); cbn; auto.
  - destruct (nth_error (n_conns w) i) as [k|] eqn:Ei; [|now apply SAME].
    destruct (k_phase k) eqn:EP, (k_prog k) eqn:ET, (k_flag k) eqn:EF; try (now apply SAME).
    destruct (k_tr k) eqn:ETR; injection H as <-; [| |eapply cs_ssh; eauto; exists Ended, (-1)%Z; split; [right; auto 6|split; reflexivity]];
      (eapply cs_return; [exact Ei|auto|auto|auto|reflexivity|reflexivity|reflexivity|rewrite ETR; discriminate]).
  - destruct (nth_error (n_conns w) i) as [k|] eqn:Ei; [|now apply SAME].
    destruct (sender_step k o) as [k1|e|] eqn:ES; [|destruct e|discriminate].
    injection H as <-. destruct (send_shape _ _ _ ES) as (E1 & E2 & E3 & _ & E5 & E6 & _).
    apply cs_quiet; try reflexivity. right. eexists i, k, _. split; [exact Ei|]. split; [reflexivity|].
    split; [exact E1|]. split; [exact E6|]. auto.
  - destruct (n_notif w); try (now apply SAME). injection H as <-. apply cs_quiet; auto.
  - unfold notifier_step in H. destruct (n_notif w) as [|serial [|i rest]|serial sess i rest|p serial i rest].
    + now apply SAME.
    + injection H as <-. apply cs_quiet; auto.
    + destruct (nth_error (n_conns w) i) as [k|] eqn:Ei; [|now apply SAME].
      destruct (get_session_id srv (k_ver k)) as [x|e|]; [|destruct e|discriminate].
      injection H as <-. apply cs_quiet; auto.
    + destruct (nth_error (n_conns w) i) as [k|] eqn:Ei; [|now apply SAME]. injection H as <-. apply cs_quiet; auto.
    + destruct (nth_error (n_conns w) i) as [k|] eqn:Ei; [|now apply SAME].
      destruct (put k p) as [k1|] eqn:EU; [|now apply SAME]. injection H as <-.
      destruct (put_shape _ _ _ EU) as (E1 & E2 & E3 & _ & E5 & E4 & _).
      apply cs_quiet; try reflexivity. right. eexists i, k, _. split; [exact Ei|]. split; [reflexivity|].
      split; [exact E1|]. split; [exact E4|]. auto.
Qed.


Lemma set_nth_keep {A} (P : A -> Prop) (l : list A) i x y j : nth_error l i = Some x -> (P x -> P y) ->
  (exists z, nth_error l j = Some z /\ P z) -> exists z, nth_error (set_nth l i y) j = Some z /\ P z.
Proof.
  intros H HP (z & Hz & Pz). destruct (Nat.eq_dec i j) as [->|N].
  - exists y. rewrite set_nth_same by (apply nth_error_Some; congruence). split; [auto|]. rewrite H in Hz. injection Hz as <-. auto.
  - exists z. rewrite set_nth_other by auto. auto.
Qed.
Lemma set_nth_all {A} (P : A -> Prop) (l : list A) i x y : nth_error l i = Some x -> (P x -> P y) ->
  (forall j z, nth_error l j = Some z -> P z) -> forall j z, nth_error (set_nth l i y) j = Some z -> P z.
Proof.
  intros H HP HA j z Hz. destruct (nth_set_nth _ _ _ _ _ Hz) as [(-> & -> & _)|(_ & G)]; eauto.
Qed.

Lemma NoDup_snoc (l : list nat) x : NoDup l -> ~ In x l -> NoDup (l ++ [x]).
Proof.
  induction 1 as [|y l Hy Hl IH]; cbn; intros H; [repeat constructor; auto|].
  constructor; [|apply IH; intuition]. rewrite in_app_iff. cbn. intuition.
Qed.

Lemma cn_step srv w l w' : cn_inv w -> no_ssh l -> nstep srv w l = Ok w' -> cn_inv w'.
Proof.
  intros (N & S & T) HL H. apply nstep_cstep in H. destruct H as
    [E1 E2 E3|tr E0 EM E1 E2 E3|i k Hi Ht|i k Hi Hp E1 E2 E3|i k r Hi Hp E1 E2 E3|i k Hi Hp Hg Hf E1 E2 E3].
  - unfold cn_inv. rewrite E2. split; [exact N|]. destruct E3 as [->|(i & k & k' & Hi & -> & P1 & P2 & _)]; [auto|].
    split.
    + intros j Hj. eapply set_nth_keep; eauto. unfold started. rewrite P1. auto.
    + eapply (set_nth_all (fun k => k_tr k <> SSH /\ k_phase k <> SshBegun)); eauto. rewrite P1, P2. auto.
  - unfold cn_inv. rewrite E2, E3. split; [exact N|]. split.
    + intros j Hj. destruct (S j Hj) as (k & G1 & G2). exists k. split; [|auto].
      rewrite nth_error_app1; auto. apply nth_error_Some. congruence.
    + intros j k Hj. destruct (Nat.lt_ge_cases j (length (n_conns w))).
      * rewrite nth_error_app1 in Hj by auto. eauto.
      * rewrite nth_error_app2 in Hj by auto. destruct (j - length (n_conns w))%nat as [|m]; cbn in Hj; [|destruct m; discriminate].
        injection Hj as <-. cbn. split; [|discriminate]. intros ->. apply HL. auto.
  - exfalso. exact (proj1 (T _ _ Hi) Ht).
  - unfold cn_inv. rewrite E2, E3. split; [|split].
    + apply NoDup_snoc; [exact N|]. intros G. destruct (S i G) as (k1 & G1 & G2). rewrite Hi in G1. injection G1 as <-.
      unfold started in G2. intuition congruence.
    + intros j. rewrite in_app_iff. intros [Hj|[<-|[]]].
      * eapply set_nth_keep; eauto. unfold started. cbn. auto.
      * eexists. split; [apply set_nth_same; apply nth_error_Some; congruence|]. unfold started. cbn. auto.
    + eapply (set_nth_all (fun k => k_tr k <> SSH /\ k_phase k <> SshBegun)); eauto. cbn. intuition discriminate.
  - unfold cn_inv. rewrite E2, E3. split; [apply NoDup_filter; exact N|]. split.
    + intros j Hj. apply filter_In in Hj as [Hj _]. eapply set_nth_keep; eauto.
    + eapply (set_nth_all (fun k => k_tr k <> SSH /\ k_phase k <> SshBegun)); eauto.
  - unfold cn_inv. rewrite E2, E3. split; [exact N|]. split.
    + intros j Hj. eapply set_nth_keep; eauto. unfold started. cbn. auto.
    + eapply (set_nth_all (fun k => k_tr k <> SSH /\ k_phase k <> SshBegun)); eauto. cbn. intuition discriminate.
Qed.

Lemma cn_le srv w l w' : cn_inv w -> no_ssh l -> nstep srv w l = Ok w' ->
  (n_count w <= Z.of_nat (length (n_clients w)))%Z -> (n_count w' <= Z.of_nat (length (n_clients w')))%Z.
Proof.
  intros (N & S & T) HL H HC. apply nstep_cstep in H. destruct H as
    [E1 E2 E3|tr E0 EM E1 E2 E3|i k Hi Ht|i k Hi Hp E1 E2 E3|i k r Hi Hp E1 E2 E3|i k Hi Hp Hg Hf E1 E2 E3];
    try (rewrite E1, E2; auto).
  - exfalso. exact (proj1 (T _ _ Hi) Ht).
  - rewrite app_length. cbn. lia.
  - rewrite filter_ne_length by auto. destruct (in_dec Nat.eq_dec i (n_clients w)); lia.
Qed.

Lemma cn_empty : cn_inv empty_net.
Proof.
  split; [constructor|]. split; [intros i []|]. intros [|i] k; discriminate.
Qed.

Lemma counter_le srv : forall sched w w', cn_inv w -> (n_count w <= Z.of_nat (length (n_clients w)))%Z ->
  Forall no_ssh sched -> nrun srv w sched = Ok w' -> (n_count w' <= Z.of_nat (length (n_clients w')))%Z.
Proof.
  induction sched as [|l r IH]; intros w w' HI HC HS H; cbn in H; [injection H as <-; auto|].
  inversion HS; subst. destruct (nstep srv w l) as [w1|e|] eqn:E; [|destruct e|discriminate].
  cbn in H. apply (IH w1); auto; [eapply cn_step|eapply cn_le]; eauto.
Qed.

(** Exactness on steady schedules. *)
Definition member (w : net) (i : nat) (k : conn) : Prop :=
  match k_phase k with
  | Accepted | SshBegun => k_prog k = []
  | _ => guarded (k_flag k) (k_prog k) /\
         ((In i (n_clients w) /\ (discs (k_prog k) <= 1)%nat) \/
          (~ In i (n_clients w) /\ discs (k_prog k) = 0%nat /\ k_flag k = false))
  end.
Definition ex_inv (cfg : config) (w : net) : Prop :=
  cn_inv w /\ n_count w = Z.of_nat (length (n_clients w)) /\
  (forall i k, nth_error (n_conns w) i = Some k -> cinv cfg (k_tr k) (k_cli k) /\ member w i k).

Lemma set_nth_all2 {A} (P Q : nat -> A -> Prop) (l : list A) i x y : nth_error l i = Some x -> (P i x -> Q i y) ->
  (forall j z, j <> i -> P j z -> Q j z) ->
  (forall j z, nth_error l j = Some z -> P j z) -> forall j z, nth_error (set_nth l i y) j = Some z -> Q j z.
Proof.
  intros H HP HO HA j z Hz. destruct (nth_set_nth _ _ _ _ _ Hz) as [(-> & -> & _)|(N & G)]; eauto.
Qed.

Lemma steady_no_ssh w l : steady w l -> no_ssh l.
Proof. intros H ->. exact H. Qed.

Lemma ex_step cfg s w l w' : u16 s -> ex_inv cfg w -> steady w l -> nstep (new_rtr_server cfg s) w l = Ok w' -> ex_inv cfg w'.
Proof.
  intros Hs (HC & HN & HM) HL H. pose proof (cn_step _ _ _ _ HC (steady_no_ssh _ _ HL) H) as HC'.
  pose proof HC as (N & S & T). split; [exact HC'|].
  apply nstep_cstep in H. destruct H as
    [E1 E2 E3|tr E0 EM E1 E2 E3|i k Hi Ht|i k Hi Hp E1 E2 E3|i k r Hi Hp E1 E2 E3|i k Hi Hp Hg Hf E1 E2 E3].
  - rewrite E1, E2. split; [exact HN|].
    assert (MW : forall j k0, member w j k0 -> member w' j k0) by (unfold member; rewrite E2; auto).
    destruct E3 as [->|(i & k & k' & Hi & -> & P1 & P2 & P3)].
    { intros j k0 Hj. destruct (HM j k0 Hj). auto. }
    eapply set_nth_all2 with (1 := Hi) (4 := HM); [|intros j z _ [? ?]; split; auto].
    intros [HI HB]. rewrite P2. destruct P3 as [(Q1 & Q2 & Q3)|[(o & Q1 & Q2 & Q3)|(ca & ch & Q1 & Q2 & Q3 & Q4 & Q5 & Q6)]].
    + rewrite Q3. split; [exact HI|]. unfold member in *. rewrite P1, Q1, Q2, E2. exact HB.
    + rewrite Q2. split; [exact HI|]. unfold member in *. rewrite P1, E2. rewrite Q1 in HB.
      assert (G : guarded (k_flag k) (o :: k_prog k') ->
        guarded (k_flag k') (k_prog k') /\ discs (o :: k_prog k') = discs (k_prog k') /\ (k_flag k = false -> k_flag k' = false)).
      { destruct o; cbn; try contradiction; rewrite Q3; auto. }
      destruct (k_phase k); try discriminate; destruct HB as [HG HB]; apply G in HG as (G1 & G2 & G3); rewrite G2 in HB;
        (split; [exact G1|]); intuition.
    + destruct (read_ops_cinv cfg s (k_tr k) ca (k_cli k) ch (k_cli k') (k_prog k') Hs HI Q6) as (R1 & R2 & R3).
      split; [exact R1|]. unfold member in *. rewrite P1, Q5, E2. rewrite Q5, Q2, Q3 in HB. destruct HB as [_ HB].
      split; [auto|]. left. destruct HB as [[HB _]|(_ & _ & HB)]; [|discriminate]. split; [exact HB|].
      apply R3. intros v sess n HD. subst l. exact (HL k v sess n Hi HD).
  - rewrite E1, E2, E3. split; [exact HN|]. intros j k Hj. destruct (Nat.lt_ge_cases j (length (n_conns w))).
    + rewrite nth_error_app1 in Hj by auto. unfold member. rewrite E2. apply HM; auto.
    + rewrite nth_error_app2 in Hj by auto. destruct (j - length (n_conns w))%nat as [|m]; cbn in Hj; [|destruct m; discriminate].
      injection Hj as <-. split; [apply cinv_accept|reflexivity].
  - exfalso. exact (proj1 (T _ _ Hi) Ht).
  - rewrite E1, E2, E3. split; [rewrite app_length; cbn; lia|].
    eapply set_nth_all2 with (1 := Hi) (4 := HM).
    + intros [HI HB]. split; [exact HI|]. unfold member in *. rewrite E2. cbn.
      assert (HP0 : k_prog k = []) by (destruct Hp as [Hp|Hp]; rewrite Hp in HB; exact HB).
      rewrite HP0. split; [exact I|]. left. split; [apply in_app_iff; right; left; auto|]. cbn. lia.
    + intros j z Hj [HI HB]. split; [exact HI|]. unfold member in *. rewrite E2.
      assert (In j (n_clients w ++ [i]) <-> In j (n_clients w)) as X.
      { rewrite in_app_iff. cbn. split; [intros [G|[G|[]]]; [exact G|congruence]|auto]. }
      destruct (k_phase z); auto; rewrite X; exact HB.
  - destruct (HM i k Hi) as [HIk HBk]. unfold member in HBk. rewrite Hp in HBk.
    assert (HBk' : k_flag k = false /\ guarded (k_flag k) r /\ In i (n_clients w) /\ discs r = 0%nat /\
       (k_phase k = Running \/ k_phase k = Ended)).
    { change (discs (ODisc :: r)) with (Datatypes.S (discs r)) in HBk.
      destruct (k_phase k); try discriminate; destruct HBk as [[HG1 HG2] [[HB1 HB2]|(_ & HB2 & _)]]; try discriminate;
      repeat split; auto; lia. }
    destruct HBk' as (F1 & F2 & F3 & F4 & F5).
    rewrite E1, E2, E3. split.
    { rewrite filter_ne_length by auto. destruct (in_dec Nat.eq_dec i (n_clients w)); [|contradiction].
      assert (length (n_clients w) <> 0)%nat by (destruct (n_clients w); [destruct F3|cbn; lia]). lia. }
    eapply set_nth_all2 with (1 := Hi) (4 := HM).
    + intros _. split; [exact HIk|]. unfold member. rewrite E2. cbn.
      assert (X : ~ In i (filter (fun j => negb (Nat.eqb j i)) (n_clients w))).
      { intros G. apply filter_In in G as [_ G]. rewrite Nat.eqb_refl in G. discriminate. }
      destruct F5 as [F5|F5]; rewrite F5; auto.
    + intros j z Hj [HI HB]. split; [exact HI|]. unfold member in *. rewrite E2.
      assert (In j (filter (fun j => negb (Nat.eqb j i)) (n_clients w)) <-> In j (n_clients w)) as X.
      { rewrite filter_In. split; [tauto|]. intros G. split; [exact G|]. apply negb_true_iff, Nat.eqb_neq. exact Hj. }
      destruct (k_phase z); auto; rewrite X; exact HB.
  - rewrite E1, E2, E3. split; [exact HN|].
    eapply set_nth_all2 with (1 := Hi) (4 := HM).
    + intros [HI HB]. split; [exact HI|]. unfold member in *. rewrite E2. rewrite Hp in HB. exact HB.
    + intros j z _ [HI HB]. split; [exact HI|]. unfold member in *. rewrite E2. exact HB.
Qed.

Lemma counter_exact cfg s : u16 s -> forall sched w w', ex_inv cfg w ->
  along (new_rtr_server cfg s) steady w sched -> nrun (new_rtr_server cfg s) w sched = Ok w' -> ex_inv cfg w'.
Proof.
  intros Hs. induction sched as [|l r IH]; intros w w' HI HA H; cbn in H; [injection H as <-; auto|].
  destruct (nstep (new_rtr_server cfg s) w l) as [w1|e|] eqn:E; [|destruct e|discriminate].
  destruct HA as [HA HB]. cbn in H. apply (IH w1); auto. eapply ex_step; eauto.
Qed.
Lemma ex_empty cfg : ex_inv cfg empty_net.
Proof. split; [apply cn_empty|]. split; [reflexivity|]. intros [|i] k; discriminate. Qed.

(** * C26: the limit *)
Definition pending (w : net) : nat := length (filter uncounted (n_conns w)).
Lemma pending_set l i x y : nth_error l i = Some x ->
  (length (filter uncounted (set_nth l i y)) + (if uncounted x then 1 else 0) =
   length (filter uncounted l) + (if uncounted y then 1 else 0))%nat.
Proof.
  revert i. induction l as [|z l IH]; intros [|i] H; cbn in *; try discriminate.
  - injection H as ->. destruct (uncounted x), (uncounted y); cbn; lia.
  - specialize (IH i H). destruct (uncounted z); cbn; lia.
Qed.
Lemma none_pending l : forallb (fun k => negb (uncounted k)) l = true -> length (filter uncounted l) = 0%nat.
Proof. induction l as [|x l IH]; cbn; [auto|]. destruct (uncounted x); cbn; [discriminate|auto]. Qed.

Definition lim_inv (cfg : config) (w : net) : Prop :=
  ex_inv cfg w /\ (Z.of_nat (length (n_clients w)) + Z.of_nat (pending w) <= cfg_maxConn cfg)%Z.
Lemma lim_step cfg s w l w' : u16 s -> (0 < cfg_maxConn cfg)%Z -> lim_inv cfg w -> steady w l -> one_by_one w l ->
  nstep (new_rtr_server cfg s) w l = Ok w' -> lim_inv cfg w'.
Proof.
  intros Hs Hm [HE HLm] HL HO H. split; [eapply ex_step; eauto|].
  destruct HE as (HC & HN & HM). pose proof HC as (N & S & T). unfold pending in *.
  apply nstep_cstep in H. destruct H as
    [E1 E2 E3|tr E0 EM E1 E2 E3|i k Hi Ht|i k Hi Hp E1 E2 E3|i k r Hi Hp E1 E2 E3|i k Hi Hp Hg Hf E1 E2 E3].
  - rewrite E2. destruct E3 as [->|(i & k & k' & Hi & -> & P1 & P2 & P3)]; [auto|].
    pose proof (pending_set _ i k k' Hi) as X. unfold uncounted in X at 2 4. rewrite P1 in X. lia.
  - rewrite E2, E3. subst l. cbn in HO. apply none_pending in HO.
    rewrite filter_app, app_length, HO. cbn. cbn in EM. lia.
  - exfalso. exact (proj1 (T _ _ Hi) Ht).
  - rewrite E2, E3. rewrite app_length. cbn.
    pose proof (pending_set _ i k (k_set_phase Running (k_set_pc SCheck (k_set_flag true k))) Hi) as X.
    unfold uncounted in X at 2 4. cbn in X. destruct Hp as [Hp|Hp]; rewrite Hp in X; [lia|].
    exfalso. exact (proj2 (T _ _ Hi) Hp).
  - rewrite E2, E3. rewrite filter_ne_length by auto.
    pose proof (pending_set _ i k (k_set_prog r k) Hi) as X. unfold uncounted in X at 2 4. cbn in X.
    destruct (in_dec Nat.eq_dec i (n_clients w)); lia.
  - rewrite E2, E3. pose proof (pending_set _ i k (k_set_phase Ended k) Hi) as X.
    unfold uncounted in X at 2 4. cbn in X. rewrite Hp in X. lia.
Qed.

Lemma limit_holds cfg s : u16 s -> (0 < cfg_maxConn cfg)%Z -> forall sched w w', lim_inv cfg w ->
  along (new_rtr_server cfg s) (fun w l => steady w l /\ one_by_one w l) w sched ->
  nrun (new_rtr_server cfg s) w sched = Ok w' -> lim_inv cfg w'.
Proof.
  intros Hs Hm. induction sched as [|l r IH]; intros w w' HI HA H; cbn in H; [injection H as <-; auto|].
  destruct (nstep (new_rtr_server cfg s) w l) as [w1|e|] eqn:E; [|destruct e|discriminate].
  destruct HA as [[HA HO] HB]. cbn in H. apply (IH w1); auto. eapply lim_step; eauto.
Qed.
