From Coq Require Import ZifyBool ZifyNat ZifyN.
From Verif Require Import Model.ClientGauge Spec.Response Spec.Net Spec.Clients Proofs.WireP Proofs.CacheP Proofs.ConnP
  Proofs.ConcCacheP Proofs.NetP Proofs.NetP2 Proofs.NetP3.
Ltac Zify.zify_post_hook ::= Z.div_mod_to_equations.

(** Clearing the flag and ClientDisconnected go together. *)
Fixpoint paired (l : list op) : Prop :=
  match l with
  | [] => True
  | OFlag :: r => match r with ODisc :: r' => paired r' | _ => False end
  | ODisc :: _ => False
  | _ :: r => paired r
  end.
Lemma paired_app_n n : forall a b, (length a <= n)%nat -> paired a -> paired b -> paired (a ++ b).
Proof.
  induction n as [|n IH]; intros [|o a] b L HA HB; auto; try (cbn in L; lia).
  destruct o; cbn [app paired] in *; try (apply IH; auto; cbn in L; lia); try contradiction.
  destruct a as [|[] a]; try contradiction. cbn [app]. apply IH; auto. cbn in L. lia.
Qed.
Lemma paired_app a b : paired a -> paired b -> paired (a ++ b).
Proof. apply (paired_app_n (length a)). lia. Qed.
Lemma paired_ops a : paired (ops a).
Proof.
  induction a as [|[p|] a IH]; [exact I| |]; unfold ops in *; cbn [flat_map app paired]; auto.
Qed.
Lemma read_ops_paired srv cache c chunk c' l : read_ops srv cache c chunk = Ok (c', l) -> paired l.
Proof.
  unfold read_ops. destruct chunk as [|b0 chunk]; [cbn [disconnect]; intros [= <- <-]; exact I|].
  destruct (decode_bytes 64 (b0 :: chunk)) as [p|e|]; [|cbn [disconnect]; intros [= <- <-]; exact I|discriminate].
  unfold process_ops.
  destruct (if c_disableVC c then (c, []) else check_version c (get_version p)) as [c1 a1].
  destruct (if c_enforce c1 then _ else (c1, [])) as [c2 a2].
  destruct (server_handle_pdu srv _) as [c4 a4].
  destruct (pass_simple_handler srv cache c4 p) as [[c5 a5]|e|]; cbn [bind fst snd]; [|destruct e|discriminate].
  intros [= <- <-]. cbn [paired]. repeat apply paired_app; apply paired_ops.
Qed.

(** * What holds in every schedule *)
Definition conn_ok (w : net) (i : nat) (k : conn) : Prop :=
  (k_phase k = SshBegun -> k_tr k = SSH) /\
  match k_phase k with
  | Running => (paired (k_prog k) /\ (k_flag k = true <-> In i (n_clients w))) \/
               (exists r, k_prog k = ODisc :: r /\ paired r /\ k_flag k = false)
  | _ => k_prog k = [] /\ k_flag k = false /\ ~ In i (n_clients w)
  end.
Definition net_ok (w : net) : Prop :=
  NoDup (n_clients w) /\ (forall i, In i (n_clients w) -> (i < length (n_conns w))%nat) /\
  forall i k, nth_error (n_conns w) i = Some k -> conn_ok w i k.

Lemma set_nth_len {A} (l : list A) i x : length (set_nth l i x) = length l.
Proof. revert i. induction l as [|y l IH]; intros [|i]; cbn; auto. Qed.

Lemma net_ok_step srv w l w' : net_ok w -> nstep srv w l = Ok w' -> net_ok w'.
Proof.
  intros (N & L & C) H. apply nstep_cstep in H. destruct H as
    [E1 E2 E3|tr E0 EM E1 E2 E3|i k Hi Ht E2 (ph & d & Hd & E1 & E3)|i k Hi Hp E1 E2 E3 HT|i k r Hi Hp E1 E2 E3|i k Hi Hp Hg Hf E1 E2 E3 HT].
  - split; [now rewrite E2|]. split; [rewrite E2; intros i Hi; destruct E3 as [->|(j & k & k' & _ & -> & _)]; [auto|rewrite set_nth_len; auto]|].
    assert (MW : forall j k0, conn_ok w j k0 -> conn_ok w' j k0) by (unfold conn_ok; rewrite E2; auto).
    destruct E3 as [->|(i & k & k' & Hi & -> & P1 & P2 & P3)]; [auto|].
    eapply set_nth_all2 with (1 := Hi) (4 := C); [|intros j z _; apply MW].
    intros HC. apply MW in HC. destruct HC as [HC0 HC]. split; [rewrite P1, P2; exact HC0|]. rewrite P1.
    destruct P3 as [(Q1 & Q2 & Q3)|[(o & Q1 & Q2 & Q3)|(ca & ch & Q1 & Q2 & Q3 & Q4 & Q5 & Q6)]].
    + rewrite Q1, Q2. exact HC.
    + destruct (k_phase k); try (destruct HC as [HC _]; rewrite Q1 in HC; discriminate HC).
      destruct HC as [[HC1 HC2]|(r & HC1 & HC2 & HC3)].
      * rewrite Q1 in HC1. destruct o; cbn [paired] in HC1; try (rewrite Q3; left; now split); [|contradiction].
        right. destruct (k_prog k') as [|[] r]; try contradiction. exists r. auto.
      * rewrite Q1 in HC1. injection HC1 as -> _. contradiction.
    + rewrite Q5 in *. left. destruct HC as [[HC1 HC2]|(r & HC1 & _)]; [|rewrite Q2 in HC1; discriminate HC1].
      split; [eapply read_ops_paired; eauto|]. rewrite Q4. rewrite Q3 in HC2. exact HC2.
  - split; [now rewrite E2|]. split; [rewrite E2, E3, app_length; intros i Hi; apply L in Hi; lia|].
    rewrite E3. intros j k Hj. destruct (Nat.lt_ge_cases j (length (n_conns w))).
    + rewrite nth_error_app1 in Hj by auto. unfold conn_ok. rewrite E2. apply C; auto.
    + rewrite nth_error_app2 in Hj by auto. destruct (j - length (n_conns w))%nat as [|m]; cbn in Hj; [|destruct m; discriminate].
      injection Hj as <-. split; [discriminate|]. cbn. split; [auto|]. split; [auto|]. rewrite E2. intros G. apply L in G. lia.
  - split; [now rewrite E2|]. split; [rewrite E2, E3, set_nth_len; auto|]. rewrite E3.
    eapply set_nth_all2 with (1 := Hi) (4 := C); [|intros j z _; unfold conn_ok; rewrite E2; auto].
    unfold conn_ok. rewrite E2. cbn. intros [_ HC]. destruct Hd as [(Hp & -> & _)|(Hp & Hg & Hf & -> & _)]; rewrite Hp in HC.
    + split; [auto|exact HC].
    + split; [discriminate|]. split; [exact Hg|]. split; [exact Hf|].
      destruct HC as [[_ HC]|(r & HC & _)]; [|rewrite Hg in HC; discriminate HC].
      intros G. apply HC in G. congruence.
  - destruct (C i k Hi) as [_ Ck]. assert (Ci : k_prog k = [] /\ k_flag k = false /\ ~ In i (n_clients w)) by (destruct Hp as [Hp|Hp]; rewrite Hp in Ck; exact Ck).
    destruct Ci as (C1 & C2 & C3). split; [rewrite E2; apply NoDup_snoc; auto|].
    split; [rewrite E2, E3, set_nth_len; intros j; rewrite in_app_iff; intros [G|[<-|[]]]; [auto|apply nth_error_Some; congruence]|].
    rewrite E3. eapply set_nth_all2 with (1 := Hi) (4 := C).
    + intros _. split; [discriminate|]. cbn. left. rewrite C1. split; [exact I|]. rewrite E2, in_app_iff. split; [|auto]. intros _. right. now left.
    + intros j z Hj HC. unfold conn_ok in *. rewrite E2.
      assert (In j (n_clients w ++ [i]) <-> In j (n_clients w)) as X.
      { rewrite in_app_iff. cbn. split; [intros [G|[G|[]]]; [exact G|congruence]|auto]. }
      destruct HC as [HC0 HC]. split; [exact HC0|]. destruct (k_phase z); rewrite X; exact HC.
  - destruct (C i k Hi) as [C0 Ck].
    assert (Ci : k_phase k = Running /\ paired r /\ k_flag k = false).
    { destruct (k_phase k); try (destruct Ck as [Ck _]; rewrite Hp in Ck; discriminate Ck). split; [reflexivity|].
      destruct Ck as [[Ck _]|(r' & Ck & C1 & C2)]; rewrite Hp in Ck; [destruct Ck|]. injection Ck as <-. auto. }
    destruct Ci as (C1 & C2 & C3).
    split; [rewrite E2; now apply NoDup_filter|]. split; [rewrite E2, E3, set_nth_len; intros j G; apply filter_In in G as [G _]; auto|].
    rewrite E3. eapply set_nth_all2 with (1 := Hi) (4 := C).
    + intros _. split; [exact C0|]. cbn. rewrite C1. left. split; [exact C2|]. rewrite C3, E2. split; [discriminate|].
      intros G. apply filter_In in G as [_ G]. rewrite Nat.eqb_refl in G. discriminate.
    + intros j z Hj HC. unfold conn_ok in *. rewrite E2.
      assert (In j (filter (fun j => negb (Nat.eqb j i)) (n_clients w)) <-> In j (n_clients w)) as X.
      { rewrite filter_In. split; [tauto|]. intros G. split; [exact G|]. apply negb_true_iff, Nat.eqb_neq. exact Hj. }
      destruct HC as [HC0 HC]. split; [exact HC0|]. destruct (k_phase z); rewrite X; exact HC.
  - split; [now rewrite E2|]. split; [rewrite E2, E3, set_nth_len; auto|]. rewrite E3.
    eapply set_nth_all2 with (1 := Hi) (4 := C); [|intros j z _; unfold conn_ok; rewrite E2; auto].
    unfold conn_ok. rewrite E2. cbn. rewrite Hp. intros [_ HC]. split; [discriminate|]. split; [exact Hg|]. split; [exact Hf|].
    destruct HC as [[_ HC]|(r & HC & _)]; [|rewrite Hg in HC; discriminate HC]. intros G. apply HC in G. congruence.
Qed.
Lemma net_ok_empty : net_ok empty_net.
Proof. split; [constructor|]. split; [intros i []|]. intros [|i] k; discriminate. Qed.

(** * The list of clients and what the goroutines owe *)
Lemma clients_owes srv w l w' : nstep srv w l = Ok w' ->
  match owes w l with
  | [] => n_clients w' = n_clients w
  | [(i, d)] => (d = 1%Z /\ n_clients w' = n_clients w ++ [i]) \/
      (d = (-1)%Z /\ n_clients w' = filter (fun j => negb (Nat.eqb j i)) (n_clients w) /\
       exists k r, nth_error (n_conns w) i = Some k /\ k_prog k = ODisc :: r)
  | _ => False
  end.
Proof.
  destruct l; cbn [nstep owes]; intros H.
  - destruct (_ && _)%Z in H; injection H as <-; reflexivity.
  - destruct (nth_error (n_conns w) i) as [k|]; [|injection H as <-; reflexivity].
    destruct (k_phase k), (k_tr k); injection H as <-; reflexivity.
  - destruct (nth_error (n_conns w) i) as [k|]; [|injection H as <-; reflexivity].
    destruct (k_phase k), (k_tr k); injection H as <-; try reflexivity; left; auto.
  - destruct (nth_error (n_conns w) i) as [k|]; [|injection H as <-; reflexivity].
    destruct (k_phase k), (k_prog k), (k_flag k); try (injection H as <-; reflexivity).
    destruct (read_ops _ _ _ _) as [x|e|]; cbn [bind] in H; [|destruct e|discriminate]. injection H as <-. reflexivity.
  - destruct (nth_error (n_conns w) i) as [k|] eqn:Ei; [|injection H as <-; reflexivity].
    injection H as <-. unfold reader_step. destruct (k_prog k) as [|[] r] eqn:EP; try reflexivity.
    + destruct (put k p); reflexivity.
    + right. split; [auto|]. split; [reflexivity|]. eauto.
  - destruct (nth_error (n_conns w) i) as [k|]; [|injection H as <-; reflexivity].
    destruct (k_phase k), (k_prog k), (k_flag k); injection H as <-; reflexivity.
  - destruct (nth_error (n_conns w) i) as [k|]; [|injection H as <-; reflexivity].
    destruct (sender_step k o) as [x|e|]; cbn [bind] in H; [|destruct e|discriminate]. injection H as <-. reflexivity.
  - destruct (n_notif w); injection H as <-; reflexivity.
  - unfold notifier_step in H. destruct (n_notif w) as [|serial [|i rest]|serial sess i rest|p serial i rest];
      try (injection H as <-; reflexivity); destruct (nth_error (n_conns w) i) as [k|]; try (injection H as <-; reflexivity).
    + destruct (get_session_id _ _) as [x|e|]; cbn [bind] in H; [|destruct e|discriminate]. injection H as <-. reflexivity.
    + destruct (put k p); injection H as <-; reflexivity.
Qed.

Section Gauge.
Context (addr : nat -> bytes) (a : bytes).
Definition here (i : nat) : bool := beqb (addr i) a.
Definition listed (l : list nat) : Z := Z.of_nat (length (filter here l)).
Fixpoint owed (l : list (nat * Z)) : Z :=
  match l with [] => 0 | (i, d) :: r => (if here i then d else 0) + owed r end.

Lemma owed_app l m : owed (l ++ m) = (owed l + owed m)%Z.
Proof. induction l as [|[i d] l IH]; cbn [app owed]; [lia|]. rewrite IH. lia. Qed.
Lemma take_owed_sum i l d r : take_owed i l = Some (d, r) -> owed l = ((if here i then d else 0) + owed r)%Z.
Proof.
  revert d r. induction l as [|[j e] l IH]; intros d r; cbn [take_owed]; [discriminate|].
  destruct (Nat.eqb_spec j i) as [->|Hne]; [intros [= -> ->]; reflexivity|].
  destruct (take_owed i l) as [[x r']|]; [|discriminate]. intros [= -> <-]. cbn [owed]. rewrite (IH d r' eq_refl). lia.
Qed.
Lemma filter_swap {A} (f g : A -> bool) l : filter f (filter g l) = filter g (filter f l).
Proof. induction l as [|x l IH]; [reflexivity|]. cbn. destruct (f x) eqn:F, (g x) eqn:G; cbn; rewrite ?F, ?G, IH; reflexivity. Qed.
Lemma listed_remove i l : NoDup l ->
  listed (filter (fun j => negb (Nat.eqb j i)) l) = (listed l - (if here i then if in_dec Nat.eq_dec i l then 1 else 0 else 0))%Z.
Proof.
  intros H. unfold listed. rewrite filter_swap, filter_ne_length by now apply NoDup_filter.
  destruct (in_dec Nat.eq_dec i (filter here l)) as [G|G].
  - assert (length (filter here l) <> 0)%nat by (destruct (filter here l); [destruct G|cbn; lia]).
    apply filter_In in G as [G1 G2]. rewrite G2. destruct (in_dec Nat.eq_dec i l); [lia|contradiction].
  - destruct (here i) eqn:E; [|lia]. destruct (in_dec Nat.eq_dec i l) as [G'|]; [|lia].
    exfalso. apply G. now apply filter_In.
Qed.
Lemma listed_snoc l i : listed (l ++ [i]) = (listed l + (if here i then 1 else 0))%Z.
Proof. unfold listed. rewrite filter_app, app_length. cbn [filter]. destruct (here i); cbn; lia. Qed.

Definition level (x : gnet) : Z := (gn_gauge x a + owed (gn_owed x))%Z.

(** The gauge with what is owed never exceeds the number of clients on the list. *)
Lemma gauge_step_le srv x g x' : net_ok (gn_net x) -> gstep addr srv x g = Ok x' ->
  (level x <= listed (n_clients (gn_net x)))%Z -> (level x' <= listed (n_clients (gn_net x')))%Z.
Proof.
  intros (N & _ & _) H HL. destruct g as [l|i]; cbn [gstep] in H.
  - destruct (busy x l); [now injection H as <-|].
    destruct (nstep srv (gn_net x) l) as [w'|e|] eqn:E; cbn [bind] in H; [|destruct e|discriminate]. injection H as <-.
    unfold level in *. cbn [gn_gauge gn_owed gn_net]. rewrite owed_app. apply clients_owes in E.
    destruct (owes (gn_net x) l) as [|[i d] [|]]; [rewrite E; cbn [owed]; lia| |destruct E].
    cbn [owed]. destruct E as [[-> E]|(-> & E & _)]; rewrite E.
    + rewrite listed_snoc. destruct (here i); lia.
    + rewrite listed_remove by auto. destruct (here i), (in_dec Nat.eq_dec i (n_clients (gn_net x))); lia.
  - destruct (take_owed i (gn_owed x)) as [[d r]|] eqn:E; [|now injection H as <-]. injection H as <-.
    unfold level in *. cbn [gn_gauge gn_owed gn_net]. rewrite (take_owed_sum _ _ _ _ E) in HL. unfold add_to.
    unfold here in *. destruct (beqb (addr i) a) eqn:EA; lia.
Qed.

(** ... and is equal to it as long as no goroutine disconnects twice. *)
Lemma gauge_step_eq srv x g x' : net_ok (gn_net x) -> gstep addr srv x g = Ok x' ->
  (forall i k r, nth_error (n_conns (gn_net x)) i = Some k -> k_prog k = ODisc :: r -> In i (n_clients (gn_net x))) ->
  level x = listed (n_clients (gn_net x)) -> level x' = listed (n_clients (gn_net x')).
Proof.
  intros (N & _ & _) H HD HL. destruct g as [l|i]; cbn [gstep] in H.
  - destruct (busy x l); [now injection H as <-|].
    destruct (nstep srv (gn_net x) l) as [w'|e|] eqn:E; cbn [bind] in H; [|destruct e|discriminate]. injection H as <-.
    unfold level in *. cbn [gn_gauge gn_owed gn_net]. rewrite owed_app. apply clients_owes in E.
    destruct (owes (gn_net x) l) as [|[i d] [|]]; [rewrite E; cbn [owed]; lia| |destruct E].
    cbn [owed]. destruct E as [[-> E]|(-> & E & k & r & E1 & E2)]; rewrite E.
    + rewrite listed_snoc. destruct (here i); lia.
    + rewrite listed_remove by auto. pose proof (HD _ _ _ E1 E2).
      destruct (here i), (in_dec Nat.eq_dec i (n_clients (gn_net x))); try lia; contradiction.
  - destruct (take_owed i (gn_owed x)) as [[d r]|] eqn:E; [|now injection H as <-]. injection H as <-.
    unfold level in *. cbn [gn_gauge gn_owed gn_net]. rewrite (take_owed_sum _ _ _ _ E) in HL. unfold add_to.
    unfold here in *. destruct (beqb (addr i) a) eqn:EA; lia.
Qed.
End Gauge.

Lemma gstep_net addr srv x g x' : gstep addr srv x g = Ok x' ->
  gn_net x' = gn_net x \/ exists l, g = GNet l /\ nstep srv (gn_net x) l = Ok (gn_net x').
Proof.
  destruct g as [l|i]; cbn [gstep].
  - destruct (busy x l); [intros [= <-]; auto|].
    destruct (nstep srv (gn_net x) l) as [w'|e|] eqn:E; cbn [bind]; [|destruct e|discriminate]. intros [= <-]. right. eauto.
  - destruct (take_owed i (gn_owed x)) as [[d r]|]; intros [= <-]; auto.
Qed.

(** * No Serial Query in another version: every client disconnects once *)
Definition once (w : net) (i : nat) (k : conn) : Prop :=
  (In i (n_clients w) -> (discs (k_prog k) <= 1)%nat) /\ (~ In i (n_clients w) -> discs (k_prog k) = 0%nat).
Definition calm_inv (cfg : config) (w : net) : Prop :=
  net_ok w /\ forall i k, nth_error (n_conns w) i = Some k -> cinv cfg (k_tr k) (k_cli k) /\ once w i k.

Lemma calm_disc cfg w i k r : calm_inv cfg w -> nth_error (n_conns w) i = Some k -> k_prog k = ODisc :: r -> In i (n_clients w).
Proof.
  intros [_ C] Hi Hp. destruct (C i k Hi) as [_ [_ O]]. destruct (in_dec Nat.eq_dec i (n_clients w)) as [|G]; [auto|].
  specialize (O G). rewrite Hp in O. discriminate O.
Qed.

Lemma calm_step cfg s w l w' : u16 s -> calm_inv cfg w -> in_version w l -> nstep (new_rtr_server cfg s) w l = Ok w' -> calm_inv cfg w'.
Proof.
  intros Hs HI HL H. pose proof HI as [HO C]. split; [eapply net_ok_step; eauto|]. destruct HO as (N & L & K).
  apply nstep_cstep in H. destruct H as
    [E1 E2 E3|tr E0 EM E1 E2 E3|i k Hi Ht E2 (ph & d & Hd & E1 & E3)|i k Hi Hp E1 E2 E3 HT|i k r Hi Hp E1 E2 E3|i k Hi Hp Hg Hf E1 E2 E3 HT].
  - assert (MW : forall j k0, once w j k0 -> once w' j k0) by (unfold once; rewrite E2; auto).
    destruct E3 as [->|(i & k & k' & Hi & -> & P1 & P2 & P3)].
    { intros j k0 Hj. destruct (C j k0 Hj). auto. }
    eapply set_nth_all2 with (1 := Hi) (4 := C); [|intros j z _ [? ?]; split; auto].
    intros [HC HB]. apply MW in HB. rewrite P2.
    destruct P3 as [(Q1 & Q2 & Q3)|[(o & Q1 & Q2 & Q3)|(ca & ch & Q1 & Q2 & Q3 & Q4 & Q5 & Q6)]].
    + rewrite Q3. split; [exact HC|]. unfold once in *. rewrite Q1. exact HB.
    + rewrite Q2. split; [exact HC|]. unfold once in *. rewrite Q1 in HB.
      assert (discs (o :: k_prog k') = discs (k_prog k')) as G by (destruct o; try reflexivity; contradiction).
      rewrite G in HB. exact HB.
    + destruct (read_ops_cinv cfg s (k_tr k) ca (k_cli k) ch (k_cli k') (k_prog k') Hs HC Q6) as (R1 & R2 & R3).
      split; [exact R1|]. destruct (K i k Hi) as [_ Kk]. rewrite Q5 in Kk.
      destruct Kk as [[_ Kk]|(r & Kk & _)]; [|rewrite Q2 in Kk; discriminate Kk]. apply Kk in Q3.
      unfold once. rewrite E2. split; [|intros G; contradiction]. intros _. apply R3. intros v sess n HD. subst l. exact (HL k v sess n Hi HD).
  - rewrite E3. intros j k Hj. destruct (Nat.lt_ge_cases j (length (n_conns w))).
    + rewrite nth_error_app1 in Hj by auto. unfold once. rewrite E2. apply C; auto.
    + rewrite nth_error_app2 in Hj by auto. destruct (j - length (n_conns w))%nat as [|m]; cbn in Hj; [|destruct m; discriminate].
      injection Hj as <-. split; [apply cinv_accept|]. split; cbn; lia.
  - rewrite E3. eapply set_nth_all2 with (1 := Hi) (4 := C); [|intros j z _; unfold once; rewrite E2; auto].
    unfold once. rewrite E2. cbn. auto.
  - rewrite E3. eapply set_nth_all2 with (1 := Hi) (4 := C).
    + intros [HC HB]. split; [exact HC|]. destruct (K i k Hi) as [_ Kk].
      assert (G : k_prog k = []) by (destruct Hp as [Hp|Hp]; rewrite Hp in Kk; apply Kk).
      unfold once. cbn. rewrite G. split; cbn; lia.
    + intros j z Hj [HC HB]. split; [exact HC|]. unfold once in *. rewrite E2.
      assert (In j (n_clients w ++ [i]) <-> In j (n_clients w)) as X.
      { rewrite in_app_iff. cbn. split; [intros [G|[G|[]]]; [exact G|congruence]|auto]. }
      rewrite X. exact HB.
  - pose proof (calm_disc _ _ _ _ _ HI Hi Hp) as Hin. rewrite E3. eapply set_nth_all2 with (1 := Hi) (4 := C).
    + intros [HC HB]. split; [exact HC|]. destruct HB as [HB _]. specialize (HB Hin). rewrite Hp in HB.
      change (discs (ODisc :: r)) with (Datatypes.S (discs r)) in HB. unfold once. cbn [k_prog k_set_prog]. split; lia.
    + intros j z Hj [HC HB]. split; [exact HC|]. unfold once in *. rewrite E2.
      assert (In j (filter (fun j => negb (Nat.eqb j i)) (n_clients w)) <-> In j (n_clients w)) as X.
      { rewrite filter_In. split; [tauto|]. intros G. split; [exact G|]. apply negb_true_iff, Nat.eqb_neq. exact Hj. }
      rewrite X. exact HB.
  - rewrite E3. eapply set_nth_all2 with (1 := Hi) (4 := C); [|intros j z _; unfold once; rewrite E2; auto].
    unfold once. rewrite E2. cbn. auto.
Qed.
Lemma calm_empty cfg : calm_inv cfg empty_net.
Proof. split; [apply net_ok_empty|]. intros [|i] k; discriminate. Qed.

(** * The counter with SSH *)
Lemma busy_set l i x y : nth_error l i = Some x ->
  (length (filter ssh_busy (set_nth l i y)) + (if ssh_busy x then 1 else 0) =
   length (filter ssh_busy l) + (if ssh_busy y then 1 else 0))%nat.
Proof.
  revert i. induction l as [|z l IH]; intros [|i] H; cbn in *; try discriminate.
  - injection H as ->. destruct (ssh_busy x), (ssh_busy y); cbn; lia.
  - specialize (IH i H). destruct (ssh_busy z); cbn; lia.
Qed.
Definition count_ok (w : net) : Prop :=
  n_count w = (Z.of_nat (length (n_clients w)) + Z.of_nat (length (filter ssh_busy (n_conns w))))%Z.
Lemma count_step cfg srv w l w' : calm_inv cfg w -> count_ok w -> nstep srv w l = Ok w' -> count_ok w'.
Proof.
  intros HI HN H. pose proof HI as [(N & L & K) C]. unfold count_ok in *. apply nstep_cstep in H. destruct H as
    [E1 E2 E3|tr E0 EM E1 E2 E3|i k Hi Ht E2 (ph & d & Hd & E1 & E3)|i k Hi Hp E1 E2 E3 HT|i k r Hi Hp E1 E2 E3|i k Hi Hp Hg Hf E1 E2 E3 HT];
    rewrite E1, E2.
  - destruct E3 as [->|(i & k & k' & Hi & -> & P1 & P2 & P3)]; [exact HN|].
    pose proof (busy_set _ i k k' Hi) as X. unfold ssh_busy in X at 2 4. rewrite P1, P2 in X. lia.
  - rewrite E3, filter_app, app_length. cbn. destruct tr; cbn; lia.
  - rewrite E3. pose proof (busy_set _ i k (k_set_phase ph k) Hi) as X. unfold ssh_busy in X at 2 4. cbn in X. rewrite Ht in X.
    destruct Hd as [(Hp & -> & ->)|(Hp & _ & _ & -> & ->)]; rewrite Hp in X; lia.
  - rewrite E3, app_length. cbn [length].
    pose proof (busy_set _ i k (k_set_phase Running (k_set_pc SCheck (k_set_flag true k))) Hi) as X.
    unfold ssh_busy in X at 2 4. cbn in X.
    destruct Hp as [Hp|Hp]; rewrite Hp in X.
    + specialize (HT Hp). destruct (k_tr k); try lia. now contradiction HT.
    + rewrite (proj1 (K i k Hi) Hp) in X. lia.
  - rewrite E3, filter_ne_length by auto. pose proof (calm_disc _ _ _ _ _ HI Hi Hp) as Hin.
    destruct (in_dec Nat.eq_dec i (n_clients w)); [|contradiction].
    assert (length (n_clients w) <> 0)%nat by (destruct (n_clients w); [destruct Hin|cbn; lia]).
    pose proof (busy_set _ i k (k_set_prog r k) Hi) as X. unfold ssh_busy in X at 2 4. cbn in X. lia.
  - rewrite E3. pose proof (busy_set _ i k (k_set_phase Ended k) Hi) as X. unfold ssh_busy in X at 2 4. cbn in X.
    rewrite Hp in X. destruct (k_tr k); try lia. now contradiction HT.
Qed.

(** * The list of clients and the open connections *)
From Coq Require Import Permutation.
Fixpoint open_ids (i : nat) (l : list conn) : list nat :=
  match l with [] => [] | k :: r => if open_conn k then i :: open_ids (S i) r else open_ids (S i) r end.
Lemma open_ids_In l : forall i j, In j (open_ids i l) <-> (i <= j)%nat /\ exists k, nth_error l (j - i) = Some k /\ open_conn k = true.
Proof.
  induction l as [|x l IH]; intros i j; cbn [open_ids].
  - split; [intros []|]. intros (_ & k & H & _). destruct (j - i)%nat; discriminate H.
  - assert (G : In j (open_ids (S i) l) <-> (i < j)%nat /\ exists k, nth_error (x :: l) (j - i) = Some k /\ open_conn k = true).
    { rewrite IH. split; intros [H1 H2].
      - split; [lia|]. replace (j - i)%nat with (S (j - S i)) by lia. exact H2.
      - split; [lia|]. replace (j - i)%nat with (S (j - S i)) in H2 by lia. exact H2. }
    destruct (open_conn x) eqn:E; cbn [In]; rewrite G; split.
    + intros [<-|[H1 H2]]; [|split; [lia|auto]]. split; [lia|]. replace (i - i)%nat with 0%nat by lia. exists x. auto.
    + intros [H1 H2]. destruct (Nat.eq_dec i j); [now left|right; split; [lia|auto]].
    + intros [H1 H2]. split; [lia|auto].
    + intros [H1 (k & H2 & H3)]. split; [|eauto]. destruct (Nat.eq_dec i j) as [->|]; [|lia].
      replace (j - j)%nat with 0%nat in H2 by lia. injection H2 as <-. congruence.
Qed.
Lemma open_ids_NoDup l : forall i, NoDup (open_ids i l).
Proof.
  induction l as [|x l IH]; intros i; cbn [open_ids]; [constructor|]. destruct (open_conn x); [|auto].
  constructor; [|auto]. rewrite open_ids_In. lia.
Qed.
Lemma open_on_ids addr a l : forall i, open_on addr a i l = length (filter (here addr a) (open_ids i l)).
Proof.
  induction l as [|x l IH]; intros i; cbn [open_on open_ids]; [reflexivity|]. rewrite IH.
  destruct (open_conn x); [|reflexivity]. cbn [filter andb]. fold (here addr a i). destruct (here addr a i); reflexivity.
Qed.
Lemma listed_open addr a w : net_ok w -> (forall i k, nth_error (n_conns w) i = Some k -> k_prog k = []) ->
  listed addr a (n_clients w) = Z.of_nat (open_on addr a 0 (n_conns w)).
Proof.
  intros (N & L & K) HP. unfold listed. rewrite open_on_ids. f_equal. apply Permutation_length.
  apply NoDup_Permutation; [now apply NoDup_filter|apply NoDup_filter, open_ids_NoDup|].
  intros i. rewrite !filter_In, open_ids_In, Nat.sub_0_r.
  assert (In i (n_clients w) <-> exists k, nth_error (n_conns w) i = Some k /\ open_conn k = true) as X.
  { split.
    - intros H. destruct (nth_error (n_conns w) i) as [k|] eqn:E.
      + exists k. split; [auto|]. destruct (K i k E) as [_ Kk]. unfold open_conn.
        destruct (k_phase k); try (destruct Kk as (_ & _ & Kk); contradiction).
        destruct Kk as [[_ Kk]|(r & Kk & _)]; [now apply Kk|]. rewrite (HP i k E) in Kk. discriminate Kk.
      + apply nth_error_None in E. apply L in H. lia.
    - intros (k & E & H). destruct (K i k E) as [_ Kk]. unfold open_conn in H. destruct (k_phase k); try discriminate H.
      destruct Kk as [[_ Kk]|(r & Kk & _)]; [now apply Kk|]. rewrite (HP i k E) in Kk. discriminate Kk. }
  rewrite X. intuition. 
Qed.

(** * Runs *)
Lemma grun_le addr srv a : forall sched x x', net_ok (gn_net x) -> (level addr a x <= listed addr a (n_clients (gn_net x)))%Z ->
  grun addr srv x sched = Ok x' -> net_ok (gn_net x') /\ (level addr a x' <= listed addr a (n_clients (gn_net x')))%Z.
Proof.
  induction sched as [|g r IH]; intros x x' HN HL H; cbn [grun] in H; [injection H as <-; auto|].
  destruct (gstep addr srv x g) as [x1|e|] eqn:E; cbn [bind] in H; [|destruct e|discriminate].
  apply (IH x1); auto; [|eapply gauge_step_le; eauto].
  destruct (gstep_net _ _ _ _ _ E) as [->|(l & _ & G)]; [auto|]. eapply net_ok_step; eauto.
Qed.
Lemma grun_eq addr cfg s a : u16 s -> forall sched x x', calm_inv cfg (gn_net x) -> count_ok (gn_net x) ->
  level addr a x = listed addr a (n_clients (gn_net x)) ->
  galong addr (new_rtr_server cfg s) in_version x sched -> grun addr (new_rtr_server cfg s) x sched = Ok x' ->
  calm_inv cfg (gn_net x') /\ count_ok (gn_net x') /\ level addr a x' = listed addr a (n_clients (gn_net x')).
Proof.
  intros Hs. induction sched as [|g r IH]; intros x x' HN HC HL HA H; cbn [grun] in H; [injection H as <-; auto|].
  destruct (gstep addr (new_rtr_server cfg s) x g) as [x1|e|] eqn:E; cbn [bind] in H; [|destruct e|discriminate].
  destruct HA as [HA HB]. specialize (HB x1 E).
  assert (G : calm_inv cfg (gn_net x1) /\ count_ok (gn_net x1)).
  { destruct (gstep_net _ _ _ _ _ E) as [->|(l & -> & G)]; [auto|]. split; [eapply calm_step; eauto|eapply count_step; eauto]. }
  apply (IH x1); auto; [apply G|apply G|]. eapply gauge_step_eq; eauto; [apply HN|]. intros i k r'. now apply (calm_disc cfg).
Qed.
Lemma level_empty addr a : level addr a empty_gnet = listed addr a (n_clients (gn_net empty_gnet)).
Proof. reflexivity. Qed.

(** * PDUs *)
Definition of_label (lbl : bytes) (p : pdu) : bool := beqb (pdu_label p) lbl.
Lemma fold_pdus lbl : forall l (c : bytes -> N), fold_left (fun c p => add_to N.succ c (pdu_label p)) l c lbl =
  c lbl + nlen (filter (of_label lbl) l).
Proof.
  induction l as [|p l IH]; intros c; cbn [fold_left filter]; [cbn; lia|]. rewrite IH. unfold add_to at 1. unfold of_label at 2.
  destruct (beqb (pdu_label p) lbl); unfold nlen; cbn [length]; lia.
Qed.
Lemma existsb_forallb {A} (f : A -> bool) l : existsb f l = negb (forallb (fun x => negb (f x)) l).
Proof. induction l as [|x l IH]; cbn; [reflexivity|]. rewrite IH. destruct (f x); reflexivity. Qed.
Lemma waits_busy x i cache seg : busy x (LRead i cache seg) = true -> waits x i = false.
Proof.
  unfold busy, waits. cbn [actor]. rewrite existsb_forallb. intros H. apply negb_true_iff in H. rewrite H.
  destruct (nth_error _ _); [apply andb_false_r|reflexivity].
Qed.
Lemma waits_received x i cache seg : busy x (LRead i cache seg) = false ->
  received (gn_net x) (LRead i cache seg) = if waits x i then match decode_bytes 64 seg with Ok p => [p] | _ => [] end else [].
Proof.
  unfold busy, waits, open_conn. cbn [actor received]. rewrite existsb_forallb. intros H. apply negb_false_iff in H.
  destruct (nth_error (n_conns (gn_net x)) i) as [k|]; [|reflexivity]. rewrite H, andb_true_r.
  destruct (k_phase k), (k_prog k), (k_flag k), seg; reflexivity.
Qed.
Lemma grun_pdus addr srv lbl : forall sched x x', grun addr srv x sched = Ok x' ->
  gn_pdus x' lbl = gn_pdus x lbl + nlen (filter (of_label lbl) (pdus_read addr srv x sched)).
Proof.
  induction sched as [|g r IH]; intros x x' H; cbn [grun pdus_read] in *; [injection H as <-; cbn; lia|].
  destruct (gstep addr srv x g) as [x1|e|] eqn:E; cbn [bind] in H; [|destruct e|discriminate].
  rewrite (IH _ _ H), filter_app. unfold nlen. rewrite app_length.
  assert (G : gn_pdus x1 lbl = gn_pdus x lbl + nlen (filter (of_label lbl)
    match g with GNet (LRead i _ seg) => if waits x i then match decode_bytes 64 seg with Ok p => [p] | _ => [] end else [] | _ => [] end)).
  { destruct g as [l|i]; cbn [gstep] in E.
    - destruct (busy x l) eqn:EB.
      + injection E as <-. destruct l; try (cbn; lia). rewrite (waits_busy _ _ _ _ EB). cbn. lia.
      + destruct (nstep srv (gn_net x) l) as [w'|e|]; cbn [bind] in E; [|destruct e|discriminate]. injection E as <-.
        cbn [gn_pdus]. rewrite fold_pdus. destruct l; try reflexivity. rewrite (waits_received _ _ _ _ EB). reflexivity.
    - destruct (take_owed i (gn_owed x)) as [[d q]|]; injection E as <-; cbn; lia. }
  rewrite G. unfold nlen. lia.
Qed.
Lemma label_type p q : pdu_label p = pdu_label q <-> get_type p = get_type q.
Proof. destruct p, q; split; intros H; try reflexivity; try discriminate H; vm_compute in H; discriminate H. Qed.
