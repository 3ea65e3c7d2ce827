(** Which downloads in parallel can meet at the maps. *)
From Coq Require Import ZArith ZifyBool ZifyNat ZifyN.
From Verif Require Import Spec.Download Proofs.FetchP.
From Coq Require Import List.
Import ListNotations.
Local Open Scope N_scope.

(** As [locked], but reads need no lock. *)
Fixpoint lax (h : hold) (p : list op) : bool :=
  match p, h with
  | [], HNone => true
  | [], _ => false
  | ORLock :: p', HNone => lax HR p'
  | ORUnlock :: p', HR => lax HNone p'
  | OLock :: p', HNone => lax HW p'
  | OUnlock :: p', HW => lax HNone p'
  | ORead _ :: p', _ => lax h p'
  | OWrite _ :: p', HW => lax h p'
  | _, _ => false
  end.
(** The maps read without the lock, and the maps written. *)
Fixpoint bare (h : hold) (p : list op) : list bool :=
  match p with
  | [] => []
  | ORLock :: p' => bare HR p'
  | OLock :: p' => bare HW p'
  | ORUnlock :: p' | OUnlock :: p' => bare HNone p'
  | ORead m :: p' => (match h with HNone => [m] | _ => [] end) ++ bare h p'
  | OWrite _ :: p' => bare h p'
  end.
Definition written (p : list op) : list bool := flat_map (fun o => match o with OWrite m => [m] | _ => [] end) p.
Definition good2 (h : hold) (p : list op) (p0 : list op) : Prop :=
  lax h p = true /\ incl (bare h p) (bare HNone p0) /\ incl (written p) (written p0).
Definition linv2 (ps : list (list op)) (s : lstate) (hs : list hold) : Prop :=
  length (l_ths s) = length ps /\ Forall2 (fun h p => lax h p = true) hs (l_ths s) /\
  (forall i h p p0, nth_error hs i = Some h -> nth_error (l_ths s) i = Some p -> nth_error ps i = Some p0 -> good2 h p p0) /\
  l_readers s = count isR hs /\ count isW hs = (if l_writer s then 1 else 0)%nat /\ (l_writer s = true -> count isR hs = 0%nat).

Lemma nth_set_same {A} (l : list A) i a b : nth_error (set_nth l i a) i = Some b -> b = a.
Proof. revert i. induction l as [|x l IH]; intros [|i] H; cbn in H; try discriminate; [now injection H|eauto]. Qed.
Lemma f2_len {A B} (P : A -> B -> Prop) l m : Forall2 P l m -> length l = length m.
Proof. induction 1; cbn; congruence. Qed.
Lemma linv2_step ps s hs i s' : linv2 ps s hs -> lstep s i = Some s' -> exists hs', linv2 ps s' hs'.
Proof.
  intros (HN & HF & HG & H1 & H2 & H3) E. unfold lstep in E. destruct (nth_error (l_ths s) i) as [[|o p]|] eqn:EN; try discriminate E.
  destruct (f2_nth _ _ _ _ _ HF EN) as (h & EH & HL).
  assert (G : forall h' r (w : bool), lax h' p = true -> incl (bare h' p) (bare h (o :: p)) ->
    r = (count isR (set_nth hs i h')) -> count isW (set_nth hs i h') = (if w then 1 else 0)%nat -> (w = true -> count isR (set_nth hs i h') = 0%nat) ->
    linv2 ps (mkL r w (set_nth (l_ths s) i p)) (set_nth hs i h')).
  { intros h' r w A A' B C D. split; [cbn; rewrite set_nth_len; exact HN|]. split; [now apply set_nth_f2|]. split; [|now split].
    cbn [l_ths]. intros j hj pj p0 Ej Fj Gj. destruct (Nat.eq_dec i j) as [<-|NE].
    - rewrite (nth_set_same _ _ _ _ Ej), (nth_set_same _ _ _ _ Fj). destruct (HG i h (o :: p) p0 EH EN Gj) as (_ & G2 & G3).
      split; [exact A|]. split; [intros x Hx; apply G2, A', Hx|]. intros x Hx. apply G3. unfold written. cbn [flat_map]. apply in_or_app. right. exact Hx.
    - rewrite set_nth_other in Ej by exact NE. rewrite set_nth_other in Fj by exact NE. eauto. }
  pose proof (fun h' => count_set isR hs i h h' EH) as CR. pose proof (fun h' => count_set isW hs i h h' EH) as CW.
  assert (K : forall h', h' = h -> count isR (set_nth hs i h') = count isR hs /\ count isW (set_nth hs i h') = count isW hs).
  { intros h' ->. specialize (CR h). specialize (CW h). lia. }
  destruct o; cbn [lax] in HL.
  - destruct h; try discriminate HL. destruct (l_writer s) eqn:EW; [discriminate E|]. injection E as <-. exists (set_nth hs i HR). specialize (CR HR). specialize (CW HR). cbn in CR, CW.
    apply G; [exact HL|intros x Hx; exact Hx|lia|lia|discriminate].
  - destruct h; try discriminate HL. injection E as <-. exists (set_nth hs i HNone). specialize (CR HNone). specialize (CW HNone). cbn in CR, CW.
    apply G; [exact HL|intros x Hx; exact Hx|lia| |].
    + destruct (l_writer s); lia.
    + intros EW. specialize (H3 EW). lia.
  - destruct h; try discriminate HL. destruct (l_writer s) eqn:EW; [discriminate E|]. destruct (l_readers s =? 0)%nat eqn:E0; [|discriminate E]. injection E as <-.
    exists (set_nth hs i HW). specialize (CR HW). specialize (CW HW). cbn in CR, CW. apply G; [exact HL|intros x Hx; exact Hx|lia|lia|intros _; lia].
  - destruct h; try discriminate HL. injection E as <-. exists (set_nth hs i HNone). specialize (CR HNone). specialize (CW HNone). cbn in CR, CW.
    pose proof (count_in isW hs i HW EH eq_refl). destruct (l_writer s); [|lia].
    apply G; [exact HL|intros x Hx; exact Hx|lia|lia|discriminate].
  - injection E as <-. exists (set_nth hs i h). destruct (K h eq_refl) as (K1 & K2).
    apply G; [exact HL|intros x Hx; cbn [bare]; apply in_or_app; now right|congruence|congruence|]. intros EW. rewrite K1. auto.
  - injection E as <-. exists (set_nth hs i h). destruct (K h eq_refl) as (K1 & K2).
    apply G; [destruct h; try discriminate HL; exact HL|intros x Hx; exact Hx|congruence|congruence|]. intros EW. rewrite K1. auto.
Qed.
Lemma linv2_run ps l : forall s hs s', linv2 ps s hs -> lrun s l = Some s' -> exists hs', linv2 ps s' hs'.
Proof.
  induction l as [|i l IH]; intros s hs s' HI E; cbn in E; [injection E as <-; eauto|].
  destruct (lstep s i) as [s1|] eqn:E1; [|discriminate E]. destruct (linv2_step _ _ _ _ _ HI E1) as (hs1 & HI1). eauto.
Qed.
Lemma linv2_start ps : Forall (fun p => lax HNone p = true) ps -> linv2 ps (lstart ps) (map (fun _ => HNone) ps).
Proof.
  intros H. split; [reflexivity|]. split; [cbn [lstart l_ths]; induction H; constructor; auto|].
  assert (Z : forall f, f HNone = false -> count f (map (fun _ : list op => HNone) ps) = 0%nat).
  { intros f Hf. clear H. induction ps as [|p ps IH]; [reflexivity|]. cbn. rewrite Hf. exact IH. }
  split; [|split; [cbn; now rewrite Z|split; [cbn; now rewrite Z|discriminate]]].
  cbn [lstart l_ths]. intros i h p p0 E1 E2 E3. rewrite E2 in E3. injection E3 as <-.
  assert (h = HNone) as -> by (rewrite nth_error_map, E2 in E1; now injection E1).
  split; [|split; intros x Hx; exact Hx]. rewrite Forall_forall in H. apply H. eapply nth_error_In; eassumption.
Qed.
(** Only an unlocked read can meet a write. *)
Lemma linv2_race ps s hs : linv2 ps s hs -> race s ->
  exists i j p q m, i <> j /\ nth_error ps i = Some p /\ nth_error ps j = Some q /\ In m (bare HNone p) /\ In m (written q).
Proof.
  intros (HN & HF & HG & H1 & H2 & H3) (i & j & o1 & o2 & p1 & p2 & m & w1 & w2 & Hij & E1 & E2 & A1 & A2 & HWr).
  assert (SYM : forall i j o1 o2 p1 p2 w1, i <> j -> nth_error (l_ths s) i = Some (o1 :: p1) -> nth_error (l_ths s) j = Some (o2 :: p2) ->
    access o1 = Some (m, w1) -> access o2 = Some (m, true) ->
    exists i j p q m, i <> j /\ nth_error ps i = Some p /\ nth_error ps j = Some q /\ In m (bare HNone p) /\ In m (written q)).
  { clear -HN HF HG H1 H2 H3. intros i j o1 o2 p1 p2 w1 Hij E1 E2 A1 A2.
    destruct (f2_nth _ _ _ _ _ HF E1) as (h1 & EH1 & HL1). destruct (f2_nth _ _ _ _ _ HF E2) as (h2 & EH2 & HL2).
    destruct o2; try discriminate A2. injection A2 as ->. cbn [lax] in HL2. destruct h2; try discriminate HL2.
    pose proof (count_in isW hs j HW EH2 eq_refl). destruct (l_writer s); [|lia]. specialize (H3 eq_refl).
    assert (h1 = HNone) as ->.
    { destruct h1; [reflexivity| |]; exfalso; [pose proof (count_in isR hs i HR EH1 eq_refl); lia|].
      pose proof (count_two isW hs i j HW HW Hij EH1 EH2 eq_refl eq_refl). lia. }
    destruct o1; try discriminate A1; [|cbn [lax] in HL1; discriminate HL1]. injection A1 as -> <-.
    assert (LI : (i < length ps)%nat) by (rewrite <- HN; apply nth_error_Some; congruence).
    assert (LJ : (j < length ps)%nat) by (rewrite <- HN; apply nth_error_Some; congruence).
    destruct (nth_error ps i) as [p|] eqn:Ei; [|apply nth_error_None in Ei; lia]. destruct (nth_error ps j) as [q|] eqn:Ej; [|apply nth_error_None in Ej; lia].
    exists i, j, p, q, m. split; [exact Hij|]. split; [exact Ei|]. split; [exact Ej|]. split.
    - apply (HG _ _ _ _ EH1 E1 Ei). now left.
    - apply (HG _ _ _ _ EH2 E2 Ej). now left. }
  destruct HWr as [->| ->]; [eapply (SYM j i)|eapply (SYM i j)]; eauto.
Qed.
Lemma linv2_progress ps s hs : linv2 ps s hs -> finished s \/ exists (i : nat) s', lstep s i = Some s'.
Proof.
  intros (_ & HF & _ & H1 & H2 & H3).
  destruct (Nat.eq_dec (count isR hs + count isW hs) 0) as [E0|E0].
  - assert (HN : forall i h, nth_error hs i = Some h -> h = HNone).
    { intros i [] E; [reflexivity| |]; [pose proof (count_in isR hs i HR E eq_refl)|pose proof (count_in isW hs i HW E eq_refl)]; lia. }
    assert (HD : finished s \/ exists i o p, nth_error (l_ths s) i = Some (o :: p)).
    { unfold finished. clear. generalize (l_ths s) as ths. intros ths. induction ths as [|[|o p] ths IH].
      - left. intros p [].
      - destruct IH as [IH|(i & o & p & E)]; [left|right]. { intros p [<-|H]; auto. } now exists (S i), o, p.
      - right. now exists 0%nat, o, p. }
    destruct HD as [HD|(i & o & p & EN)]; [now left|]. right. exists i. unfold lstep. rewrite EN.
    destruct (f2_nth _ _ _ _ _ HF EN) as (h & EH & HL). rewrite (HN _ _ EH) in HL.
    destruct (l_writer s) eqn:EW; [lia|]. destruct o; cbn in HL; try discriminate HL; [eauto| |eauto].
    replace (l_readers s) with 0%nat by lia. cbn. eauto.
  - right. assert (HD : exists i h, nth_error hs i = Some h /\ h <> HNone).
    { clear -E0. induction hs as [|h hs IH]; [cbn in E0; lia|]. destruct h.
      - destruct IH as (i & h & E & Hh); [cbn in E0; lia|]. now exists (S i), h.
      - exists 0%nat, HR. split; [reflexivity|discriminate].
      - exists 0%nat, HW. split; [reflexivity|discriminate]. }
    destruct HD as (i & h & EH & Hh). exists i. unfold lstep.
    assert (HE : exists p, nth_error (l_ths s) i = Some p /\ lax h p = true).
    { clear -HF EH. revert i EH. induction HF as [|x y l m Hx HF IH]; intros [|i] E; cbn in *; try discriminate; [|auto].
      injection E as <-. eauto. }
    destruct HE as ([|o p] & EN & HL); [destruct h; cbn in HL; try discriminate; now elim Hh|]. rewrite EN.
    destruct o; destruct h; cbn in HL; try discriminate HL; try (now elim Hh); eauto.
Qed.

(** * FetchFile *)
Lemma ops_lax c file x b : lax HNone (ops c file x b) = true.
Proof.
  unfold ops. destruct (is_http file); [|reflexivity]. unfold when.
  destruct (fc_etags c), (fc_lm c); cbn [app lax];
    (destruct x as [|n e l q]; [reflexivity|]; destruct (n =? 304); [reflexivity|]; destruct (negb (n =? 200)); [reflexivity|];
     destruct (beqb e []), b; reflexivity).
Qed.
Lemma ops_bare c file x b m : In m (bare HNone (ops c file x b)) <-> m = false /\ compares c file x.
Proof.
  unfold ops, compares. destruct (is_http file); [|split; [contradiction|intros (_ & X & _); discriminate X]]. unfold when.
  destruct x as [|n e l q].
  { split; [destruct (fc_etags c), (fc_lm c); contradiction|]. intros (_ & _ & _ & et & lm & bb & X & _). discriminate X. }
  destruct (N.eqb_spec n 304) as [->|N1].
  { split; [destruct (fc_etags c), (fc_lm c); contradiction|]. intros (_ & _ & _ & et & lm & bb & X & _). discriminate X. }
  destruct (N.eqb_spec n 200) as [->|N2]; cbn [negb].
  2: { split; [destruct (fc_etags c), (fc_lm c); contradiction|]. intros (_ & _ & _ & et & lm & bb & X & _). congruence. }
  destruct (beqb e []) eqn:EB; cbn [negb].
  { apply beqb_eq in EB. split; [destruct (fc_etags c), (fc_lm c), b; contradiction|]. intros (_ & _ & _ & et & lm & bb & X & Y). congruence. }
  apply beqb_false in EB. destruct (fc_etags c); cbn [andb].
  - split; [intros H|intros (-> & _)].
    + assert (X : m = false) by (destruct (fc_lm c), b; cbn in H; destruct H as [<-|[]]; reflexivity). split; [exact X|]. do 2 (split; [reflexivity|]). eauto 10.
    + destruct (fc_lm c), b; now left.
  - split; [destruct (fc_lm c), b; contradiction|]. intros (_ & _ & X & _). discriminate X.
Qed.
Lemma ops_written c file x b : In false (written (ops c file x b)) <-> stores c file x b.
Proof.
  unfold ops, stores. destruct (is_http file); [|split; [contradiction|intros (X & _); discriminate X]]. unfold when.
  destruct x as [|n e l q].
  { split; [destruct (fc_etags c), (fc_lm c); contradiction|]. intros (_ & st & et & lm & bb & X & _). discriminate X. }
  destruct (N.eqb_spec n 304) as [->|N1].
  { split; [destruct (fc_etags c), (fc_lm c); contradiction|]. intros (_ & st & et & lm & bb & X & Y & _). congruence. }
  destruct (N.eqb_spec n 200) as [->|N2]; cbn [negb].
  2: { split; [intros _|intros _; destruct (fc_etags c), (fc_lm c); now left]. split; [reflexivity|]. exists n, e, l, q. split; [reflexivity|]. split; [exact N1|congruence]. }
  split.
  - intros H. split; [reflexivity|]. exists 200, e, l, q. split; [reflexivity|]. split; [discriminate|]. intros _.
    destruct (fc_etags c); [|now left]. destruct (beqb e []) eqn:EB; [apply beqb_eq in EB; auto|]. destruct b; [|auto]. destruct (fc_lm c); contradiction.
  - intros (_ & st & et & lm & bb & X & _ & Y). injection X as <- <- <- <-. specialize (Y eq_refl).
    destruct (fc_etags c); [|destruct (beqb e []), (fc_lm c), b; now left].
    destruct (beqb e []) eqn:EB; [destruct (fc_lm c), b; now left|]. apply beqb_false in EB. destruct Y as [Y|[Y| ->]]; [discriminate Y|contradiction|].
    destruct (fc_lm c); now left.
Qed.
(** Where the two can meet. *)
Lemma compares_ops c file x b : compares c file x -> exists pre r,
  ops c file x b = [ORLock; ORead false] ++ pre ++ [ORUnlock; ORead false] ++ r /\ In pre [[]; [ORead true]].
Proof.
  intros (H1 & H2 & et & lm & bb & -> & H3). unfold ops, when. rewrite H1, H2. apply beqb_false in H3. rewrite H3. cbn [N.eqb Pos.eqb negb andb].
  destruct (fc_lm c); [exists [ORead true]|exists []]; eexists; (split; [cbn [app]; reflexivity|cbn; auto]).
Qed.
Lemma stores_ops c file x b : stores c file x b -> exists pre mid r,
  ops c file x b = [ORLock] ++ pre ++ [ORUnlock] ++ mid ++ [OLock; OWrite false] ++ r /\
  In pre [[]; [ORead false]; [ORead true]; [ORead false; ORead true]] /\ In mid [[]; [ORead false]].
Proof.
  intros (H1 & st & et & lm & bb & -> & H2 & H3). unfold ops, when. rewrite H1. rewrite (proj2 (N.eqb_neq st 304) H2).
  exists ((if fc_etags c then [ORead false] else []) ++ (if fc_lm c then [ORead true] else [])).
  exists (if (st =? 200) && fc_etags c && negb (beqb et []) then [ORead false] else []).
  destruct (N.eqb_spec st 200) as [->|NE]; cbn [negb andb].
  - specialize (H3 eq_refl). assert (X : negb (fc_etags c) || beqb et [] || negb b = true).
    { destruct H3 as [->|[->| ->]]; [reflexivity|destruct (fc_etags c); reflexivity|]. destruct (fc_etags c), (beqb et []); reflexivity. }
    rewrite X. destruct (fc_etags c), (fc_lm c), (negb (beqb et [])); eexists; (split; [cbn [app andb]; reflexivity|cbn; auto 10]).
  - destruct (fc_etags c), (fc_lm c); eexists; (split; [cbn [app]; reflexivity|cbn; auto 10]).
Qed.
Lemma meet p q : (exists pre r, p = [ORLock; ORead false] ++ pre ++ [ORUnlock; ORead false] ++ r /\ In pre [[]; [ORead true]]) ->
  (exists pre mid r, q = [ORLock] ++ pre ++ [ORUnlock] ++ mid ++ [OLock; OWrite false] ++ r /\
     In pre [[]; [ORead false]; [ORead true]; [ORead false; ORead true]] /\ In mid [[]; [ORead false]]) ->
  (exists l s, lrun (lstart [p; q]) l = Some s /\ race s) /\ (exists l s, lrun (lstart [q; p]) l = Some s /\ race s).
Proof.
  intros (pre & r & -> & HP) (pre2 & mid & r2 & -> & HQ & HM).
  split.
  - exists (repeat 0%nat (3 + length pre) ++ repeat 1%nat (3 + length pre2 + length mid)).
    exists (mkL 0 true [ORead false :: r; OWrite false :: r2]). split.
    + cbn in HP, HQ, HM. repeat match goal with H : _ \/ _ |- _ => destruct H as [<-|H] | H : False |- _ => destruct H end; reflexivity.
    + exists 0%nat, 1%nat, (ORead false), (OWrite false), r, r2, false, false, true. cbn. auto 10.
  - exists (repeat 1%nat (3 + length pre) ++ repeat 0%nat (3 + length pre2 + length mid)).
    exists (mkL 0 true [OWrite false :: r2; ORead false :: r]). split.
    + cbn in HP, HQ, HM. repeat match goal with H : _ \/ _ |- _ => destruct H as [<-|H] | H : False |- _ => destruct H end; reflexivity.
    + exists 1%nat, 0%nat, (ORead false), (OWrite false), r, r2, false, false, true. cbn. auto 10.
Qed.
