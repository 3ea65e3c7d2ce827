(** Lemmas about rtrmon at run time. *)
From Coq Require Import ZifyBool ZifyNat ZifyN.
From Verif Require Import Spec.MonRun Proofs.MonitorP Proofs.MonitorP2.
Local Open Scope list_scope.
Local Open Scope N_scope.
Ltac Zify.zify_post_hook ::= Z.div_mod_to_equations.

(** * Pointers *)
Definition refs (m : gmap nat) : list nat := map snd m.
Definition below (n : nat) (m : gmap nat) : Prop := forall r, In r (refs m) -> (r < n)%nat.

Lemma write_length h : forall r e, length (write h r e) = length h.
Proof. induction h as [|x h IH]; intros [|r] e; cbn [write length]; auto. Qed.
Lemma deref_write h : forall r e q, (r < length h)%nat -> deref (write h r e) q = if Nat.eqb q r then e else deref h q.
Proof.
  induction h as [|x h IH]; intros r e q Hr; [cbn in Hr; lia|]. destruct r as [|r]; cbn [write].
  - destruct q; reflexivity.
  - destruct q as [|q]; [reflexivity|]. cbn [length] in Hr. specialize (IH r e q ltac:(lia)). exact IH.
Qed.
Lemma deref_app h l r : (r < length h)%nat -> deref (h ++ l) r = deref h r.
Proof. intros H. unfold deref. now apply app_nth1. Qed.
Lemma refs_gdel k m r : In r (refs (gdel k m)) -> In r (refs m).
Proof. unfold refs, gdel. rewrite !in_map_iff. intros (x & <- & H). apply filter_In in H. exists x. tauto. Qed.
Lemma refs_gset k r m q : In q (refs (gset k r m)) -> q = r \/ In q (refs m).
Proof. unfold gset. cbn [refs map snd]. intros [<-|H]; [now left|]. right. now apply (refs_gdel k). Qed.
Lemma nodup_refs_gdel k m : NoDup (refs m) -> NoDup (refs (gdel k m)).
Proof.
  unfold refs, gdel. induction m as [|[k' r] m IH]; cbn [filter map snd fst]; [auto|]. intros H. inversion H as [|? ? H1 H2]; subst.
  destruct (negb (beqb k k')); cbn [map snd]; [|auto]. constructor; [|auto]. intros HI. apply H1.
  exact (refs_gdel k m r HI).
Qed.
Lemma nodup_refs_gset k r m : NoDup (refs m) -> ~ In r (refs m) -> NoDup (refs (gset k r m)).
Proof. intros H1 H2. unfold gset. cbn [refs map snd]. constructor; [intros H; apply H2; exact (refs_gdel k m r H)|now apply nodup_refs_gdel]. Qed.

Lemma values_gget h k m : gget k (values h m) = option_map (deref h) (gget k m).
Proof.
  induction m as [|[k' r] m IH]; cbn [values map gget fst snd option_map]; [reflexivity|]. destruct (beqb k k'); [reflexivity|exact IH].
Qed.
Lemma values_gdel h k m : values h (gdel k m) = gdel k (values h m).
Proof.
  unfold values, gdel. induction m as [|[k' r] m IH]; cbn [filter map fst snd]; [reflexivity|].
  destruct (negb (beqb k k')); cbn [map fst snd]; [now rewrite IH|exact IH].
Qed.
Lemma values_gset h k r m : values h (gset k r m) = gset k (deref h r) (values h m).
Proof. unfold gset. cbn [values map fst snd]. f_equal. apply values_gdel. Qed.
Lemma values_ext h h' m : (forall r, In r (refs m) -> deref h' r = deref h r) -> values h' m = values h m.
Proof.
  intros H. unfold values. apply map_ext_in. intros [k r] HI. cbn [fst snd]. f_equal. apply H. unfold refs.
  apply in_map_iff. exists (k, r). auto.
Qed.
Lemma values_app h l m : below (length h) m -> values (h ++ l) m = values h m.
Proof. intros H. apply values_ext. intros r Hr. apply deref_app. now apply H. Qed.
Lemma values_write h r e m : (r < length h)%nat -> ~ In r (refs m) -> values (write h r e) m = values h m.
Proof.
  intros H1 H2. apply values_ext. intros q Hq. rewrite deref_write by exact H1. destruct (Nat.eqb q r) eqn:E; [|reflexivity].
  apply Nat.eqb_eq in E. subst q. contradiction.
Qed.
Lemma alloc_spec h m : let (h1, m1) := alloc h m in
  values h1 m1 = m /\ length h1 = (length h + length m)%nat /\ below (length h1) m1 /\ NoDup (refs m1) /\
  (forall r, In r (refs m1) -> (length h <= r)%nat) /\ (forall r, (r < length h)%nat -> deref h1 r = deref h r).
Proof.
  unfold alloc.
  assert (HL : length (map fst m) = length (seq (length h) (length m))) by now rewrite map_length, seq_length.
  assert (HR : refs (combine (map fst m) (seq (length h) (length m))) = seq (length h) (length m)).
  { unfold refs. revert HL. generalize (seq (length h) (length m)) as q. generalize (map fst m) as a.
    induction a as [|x a IH]; intros [|y q] E; try discriminate E; [reflexivity|]. cbn [combine map snd]. f_equal. apply IH. now injection E. }
  split; [|split; [|split; [|split; [|split]]]].
  - clear HR HL. assert (G : forall n, (forall j, (j < length m)%nat -> deref (h ++ map snd m) (n + j) = nth j (map snd m) no_entry) ->
      values (h ++ map snd m) (combine (map fst m) (seq n (length m))) = m).
    { generalize (h ++ map snd m) as H. induction m as [|[k e] m IH]; intros H n HN; [reflexivity|].
      cbn [map fst snd length seq combine values]. f_equal.
      - f_equal. specialize (HN O ltac:(cbn; lia)). rewrite Nat.add_0_r in HN. exact HN.
      - apply IH. intros j Hj. specialize (HN (S j) ltac:(cbn [length]; lia)). rewrite Nat.add_succ_comm. rewrite <- Nat.add_succ_comm, Nat.add_succ_comm in HN |- *. exact HN. }
    apply G. intros j Hj. unfold deref. rewrite app_nth2 by lia. f_equal. lia.
  - rewrite app_length, map_length. reflexivity.
  - intros r Hr. rewrite HR in Hr. apply in_seq in Hr. rewrite app_length, map_length. lia.
  - rewrite HR. apply seq_NoDup.
  - intros r Hr. rewrite HR in Hr. apply in_seq in Hr. lia.
  - intros r Hr. now apply deref_app.
Qed.

(** * The maps as in C52 to C54 *)
Lemma grace_refs grace now l : forall h res n h' res' n', fold_left (grace_ref grace now) l (h, res, n) = (h', res', n') ->
  NoDup (refs l) -> (forall r, In r (refs l) -> ~ In r (refs res)) ->
  below (length h) l -> below (length h) res -> NoDup (refs res) ->
  (values h' res', n') = fold_left (rebuild_grace grace now) (values h l) (values h res, n) /\
  length h' = length h /\ below (length h) res' /\ NoDup (refs res') /\
  (forall r, In r (refs res') -> In r (refs res) \/ In r (refs l)) /\
  (forall r, deref h' r = deref h r \/ (In r (refs l) /\ deref h' r = set_visible false (deref h r))).
Proof.
  induction l as [|[k r] l IH]; intros h res n h' res' n' EF ND HD HB1 HB2 NR.
  - cbn [fold_left] in EF. injection EF as <- <- <-. cbn [fold_left values map]. repeat split; auto.
  - cbn [refs map snd] in ND. inversion ND as [|? ? N1 N2]; subst. cbn [fold_left values map fst snd].
    fold (values h l). cbn [fold_left] in EF.
    assert (HBr : (r < length h)%nat) by (apply HB1; now left).
    assert (HBl : below (length h) l) by (intros q Hq; apply HB1; now right).
    assert (HDl : forall q, In q (refs l) -> ~ In q (refs res)) by (intros q Hq; apply HD; now right).
    assert (KEEP : fold_left (grace_ref grace now) l (h, res, n) = (h', res', n') ->
      (values h' res', n') = fold_left (rebuild_grace grace now) (values h l) (values h res, n) /\
      length h' = length h /\ below (length h) res' /\ NoDup (refs res') /\
      (forall q, In q (refs res') -> In q (refs res) \/ In q (refs ((k, r) :: l))) /\
      (forall q, deref h' q = deref h q \/ (In q (refs ((k, r) :: l)) /\ deref h' q = set_visible false (deref h q)))).
    { intros E. destruct (IH h res n h' res' n' E N2 HDl HBl HB2 NR) as (I1 & I2 & I3 & I4 & I5 & I6).
      split; [exact I1|]. split; [exact I2|]. split; [exact I3|]. split; [exact I4|].
      split; [intros q Hq; destruct (I5 q Hq); [now left|right; now right]|].
      intros q. destruct (I6 q) as [E'|[E1 E2]]; [now left|]. right. split; [now right|exact E2]. }
    unfold grace_ref at 2 in EF. unfold rebuild_grace at 2. cbn [fst snd] in EF |- *. rewrite values_gget.
    destruct (gget k res) as [q|] eqn:EG; cbn [option_map]; [exact (KEEP EF)|].
    destruct (now - grace <=? m_last (deref h r))%Z eqn:EL; [|exact (KEEP EF)]. clear KEEP.
    set (e := set_visible false (deref h r)) in *. set (h1 := write h r e) in *.
    assert (HL : length h1 = length h) by apply write_length.
    assert (HRn : ~ In r (refs res)) by (apply HD; now left).
    assert (V1 : values h1 l = values h l) by (now apply values_write).
    assert (V2 : values h1 (gset k r res) = gset k e (values h res)).
    { rewrite values_gset. unfold h1 at 1. rewrite deref_write, Nat.eqb_refl by exact HBr. f_equal. now apply values_write. }
    rewrite <- V1, <- V2.
    assert (Q1 : forall q, In q (refs l) -> ~ In q (refs (gset k r res))).
    { intros q Hq HG. apply refs_gset in HG as [->|HG]; [contradiction|]. now apply (HDl q). }
    assert (Q2 : below (length h1) l) by (rewrite HL; exact HBl).
    assert (Q3 : below (length h1) (gset k r res)).
    { intros q Hq. rewrite HL. apply refs_gset in Hq as [->|Hq]; [exact HBr|now apply HB2]. }
    destruct (IH h1 (gset k r res) (n + 1) h' res' n' EF N2 Q1 Q2 Q3 (nodup_refs_gset k r res NR HRn)) as (I1 & I2 & I3 & I4 & I5 & I6).
    rewrite HL in I2, I3.
    split; [exact I1|]. split; [exact I2|]. split; [exact I3|]. split; [exact I4|]. split.
    + intros q Hq. destruct (I5 q Hq) as [H|H]; [|right; now right]. apply refs_gset in H as [->|H]; [right; now left|now left].
    + intros q. unfold h1 in I6. specialize (I6 q). rewrite deref_write in I6 by exact HBr.
      destruct (Nat.eqb q r) eqn:EQ.
      * apply Nat.eqb_eq in EQ. subst q. right. split; [now left|]. destruct I6 as [->|[HI _]]; [reflexivity|contradiction].
      * destruct I6 as [->|[HI ->]]; [now left|]. right. split; [now right|reflexivity].
Qed.
Lemma build_refs_spec grace h cur vs bs now : NoDup (refs cur) -> below (length h) cur ->
  let '(h', m, n) := build_refs grace h cur vs bs now in
  (values h' m, n) = build_new_vrp_map grace (values h cur) vs bs now /\
  (length h <= length h')%nat /\ below (length h') m /\ NoDup (refs m) /\
  (forall r, In r (refs m) -> (length h <= r)%nat \/ In r (refs cur)) /\
  (forall r, (r < length h)%nat -> deref h' r = deref h r \/ (In r (refs cur) /\ deref h' r = set_visible false (deref h r))).
Proof.
  intros ND HB. unfold build_refs, build_new_vrp_map.
  set (L := fold_left (rebuild_key (values h cur) now) bs (fold_left (rebuild_vrp (values h cur) now) vs [])).
  pose proof (alloc_spec h L) as HA. destruct (alloc h L) as [h1 m1]. destruct HA as (A1 & A2 & A3 & A4 & A5 & A6).
  assert (HB1 : below (length h1) cur) by (intros r Hr; apply HB in Hr; lia).
  assert (HD : forall r, In r (refs cur) -> ~ In r (refs m1)) by (intros r Hr Hq; apply A5 in Hq; apply HB in Hr; lia).
  destruct (fold_left (grace_ref grace now) cur (h1, m1, 0)) as [[h' m] n] eqn:EF.
  destruct (grace_refs grace now cur h1 m1 0 h' m n EF ND HD HB1 A3 A4) as (G1 & G2 & G3 & G4 & G5 & G6).
  split; [|split; [lia|split; [now rewrite G2|split; [exact G4|split]]]].
  - rewrite G1, A1. f_equal. apply values_ext. intros r Hr. apply A6. now apply HB.
  - intros r Hr. destruct (G5 r Hr) as [H|H]; [left; now apply A5|now right].
  - intros r Hr. destruct (G6 r) as [E|[E1 E2]]; rewrite <- (A6 r Hr); [now left|right; auto].
Qed.
Lemma update_refs_spec grace h cur now :
  let '(h', m, n) := update_refs grace h cur now in
  (values h' m, n) = update_current_vrp_map grace (values h cur) now /\
  (length h <= length h')%nat /\ below (length h') m /\ NoDup (refs m) /\
  (forall r, In r (refs m) -> (length h <= r)%nat) /\ (forall r, (r < length h)%nat -> deref h' r = deref h r).
Proof.
  unfold update_refs. destruct (update_current_vrp_map grace (values h cur) now) as [u n].
  pose proof (alloc_spec h u) as HA. destruct (alloc h u) as [h1 m1]. destruct HA as (A1 & A2 & A3 & A4 & A5 & A6).
  split; [now rewrite A1|]. split; [lia|]. auto.
Qed.
Lemma diff_refs_values_gen h a b : forall res,
  values h (fold_left (fun (res : gmap nat) (x : bytes * nat) =>
    if m_visible (deref h (snd x)) then
      match gget (fst x) b with
      | Some r => if m_visible (deref h r) then res else gset (fst x) (snd x) res
      | None => gset (fst x) (snd x) res
      end
    else res) a res)
  = fold_left (fun (res : vmap) (x : bytes * mentry) =>
    if m_visible (snd x) then
      match gget (fst x) (values h b) with
      | Some e => if m_visible e then res else gset (fst x) (snd x) res
      | None => gset (fst x) (snd x) res
      end
    else res) (values h a) (values h res).
Proof.
  induction a as [|[k r] a IH]; intros res; [reflexivity|].
  change (values h ((k, r) :: a)) with ((k, deref h r) :: values h a). cbn [fold_left fst snd]. rewrite IH. f_equal. rewrite values_gget. destruct (m_visible (deref h r)); [|reflexivity].
  destruct (gget k b) as [q|]; cbn [option_map]; [destruct (m_visible (deref h q)); [reflexivity|]|]; apply values_gset.
Qed.
Lemma diff_refs_values h a b : values h (diff_refs h a b) = mdiff (values h a) (values h b).
Proof. apply (diff_refs_values_gen h a b []). Qed.
Lemma values_len h m : nlen (values h m) = nlen m.
Proof. unfold nlen, values. now rewrite map_length. Qed.
