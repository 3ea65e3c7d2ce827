(** Records that are made by Copy are written to only before anybody else has them. *)
From Coq Require Import ZArith ZifyBool ZifyNat ZifyN Lia Arith List Bool.
From Verif Require Import Model.Heap Spec.Places.
Import ListNotations.

Definition rlen (h : heap) : nat := length (h_recs h).
Definition wf (h : heap) : Prop := Forall (fun c => rec_ok h (snd c) = true) (h_recs h).
Definition bown (h : heap) (b : nat) : Prop := exists s, nth_error (h_blocks h) b = Some (true, s).
Definition own (h : heap) (p : nat) : Prop :=
  exists r, nth_error (h_recs h) p = Some (true, r) /\ match r with HVRP _ _ _ _ => True | HKey _ s k _ => bown h s /\ bown h k end.
Record ext (h h' : heap) : Prop := mkExt {
  e_recs : exists r, h_recs h' = h_recs h ++ r;
  e_blocks : exists b, h_blocks h' = h_blocks h ++ b;
  e_written : exists w, h_written h' = w ++ h_written h /\ Forall (fun p => rlen h <= p)%nat w
}.
Lemma ext_refl h : ext h h.
Proof. constructor; [exists []|exists []|exists []]; rewrite ?app_nil_r; auto. Qed.
Lemma ext_len h h' : ext h h' -> (rlen h <= rlen h')%nat.
Proof. intros [[r E] _ _]. unfold rlen. rewrite E, app_length. lia. Qed.
Lemma ext_trans a b c : ext a b -> ext b c -> ext a c.
Proof.
  intros E1 E2. pose proof (ext_len _ _ E1) as L. destruct E1 as [[r1 A1] [b1 B1] (w1 & W1 & F1)], E2 as [[r2 A2] [b2 B2] (w2 & W2 & F2)]. constructor.
  - exists (r1 ++ r2). now rewrite A2, A1, app_assoc.
  - exists (b1 ++ b2). now rewrite B2, B1, app_assoc.
  - exists (w2 ++ w1). rewrite W2, W1, app_assoc. split; [reflexivity|]. apply Forall_app. split; [|exact F1].
    eapply Forall_impl; [|exact F2]. cbn. intros p Hp. lia.
Qed.
Lemma nth_ext {A} (l r : list A) i x : nth_error l i = Some x -> nth_error (l ++ r) i = Some x.
Proof. intros H. rewrite nth_error_app1; [exact H|]. apply nth_error_Some. congruence. Qed.
Lemma block_ext h h' b : ext h h' -> (b < length (h_blocks h))%nat -> block h' b = block h b.
Proof. intros [_ [x E] _] H. unfold block. rewrite E, nth_error_app1 by exact H. reflexivity. Qed.
Lemma bown_ext h h' b : ext h h' -> bown h b -> bown h' b /\ block h' b = block h b.
Proof.
  intros E [s H]. split.
  - destruct E as [_ [x E] _]. exists s. rewrite E. now apply nth_ext.
  - apply block_ext; [exact E|]. apply nth_error_Some. congruence.
Qed.
Lemma rec_ok_ext h h' r : ext h h' -> rec_ok h r = true -> rec_ok h' r = true.
Proof. intros [_ [x E] _]. destruct r; [auto|]. cbn [rec_ok]. rewrite E, app_length. intros H. apply andb_prop in H as [H1 H2]. apply Nat.ltb_lt in H1, H2. apply andb_true_intro. split; apply Nat.ltb_lt; lia. Qed.
Lemma wf_nth h p o r : wf h -> nth_error (h_recs h) p = Some (o, r) -> rec_ok h r = true.
Proof. intros W H. apply nth_error_In in H. unfold wf in W. rewrite Forall_forall in W. exact (W _ H). Qed.
Lemma deref_ext h h' p : wf h -> (p < rlen h)%nat -> ext h h' -> deref h' p = deref h p.
Proof.
  intros W L E. unfold deref. pose proof E as [[r E1] _ _]. rewrite E1, nth_error_app1 by exact L.
  destruct (nth_error (h_recs h) p) as [[o [x a m f|a s k f]]|] eqn:N; try reflexivity.
  pose proof (wf_nth _ _ _ _ W N) as R. cbn in R. apply andb_prop in R as [R1 R2]. apply Nat.ltb_lt in R1, R2.
  now rewrite !(block_ext _ _ _ E).
Qed.
Lemma own_len h p : own h p -> (p < rlen h)%nat.
Proof. intros (r & H & _). apply nth_error_Some. congruence. Qed.
Lemma own_ext h h' p : ext h h' -> own h p -> own h' p /\ deref h' p = deref h p.
Proof.
  intros E (r & H & B). pose proof E as [[x E1] _ _].
  assert (H' : nth_error (h_recs h') p = Some (true, r)) by (rewrite E1; now apply nth_ext). split.
  - exists r. split; [exact H'|]. destruct r; [exact I|]. destruct B as [B1 B2]. split; eapply bown_ext; eauto.
  - unfold deref. rewrite H, H'. destruct r as [|a s k f]; [reflexivity|]. destruct B as [B1 B2].
    destruct (bown_ext _ _ _ E B1) as [_ ->]. destruct (bown_ext _ _ _ E B2) as [_ ->]. reflexivity.
Qed.

(** * Making things *)
Lemma new_block_spec h o s : wf h -> let h' := fst (new_block h o s) in let b := snd (new_block h o s) in
  ext h h' /\ wf h' /\ nth_error (h_blocks h') b = Some (o, s) /\ block h' b = s /\ rlen h' = rlen h.
Proof.
  intros W. cbn.
  assert (E : ext h (mkHeap (h_recs h) (h_blocks h ++ [(o, s)]) (h_written h))).
  { constructor; cbn; [exists []; now rewrite app_nil_r|exists [(o, s)]; reflexivity|exists []; split; [reflexivity|constructor]]. }
  assert (N : nth_error (h_blocks h ++ [(o, s)]) (length (h_blocks h)) = Some (o, s)) by (rewrite nth_error_app2, Nat.sub_diag by lia; reflexivity).
  split; [exact E|]. split; [|split; [exact N|split; [|reflexivity]]].
  - unfold wf in *. cbn [h_recs]. eapply Forall_impl; [|exact W]. intros c Hc. eapply rec_ok_ext; eauto.
  - unfold block. cbn [h_blocks]. rewrite N. reflexivity.
Qed.
Lemma new_rec_spec h o r : wf h -> rec_ok h r = true -> let h' := fst (new_rec h o r) in let q := snd (new_rec h o r) in
  ext h h' /\ wf h' /\ nth_error (h_recs h') q = Some (o, r) /\ q = rlen h /\ h_blocks h' = h_blocks h.
Proof.
  intros W R. cbn.
  assert (E : ext h (mkHeap (h_recs h ++ [(o, r)]) (h_blocks h) (h_written h))).
  { constructor; cbn; [exists [(o, r)]; reflexivity|exists []; now rewrite app_nil_r|exists []; split; [reflexivity|constructor]]. }
  split; [exact E|]. split; [|split; [rewrite nth_error_app2, Nat.sub_diag by lia; reflexivity|split; reflexivity]].
  unfold wf in *. cbn [h_recs]. apply Forall_app. split.
  - eapply Forall_impl; [|exact W]. intros c Hc. eapply rec_ok_ext; eauto.
  - repeat constructor. cbn [snd]. exact R.
Qed.
(** What Copy and a loop of copies give: new places that nobody else has. *)
Definition fresh (h h' : heap) (q : nat) : Prop := own h' q /\ (rlen h <= q)%nat.
Lemma copy_spec h p h' q : wf h -> (p < rlen h)%nat -> h_copy h p = (h', q) ->
  ext h h' /\ wf h' /\ fresh h h' q /\ deref h' q = deref h p.
Proof.
  intros W L H. unfold h_copy in H. destruct (nth_error (h_recs h) p) as [[o r]|] eqn:N.
  2:{ apply nth_error_None in N. unfold rlen in L. lia. }
  pose proof (wf_nth _ _ _ _ W N) as R. unfold deref at 2. rewrite N. destruct r as [x a m f|a s k f].
  - destruct (new_rec_spec h true (HVRP x a m f) W R) as (E & W' & N' & Q & _). rewrite H in *. cbn [fst snd] in *.
    split; [exact E|]. split; [exact W'|]. split; [split; [|lia]|].
    + exists (HVRP x a m f). auto.
    + unfold deref. now rewrite N'.
  - destruct (new_block h true (block h k)) as [h1 k'] eqn:E1. destruct (new_block h1 true (block h1 s)) as [h2 s'] eqn:E2.
    destruct (new_block_spec h true (block h k) W) as (X1 & W1 & N1 & B1 & L1). rewrite E1 in *. cbn [fst snd] in *.
    destruct (new_block_spec h1 true (block h1 s) W1) as (X2 & W2 & N2 & B2 & L2). rewrite E2 in *. cbn [fst snd] in *.
    assert (K2 : nth_error (h_blocks h2) k' = Some (true, block h k)).
    { destruct X2 as [_ [b X2] _]. rewrite X2. now apply nth_ext. }
    assert (R2 : rec_ok h2 (HKey a s' k' f) = true).
    { cbn [rec_ok]. apply andb_true_intro. split; apply Nat.ltb_lt; apply nth_error_Some; congruence. }
    destruct (new_rec_spec h2 true _ W2 R2) as (X3 & W3 & N3 & Q & BB). rewrite H in *. cbn [fst snd] in *.
    split; [exact (ext_trans _ _ _ X1 (ext_trans _ _ _ X2 X3))|]. split; [exact W3|]. split; [split; [|lia]|].
    + exists (HKey a s' k' f). split; [exact N3|]. split; eexists; rewrite BB; eassumption.
    + unfold deref. rewrite N3. cbn in R. apply andb_prop in R as [R1 R3]. apply Nat.ltb_lt in R1, R3.
      unfold block at 1 2. rewrite BB, K2, N2. rewrite (block_ext _ _ _ X1 R1). reflexivity.
Qed.

Lemma put_len {A} (l : list A) i x : length (put_nth l i x) = length l.
Proof. revert i. induction l as [|y l IH]; intros [|i]; cbn; auto. Qed.
Lemma put_same {A} (l : list A) i x y : nth_error l i = Some y -> nth_error (put_nth l i x) i = Some x.
Proof. revert i. induction l as [|z l IH]; intros [|i] H; cbn in *; try discriminate; auto. Qed.
Lemma put_other {A} (l : list A) i j x : i <> j -> nth_error (put_nth l i x) j = nth_error l j.
Proof. revert i j. induction l as [|z l IH]; intros [|i] [|j] H; cbn; auto; congruence. Qed.
Lemma put_app {A} (l r : list A) i x : (length l <= i)%nat -> put_nth (l ++ r) i x = l ++ put_nth r (i - length l) x.
Proof. revert i. induction l as [|z l IH]; intros i H; cbn [app length put_nth]; [now rewrite Nat.sub_0_r|]. cbn in H. destruct i as [|i]; [lia|]. cbn. now rewrite IH by lia. Qed.
Lemma put_forall {A} (P : A -> Prop) l i x : Forall P l -> P x -> Forall P (put_nth l i x).
Proof. intros H. revert i. induction H as [|y l Hy H IH]; intros [|i] Hx; cbn; constructor; auto. Qed.

Lemma set_flag_spec h h1 q f : ext h h1 -> wf h1 -> fresh h h1 q ->
  let h2 := h_set_flag h1 q f in ext h h2 /\ wf h2 /\ fresh h h2 q /\ deref h2 q = set_flag f (deref h1 q).
Proof.
  intros E W [(r & N & B) L]. pose proof (wf_nth _ _ _ _ W N) as R. cbn zeta.
  assert (G : exists r', h_set_flag h1 q f = mkHeap (put_nth (h_recs h1) q (true, r')) (h_blocks h1) (q :: h_written h1) /\
    rec_ok h1 r' = true /\ match r' with HVRP _ _ _ _ => True | HKey _ s k _ => bown h1 s /\ bown h1 k end /\
    match r' with HVRP x a m f => VRP x a m f | HKey a s k f => BgpsecKey a (block h1 s) (block h1 k) f end = set_flag f (deref h1 q)).
  { unfold h_set_flag, deref. rewrite N. destruct r as [x a m g|a s k g]; eexists; (split; [reflexivity|]); auto. }
  destruct G as (r' & -> & R' & B' & D). set (h2 := mkHeap _ _ _).
  assert (BL : forall b, block h2 b = block h1 b) by reflexivity.
  assert (N2 : nth_error (h_recs h2) q = Some (true, r')) by (cbn; eapply put_same; eauto).
  split; [|split; [|split]].
  - destruct E as [[x E1] E2 (w & E3 & F)]. constructor; cbn [h_recs h_blocks h_written].
    + exists (put_nth x (q - length (h_recs h)) (true, r')). unfold h2. cbn [h_recs]. rewrite E1. apply put_app. exact L.
    + exact E2.
    + exists (q :: w). unfold h2. cbn [h_written]. rewrite E3. split; [reflexivity|]. constructor; assumption.
  - unfold wf. unfold h2 at 2. cbn [h_recs]. apply put_forall; [exact W|exact R'].
  - split; [|exact L]. exists r'. split; [exact N2|]. destruct r'; [exact I|exact B'].
  - rewrite <- D. unfold deref. rewrite N2. destruct r'; reflexivity.
Qed.

(** * Loops *)
Definition step_ok (f : heap -> nat -> heap * list nat) (g : sd -> list sd) : Prop :=
  forall h p h' o, wf h -> (p < rlen h)%nat -> f h p = (h', o) ->
    ext h h' /\ wf h' /\ Forall (fresh h h') o /\ values h' o = g (deref h p).
Lemma plain_ok : step_ok h_plain (fun x => [x]).
Proof.
  intros h p h' o W L H. unfold h_plain in H. destruct (h_copy h p) as [h1 q] eqn:E. injection H as <- <-.
  destruct (copy_spec _ _ _ _ W L E) as (X & W1 & F & D). repeat (split; [auto|]). unfold values. cbn. now rewrite D.
Qed.
Lemma flagged_ok f : step_ok (fun h p => h_flagged h p f) (fun x => [set_flag f x]).
Proof.
  intros h p h' o W L H. unfold h_flagged in H. destruct (h_copy h p) as [h1 q] eqn:E. injection H as <- <-.
  destruct (copy_spec _ _ _ _ W L E) as (X & W1 & F & D). destruct (set_flag_spec h h1 q f X W1 F) as (X2 & W2 & F2 & D2).
  repeat (split; [auto|]). unfold values. cbn. now rewrite D2, D.
Qed.
Lemma none_ok : step_ok (fun h _ => (h, [])) (fun _ => []).
Proof. intros h p h' o W L H. injection H as <- <-. split; [apply ext_refl|]. auto. Qed.
Lemma if_ok (c : sd -> bool) f1 f2 g1 g2 : step_ok f1 g1 -> step_ok f2 g2 ->
  step_ok (fun h p => if c (deref h p) then f1 h p else f2 h p) (fun x => if c x then g1 x else g2 x).
Proof. intros H1 H2 h p h' o W L H. destruct (c (deref h p)); eauto. Qed.
Lemma opt_ok (m : sd -> option N) (c : N -> bool) f0 f1 f2 g0 g1 g2 : step_ok f0 g0 -> step_ok f1 g1 -> step_ok f2 g2 ->
  step_ok (fun h p => match m (deref h p) with None => f0 h p | Some f => if c f then f1 h p else f2 h p end)
          (fun x => match m x with None => g0 x | Some f => if c f then g1 x else g2 x end).
Proof. intros H0 H1 H2 h p h' o W L H. destruct (m (deref h p)) as [f|]; [destruct (c f)|]; eauto. Qed.
Lemma values_ext h h' l : wf h -> Forall (fun p => p < rlen h)%nat l -> ext h h' -> values h' l = values h l.
Proof. intros W F E. unfold values. apply map_ext_in. intros p Hp. rewrite Forall_forall in F. now apply deref_ext; auto. Qed.
Lemma in_range_ext h h' l : ext h h' -> Forall (fun p => p < rlen h)%nat l -> Forall (fun p => p < rlen h')%nat l.
Proof. intros E F. pose proof (ext_len _ _ E). eapply Forall_impl; [|exact F]. cbn. lia. Qed.
Lemma fresh_ext a b c q : ext b c -> fresh a b q -> fresh a c q.
Proof. intros E [O L]. split; [eapply own_ext; eauto|exact L]. Qed.
Lemma fresh_weak a b c q : ext a b -> fresh b c q -> fresh a c q.
Proof. intros E [O L]. pose proof (ext_len _ _ E). split; [exact O|lia]. Qed.
Lemma fresh_range a b l : Forall (fresh a b) l -> Forall (fun p => p < rlen b)%nat l.
Proof. intros F. eapply Forall_impl; [|exact F]. intros q [O _]. now apply own_len. Qed.
Lemma loop_spec f g : step_ok f g -> forall l h h' o, wf h -> Forall (fun p => p < rlen h)%nat l -> h_loop f h l = (h', o) ->
  ext h h' /\ wf h' /\ Forall (fresh h h') o /\ values h' o = flat_map g (values h l).
Proof.
  intros S. induction l as [|p r IH]; intros h h' o W F H; cbn [h_loop] in H.
  - injection H as <- <-. split; [apply ext_refl|]. auto.
  - destruct (f h p) as [h1 o1] eqn:E1. destruct (h_loop f h1 r) as [h2 o2] eqn:E2. injection H as <- <-.
    pose proof (Forall_inv F) as Fp. pose proof (Forall_inv_tail F) as Fr.
    destruct (S _ _ _ _ W Fp E1) as (X1 & W1 & F1 & V1).
    destruct (IH _ _ _ W1 (in_range_ext _ _ _ X1 Fr) E2) as (X2 & W2 & F2 & V2).
    split; [exact (ext_trans _ _ _ X1 X2)|]. split; [exact W2|]. split.
    + apply Forall_app. split; (eapply Forall_impl; [|eassumption]); intros q; [apply fresh_ext; exact X2|apply fresh_weak; exact X1].
    + unfold values in *. rewrite map_app. cbn [map flat_map]. f_equal.
      * rewrite <- V1. apply (values_ext h1 h2 o1 W1 (fresh_range _ _ _ F1) X2).
      * rewrite V2. f_equal. apply (values_ext h h1 r W Fr X1).
Qed.

Lemma compute_spec h new prev h' added removed : wf h -> Forall (fun p => p < rlen h)%nat new -> Forall (fun p => p < rlen h)%nat prev ->
  h_compute_diff h new prev = (h', (added, removed)) ->
  ext h h' /\ wf h' /\ Forall (fresh h h') (added ++ removed) /\
  values h' added = fst (fst (compute_diff (values h new) (values h prev) false)) /\
  values h' removed = snd (fst (compute_diff (values h new) (values h prev) false)).
Proof.
  intros W Fn Fp H. unfold h_compute_diff in H.
  set (pm := convert_map (map (deref h) prev)) in *. set (nm := convert_map (map (deref h) new)) in *.
  destruct (h_loop _ h new) as [h1 a] eqn:E1. destruct (h_loop _ h1 prev) as [h2 r] eqn:E2. injection H as <- <- <-.
  pose proof (loop_spec _ _ (if_ok (fun x => map_has pm (hashkey x)) _ _ _ _ none_ok (flagged_ok FLAG_ADDED)) _ _ _ _ W Fn E1) as (X1 & W1 & F1 & V1).
  pose proof (loop_spec _ _ (if_ok (fun x => map_has nm (hashkey x)) _ _ _ _ none_ok (flagged_ok FLAG_REMOVED)) _ _ _ _ W1 (in_range_ext _ _ _ X1 Fp) E2) as (X2 & W2 & F2 & V2).
  split; [exact (ext_trans _ _ _ X1 X2)|]. split; [exact W2|]. split; [|split].
  - apply Forall_app. split; (eapply Forall_impl; [|eassumption]); intros q; [apply fresh_ext; exact X2|apply fresh_weak; exact X1].
  - rewrite (values_ext h1 h2 a W1 (fresh_range _ _ _ F1) X2). rewrite V1. reflexivity.
  - rewrite V2. rewrite (values_ext h h1 prev W Fp X1). reflexivity.
Qed.
Lemma apply_spec h diff prev h' o : wf h -> Forall (fun p => p < rlen h)%nat diff -> Forall (fun p => p < rlen h)%nat prev ->
  h_apply_diff h diff prev = (h', o) ->
  ext h h' /\ wf h' /\ Forall (fresh h h') o /\ values h' o = apply_diff (values h diff) (values h prev).
Proof.
  intros W Fd Fp H. unfold h_apply_diff in H.
  set (dm := convert_map (map (deref h) diff)) in *. set (pm := convert_map (map (deref h) prev)) in *.
  destruct (h_loop _ h prev) as [h1 a] eqn:E1. destruct (h_loop _ h1 diff) as [h2 r] eqn:E2. injection H as <- <-.
  pose proof (loop_spec _ _ (if_ok (fun x => map_has dm (hashkey x)) _ _ _ _ none_ok plain_ok) _ _ _ _ W Fp E1) as (X1 & W1 & F1 & V1).
  pose proof (loop_spec _ _ (if_ok (fun x => (get_flag x =? FLAG_ADDED)%N) _ _ _ _ plain_ok
     (if_ok (fun x => (get_flag x =? FLAG_REMOVED)%N) _ _ _ _
        (opt_ok (fun x => map_get pm (hashkey x)) (fun f => (f =? FLAG_REMOVED)%N) _ _ _ _ _ _ plain_ok plain_ok none_ok) none_ok))
     _ _ _ _ W1 (in_range_ext _ _ _ X1 Fd) E2) as (X2 & W2 & F2 & V2).
  split; [exact (ext_trans _ _ _ X1 X2)|]. split; [exact W2|]. split.
  - apply Forall_app. split; (eapply Forall_impl; [|eassumption]); intros q; [apply fresh_ext; exact X2|apply fresh_weak; exact X1].
  - unfold values at 1. rewrite map_app. fold (values h2 a). fold (values h2 r).
    rewrite (values_ext h1 h2 a W1 (fresh_range _ _ _ F1) X2), V1, V2, (values_ext h h1 diff W Fd X1). reflexivity.
Qed.
Lemma apply_all_spec diff l : forall h h' o, wf h -> Forall (fun p => p < rlen h)%nat diff -> Forall (Forall (fun p => p < rlen h)%nat) l ->
  h_apply_all h diff l = (h', o) ->
  ext h h' /\ wf h' /\ Forall (Forall (fresh h h')) o /\ map (values h') o = map (fun x => apply_diff (values h diff) (values h x)) l.
Proof.
  induction l as [|x r IH]; intros h h' o W Fd F H; cbn [h_apply_all] in H.
  - injection H as <- <-. split; [apply ext_refl|]. auto.
  - destruct (h_apply_diff h diff x) as [h1 y] eqn:E1. destruct (h_apply_all h1 diff r) as [h2 ys] eqn:E2. injection H as <- <-.
    pose proof (Forall_inv F) as Fx. pose proof (Forall_inv_tail F) as Fr.
    destruct (apply_spec _ _ _ _ _ W Fd Fx E1) as (X1 & W1 & F1 & V1).
    assert (Fr1 : Forall (Forall (fun p => p < rlen h1)%nat) r) by (eapply Forall_impl; [|exact Fr]; intros z; apply in_range_ext; exact X1).
    destruct (IH _ _ _ W1 (in_range_ext _ _ _ X1 Fd) Fr1 E2) as (X2 & W2 & F2 & V2).
    split; [exact (ext_trans _ _ _ X1 X2)|]. split; [exact W2|]. split; [constructor|].
    + eapply Forall_impl; [|exact F1]. intros q. apply fresh_ext. exact X2.
    + eapply Forall_impl; [|exact F2]. intros z Hz. eapply Forall_impl; [|exact Hz]. intros q. apply fresh_weak. exact X1.
    + cbn [map]. f_equal.
      * rewrite (values_ext h1 h2 y W1 (fresh_range _ _ _ F1) X2). exact V1.
      * rewrite V2. apply map_ext_in. intros z Hz. rewrite Forall_forall in Fr. specialize (Fr _ Hz).
        now rewrite (values_ext h h1 diff W Fd X1), (values_ext h h1 z W Fr X1).
Qed.

(** * The server *)
Record inv (st : heap * hserver) : Prop := mkInv {
  i_wf : wf (fst st);
  i_own : forall p, handed_out (snd st) p -> own (fst st) p
}.
Lemma own_range h l : Forall (own h) l -> Forall (fun p => p < rlen h)%nat l.
Proof. intros F. eapply Forall_impl; [|exact F]. apply own_len. Qed.
Lemma inv_lists h s : inv (h, s) -> Forall (own h) (hs_current s) /\ Forall (Forall (own h)) (hs_list s).
Proof.
  intros [_ O]. cbn in O. split.
  - apply Forall_forall. intros p Hp. apply O. now left.
  - apply Forall_forall. intros d Hd. apply Forall_forall. intros p Hp. apply O. right. eauto.
Qed.
Lemma lists_inv h s : wf h -> Forall (own h) (hs_current s) -> Forall (Forall (own h)) (hs_list s) -> inv (h, s).
Proof.
  intros W C L. constructor; [exact W|]. cbn. rewrite Forall_forall in C, L. intros p [H|(d & Hd & Hp)]; [auto|].
  specialize (L _ Hd). rewrite Forall_forall in L. auto.
Qed.
Lemma add_data_spec h s l : inv (h, s) -> Forall (fun p => p < rlen h)%nat l ->
  let st := fst (h_add_data h s l) in
  ext h (fst st) /\ inv st /\ as_values st = fst (add_data (as_values (h, s)) (values h l)) /\ snd (h_add_data h s l) = snd (add_data (as_values (h, s)) (values h l)).
Proof.
  intros I Fl. destruct (inv_lists _ _ I) as [IC IL]. destruct I as [W _]. cbn [fst] in W.
  unfold h_add_data. destruct (h_compute_diff h l (hs_current s)) as [h1 [added removed]] eqn:E1.
  destruct (compute_spec _ _ _ _ _ _ W Fl (own_range _ _ IC) E1) as (X1 & W1 & F1 & V1 & V2).
  unfold add_data. cbn [as_values sdCurrent]. destruct (compute_diff (values h l) (values h (hs_current s)) false) as [[va vr] vu]. cbn [fst snd] in V1, V2.
  assert (VD : values h1 (added ++ removed) = va ++ vr) by (unfold values in *; now rewrite map_app, V1, V2).
  assert (IC1 : Forall (own h1) (hs_current s)) by (eapply Forall_impl; [|exact IC]; intros p Hp; eapply own_ext; eauto).
  assert (IL1 : Forall (Forall (own h1)) (hs_list s)) by (eapply Forall_impl; [|exact IL]; intros d Hd; eapply Forall_impl; [|exact Hd]; intros p Hp; eapply own_ext; eauto).
  assert (VC : values h1 (hs_current s) = values h (hs_current s)) by (apply values_ext; [exact W|now apply own_range|exact X1]).
  assert (VL : map (values h1) (hs_list s) = map (values h) (hs_list s)).
  { apply map_ext_in. intros d Hd. rewrite Forall_forall in IL. apply values_ext; [exact W|apply own_range; auto|exact X1]. }
  rewrite <- VD. destruct (added ++ removed) as [|q0 qs] eqn:EA.
  - cbn [fst snd values map]. split; [exact X1|]. split; [now apply lists_inv|]. split; [|reflexivity].
    cbn [as_values]. now rewrite VC, VL.
  - set (cur := q0 :: qs) in *. assert (HN : values h1 cur <> []) by (unfold cur; discriminate).
    destruct (values h1 cur) as [|v0 vs] eqn:EV; [congruence|]. rewrite <- EV. clear HN.
    destruct (h_add_sds_diff h1 s cur) as [h3 s3] eqn:E3. cbn [fst snd]. unfold h_add_sds_diff in E3.
    assert (OC : Forall (own h1) cur) by (eapply Forall_impl; [|exact F1]; intros p [O _]; exact O).
    assert (IR : Forall (Forall (fun p => p < rlen h1)%nat) (hs_list s)) by (eapply Forall_impl; [|exact IL1]; intros d; apply own_range).
    destruct (h_apply_all h1 cur (hs_list s)) as [h2 next] eqn:E2. destruct (h_apply_diff h2 cur (hs_current s)) as [h4 c4] eqn:E4.
    destruct (apply_all_spec _ _ _ _ _ W1 (own_range _ _ OC) IR E2) as (X2 & W2 & F2 & V2').
    destruct (apply_spec _ _ _ _ _ W2 (in_range_ext _ _ _ X2 (own_range _ _ OC)) (in_range_ext _ _ _ X2 (own_range _ _ IC1)) E4) as (X4 & W4 & F4 & V4).
    injection E3 as <- <-.
    assert (ON : Forall (Forall (own h4)) next).
    { eapply Forall_impl; [|exact F2]. intros d Hd. eapply Forall_impl; [|exact Hd]. intros p [O _]. eapply own_ext; eauto. }
    assert (OD : Forall (own h4) cur).
    { eapply Forall_impl; [|exact OC]. intros p O. eapply (own_ext h2 h4); [exact X4|]. eapply own_ext; eauto. }
    assert (OA : Forall (Forall (own h4)) ((next ++ [[]]) ++ [cur])).
    { apply Forall_app. split; [apply Forall_app; split; [exact ON|constructor; [constructor|constructor]]|constructor; [exact OD|constructor]]. }
    assert (VN : map (values h4) ((next ++ [[]]) ++ [cur]) = (map (apply_diff (values h1 cur)) (map (values h1) (hs_list s)) ++ [[]]) ++ [values h1 cur]).
    { rewrite !map_app. cbn [map values]. f_equal; [f_equal|].
      - rewrite map_map, <- V2'. apply map_ext_in. intros d Hd. rewrite Forall_forall in F2. specialize (F2 _ Hd).
        apply values_ext; [exact W2|eapply fresh_range; exact F2|exact X4].
      - f_equal. rewrite (values_ext h2 h4 cur W2 (in_range_ext _ _ _ X2 (own_range _ _ OC)) X4). apply (values_ext h1 h2 cur W1 (own_range _ _ OC) X2). }
    split; [exact (ext_trans _ _ _ X1 (ext_trans _ _ _ X2 X4))|]. split; [|split; [|reflexivity]].
    + apply lists_inv; cbn [hs_current hs_list].
      * exact W4.
      * eapply Forall_impl; [|exact F4]. intros p [O _]. exact O.
      * destruct ((0 <? hs_keep s) && _)%Z; [|exact OA]. apply Forall_forall. intros d Hd. rewrite Forall_forall in OA. apply OA.
        rewrite <- (firstn_skipn (length ((next ++ [[]]) ++ [cur]) - Z.to_nat (hs_keep s)) ((next ++ [[]]) ++ [cur])). apply in_or_app. now right.
    + cbn [as_values hs_list hs_current hs_serial hs_keep]. unfold add_sds_diff. cbn [sdListDiff sdCurrent sdCurrentSerial keepDiff].
      rewrite <- VL, <- VC, <- VN. rewrite map_length. f_equal.
      * destruct ((0 <? hs_keep s) && _)%Z; [|reflexivity]. now rewrite skipn_map.
      * rewrite V4. rewrite (values_ext h1 h2 cur W1 (own_range _ _ OC) X2), (values_ext h1 h2 (hs_current s) W1 (own_range _ _ IC1) X2). reflexivity.
      * unfold generate_serial. cbn [sdCurrent sdCurrentSerial]. rewrite VC. destruct (hs_current s); reflexivity.
Qed.

(** * Answers *)
Definition qown (h : heap) (q : qpdu) : Prop := match q with QPlain _ => True | QKey _ _ s _ k => bown h s /\ bown h k end.
Lemma qown_ext h h' q : ext h h' -> qown h q -> qown h' q /\ q_read h' q = q_read h q.
Proof.
  intros E. destruct q as [p|v f s a k]; cbn; [auto|]. intros [B1 B2]. destruct (bown_ext _ _ _ E B1) as [C1 ->], (bown_ext _ _ _ E B2) as [C2 ->]. auto.
Qed.
Lemma send_data_spec h c q : own h q -> Forall (qown h) (h_send_data h c q) /\ map (fun x => Queue (q_read h x)) (h_send_data h c q) = send_data c (deref h q).
Proof.
  intros (r & N & B). unfold h_send_data, deref. rewrite N. destruct r as [x a m f|a s k f]; cbn [send_data].
  - destruct (is6 (p_addr x)); [split; [repeat constructor|reflexivity]|]. destruct (is4 (p_addr x)); split; try reflexivity; repeat constructor.
  - destruct ((c_version c =? 0)%N || c_noBGPsec c); [split; [constructor|reflexivity]|]. split; [constructor; [exact B|constructor]|reflexivity].
Qed.
Lemma send_all_spec c l : forall h h' o, wf h -> Forall (fun p => p < rlen h)%nat l -> h_send_all h c l = (h', o) ->
  ext h h' /\ wf h' /\ Forall (qown h') o /\ map (fun x => Queue (q_read h' x)) o = flat_map (send_data c) (values h l).
Proof.
  induction l as [|p r IH]; intros h h' o W F H; cbn [h_send_all] in H.
  - injection H as <- <-. split; [apply ext_refl|]. auto.
  - destruct (h_copy h p) as [h1 q] eqn:E1. destruct (h_send_all h1 c r) as [h2 os] eqn:E2. injection H as <- <-.
    pose proof (Forall_inv F) as Fp. pose proof (Forall_inv_tail F) as Fr.
    destruct (copy_spec _ _ _ _ W Fp E1) as (X1 & W1 & [O1 _] & D1). destruct (send_data_spec h1 c q O1) as [Q1 V1].
    destruct (IH _ _ _ W1 (in_range_ext _ _ _ X1 Fr) E2) as (X2 & W2 & Q2 & V2).
    split; [exact (ext_trans _ _ _ X1 X2)|]. split; [exact W2|]. split.
    + apply Forall_app. split; [|exact Q2]. eapply Forall_impl; [|exact Q1]. intros x Hx. eapply qown_ext; eauto.
    + rewrite map_app, V2. unfold values. cbn [map flat_map]. f_equal.
      * rewrite <- D1, <- V1. apply map_ext_in. intros x Hx. rewrite Forall_forall in Q1. f_equal. eapply qown_ext; eauto.
      * f_equal. apply (values_ext h h1 r W Fr X1).
Qed.
Lemma send_spec h c sid serial l h' o : wf h -> Forall (fun p => p < rlen h)%nat l -> h_send_sds h c sid serial l = (h', o) ->
  ext h h' /\ wf h' /\ Forall (qown h') o /\ map (fun x => Queue (q_read h' x)) o = send_sds c sid serial (values h l).
Proof.
  intros W F H. unfold h_send_sds in H. destruct (h_send_all h c l) as [h1 o1] eqn:E. injection H as <- <-.
  destruct (send_all_spec _ _ _ _ _ W F E) as (X & W1 & Q & V). split; [exact X|]. split; [exact W1|]. split.
  - cbn [app]. constructor; [exact I|]. apply Forall_app. split; [exact Q|]. constructor; [exact I|constructor].
  - unfold send_sds, send_pdu. cbn [app map]. rewrite map_app, V. reflexivity.
Qed.

(** * Runs *)
Record keeps (h h' : heap) : Prop := mkKeeps {
  k_own : forall p, own h p -> own h' p /\ deref h' p = deref h p;
  k_block : forall b, bown h b -> bown h' b /\ block h' b = block h b
}.
Lemma keeps_refl h : keeps h h.
Proof. constructor; auto. Qed.
Lemma keeps_trans a b c : keeps a b -> keeps b c -> keeps a c.
Proof.
  intros K1 K2. constructor.
  - intros p O. destruct (k_own _ _ K1 _ O) as [O1 E1], (k_own _ _ K2 _ O1) as [O2 E2]. split; [exact O2|congruence].
  - intros p O. destruct (k_block _ _ K1 _ O) as [O1 E1], (k_block _ _ K2 _ O1) as [O2 E2]. split; [exact O2|congruence].
Qed.
Lemma ext_keeps h h' : ext h h' -> keeps h h'.
Proof. intros E. constructor; intros; [eapply own_ext|eapply bown_ext]; eauto. Qed.
Lemma keeps_values h h' l : keeps h h' -> Forall (own h) l -> values h' l = values h l.
Proof. intros K F. unfold values. apply map_ext_in. intros p Hp. rewrite Forall_forall in F. exact (proj2 (k_own _ _ K p (F _ Hp))). Qed.
Lemma keeps_inv h h' s : inv (h, s) -> keeps h h' -> wf h' -> inv (h', s) /\ as_values (h', s) = as_values (h, s).
Proof.
  intros I K W. destruct (inv_lists _ _ I) as [IC IL]. split.
  - apply lists_inv; [exact W| |].
    + eapply Forall_impl; [|exact IC]. intros p Hp. now apply (k_own _ _ K).
    + eapply Forall_impl; [|exact IL]. intros d Hd. eapply Forall_impl; [|exact Hd]. intros p Hp. now apply (k_own _ _ K).
  - cbn [as_values]. rewrite (keeps_values _ _ _ K IC). f_equal. apply map_ext_in. intros d Hd. rewrite Forall_forall in IL.
    apply (keeps_values _ _ _ K). auto.
Qed.
Lemma set_rec_keeps h p r0 r : wf h -> nth_error (h_recs h) p = Some (false, r0) -> rec_ok h r = true ->
  let h' := mkHeap (put_nth (h_recs h) p (false, r)) (h_blocks h) (p :: h_written h) in keeps h h' /\ wf h'.
Proof.
  intros W N R. cbn zeta. set (h' := mkHeap _ _ _). split; [constructor|].
  - intros q (x & Nq & B). assert (q <> p) by (intros ->; congruence).
    assert (N' : nth_error (h_recs h') q = Some (true, x)) by (unfold h'; cbn; rewrite put_other by auto; exact Nq). split.
    + exists x. split; [exact N'|]. exact B.
    + unfold deref. rewrite N', Nq. reflexivity.
  - intros b B. split; [exact B|reflexivity].
  - unfold wf, h'. cbn [h_recs]. apply put_forall; [exact W|exact R].
Qed.
Lemma set_block_keeps h b s0 s : wf h -> nth_error (h_blocks h) b = Some (false, s0) ->
  let h' := mkHeap (h_recs h) (put_nth (h_blocks h) b (false, s)) (h_written h) in keeps h h' /\ wf h'.
Proof.
  intros W N. cbn zeta. set (h' := mkHeap _ _ _).
  assert (KB : forall c, bown h c -> bown h' c /\ block h' c = block h c).
  { intros c [x Nc]. assert (c <> b) by (intros ->; congruence).
    assert (N' : nth_error (h_blocks h') c = Some (true, x)) by (unfold h'; cbn; rewrite put_other by auto; exact Nc).
    split; [now exists x|]. unfold block. now rewrite N', Nc. }
  split; [constructor; [|exact KB]|].
  - intros q (x & Nq & B). split.
    + exists x. split; [exact Nq|]. destruct x; [exact I|]. destruct B as [B1 B2]. split; now apply KB.
    + unfold deref. unfold h' at 1. cbn [h_recs]. rewrite Nq. destruct x as [|a k1 k2 f]; [reflexivity|]. destruct B as [B1 B2].
      destruct (KB _ B1) as [_ ->], (KB _ B2) as [_ ->]. reflexivity.
  - unfold wf, h'. cbn [h_recs]. eapply Forall_impl; [|exact W]. intros [co cr] Hc. cbn [snd] in *. destruct cr; [reflexivity|]. cbn in *. now rewrite put_len.
Qed.
Definition update_of (h : heap) (o : hop) : list (list sd) := match o with HAddData l => [values h l] | _ => [] end.
Lemma ptr_range h l : forallb (ptr_ok h) l = true -> Forall (fun p => p < rlen h)%nat l.
Proof. intros H. apply Forall_forall. intros p Hp. rewrite forallb_forall in H. apply H, Nat.ltb_lt in Hp. exact Hp. Qed.
Lemma step_spec h s o st : inv (h, s) -> h_step (h, s) o = Some st ->
  inv st /\ keeps h (fst st) /\ as_values st = fold_left (fun v u => fst (add_data v u)) (update_of h o) (as_values (h, s)).
Proof.
  intros I H. pose proof (i_wf _ I) as W. cbn [fst] in W. destruct o as [r|b|p r|b x|l|c sid serial l]; cbn [h_step update_of fold_left] in *.
  - destruct (rec_ok h r) eqn:R; [|discriminate]. injection H as <-. destruct (new_rec_spec h false r W R) as (E & W' & _). cbn [fst snd] in *.
    destruct (keeps_inv _ _ _ I (ext_keeps _ _ E) W') as [I' V]. split; [exact I'|]. split; [exact (ext_keeps _ _ E)|exact V].
  - injection H as <-. destruct (new_block_spec h false b W) as (E & W' & _). cbn [fst snd] in *.
    destruct (keeps_inv _ _ _ I (ext_keeps _ _ E) W') as [I' V]. split; [exact I'|]. split; [exact (ext_keeps _ _ E)|exact V].
  - destruct (nth_error (h_recs h) p) as [[[|] r0]|] eqn:N; try discriminate. destruct (rec_ok h r) eqn:R; [|discriminate]. injection H as <-.
    destruct (set_rec_keeps _ _ _ _ W N R) as [K W']. destruct (keeps_inv _ _ _ I K W') as [I' V]. split; [exact I'|]. split; [exact K|exact V].
  - destruct (nth_error (h_blocks h) b) as [[[|] s0]|] eqn:N; try discriminate. injection H as <-.
    destruct (set_block_keeps _ _ _ x W N) as [K W']. destruct (keeps_inv _ _ _ I K W') as [I' V]. split; [exact I'|]. split; [exact K|exact V].
  - destruct (forallb (ptr_ok h) l) eqn:F; [|discriminate]. injection H as <-.
    destruct (add_data_spec _ _ _ I (ptr_range _ _ F)) as (E & I' & V & _). split; [exact I'|]. split; [exact (ext_keeps _ _ E)|exact V].
  - destruct (forallb (ptr_ok h) l) eqn:F; [|discriminate]. injection H as <-. destruct (h_send_sds h c sid serial l) as [h' o] eqn:E. cbn [fst].
    destruct (send_spec _ _ _ _ _ _ _ W (ptr_range _ _ F) E) as (X & W' & _).
    destruct (keeps_inv _ _ _ I (ext_keeps _ _ X) W') as [I' V]. split; [exact I'|]. split; [exact (ext_keeps _ _ X)|exact V].
Qed.
Lemma run_spec ops : forall st st', inv st -> h_run st ops = Some st' ->
  inv st' /\ keeps (fst st) (fst st') /\ as_values st' = fold_left (fun v u => fst (add_data v u)) (updates st ops) (as_values st).
Proof.
  induction ops as [|o r IH]; intros [h s] st' I H; cbn [h_run updates] in *.
  - injection H as <-. split; [exact I|]. split; [apply keeps_refl|reflexivity].
  - destruct (h_step (h, s) o) as [st1|] eqn:E; [|discriminate].
    destruct (step_spec _ _ _ _ I E) as (I1 & K1 & V1). destruct (IH _ _ I1 H) as (I2 & K2 & V2). split; [exact I2|].
    split; [eapply keeps_trans; eauto|]. rewrite V2, V1, fold_left_app. reflexivity.
Qed.
Lemma inv_new keep : inv (h_new keep).
Proof. apply lists_inv; constructor. Qed.
