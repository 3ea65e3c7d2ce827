(** What a router that is some changes behind is told. *)
From Coq Require Import ZArith ZifyBool ZifyNat ZifyN.
From Verif Require Import Model.Cache Spec.Sets Spec.History Spec.Behind Proofs.DataP Proofs.CacheP.
From Coq Require Import List.
Local Open Scope list_scope.
Local Open Scope N_scope.

(** * Merging differences *)
Definition gives (l : list sd) (x : rid) (f : N) : Prop := exists d, In d l /\ rid_of d = x /\ get_flag d = f.
Lemma gives_in l x f : gives l x f -> In x (ids l).
Proof. intros (d & H & <- & _). now apply in_ids. Qed.
Lemma in_gives l x : flags01 l -> In x (ids l) -> gives l x 1 \/ gives l x 0.
Proof. intros F H. apply ids_in in H as (d & H & E). destruct (F d H); [left|right]; exists d; auto. Qed.
Lemma last_gives l x f : last_flag l x = Some f -> gives l x f.
Proof. apply last_flag_some. Qed.
Lemma gives_diff_1 n c x : gives (the_diff n c) x 1 <-> In x (ids n) /\ ~ In x (ids c).
Proof.
  split.
  - intros (d & H & <- & F). apply in_the_diff in H as [(y & H1 & H2 & ->)|(y & H1 & H2 & ->)]; rewrite rid_set_flag in *; rewrite flag_set_flag in F; [|discriminate].
    split; [now apply in_ids|exact H2].
  - intros [H1 H2]. apply ids_in in H1 as (d & H1 & <-). exists (set_flag 1 d). rewrite rid_set_flag, flag_set_flag. split; [apply in_the_diff; left; eauto|auto].
Qed.
Lemma gives_diff_0 n c x : gives (the_diff n c) x 0 <-> In x (ids c) /\ ~ In x (ids n).
Proof.
  split.
  - intros (d & H & <- & F). apply in_the_diff in H as [(y & H1 & H2 & ->)|(y & H1 & H2 & ->)]; rewrite rid_set_flag in *; rewrite flag_set_flag in F; [discriminate|].
    split; [now apply in_ids|exact H2].
  - intros [H1 H2]. apply ids_in in H1 as (d & H1 & <-). exists (set_flag 0 d). rewrite rid_set_flag, flag_set_flag. split; [apply in_the_diff; right; eauto|auto].
Qed.
Lemma gives_merge_1 e l x : Forall wf_sd e -> Forall wf_sd l -> gives (apply_diff e l) x 1 <-> gives e x 1 \/ gives l x 1 /\ ~ In x (ids e).
Proof.
  intros We Wl. split.
  - intros (d & H & <- & F). apply in_apply_diff in H as [(H1 & H2)|[(H1 & H2)|(H1 & H2 & H3)]]; auto; [right|left|congruence].
    + split; [exists d; auto|exact H2].
    + exists d. auto.
  - intros [(d & H & <- & F)|[(d & H & <- & F) N]]; exists d; (split; [apply in_apply_diff; auto|auto]).
Qed.
Lemma gives_merge_0 e l x : Forall wf_sd e -> Forall wf_sd l ->
  gives (apply_diff e l) x 0 <-> gives e x 0 /\ (last_flag l x = None \/ last_flag l x = Some 0) \/ gives l x 0 /\ ~ In x (ids e).
Proof.
  intros We Wl. split.
  - intros (d & H & <- & F). apply in_apply_diff in H as [(H1 & H2)|[(H1 & H2)|(H1 & H2 & H3)]]; auto; [right|congruence|left].
    + split; [exists d; auto|exact H2].
    + split; [exists d; auto|exact H3].
  - intros [[(d & H & <- & F) L]|[(d & H & <- & F) N]]; exists d; (split; [apply in_apply_diff; auto|auto]).
Qed.

(** * The differences of a sequence of sets *)
Fixpoint diffs (s : server) (ms : list (list sd)) : list (list sd) :=
  match ms with [] => [] | n :: r => match the_diff n (sdCurrent s) with [] => diffs s r | d => d :: diffs (add_sds_diff s d) r end end.
Lemma run_publish ms : forall s, inv s -> Forall (Forall wf_sd) ms -> run s ms = publish s (diffs s ms).
Proof.
  induction ms as [|n r IH]; intros s HI H; [reflexivity|]. inversion H as [|? ? W1 W2]; subst. cbn [run fold_left diffs].
  pose proof HI as (C1 & _). pose proof (step_inv s n HI W1) as HI'. unfold step in *. rewrite add_data_eq in * by assumption.
  destruct (the_diff n (sdCurrent s)) as [|d l]; cbn [fst] in *; [exact (IH s HI W2)|]. cbn [publish fold_left]. exact (IH _ HI' W2).
Qed.
Lemma diffs_app a : forall s b, inv s -> Forall (Forall wf_sd) a -> diffs s (a ++ b) = diffs s a ++ diffs (run s a) b.
Proof.
  induction a as [|n r IH]; intros s b HI H; [reflexivity|]. inversion H as [|? ? W1 W2]; subst. cbn [app diffs run fold_left].
  pose proof HI as (C1 & _). pose proof (step_inv s n HI W1) as HI'. unfold step in *. rewrite add_data_eq in * by assumption.
  destruct (the_diff n (sdCurrent s)) as [|d l]; cbn [fst] in *; [exact (IH s b HI W2)|]. cbn [app]. f_equal. exact (IH _ b HI' W2).
Qed.
Lemma diffs_wf ms : forall s, inv s -> Forall (Forall wf_sd) ms -> Forall (fun d => Forall wf_sd d /\ flags01 d) (diffs s ms).
Proof.
  induction ms as [|n r IH]; intros s HI H; [constructor|]. inversion H as [|? ? W1 W2]; subst. cbn [diffs].
  pose proof HI as (C1 & _). pose proof (step_inv s n HI W1) as HI'. unfold step in *. rewrite add_data_eq in * by assumption.
  destruct (the_diff n (sdCurrent s)) as [|d l] eqn:E; cbn [fst] in *; [exact (IH s HI W2)|]. constructor; [|exact (IH _ HI' W2)].
  rewrite <- E. split; [now apply the_diff_wf|]. apply the_diff_for.
Qed.
Lemma merge_wf ds : Forall (fun d => Forall wf_sd d /\ flags01 d) ds -> Forall wf_sd (merge ds) /\ flags01 (merge ds).
Proof.
  induction ds as [|e ds IH] using rev_ind; intros H; [split; [constructor|intros ? []]|]. apply Forall_app in H as [H1 H2]. inversion H2 as [|? ? [A B] _]; subst.
  destruct (IH H1) as [C D]. rewrite merge_snoc. split; [now apply wf_apply_diff|now apply flags_apply_diff].
Qed.

Definition cur_of (s : server) (ms : list (list sd)) : list sd := last ms (sdCurrent s).
Lemma run_cur s ms : inv s -> Forall (Forall wf_sd) ms -> same_set (sdCurrent (run s ms)) (cur_of s ms).
Proof.
  intros HI. destruct ms as [|n r _] using rev_ind; intros H; [apply same_set_refl|]. unfold cur_of. rewrite last_last. now apply run_set.
Qed.
Lemma flips_congr x a b r : same_set a b -> flips x (a :: r) = flips x (b :: r).
Proof.
  intros H. destruct r as [|c r]; [reflexivity|]. cbn [flips]. assert (E : mem x (ids a) = mem x (ids b)); [|now rewrite E].
  unfold mem. specialize (H x). destruct (in_dec rid_dec x (ids a)), (in_dec rid_dec x (ids b)); tauto.
Qed.
Lemma last_cons {A} (r : list A) : forall b a, last (b :: r) a = last r b.
Proof. induction r as [|c r IH]; intros b a; [reflexivity|]. change (last (b :: c :: r) a) with (last (c :: r) a). rewrite (IH c a), (IH c b). reflexivity. Qed.
Lemma flips_snoc x n r : forall a, flips x (a :: r ++ [n]) = (flips x (a :: r) + if xorb (mem x (ids (last r a))) (mem x (ids n)) then 1 else 0)%nat.
Proof.
  induction r as [|b r IH]; intros a; [cbn [flips app last]; destruct (xorb _ _); reflexivity|]. change (a :: (b :: r) ++ [n]) with (a :: b :: (r ++ [n])).
  rewrite (last_cons r b a). specialize (IH b). cbn [flips] in *. rewrite IH. destruct r; lia.
Qed.

(** What the merged differences say about a record. *)
Lemma merged_says s : inv s -> forall ms, Forall (Forall wf_sd) ms -> forall x,
  let t := flips x (sdCurrent s :: ms) in
  (gives (merge (diffs s ms)) x 1 <-> (0 < t)%nat /\ In x (ids (cur_of s ms))) /\
  (gives (merge (diffs s ms)) x 0 <-> t = 1%nat /\ ~ In x (ids (cur_of s ms))).
Proof.
  intros HI ms. induction ms as [|n r IH] using rev_ind; intros HW x; cbv zeta.
  - cbn. split; (split; [intros (d & [] & _)|lia]).
  - apply Forall_app in HW as [W1 W2]. inversion W2 as [|? ? Wn _]; subst. destruct (IH W1 x) as [I1 I0]. clear IH. cbv zeta in *.
    rewrite diffs_app by assumption. pose proof (run_inv s r HI W1) as HIr. pose proof HIr as (Cr & _). pose proof (run_cur s r HI W1 x) as HC.
    unfold cur_of at 1 2. rewrite last_last. rewrite flips_snoc. fold (cur_of s r). set (t := flips x (sdCurrent s :: r)) in *. set (M := merge (diffs s r)) in *.
    destruct (merge_wf (diffs s r) (diffs_wf r s HI W1)) as [WM FM]. fold M in WM, FM.
    assert (LM : last_flag M x = None \/ last_flag M x = Some 0 <-> ~ ((0 < t)%nat /\ In x (ids (cur_of s r)))).
    { rewrite <- I1. split.
      - intros [E|E] G; [apply last_flag_none in E; now apply E, (gives_in _ _ 1)|]. apply last_gives in E. apply I1 in G. apply I0 in E. tauto.
      - intros G. destruct (last_flag M x) as [f|] eqn:E; [right|now left]. apply last_gives in E. destruct E as (d & D1 & D2 & D3).
        destruct (FM d D1) as [F|F]; [exfalso; apply G; exists d; auto|]. f_equal. congruence. }
    assert (G1 := gives_diff_1 n (sdCurrent (run s r)) x). assert (G0 := gives_diff_0 n (sdCurrent (run s r)) x). rewrite HC in G1, G0.
    assert (XI : In x (ids (the_diff n (sdCurrent (run s r)))) <-> (In x (ids n) /\ ~ In x (ids (cur_of s r))) \/ (In x (ids (cur_of s r)) /\ ~ In x (ids n))) by (rewrite in_ids_the_diff, HC; tauto).
    assert (WE : Forall wf_sd (the_diff n (sdCurrent (run s r)))) by now apply the_diff_wf.
    assert (EM : merge (diffs s r ++ diffs (run s r) [n]) = apply_diff (the_diff n (sdCurrent (run s r))) M).
    { cbn [diffs]. destruct (the_diff n (sdCurrent (run s r))) as [|d l] eqn:E.
      - rewrite app_nil_r. unfold apply_diff. cbn [convert_map flat_map]. rewrite app_nil_r. symmetry. fold M. unfold map_has. cbn. apply flat_map_single.
      - apply merge_snoc. }
    rewrite EM, gives_merge_1, gives_merge_0, I1, I0, LM, G1, G0, XI by assumption.
    clearbody t M. clear - t. unfold mem. destruct (in_dec rid_dec x (ids (cur_of s r))) as [H1|H1], (in_dec rid_dec x (ids n)) as [H2|H2]; cbn [xorb].
    + split; [split; [intros [[_ K]|[[K _] _]]; [contradiction|split; [lia|exact H2]]|intros [K _]; right; split; [split; [lia|exact H1]|intros [[_ K']|[_ K']]; contradiction]]|].
      split; [intros [[[_ K] _]|[[_ K] _]]; contradiction|intros [_ K]; contradiction].
    + split; [split; [intros [[K _]|[_ K]]; [contradiction|exfalso; apply K; right; auto]|intros [_ K]; contradiction]|].
      split; [intros [[_ K]|[[_ K] _]]; [|contradiction]|intros [K _]; left; split; [auto|intros [K' _]; lia]].
      split; [|exact H2]. destruct t; [reflexivity|]. exfalso. apply K. split; [lia|exact H1].
    + split; [split; [intros _; split; [lia|exact H2]|intros _; left; auto]|].
      split; [intros [[[K _] _]|[_ K]]; [contradiction|exfalso; apply K; left; auto]|intros [_ K]; contradiction].
    + split; [split; [intros [[K _]|[[_ K] _]]; contradiction|intros [_ K]; contradiction]|].
      split; [intros [[[K _] _]|[[K _] _]]; [contradiction|split; [lia|exact H2]]|intros [K _]; right; split; [split; [lia|exact H1]|intros [[K' _]|[K' _]]; contradiction]].
Qed.

Lemma pick_nodup (f : sd -> list sd) l : (forall x, f x = [] \/ f x = [x]) -> NoDup (ids l) -> NoDup (ids (flat_map f l)) /\ forall x, In x (ids (flat_map f l)) -> In x (ids l).
Proof.
  intros HF. induction l as [|a l IH]; intros H; [split; [constructor|intros x []]|]. inversion H as [|? ? N1 N2]; subst. destruct (IH N2) as [A B]. cbn [flat_map].
  destruct (HF a) as [-> | ->]; cbn [app ids map] in *; [split; [exact A|intros x X; right; now apply B]|].
  split; [constructor; [intros X; now apply N1, B|exact A]|]. intros x [X|X]; [now left|right; now apply B].
Qed.
Lemma apply_nodup e l : Forall wf_sd e -> Forall wf_sd l -> NoDup (ids e) -> NoDup (ids l) -> NoDup (ids (apply_diff e l)).
Proof.
  intros We Wl Ne Nl. unfold apply_diff. unfold ids. rewrite map_app.
  match goal with |- NoDup (map rid_of (flat_map ?f l) ++ map rid_of (flat_map ?g e)) =>
    assert (HF : forall x, f x = [] \/ f x = [x]) by (intros x; cbv beta; repeat match goal with |- context [match ?c with _ => _ end] => destruct c end; auto);
    assert (HG : forall x, g x = [] \/ g x = [x]) by (intros x; cbv beta; repeat match goal with |- context [match ?c with _ => _ end] => destruct c end; auto);
    destruct (pick_nodup f l HF Nl) as [A1 _]; destruct (pick_nodup g e HG Ne) as [B1 B2] end.
  apply NoDup_app_disj; [exact A1|exact B1|]. intros x X Y. apply B2 in Y. change (In x (ids (flat_map (fun x : sd => if map_has (convert_map e) (hashkey x) then [] else [x]) l))) in X.
  apply ids_in in X as (d & X & <-). apply in_flat_map in X as (d' & X1 & X2). rewrite map_has_convert in X2 by (auto; rewrite Forall_forall in Wl; auto).
  destruct (mem (rid_of d') (ids e)) eqn:M; [destruct X2|]. destruct X2 as [<-|[]]. apply mem_not in M. contradiction.
Qed.
Lemma diffs_nodup ms : forall s, inv s -> NoDup (ids (sdCurrent s)) -> Forall (Forall wf_sd) ms -> Forall (fun n => NoDup (ids n)) ms -> Forall (fun d => NoDup (ids d)) (diffs s ms).
Proof.
  induction ms as [|n r IH]; intros s HI HN H HD; [constructor|]. inversion H as [|? ? W1 W2]; subst. inversion HD as [|? ? D1 D2]; subst. cbn [diffs].
  pose proof HI as (C1 & _). pose proof (step_inv s n HI W1) as HI'. pose proof (step_nodup s n HI W1 HN D1) as HN'. unfold step in *. rewrite add_data_eq in * by assumption.
  destruct (the_diff n (sdCurrent s)) as [|d l] eqn:E; cbn [fst] in *; [exact (IH s HI HN W2 D2)|]. constructor; [|exact (IH _ HI' HN' W2 D2)].
  rewrite <- E. unfold the_diff. unfold ids. rewrite map_app. change (map rid_of ?l) with (ids l). rewrite !ids_map_set. apply NoDup_app_disj; try now apply ids_filter_sub.
  intros x X Y. apply ids_in in X as (a & X & <-). apply ids_in in Y as (b & Y & EB). apply filter_In in X as [X1 _]. apply filter_In in Y as [_ Y].
  apply negb_true_iff, mem_not in Y. apply Y. rewrite EB. now apply in_ids.
Qed.
Lemma merge_nodup ds : Forall (fun d => Forall wf_sd d /\ flags01 d) ds -> Forall (fun d => NoDup (ids d)) ds -> NoDup (ids (merge ds)).
Proof.
  induction ds as [|e ds IH] using rev_ind; intros H N; [constructor|]. apply Forall_app in H as [H1 H2]. apply Forall_app in N as [N1 N2]. inversion H2 as [|? ? [A B] _]; subst.
  inversion N2; subst. rewrite merge_snoc. apply apply_nodup; auto. now apply merge_wf.
Qed.

(** * What the history holds *)
Lemma changing_diffs ns : forall s, inv s -> Forall (Forall wf_sd) ns -> changing (sdCurrent s :: ns) -> length (diffs s ns) = length ns.
Proof.
  induction ns as [|n r IH]; intros s HI H HC; [reflexivity|]. inversion H as [|? ? W1 W2]; subst. destruct HC as [C1 C2]. cbn [diffs].
  pose proof HI as (D1 & _). pose proof (step_inv s n HI W1) as HI'. pose proof (step_set s n HI W1) as HS. unfold step in *. rewrite add_data_eq in * by assumption.
  destruct (the_diff n (sdCurrent s)) as [|d l] eqn:E; cbn [fst] in *; [apply the_diff_nil in E; contradiction|]. cbn [length]. f_equal. apply (IH _ HI' W2).
  destruct r as [|m r]; [exact I|]. destruct C2 as [C2 C3]. split; [|exact C3]. intros X. apply C2. eapply same_set_trans; [apply same_set_sym; exact HS|exact X].
Qed.
Lemma changing_congr a b r : same_set a b -> changing (a :: r) -> changing (b :: r).
Proof. intros H. destruct r as [|c r]; [auto|]. intros [C1 C2]. split; [|exact C2]. intros X. apply C1. eapply same_set_trans; eassumption. Qed.
Lemma changing_count ns : forall c, changing (c :: ns) -> c <> [] -> Forall (fun n => n <> []) ns -> count_advances c ns = nlen ns.
Proof.
  induction ns as [|n r IH]; intros c HC HN HF; [reflexivity|]. destruct HC as [C1 C2]. inversion HF as [|? ? F1 F2]; subst. cbn [count_advances].
  rewrite (IH n C2 F1 F2). assert (E : advances c n = true); [|rewrite E; unfold nlen; cbn [length]; lia].
  unfold advances. destruct c; [contradiction|]. rewrite andb_true_r. destruct (same_setb _ n) eqn:X; [apply same_setb_eq in X; contradiction|reflexivity].
Qed.
Lemma nth_skipn {A} n : forall (l : list A) i, nth_error (skipn n l) i = nth_error l (n + i).
Proof. induction n as [|n IH]; intros [|a l] i; try reflexivity; [destruct i; reflexivity|]. apply IH. Qed.
Lemma nth_lastn {A} K (l : list A) k : (1 <= k <= K)%nat -> (k <= length l)%nat -> nth_error (lastn K l) (length (lastn K l) - k) = nth_error l (length l - k).
Proof. intros H1 H2. unfold lastn. rewrite skipn_length. rewrite nth_skipn. f_equal. lia. Qed.
Lemma lastn_app_r {A} k (a b : list A) : (k <= length b)%nat -> lastn k (a ++ b) = lastn k b.
Proof. intros H. unfold lastn. rewrite app_length, skipn_app. replace (length a + length b - k - length a)%nat with (length b - k)%nat by lia. rewrite skipn_all2 by lia. reflexivity. Qed.
Lemma covered_le k : (covered k <= k)%nat.
Proof. unfold covered. pose proof (Nat.div2_odd k) as H. destruct (Nat.odd k); cbn [Nat.b2n] in H; lia. Qed.
Lemma kept_nth ds k : (1 <= k <= length ds)%nat -> nth_error (kept ds) (length (kept ds) - k) = Some (merge (lastn (covered k) ds)).
Proof.
  intros H. unfold covered. pose proof (Nat.div2_odd k) as E. destruct (Nat.odd k); cbn [Nat.b2n] in E.
  - replace k with (2 * S (Nat.div2 k) - 1)%nat at 1 by lia. apply kept_nth_odd. lia.
  - replace k with (2 * Nat.div2 k)%nat at 1 by lia. apply kept_nth_even. lia.
Qed.

(** * The order of the merged differences *)
Lemma last_flip_le x r : forall a, (last_flip x (a :: r) <= length r)%nat.
Proof. induction r as [|b r IH]; intros a; [cbn; lia|]. specialize (IH b). change (last_flip x (a :: b :: r)) with (match last_flip x (b :: r) with O => if xorb (mem x (ids a)) (mem x (ids b)) then 1%nat else 0%nat | m => S m end). destruct (last_flip x (b :: r)); [destruct (xorb _ _)|]; cbn [length]; lia. Qed.
Lemma last_flip_cons x a b r : last_flip x (a :: b :: r) = match last_flip x (b :: r) with O => if xorb (mem x (ids a)) (mem x (ids b)) then 1%nat else 0%nat | m => S m end.
Proof. reflexivity. Qed.
Lemma last_flip_snoc x n r : forall a, last_flip x (a :: r ++ [n]) = if xorb (mem x (ids (last r a))) (mem x (ids n)) then S (length r) else last_flip x (a :: r).
Proof.
  induction r as [|b r IH]; intros a; [cbn [app last length]; rewrite last_flip_cons; cbn [last_flip]; destruct (xorb _ _); reflexivity|].
  change (a :: (b :: r) ++ [n]) with (a :: b :: (r ++ [n])). rewrite (last_cons r b a), last_flip_cons, IH, last_flip_cons.
  destruct (xorb (mem x (ids (last r b))) (mem x (ids n))); [reflexivity|]. destruct (last_flip x (b :: r)); reflexivity.
Qed.
Lemma last_flip_congr x a b r : same_set a b -> last_flip x (a :: r) = last_flip x (b :: r).
Proof.
  intros H. destruct r as [|c r]; [reflexivity|]. rewrite !last_flip_cons. assert (E : mem x (ids a) = mem x (ids b)); [|now rewrite E].
  unfold mem. specialize (H x). destruct (in_dec rid_dec x (ids a)), (in_dec rid_dec x (ids b)); tauto.
Qed.
Lemma ordp_app {A} (P : A -> A -> Prop) a b : ForallOrdPairs P a -> ForallOrdPairs P b -> (forall x y, In x a -> In y b -> P x y) -> ForallOrdPairs P (a ++ b).
Proof.
  induction a as [|z a IH]; intros HA HB H; [exact HB|]. inversion HA as [|? ? H1 H2]; subst. cbn [app]. constructor; [|apply IH; auto; intros; apply H; auto; now right].
  apply Forall_app. split; [exact H1|]. apply Forall_forall. intros y HY. apply H; [now left|exact HY].
Qed.
Lemma ordp_sub {A} (P : A -> A -> Prop) (g : A -> list A) l : (forall x, g x = [] \/ g x = [x]) -> ForallOrdPairs P l -> ForallOrdPairs P (flat_map g l).
Proof.
  intros G. assert (S : forall m y, In y (flat_map g m) -> In y m).
  { intros m y H. apply in_flat_map in H as (z & Z1 & Z2). destruct (G z) as [E|E]; rewrite E in Z2; [destruct Z2|destruct Z2 as [<-|[]]; exact Z1]. }
  induction 1 as [|x l H1 H2 IH]; [constructor|]. cbn [flat_map]. destruct (G x) as [->| ->]; [exact IH|]. cbn [app]. constructor; [|exact IH].
  rewrite Forall_forall in *. intros y HY. apply H1, S, HY.
Qed.
Lemma ordp_impl {A} (P Q : A -> A -> Prop) l : (forall x y, In x l -> In y l -> P x y -> Q x y) -> ForallOrdPairs P l -> ForallOrdPairs Q l.
Proof.
  intros H HP. revert H. induction HP as [|x l H1 H2 IH]; intros H; [constructor|]. constructor; [|apply IH; intros; apply H; auto; now right].
  rewrite Forall_forall in *. intros y HY. apply H; [now left|now right|auto].
Qed.
Lemma the_diff_ord new cur : ForallOrdPairs (fun e f => get_flag f = 1 -> get_flag e = 1) (the_diff new cur).
Proof.
  assert (U : forall (P : sd -> sd -> Prop) l, (forall x y, In x l -> In y l -> P x y) -> ForallOrdPairs P l).
  { intros P l. induction l as [|x l IH]; intros H; constructor; [|apply IH; intros; apply H; now right]. apply Forall_forall. intros y HY. apply H; [now left|now right]. }
  assert (F1 : forall l x, In x (map (set_flag 1) l) -> get_flag x = 1) by (intros l x HX; apply in_map_iff in HX as (e & <- & _); now destruct e).
  assert (F0 : forall l x, In x (map (set_flag 0) l) -> get_flag x = 0) by (intros l x HX; apply in_map_iff in HX as (e & <- & _); now destruct e).
  unfold the_diff. apply ordp_app; [apply U|apply U|]; intros x y HX HY E; try (apply F0 in HY; congruence); now apply F1 in HX.
Qed.
Lemma merged_order s : inv s -> forall ms, Forall (Forall wf_sd) ms -> by_change (sdCurrent s :: ms) (merge (diffs s ms)).
Proof.
  intros HI ms. induction ms as [|n r IH] using rev_ind; intros HW; [constructor|].
  apply Forall_app in HW as [W1 W2]. inversion W2 as [|? ? Wn _]; subst. specialize (IH W1).
  rewrite diffs_app by assumption. pose proof (run_inv s r HI W1) as HIr. pose proof HIr as (Cr & _). pose proof (run_cur s r HI W1) as HC. unfold cur_of in HC.
  destruct (merge_wf (diffs s r) (diffs_wf r s HI W1)) as [WM FM]. set (M := merge (diffs s r)) in *.
  assert (WE : Forall wf_sd (the_diff n (sdCurrent (run s r)))) by now apply the_diff_wf.
  assert (EM : merge (diffs s r ++ diffs (run s r) [n]) = apply_diff (the_diff n (sdCurrent (run s r))) M).
  { cbn [diffs]. destruct (the_diff n (sdCurrent (run s r))) as [|d l] eqn:E.
    - rewrite app_nil_r. unfold apply_diff. cbn [convert_map flat_map]. rewrite app_nil_r. symmetry. fold M. unfold map_has. cbn. apply flat_map_single.
    - apply merge_snoc. }
  rewrite EM. set (E := the_diff n (sdCurrent (run s r))) in *.
  assert (XI : forall x, In x (ids E) <-> xorb (mem x (ids (last r (sdCurrent s)))) (mem x (ids n)) = true).
  { intros x. unfold E. rewrite in_ids_the_diff, (HC x). unfold mem. destruct (in_dec rid_dec x (ids (last r (sdCurrent s)))), (in_dec rid_dec x (ids n)); cbn [xorb]; intuition discriminate. }
  assert (T1 : forall z, In (rid_of z) (ids E) -> last_flip (rid_of z) (sdCurrent s :: r ++ [n]) = S (length r)).
  { intros z HZ. rewrite last_flip_snoc. apply XI in HZ. now rewrite HZ. }
  assert (T0 : forall z, ~ In (rid_of z) (ids E) -> last_flip (rid_of z) (sdCurrent s :: r ++ [n]) = last_flip (rid_of z) (sdCurrent s :: r)).
  { intros z HZ. rewrite last_flip_snoc. destruct (xorb _ _) eqn:X; [apply XI in X; contradiction|reflexivity]. }
  unfold by_change, apply_diff. cbv zeta.
  assert (A : forall z, In z (flat_map (fun x => if map_has (convert_map E) (hashkey x) then [] else [x]) M) -> In z M /\ ~ In (rid_of z) (ids E)).
  { intros z HZ. apply in_flat_map in HZ as (y & Y1 & Y2). rewrite map_has_convert in Y2 by (try assumption; rewrite Forall_forall in WM; auto).
    destruct (mem (rid_of y) (ids E)) eqn:Y; [destruct Y2|]. destruct Y2 as [<-|[]]. split; [exact Y1|]. now apply mem_not. }
  match goal with |- ForallOrdPairs _ (_ ++ flat_map ?g E) => assert (B : forall x, g x = [] \/ g x = [x]) end.
  { intros x. destruct (get_flag x =? FLAG_ADDED); [now right|]. destruct (get_flag x =? FLAG_REMOVED); [|now left]. destruct (map_get _ _) as [f|]; [destruct (f =? FLAG_REMOVED)|]; auto. }
  assert (C : forall g, (forall x : sd, g x = [] \/ g x = [x]) -> forall z, In z (flat_map g E) -> In (rid_of z) (ids E)).
  { intros g G z HZ. apply in_flat_map in HZ as (y & Y1 & Y2). destruct (G y) as [F|F]; rewrite F in Y2; [destruct Y2|]. destruct Y2 as [<-|[]]. now apply in_ids. }
  apply ordp_app.
  - apply (ordp_impl (fun e f => (last_flip (rid_of e) (sdCurrent s :: r) < last_flip (rid_of f) (sdCurrent s :: r))%nat \/
      last_flip (rid_of e) (sdCurrent s :: r) = last_flip (rid_of f) (sdCurrent s :: r) /\ (get_flag f = 1 -> get_flag e = 1))).
    + intros x y HX HY. apply A in HX as [_ HX]. apply A in HY as [_ HY]. rewrite (T0 x HX), (T0 y HY). auto.
    + apply ordp_sub; [|exact IH]. intros x. destruct (map_has _ _); auto.
  - apply (ordp_impl (fun e f => get_flag f = 1 -> get_flag e = 1)); [|apply ordp_sub; [exact B|apply the_diff_ord]].
    intros x y HX HY P. right. rewrite (T1 x (C _ B x HX)), (T1 y (C _ B y HY)). auto.
  - intros x y HX HY. left. apply A in HX as [_ HX]. rewrite (T0 x HX), (T1 y (C _ B y HY)). pose proof (last_flip_le (rid_of x) r (sdCurrent s)). lia.
Qed.

Theorem behind_all keep h ns : let s1 := run (new_server keep) h in let s2 := run s1 ns in let k := length ns in
  Forall (Forall wf_sd) (h ++ ns) -> last h [] <> [] -> Forall (fun n => n <> []) ns -> changing (last h [] :: ns) -> sdCurrentSerial s1 + nlen ns < 4294967296 ->
  if ((0 <? keep) && (keep <? Z.of_nat k))%Z then get_sds_serial_diff s2 (sdCurrentSerial s1) = Err tt
  else exists d, get_sds_serial_diff s2 (sdCurrentSerial s1) = Ok d /\ by_change (recent k (last h [] :: ns)) d /\ flags01 d /\ (Forall (fun n => NoDup (ids n)) (h ++ ns) -> NoDup (ids d)) /\ forall x, let t := flips x (recent k (last h [] :: ns)) in
    (gives d x 1 <-> (0 < t)%nat /\ In x (ids (last ns (last h [])))) /\ (gives d x 0 <-> t = 1%nat /\ ~ In x (ids (last ns (last h [])))).
Proof.
  intros s1 s2 k HW HN HF HC HM. apply Forall_app in HW as [W1 W2].
  assert (HI : inv s1) by (apply run_inv; auto using inv_new).
  assert (HS : same_set (sdCurrent s1) (last h [])).
  { pose proof (run_cur (new_server keep) h (inv_new keep) W1) as X. exact X. }
  assert (NE : sdCurrent s1 <> []) by (intros E; rewrite E in HS; apply same_set_sym, same_set_nil in HS; contradiction).
  assert (HC1 : changing (sdCurrent s1 :: ns)) by (apply (changing_congr (last h [])); [now apply same_set_sym|exact HC]).
  assert (SER : sdCurrentSerial s2 = sdCurrentSerial s1 + nlen ns).
  { unfold s2. rewrite run_serial by assumption. rewrite (changing_count ns _ HC1 NE HF). apply N.mod_small. lia. }
  assert (HD : sdListDiff s2 = if (0 <? keep)%Z then lastn (Z.to_nat keep) (kept (diffs (new_server keep) h ++ diffs s1 ns)) else kept (diffs (new_server keep) h ++ diffs s1 ns)).
  { unfold s2, s1. rewrite <- run_app, run_publish by (try apply Forall_app; auto using inv_new). rewrite history_shape.
    - rewrite diffs_app by auto using inv_new. reflexivity.
    - eapply Forall_impl; [|apply diffs_wf; [apply inv_new|apply Forall_app; auto]]. cbn. tauto. }
  pose proof (changing_diffs ns s1 HI W2 HC1) as LD. fold k in LD. set (D1 := diffs (new_server keep) h) in *. set (D2 := diffs s1 ns) in *.
  assert (LK : length (kept (D1 ++ D2)) = (2 * (length D1 + k))%nat) by (rewrite kept_length, app_length, LD; lia).
  destruct ((0 <? keep) && (keep <? Z.of_nat k))%Z eqn:EK.
  { apply serial_diff_err. right. rewrite SER. unfold nlen. fold k. split; [lia|]. rewrite HD. destruct (0 <? keep)%Z eqn:E0; [|discriminate EK]. rewrite lastn_length, LK. lia. }
  assert (LJ : (covered k <= length D2)%nat) by (rewrite LD; apply covered_le).
  set (a := firstn (k - covered k) ns). set (b := skipn (k - covered k) ns). pose proof (firstn_skipn (k - covered k) ns) as AB. fold a b in AB.
  assert (Wab : Forall (Forall wf_sd) a /\ Forall (Forall wf_sd) b) by (rewrite <- AB in W2; now apply Forall_app in W2). destruct Wab as [Wa Wb].
  assert (La : length a = (k - covered k)%nat) by (unfold a; rewrite firstn_length; fold k; lia).
  assert (Lb : length b = covered k) by (unfold b; rewrite skipn_length; fold k; pose proof (covered_le k); lia).
  assert (HIa : inv (run s1 a)) by now apply run_inv.
  assert (CUR : same_set (sdCurrent (run s1 a)) (last a (last h []))).
  { pose proof (run_cur s1 a HI Wa) as X. unfold cur_of in X. destruct a as [|n r _] using rev_ind; [exact HS|]. rewrite last_last in *. exact X. }
  assert (REC : recent k (last h [] :: ns) = last a (last h []) :: b).
  { unfold recent, lastn. cbn [length]. fold k. replace (S k - S (covered k))%nat with (length a) by (pose proof (covered_le k); lia).
    rewrite <- AB. clear. generalize (last h []). induction a as [|n r IH]; intros c; [reflexivity|]. rewrite last_cons. cbn [length app skipn]. apply (IH n). }
  assert (LAST : last ns (last h []) = last b (last a (last h []))).
  { rewrite <- AB. clear. generalize (last h []). induction a as [|n r IH]; intros c; [reflexivity|]. cbn [app]. rewrite !last_cons. apply IH. }
  assert (DB : lastn (covered k) (D1 ++ D2) = diffs (run s1 a) b).
  { rewrite lastn_app_r by exact LJ. unfold D2. rewrite <- AB, diffs_app by assumption.
    assert (LB : length (diffs (run s1 a) b) = covered k).
    { rewrite <- Lb. apply changing_diffs; [assumption|assumption|].
      assert (X : forall r c, changing (c :: r ++ b) -> changing (last r c :: b)) by (clear; induction r as [|n r IH]; intros c H; [exact H|rewrite last_cons; apply IH; destruct H; assumption]).
      apply (changing_congr (last a (last h []))); [now apply same_set_sym|]. apply X. rewrite AB. exact HC. }
    rewrite lastn_app_r by lia. apply lastn_all. lia. }
  exists (merge (diffs (run s1 a) b)). split; [|split; [|split; [|split]]].
  - destruct (Nat.eq_dec k 0) as [K0|K0].
    + unfold k in K0. destruct ns; [|discriminate K0]. unfold s2. cbn [run fold_left]. rewrite serial_diff_cur. unfold b. rewrite skipn_nil. reflexivity.
    + unfold get_sds_serial_diff. rewrite SER. replace (sdCurrentSerial s1 =? sdCurrentSerial s1 + nlen ns) with false by (unfold nlen; fold k; lia).
      replace (sdCurrentSerial s1 + nlen ns <? sdCurrentSerial s1) with false by lia. cbv zeta. replace (sdCurrentSerial s1 + nlen ns - sdCurrentSerial s1) with (nlen ns) by lia.
      replace (N.to_nat (nlen ns)) with k by (unfold nlen, k; lia).
      assert (NL : nlen (sdListDiff s2) <? nlen ns = false) by (unfold nlen; fold k; rewrite HD; destruct (0 <? keep)%Z eqn:E0; [rewrite lastn_length|]; rewrite LK; lia). rewrite NL.
      assert (NT : nth_error (sdListDiff s2) (length (sdListDiff s2) - k) = Some (merge (diffs (run s1 a) b))); [|now rewrite NT].
      rewrite HD, <- DB. destruct (0 <? keep)%Z eqn:E0; [rewrite nth_lastn by lia|]; apply kept_nth; rewrite app_length; lia.
  - rewrite REC. pose proof (merged_order (run s1 a) HIa b Wb) as X. unfold by_change in *. cbv zeta in *. eapply ordp_impl; [|exact X].
    intros e f _ _ P. cbv beta in P. rewrite <- !(last_flip_congr _ _ _ b CUR). exact P.
  - apply merge_wf. now apply diffs_wf.
  - intros ND. apply Forall_app in ND as [N1 N2]. assert (Nab : Forall (fun n => NoDup (ids n)) a /\ Forall (fun n => NoDup (ids n)) b) by (rewrite <- AB in N2; now apply Forall_app in N2).
    destruct Nab as [Na Nb]. apply merge_nodup; [now apply diffs_wf|]. apply diffs_nodup; auto. apply run_nodup; auto. apply run_nodup; auto using inv_new. constructor.
  - intros x. rewrite REC, LAST. pose proof (merged_says (run s1 a) HIa b Wb x) as X. cbv zeta in X. rewrite (flips_congr x _ _ b CUR) in X.
    assert (CO : In x (ids (cur_of (run s1 a) b)) <-> In x (ids (last b (last a (last h []))))).
    { unfold cur_of. destruct b as [|n r _] using rev_ind; [apply CUR|]. rewrite !last_last. reflexivity. }
    rewrite CO in X. exact X.
Qed.
Theorem behind keep h ns : let s1 := run (new_server keep) h in let s2 := run s1 ns in let k := length ns in
  Forall (Forall wf_sd) (h ++ ns) -> last h [] <> [] -> Forall (fun n => n <> []) ns -> changing (last h [] :: ns) -> sdCurrentSerial s1 + nlen ns < 4294967296 ->
  if ((0 <? keep) && (keep <? Z.of_nat k))%Z then get_sds_serial_diff s2 (sdCurrentSerial s1) = Err tt
  else exists d, get_sds_serial_diff s2 (sdCurrentSerial s1) = Ok d /\ flags01 d /\ (Forall (fun n => NoDup (ids n)) (h ++ ns) -> NoDup (ids d)) /\ forall x, let t := flips x (recent k (last h [] :: ns)) in
    (gives d x 1 <-> (0 < t)%nat /\ In x (ids (last ns (last h [])))) /\ (gives d x 0 <-> t = 1%nat /\ ~ In x (ids (last ns (last h [])))).
Proof.
  intros s1 s2 k HW HN HF HC HM. pose proof (behind_all keep h ns HW HN HF HC HM) as B. cbv zeta in B. fold s1 s2 k in B.
  destruct (_ && _)%Z; [exact B|]. destruct B as (d & E & _ & R). exists d. auto.
Qed.

(** What the router has afterwards, whether that is right, and whether it complains. *)
Lemma told_set d R x t (I : Prop) : flags01 d -> {I} + {~ I} -> (gives d x 1 <-> (0 < t)%nat /\ I) -> (gives d x 0 <-> t = 1%nat /\ ~ I) ->
  r_apply R d x <-> if Nat.eqb t 0 then R x else I \/ t <> 1%nat /\ R x.
Proof.
  intros F DI G1 G0. rewrite r_apply_last by exact F. destruct (last_flag d x) as [f|] eqn:E.
  - apply last_gives in E. pose proof E as (e & E1 & E2 & E3). destruct (F e E1) as [X|X]; rewrite X in E3; subst f.
    + apply G1 in E as [T H]. destruct (Nat.eqb t 0) eqn:T0; [apply Nat.eqb_eq in T0; lia|]. tauto.
    + apply G0 in E as [T H]. subst t. cbn [Nat.eqb]. split; [discriminate|]. intros [H'|[H' _]]; contradiction.
  - apply last_flag_none in E. destruct (Nat.eqb t 0) eqn:T0; [tauto|]. apply Nat.eqb_neq in T0.
    assert (N1 : ~ I) by (intros H; apply E, (gives_in _ _ 1), G1; split; [lia|exact H]).
    assert (N0 : t <> 1%nat) by (intros H; apply E, (gives_in _ _ 0), G0; auto). tauto.
Qed.
