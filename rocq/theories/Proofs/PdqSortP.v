(** The model of sort.Slice sorts, for any comparison between < and <= of a total
    preorder. *)
From Coq Require Import ZArith ZifyBool ZifyNat ZifyN.
From Verif Require Export Model.PdqSort.
From Coq Require Import List Arith Bool Lia Permutation.
Import ListNotations.
Ltac Zify.zify_post_hook ::= Z.div_mod_to_equations.

Section P.
Context {A : Type} (less : A -> A -> bool) (le : A -> A -> Prop) (D : A -> Prop).
Context (le_trans : forall x y z, le x y -> le y z -> le x z)
        (le_refl : forall x, le x x)
        (less_le : forall x y, D x -> D y -> less x y = true -> le x y)
        (nless_le : forall x y, D x -> D y -> less x y = false -> le y x).
Context (n : nat).

Definition dom (f : nat -> A) := forall k, k < n -> D (f k).
Definition equiv x y := le x y /\ le y x.
Definition sorted a b (f : nat -> A) := forall i j, a <= i -> i <= j -> j < b -> le (f i) (f j).

Lemma swap_l (f : nat -> A) i j : swap f i j i = f j.
Proof. unfold swap. now rewrite Nat.eqb_refl. Qed.
Lemma swap_r (f : nat -> A) i j : swap f i j j = f i.
Proof. unfold swap. rewrite Nat.eqb_refl. destruct (j =? i) eqn:E; auto. apply Nat.eqb_eq in E. now subst. Qed.
Lemma swap_o (f : nat -> A) i j k : k <> i -> k <> j -> swap f i j k = f k.
Proof. intros H1 H2. unfold swap. apply Nat.eqb_neq in H1, H2. now rewrite H1, H2. Qed.

(** Swaps within [a,b), or of equivalent elements before b. *)
Inductive reach (a b : nat) : (nat -> A) -> (nat -> A) -> Prop :=
| r_refl f : reach a b f f
| r_in f g i j : a <= i < b -> a <= j < b -> reach a b (swap f i j) g -> reach a b f g
| r_eq f g i j : i < b -> j < b -> equiv (f i) (f j) -> reach a b (swap f i j) g -> reach a b f g.

Lemma reach_trans a b f g h : reach a b f g -> reach a b g h -> reach a b f h.
Proof. induction 1; intros; eauto using r_in, r_eq. Qed.
Lemma reach_one a b f i j : a <= i < b -> a <= j < b -> reach a b f (swap f i j).
Proof. intros. apply r_in with i j; auto. apply r_refl. Qed.
Lemma reach_mono a b a' b' f g : a' <= a -> b <= b' -> reach a b f g -> reach a' b' f g.
Proof.
  intros H1 H2. induction 1; [apply r_refl| |].
  - apply r_in with i j; auto; lia.
  - apply r_eq with i j; auto; lia.
Qed.
Lemma swap_cases (P : A -> Prop) (f : nat -> A) i j k : P (f i) -> P (f j) -> P (f k) -> P (swap f i j k).
Proof. intros. unfold swap. destruct (k =? i), (k =? j); auto. Qed.
Lemma reach_dom a b f g : b <= n -> reach a b f g -> dom f -> dom g.
Proof.
  intros Hb. induction 1; intros Hd; auto; apply IHreach; intros k Hk; apply swap_cases; apply Hd; lia.
Qed.
(** A property of all elements of the part, not distinguishing equivalent ones. *)
Lemma reach_all (P : A -> Prop) a b f g : (forall x y, equiv x y -> P x -> P y) -> reach a b f g ->
  (forall k, a <= k < b -> P (f k)) -> forall k, a <= k < b -> P (g k).
Proof.
  intros HP. induction 1 as [f|f g i j Hi Hj HR IH|f g i j Hi Hj HE HR IH]; intros H k Hk; auto.
  - apply IH; auto. intros m Hm. apply swap_cases; auto.
  - apply IH; auto. intros m Hm. unfold swap.
    destruct (m =? i) eqn:E1; [apply Nat.eqb_eq in E1; subst; apply HP with (f i); auto|].
    destruct (m =? j) eqn:E2; [apply Nat.eqb_eq in E2; subst; apply HP with (f j); auto; destruct HE; split; auto|]. auto.
Qed.
Lemma equiv_refl x : equiv x x. Proof. split; auto. Qed.
Lemma equiv_trans x y z : equiv x y -> equiv y z -> equiv x z.
Proof. intros [? ?] [? ?]; split; eauto. Qed.
Lemma equiv_sym x y : equiv x y -> equiv y x. Proof. intros [? ?]; split; auto. Qed.
Lemma reach_out a b f g : reach a b f g -> forall k, k < a \/ b <= k -> equiv (f k) (g k).
Proof.
  induction 1 as [f|f g i j Hi Hj HR IH|f g i j Hi Hj HE HR IH]; intros k Hk; [apply equiv_refl| |].
  - specialize (IH k Hk). rewrite swap_o in IH by lia. auto.
  - eapply equiv_trans; [|apply IH; auto]. unfold swap.
    destruct (k =? i) eqn:E1; [apply Nat.eqb_eq in E1; subst; auto|].
    destruct (k =? j) eqn:E2; [apply Nat.eqb_eq in E2; subst; apply equiv_sym; auto|]. apply equiv_refl.
Qed.
Lemma swap_perm (f : nat -> A) i j : i < n -> j < n -> Permutation (map (swap f i j) (seq 0 n)) (map f (seq 0 n)).
Proof.
  intros Hi Hj. pose (s := fun k => if k =? i then j else if k =? j then i else k).
  assert (E : map (swap f i j) (seq 0 n) = map f (map s (seq 0 n))).
  { rewrite map_map. apply map_ext. intros k. unfold swap, s. destruct (k =? i), (k =? j); auto. }
  rewrite E. apply Permutation_map. apply NoDup_Permutation.
  - apply FinFun.Injective_map_NoDup; [|apply seq_NoDup]. intros x y. unfold s.
    destruct (x =? i) eqn:E1, (y =? i) eqn:E2, (x =? j) eqn:E3, (y =? j) eqn:E4; lia.
  - apply seq_NoDup.
  - intros x. rewrite in_map_iff, in_seq. split.
    + intros (y & <- & Hy). apply in_seq in Hy. unfold s. destruct (y =? i), (y =? j); lia.
    + intros Hx. exists (s x). rewrite in_seq. unfold s. destruct (x =? i) eqn:E1; destruct (x =? j) eqn:E2;
        repeat match goal with |- context [?u =? ?v] => destruct (u =? v) eqn:? end; lia.
Qed.
Lemma reach_perm a b f g : b <= n -> reach a b f g -> Permutation (map g (seq 0 n)) (map f (seq 0 n)).
Proof.
  intros Hb. induction 1; auto; (eapply Permutation_trans; [exact IHreach|apply swap_perm; lia]).
Qed.
Lemma sorted_reach a b c d f g : reach c d f g -> (b <= c \/ d <= a) -> sorted a b f -> sorted a b g.
Proof.
  intros HR Hd HS i j H1 H2 H3. destruct (reach_out _ _ _ _ HR i ltac:(lia)) as [E1 E2].
  destruct (reach_out _ _ _ _ HR j ltac:(lia)) as [E3 E4]. eauto.
Qed.

(** * Insertion *)
Definition low a b (f : nat -> A) := forall x y, x < a -> a <= y < b -> le (f x) (f y).

Lemma sink_reach_in lo j f a b : a <= lo -> j < b -> reach a b f (sink less lo j f).
Proof.
  intros Hlo. revert f. induction j as [|i IH]; intros f Hj; cbn [sink]; [apply r_refl|].
  destruct ((lo <? S i) && less (f (S i)) (f i)) eqn:E; [|apply r_refl].
  apply andb_prop in E. destruct E as [E1 E2]. apply Nat.ltb_lt in E1.
  apply r_in with (S i) i; try lia. apply IH. lia.
Qed.
Lemma sink_reach_0 j f a b : j < b -> b <= n -> dom f -> (forall k, k < a -> k < j -> le (f k) (f j)) ->
  reach a b f (sink less 0 j f).
Proof.
  revert f. induction j as [|i IH]; intros f Hj Hb Hd HL; cbn [sink]; [apply r_refl|].
  destruct ((0 <? S i) && less (f (S i)) (f i)) eqn:E; [|apply r_refl].
  apply andb_prop in E. destruct E as [E1 E2].
  assert (HR : reach a b (swap f (S i) i) (sink less 0 i (swap f (S i) i))).
  { apply IH; [lia|auto| |].
    - intros k Hk. apply swap_cases; apply Hd; lia.
    - intros k H1 H2. rewrite swap_r, swap_o by lia. apply HL; lia. }
  destruct (le_lt_dec a i).
  - apply r_in with (S i) i; auto; lia.
  - apply r_eq with (S i) i; auto; try lia. split.
    + apply less_le; auto; apply Hd; lia.
    + apply HL; lia.
Qed.
Lemma sink_above lo j f k : j < k -> sink less lo j f k = f k.
Proof.
  revert f. induction j as [|i IH]; intros f Hk; cbn [sink]; auto.
  destruct ((lo <? S i) && _); auto. rewrite IH by lia. apply swap_o; lia.
Qed.
(** The element at j is on its way left; the rest of [a,m) is sorted. *)
Lemma sink_sorted lo a j m f : lo <= a -> a <= j < m -> m <= n -> dom f ->
  (lo = a \/ low a m f) ->
  (forall p q, a <= p -> p <= q -> q < m -> p <> j -> q <> j -> le (f p) (f q)) ->
  (forall q, j < q < m -> le (f j) (f q)) ->
  sorted a m (sink less lo j f).
Proof.
  intros Hlo. revert f. induction j as [|i IH]; intros f Hj Hm Hd HL H1 H2; cbn [sink].
  - intros p q Hp Hpq Hq. destruct (Nat.eq_dec p 0) as [->|]; [destruct (Nat.eq_dec q 0) as [->|]; [auto|apply H2; lia]|].
    apply H1; lia.
  - destruct ((lo <? S i) && less (f (S i)) (f i)) eqn:E.
    + apply andb_prop in E. destruct E as [E1 E2]. apply Nat.ltb_lt in E1.
      assert (HE : le (f (S i)) (f i)) by (apply less_le; auto; apply Hd; lia).
      destruct (le_lt_dec a i) as [Ha|Ha].
      * apply IH; [lia|auto| | | |].
        -- intros k Hk. apply swap_cases; apply Hd; lia.
        -- destruct HL as [HL|HL]; auto. right. intros x y Hx Hy. rewrite (swap_o _ _ _ x) by lia. apply swap_cases; auto; apply HL; lia.
        -- intros p q Hp Hpq Hq Np Nq. unfold swap.
           destruct (p =? S i) eqn:Ep; destruct (q =? S i) eqn:Eq.
           ++ auto.
           ++ replace (q =? i) with false by lia. apply H1; lia.
           ++ replace (p =? i) with false by lia. apply H1; lia.
           ++ replace (p =? i) with false by lia. replace (q =? i) with false by lia. apply H1; lia.
        -- intros q Hq. rewrite swap_r. unfold swap. destruct (q =? S i) eqn:Eq; [auto|].
           replace (q =? i) with false by lia. apply H2. lia.
      * assert (a = S i) by lia. destruct HL as [HL|HL]; [lia|].
        assert (HQ : equiv (f (S i)) (f i)) by (split; auto; apply HL; lia).
        assert (HG : forall k, a <= k -> k < m -> equiv (sink less lo i (swap f (S i) i) k) (f k)).
        { intros k Hk _. rewrite sink_above by lia. unfold swap. destruct (k =? S i) eqn:Ek.
          - apply Nat.eqb_eq in Ek. subst k. now apply equiv_sym.
          - replace (k =? i) with false by lia. apply equiv_refl. }
        intros p q Hp Hpq Hq. destruct (HG p Hp ltac:(lia)) as [G1 G2], (HG q ltac:(lia) Hq) as [G3 G4].
        apply le_trans with (f p); auto. apply le_trans with (f q); auto.
        destruct (Nat.eq_dec p (S i)) as [->|]; [destruct (Nat.eq_dec q (S i)) as [->|]; [auto|apply H2; lia]|].
        apply H1; lia.
    + intros p q Hp Hpq Hq. destruct (Nat.eq_dec q (S i)) as [->|Nq].
      * destruct (Nat.eq_dec p (S i)) as [->|Np]; auto.
        assert (HE : le (f i) (f (S i))).
        { destruct (lo <? S i) eqn:E1; [|lia]. apply nless_le; auto; apply Hd; lia. }
        apply le_trans with (f i); auto. apply H1; lia.
      * destruct (Nat.eq_dec p (S i)) as [->|Np]; [apply H2; lia|]. apply H1; lia.
Qed.
Lemma insertion_ok a b f : a <= b <= n -> dom f ->
  reach a b f (insertion_sort less a b f) /\ sorted a b (insertion_sort less a b f).
Proof.
  intros Hb Hd. unfold insertion_sort.
  assert (G : forall k i f, i + k = b -> a < i -> dom f -> sorted a i f ->
     reach a b f (fold_left (fun f i => sink less a i f) (seq i k) f) /\
     sorted a b (fold_left (fun f i => sink less a i f) (seq i k) f)).
  { clear f Hd. induction k as [|k IH]; intros i f Hi Ha Hd HS; cbn [seq fold_left].
    - split; [apply r_refl|]. now replace b with i by lia.
    - assert (HR : reach a b f (sink less a i f)) by (apply sink_reach_in; lia).
      destruct (IH (S i) (sink less a i f)) as [I1 I2]; try lia.
      + eapply reach_dom; [|exact HR|auto]. lia.
      + apply sink_sorted; auto; try (intros; lia). intros p q H1 H2 H3 H4 H5. apply HS; lia.
      + split; auto. eapply reach_trans; eauto. }
  destruct (le_lt_dec b a).
  - replace (b - (a + 1)) with 0 by lia. cbn. split; [apply r_refl|]. intros i j; lia.
  - apply G; auto; try lia. intros i j H1 H2 H3. replace j with i by lia. auto.
Qed.

(** * Heap *)
Definition kid r c := c = 2 * r + 1 \/ c = 2 * r + 2.
Definition heap lo hi a (f : nat -> A) := forall r c, lo <= r -> kid r c -> c < hi -> le (f (a + c)) (f (a + r)).

Lemma sift_reach fuel root hi a f : root < hi -> reach a (a + hi) f (sift_down less fuel root hi a f).
Proof.
  revert root f. induction fuel as [|k IH]; intros root f Hr; cbn [sift_down]; [apply r_refl|].
  destruct (hi <=? 2 * root + 1) eqn:E1; [apply r_refl|]. apply Nat.leb_gt in E1.
  match goal with |- context [if ?b then (2 * root + 1 + 1) else _] => destruct b eqn:E2 end;
    match goal with |- context [negb ?b] => destruct b eqn:E3 end; cbn [negb]; try apply r_refl.
  - apply andb_prop in E2. destruct E2 as [E2 _]. apply Nat.ltb_lt in E2.
    eapply r_in; [| |apply IH; lia]; lia.
  - eapply r_in; [| |apply IH; lia]; lia.
Qed.
Lemma sift_heap fuel lo root hi a f : hi <= fuel + root -> a + hi <= n -> dom f -> lo <= root ->
  (forall r c, lo <= r -> r <> root -> kid r c -> c < hi -> le (f (a + c)) (f (a + r))) ->
  (forall r c, lo <= r -> kid r root -> kid root c -> c < hi -> le (f (a + c)) (f (a + r))) ->
  heap lo hi a (sift_down less fuel root hi a f).
Proof.
  revert root f. induction fuel as [|k IH]; intros root f Hf Hn Hd Hlo H1 H2; cbn [sift_down].
  - intros r c Hr Hk Hc. apply H1; auto. unfold kid in Hk. lia.
  - destruct (hi <=? 2 * root + 1) eqn:E1.
    { apply Nat.leb_le in E1. intros r c Hr Hk Hc. apply H1; auto. unfold kid in Hk. lia. }
    apply Nat.leb_gt in E1.
    set (ch := if (2 * root + 1 + 1 <? hi) && less (f (a + (2 * root + 1))) (f (a + (2 * root + 1) + 1)) then 2 * root + 1 + 1 else 2 * root + 1).
    assert (Hch : kid root ch /\ ch < hi /\ forall c, kid root c -> c < hi -> le (f (a + c)) (f (a + ch))).
    { subst ch. destruct (2 * root + 1 + 1 <? hi) eqn:E2; cbn [andb].
      - apply Nat.ltb_lt in E2.
        destruct (less (f (a + (2 * root + 1))) (f (a + (2 * root + 1) + 1))) eqn:E3.
        + apply less_le in E3; try (apply Hd; lia). split; [unfold kid; lia|split; [lia|]].
          intros c [->| ->] Hc.
          * now replace (a + (2 * root + 1 + 1)) with (a + (2 * root + 1) + 1) by lia.
          * replace (a + (2 * root + 1 + 1)) with (a + (2 * root + 2)) by lia. auto.
        + apply nless_le in E3; try (apply Hd; lia). split; [unfold kid; lia|split; [lia|]].
          intros c [->| ->] Hc; [auto|]. now replace (a + (2 * root + 2)) with (a + (2 * root + 1) + 1) by lia.
      - apply Nat.ltb_ge in E2. split; [unfold kid; lia|split; [lia|]].
        intros c [->| ->] Hc; [auto|lia]. }
    clearbody ch. destruct Hch as (K1 & K2 & K3).
    destruct (less (f (a + root)) (f (a + ch))) eqn:E3; cbn [negb].
    + apply less_le in E3; [|apply Hd; unfold kid in K1; lia|apply Hd; lia].
      apply IH; [unfold kid in K1; lia|auto| |unfold kid in K1; lia| |].
      * intros j Hj. apply swap_cases; apply Hd; auto; unfold kid in K1; lia.
      * intros r c Hr Nr Hk Hc. destruct (Nat.eq_dec r root) as [->|Nr'].
        -- rewrite swap_l. destruct (Nat.eq_dec c ch) as [->|Nc]; [now rewrite swap_r|].
           rewrite swap_o by (unfold kid in *; lia). auto.
        -- rewrite (swap_o _ _ _ (a + r)) by lia. destruct (Nat.eq_dec c root) as [->|Nc]; [rewrite swap_l; auto|].
           rewrite swap_o by (unfold kid in *; lia). auto.
      * intros r c Hr Hk1 Hk2 Hc. assert (r = root) by (unfold kid in *; lia). subst r. rewrite swap_l.
        rewrite swap_o by (unfold kid in *; lia). apply H1; auto; unfold kid in *; lia.
    + apply nless_le in E3; [|apply Hd; unfold kid in K1; lia|apply Hd; lia].
      intros r c Hr Hk Hc. destruct (Nat.eq_dec r root) as [->|Nr]; [|apply H1; auto]. eauto.
Qed.
Lemma heap_top hi a f c : heap 0 hi a f -> c < hi -> le (f (a + c)) (f (a + 0)).
Proof.
  intros HH. induction c as [c IH] using lt_wf_ind. intros Hc. destruct c as [|c]; auto.
  assert (K : kid (c / 2) (S c)) by (unfold kid; lia).
  apply le_trans with (f (a + c / 2)); [apply HH; auto; lia|]. apply IH; unfold kid in K; lia.
Qed.
Lemma rev_seq_S k : rev (seq 0 (S k)) = k :: rev (seq 0 k).
Proof. rewrite seq_S, rev_app_distr. reflexivity. Qed.

Lemma heap_ok a b f : a < b <= n -> dom f ->
  reach a b f (heap_sort less a b f) /\ sorted a b (heap_sort less a b f).
Proof.
  intros Hb Hd. unfold heap_sort. set (hi := b - a).
  assert (B : forall k f, dom f -> k <= hi -> heap k hi a f ->
    let g := fold_left (fun f i => sift_down less hi i hi a f) (rev (seq 0 k)) f in
    reach a b f g /\ heap 0 hi a g).
  { clear f Hd. induction k as [|k IH]; intros f Hd Hk HH.
    - cbn. split; [apply r_refl|auto].
    - rewrite rev_seq_S. cbn [fold_left].
      assert (HR : reach a b f (sift_down less hi k hi a f)).
      { replace b with (a + hi) by lia. apply sift_reach. lia. }
      destruct (IH (sift_down less hi k hi a f)) as [I1 I2].
      + eapply reach_dom; [|exact HR|auto]. lia.
      + lia.
      + apply sift_heap; auto; try lia.
        * intros r c Hr Nr. apply HH. lia.
        * intros r c Hr K1. unfold kid in K1. lia.
      + split; auto. eapply reach_trans; eauto. }
  assert (C : forall k f, dom f -> k <= hi -> heap 0 k a f -> sorted (a + k) b f ->
     (forall x y, a <= x < a + k -> a + k <= y < b -> le (f x) (f y)) ->
     let g := fold_left (fun f i => sift_down less i 0 i a (swap f a (a + i))) (rev (seq 0 k)) f in
     reach a b f g /\ sorted a b g).
  { clear f Hd. induction k as [|k IH]; intros f Hd Hk HH HS HL.
    - cbn. split; [apply r_refl|]. now rewrite Nat.add_0_r in HS.
    - rewrite rev_seq_S. cbn [fold_left]. set (f1 := swap f a (a + k)).
      assert (HR1 : reach a b f f1) by (apply reach_one; lia).
      assert (HD1 : dom f1) by (eapply reach_dom; [|exact HR1|auto]; lia).
      assert (HR2 : reach a (a + k) f1 (sift_down less k 0 k a f1)).
      { destruct k as [|k]; [apply r_refl|]. apply sift_reach. lia. }
      set (f2 := sift_down less k 0 k a f1) in *.
      assert (HR2' : reach a b f1 f2) by (eapply reach_mono; [| |exact HR2]; lia).
      assert (HT : forall c, c < S k -> le (f (a + c)) (f a)).
      { intros c Hc. replace (f a) with (f (a + 0)) by (f_equal; lia). now apply heap_top with (hi := S k). }
      assert (HB1 : forall x, a <= x < a + k -> le (f1 x) (f a)).
      { intros x Hx. unfold f1. assert (Q : forall c, a <= c < a + S k -> le (f c) (f a)).
        { intros c Hc. replace c with (a + (c - a)) by lia. apply HT. lia. }
        apply swap_cases with (P := fun v => le v (f a)); apply Q; lia. }
      assert (HB2 : forall x, a <= x < a + k -> le (f2 x) (f a)).
      { apply reach_all with (P := fun v => le v (f a)) (f := f1); auto.
        intros x y [E1 E2] H. eauto. }
      assert (HO : forall y, a + k <= y -> equiv (f1 y) (f2 y)).
      { intros y Hy. apply reach_out with (1 := HR2). lia. }
      assert (HK : equiv (f a) (f2 (a + k))).
      { replace (f a) with (f1 (a + k)) by (unfold f1; now rewrite swap_r). apply HO. lia. }
      assert (HS1 : forall y, a + S k <= y < b -> f1 y = f y) by (intros y Hy; unfold f1; apply swap_o; lia).
      assert (HY : forall y, a + k <= y < b -> le (f a) (f2 y)).
      { intros y Hy. destruct (Nat.eq_dec y (a + k)) as [->|Ny]; [apply HK|].
        destruct (HO y ltac:(lia)) as [O1 O2]. apply le_trans with (f1 y); auto. rewrite HS1 by lia. apply HL; lia. }
      destruct (IH f2) as [I1 I2].
      + eapply reach_dom; [|exact HR2'|auto]. lia.
      + lia.
      + apply sift_heap; auto; try lia.
        * intros r c _ Nr Kc Hc. unfold f1. rewrite !swap_o by (unfold kid in Kc; lia). apply HH; auto; lia.
        * intros r c _ K. unfold kid in K. lia.
      + intros i j Hi Hij Hj. destruct (Nat.eq_dec i (a + k)) as [->|Ni].
        * apply le_trans with (f a); [apply HK|]. apply HY. lia.
        * destruct (HO i ltac:(lia)) as [O1 O2], (HO j ltac:(lia)) as [O3 O4].
          apply le_trans with (f1 i); auto. apply le_trans with (f1 j); auto. rewrite !HS1 by lia. apply HS; lia.
      + intros x y Hx Hy. apply le_trans with (f a); [now apply HB2|now apply HY].
      + split; auto. eapply reach_trans; [exact HR1|]. eapply reach_trans; eauto. }
  destruct (B ((hi - 1) / 2 + 1) f Hd) as [B1 B2]; [lia| |].
  { intros r c Hr K Hc. unfold kid in K. lia. }
  set (g := fold_left (fun f i => sift_down less hi i hi a f) (rev (seq 0 ((hi - 1) / 2 + 1))) f) in *.
  destruct (C hi g) as [C1 C2]; auto.
  - eapply reach_dom; [|exact B1|auto]. lia.
  - intros i j; lia.
  - intros x y; lia.
  - split; auto. eapply reach_trans; eauto.
Qed.

(** * Partition *)
Lemma up_spec fuel p i j (f : nat -> A) : j + 1 - i <= fuel ->
  let i' := up fuel p i j f in
  i <= i' /\ (i' <= j + 1 \/ i' = i) /\ (forall k, i <= k < i' -> p (f k) = true) /\ (i' <= j -> p (f i') = false).
Proof.
  revert i. induction fuel as [|k IH]; intros i Hf; cbn [up].
  - cbn. repeat split; try lia.
  - destruct (i <=? j) eqn:E1; cbn [andb].
    + apply Nat.leb_le in E1. destruct (p (f i)) eqn:E2.
      * destruct (IH (i + 1) ltac:(lia)) as (H1 & H2 & H3 & H4). split; [lia|split; [lia|split; auto]].
        intros m Hm. destruct (Nat.eq_dec m i) as [->|]; auto. apply H3. lia.
      * cbn. split; [lia|split; [lia|split; [intros; lia|auto]]].
    + apply Nat.leb_gt in E1. cbn. repeat split; try lia.
Qed.
Lemma down_spec fuel q i j (f : nat -> A) : j + 1 - i <= fuel -> 1 <= i ->
  let j' := down fuel q i j f in
  j' <= j /\ (i <= j' + 1 \/ j' = j) /\ (forall k, j' < k <= j -> q (f k) = true) /\ (i <= j' -> q (f j') = false).
Proof.
  revert j. induction fuel as [|k IH]; intros j Hf Hi; cbn [down].
  - cbn. repeat split; try lia.
  - destruct (i <=? j) eqn:E1; cbn [andb].
    + apply Nat.leb_le in E1. destruct (q (f j)) eqn:E2.
      * destruct (IH (j - 1) ltac:(lia) Hi) as (H1 & H2 & H3 & H4). split; [lia|split; [lia|split; auto]].
        intros m Hm. destruct (Nat.eq_dec m j) as [->|]; auto. apply H3. lia.
      * cbn. split; [lia|split; [lia|split; [intros; lia|auto]]].
    + apply Nat.leb_gt in E1. cbn. repeat split; try lia.
Qed.
Lemma split_spec fuel p q i j (f : nat -> A) : (forall x, q x = negb (p x)) -> 1 <= i -> i <= j + 1 -> j + 1 - i <= fuel ->
  exists g i' j', part_loop fuel p q i j f = (g, i', j') /\ i' = j' + 1 /\ i <= i' <= j + 1 /\ reach i (j + 1) f g /\
    (forall k, k < i \/ j < k -> g k = f k) /\
    (forall k, i <= k < i' -> p (g k) = true) /\ (forall k, i' <= k <= j -> q (g k) = true).
Proof.
  intros Hpq. revert i j f. induction fuel as [|k IH]; intros i j f Hi Hij Hf; cbn [part_loop].
  - exists f, i, j. split; [auto|]. split; [lia|]. split; [lia|]. split; [apply r_refl|]. split; [auto|]. split; intros; lia.
  - pose proof (up_spec (j + 1 - i) p i j f ltac:(lia)) as (U1 & U2 & U3 & U4).
    set (i1 := up (j + 1 - i) p i j f) in *.
    pose proof (down_spec (j + 1 - i1) q i1 j f ltac:(lia) ltac:(lia)) as (D1 & D2 & D3 & D4).
    set (j1 := down (j + 1 - i1) q i1 j f) in *.
    destruct (j1 <? i1) eqn:E.
    + apply Nat.ltb_lt in E. exists f, i1, j1. split; [auto|]. split; [lia|]. split; [lia|]. split; [apply r_refl|].
      split; [auto|]. split; [auto|]. intros m Hm. apply D3. lia.
    + apply Nat.ltb_ge in E. specialize (U4 ltac:(lia)). specialize (D4 E).
      assert (i1 <> j1) by (intros Q; rewrite <- Q, Hpq, U4 in D4; discriminate D4).
      destruct (IH (i1 + 1) (j1 - 1) (swap f i1 j1) ltac:(lia) ltac:(lia) ltac:(lia)) as (g & i' & j' & R1 & R2 & R3 & R4 & R5 & R6 & R7).
      exists g, i', j'. split; [auto|]. split; [auto|]. split; [lia|]. split.
      { apply r_in with i1 j1; try lia. eapply reach_mono; [| |exact R4]; lia. }
      split; [intros m Hm; rewrite R5 by lia; apply swap_o; lia|]. split.
      * intros m Hm. destruct (le_lt_dec (i1 + 1) m); [apply R6; lia|]. rewrite R5 by lia.
        destruct (Nat.eq_dec m i1) as [->|]; [|rewrite swap_o by lia; apply U3; lia].
        rewrite swap_l. rewrite Hpq in D4. now destruct (p (f j1)).
      * intros m Hm. destruct (le_lt_dec m (j1 - 1)); [apply R7; lia|]. rewrite R5 by lia.
        destruct (Nat.eq_dec m j1) as [->|]; [|rewrite swap_o by lia; apply D3; lia].
        rewrite swap_r, Hpq, U4. reflexivity.
Qed.

Definition around v a mid b (g : nat -> A) :=
  (forall k, a <= k < mid -> le (g k) v) /\ equiv v (g mid) /\ (forall k, mid < k < b -> le v (g k)).

Lemma partition_split a b pivot (f : nat -> A) :
  let f1 := swap f a pivot in
  let '(g, _, j) := part_loop (S (b - a)) (fun x => less x (f1 a)) (fun x => negb (less x (f1 a))) (a + 1) (b - 1) f1 in
  fst (partition_at less a b pivot f) = (swap g j a, j).
Proof.
  cbn zeta. unfold partition_at. cbn [part_loop].
  match goal with |- context [if ?x then _ else _] => destruct x end; cbn [fst]; auto.
  match goal with |- context [part_loop ?x1 ?x2 ?x3 ?x4 ?x5 ?x6] => destruct (part_loop x1 x2 x3 x4 x5 x6) as [[g i] j] end. reflexivity.
Qed.
Lemma partition_ok a b pivot f : a <= pivot < b -> b <= n -> dom f ->
  exists g mid part, partition_at less a b pivot f = (g, mid, part) /\ a <= mid < b /\ reach a b f g /\
    around (g mid) a mid b g.
Proof.
  intros Hp Hb Hd. pose proof (partition_split a b pivot f) as E. cbn zeta in E. set (f1 := swap f a pivot) in *.
  destruct (split_spec (S (b - a)) (fun x => less x (f1 a)) (fun x => negb (less x (f1 a))) (a + 1) (b - 1) f1
     (fun x => eq_refl) ltac:(lia) ltac:(lia) ltac:(lia)) as (g & i' & j' & R1 & R2 & R3 & R4 & R5 & R6 & R7).
  rewrite R1 in E. destruct (partition_at less a b pivot f) as [[h mid] part]. cbn [fst] in E. injection E as -> ->.
  assert (HR1 : reach a b f f1) by (apply reach_one; lia).
  assert (HR2 : reach a b f1 g) by (eapply reach_mono; [| |exact R4]; lia).
  assert (HD1 : dom f1) by (eapply reach_dom; [|exact HR1|auto]; lia).
  assert (HD2 : dom g) by (eapply reach_dom; [|exact HR2|auto]; lia).
  assert (Ga : g a = f1 a) by (apply R5; lia).
  exists (swap g j' a), j', part. split; [auto|]. split; [lia|]. split.
  { eapply reach_trans; [exact HR1|]. eapply reach_trans; [exact HR2|]. apply reach_one; lia. }
  rewrite swap_l, Ga. split; [|split].
  - intros k Hk. apply less_le; [| |].
    + destruct (Nat.eq_dec k a) as [->|]; [rewrite swap_r; apply HD2; lia|rewrite swap_o by lia; apply HD2; lia].
    + apply HD1. lia.
    + destruct (Nat.eq_dec k a) as [->|]; [rewrite swap_r; apply R6; lia|rewrite swap_o by lia; apply R6; lia].
  - rewrite swap_l, Ga. apply equiv_refl.
  - intros k Hk. rewrite swap_o by lia. apply nless_le; [apply HD2; lia|apply HD1; lia|].
    specialize (R7 k ltac:(lia)). now apply negb_true_iff in R7.
Qed.
Lemma partition_equal_ok a b pivot f : a <= pivot < b -> b <= n -> dom f ->
  (forall k, a <= k < b -> le (f pivot) (f k)) ->
  exists g mid, partition_equal less a b pivot f = (g, mid) /\ a < mid <= b /\ reach a b f g /\
    sorted a mid g /\ (forall x y, a <= x < mid -> mid <= y < b -> le (g x) (g y)).
Proof.
  intros Hp Hb Hd Hmin. unfold partition_equal. set (f1 := swap f a pivot).
  destruct (split_spec (b - a) (fun x => negb (less (f1 a) x)) (fun x => less (f1 a) x) (a + 1) (b - 1) f1
     (fun x => eq_sym (negb_involutive _)) ltac:(lia) ltac:(lia) ltac:(lia)) as (g & i' & j' & R1 & R2 & R3 & R4 & R5 & R6 & R7).
  rewrite R1. exists g, i'. split; [auto|]. split; [lia|].
  assert (HR1 : reach a b f f1) by (apply reach_one; lia).
  assert (HR2 : reach a b f1 g) by (eapply reach_mono; [| |exact R4]; lia).
  assert (HD1 : dom f1) by (eapply reach_dom; [|exact HR1|auto]; lia).
  assert (HD2 : dom g) by (eapply reach_dom; [|exact HR2|auto]; lia).
  assert (Ga : g a = f1 a) by (apply R5; lia).
  assert (HR : reach a b f g) by (eapply reach_trans; eauto).
  split; [auto|].
  assert (HM : forall k, a <= k < b -> le (f pivot) (g k)).
  { apply reach_all with (P := fun v => le (f pivot) v) (f := f); auto. intros x y [E1 E2] H. eauto. }
  assert (HV : f1 a = f pivot) by (unfold f1; apply swap_l).
  assert (HU : forall k, a <= k < i' -> le (g k) (f pivot)).
  { intros k Hk. destruct (Nat.eq_dec k a) as [->|]; [rewrite Ga, HV; auto|]. rewrite <- HV.
    apply nless_le; [apply HD1; lia|apply HD2; lia|]. apply negb_true_iff. apply R6. lia. }
  split.
  - intros x y H1 H2 H3. apply le_trans with (f pivot); [apply HU; lia|apply HM; lia].
  - intros x y H1 H2. apply le_trans with (f pivot); [apply HU; lia|apply HM; lia].
Qed.

(** * Partial insertion *)
Lemma low_reach a b f g : reach a b f g -> low a b f -> low a b g.
Proof.
  intros HR HL x y Hx Hy. destruct (reach_out _ _ _ _ HR x (or_introl Hx)) as [E1 E2].
  apply le_trans with (f x); auto.
  apply reach_all with (P := fun v => le (f x) v) (2 := HR); auto. intros u v [H1 H2] H. eauto.
Qed.
Lemma ascend_spec fuel i b a f : b - i <= fuel -> a < i <= b -> b <= n -> dom f -> sorted a i f ->
  let i' := ascend less fuel i b f in i <= i' <= b /\ sorted a i' f.
Proof.
  revert i. induction fuel as [|k IH]; intros i Hf Hi Hb Hd HS; cbn [ascend].
  - cbn. split; auto. lia.
  - destruct (i <? b) eqn:E1; cbn [andb]; [|cbn; split; auto; lia]. apply Nat.ltb_lt in E1.
    destruct (less (f i) (f (i - 1))) eqn:E2; cbn [negb]; [cbn; split; auto; lia|].
    apply nless_le in E2; try (apply Hd; lia).
    destruct (IH (i + 1) ltac:(lia) ltac:(lia) Hb Hd) as [I1 I2]; [|split; auto; lia].
    intros p q Hp Hpq Hq. destruct (Nat.eq_dec q i) as [->|]; [|apply HS; lia].
    destruct (Nat.eq_dec p i) as [->|]; auto. apply le_trans with (f (i - 1)); auto. apply HS; lia.
Qed.
Lemma rise_spec fuel j b i f : i < j -> reach i b f (rise less fuel j b f) /\ (forall k, k < i -> rise less fuel j b f k = f k).
Proof.
  revert j f. induction fuel as [|k IH]; intros j f Hj; cbn [rise]; [split; [apply r_refl|auto]|].
  destruct (j <? b) eqn:E1; cbn [andb]; [|split; [apply r_refl|auto]]. apply Nat.ltb_lt in E1.
  destruct (less (f j) (f (j - 1))) eqn:E2; [|split; [apply r_refl|auto]].
  destruct (IH (j + 1) (swap f j (j - 1)) ltac:(lia)) as [I1 I2]. split.
  - apply r_in with j (j - 1); auto; lia.
  - intros m Hm. rewrite I2 by lia. apply swap_o; lia.
Qed.
Lemma partial_ok a b f : a < b -> b <= n -> dom f -> low a b f ->
  let '(g, r) := partial_insertion less a b f in reach a b f g /\ (r = true -> sorted a b g).
Proof.
  intros Ha Hb. unfold partial_insertion.
  assert (G : forall steps i f, a < i <= b -> dom f -> low a b f -> sorted a i f ->
    let '(g, r) := partial_steps less steps a b i f in reach a b f g /\ (r = true -> sorted a b g)).
  { clear f. induction steps as [|k IH]; intros i f Hi Hd HL HS; cbn [partial_steps]; [split; [apply r_refl|discriminate]|].
    destruct (ascend_spec (b - i) i b a f ltac:(lia) Hi Hb Hd HS) as [A1 A2].
    set (i1 := ascend less (b - i) i b f) in *.
    destruct (i1 =? b) eqn:E1; [apply Nat.eqb_eq in E1; rewrite <- E1 at 2; split; [apply r_refl|auto]|].
    apply Nat.eqb_neq in E1. destruct (b - a <? 50); [split; [apply r_refl|discriminate]|].
    set (f1 := swap f i1 (i1 - 1)).
    assert (R1 : reach a b f f1) by (apply reach_one; lia).
    assert (D1 : dom f1) by (eapply reach_dom; [|exact R1|auto]; lia).
    assert (L1 : low a b f1) by (eapply low_reach; eauto).
    set (f2 := if 2 <=? i1 - a then sink less 0 (i1 - 1) f1 else f1).
    assert (R2 : reach a b f1 f2).
    { unfold f2. destruct (2 <=? i1 - a); [|apply r_refl]. apply sink_reach_0; auto; [lia|]. intros m H1 H2. apply L1; lia. }
    assert (D2 : dom f2) by (eapply reach_dom; [|exact R2|auto]; lia).
    assert (S2 : sorted a i1 f2).
    { unfold f2. destruct (2 <=? i1 - a) eqn:E2.
      - apply sink_sorted; auto; try lia.
        + right. intros x y Hx Hy. apply L1; lia.
        + intros p q P1 P2 P3 P4 P5. unfold f1. rewrite !swap_o by lia. apply A2; lia.
      - intros p q P1 P2 P3. apply Nat.leb_gt in E2. replace q with p by lia. auto. }
    set (f3 := if 2 <=? b - i1 then rise less (b - i1) (i1 + 1) b f2 else f2).
    assert (R3 : reach i1 b f2 f3 /\ forall m, m < i1 -> f3 m = f2 m).
    { unfold f3. destruct (2 <=? b - i1); [|split; [apply r_refl|auto]]. apply rise_spec. lia. }
    destruct R3 as [R3 Q3].
    assert (R3' : reach a b f2 f3) by (eapply reach_mono; [| |exact R3]; lia).
    assert (R : reach a b f f3) by (eapply reach_trans; [exact R1|]; eapply reach_trans; eauto).
    specialize (IH i1 f3 ltac:(lia)).
    destruct (partial_steps less k a b i1 f3) as [g r]. destruct IH as [I1 I2].
    - eapply reach_dom; [|exact R3'|auto]; lia.
    - eapply low_reach; eauto.
    - intros p q P1 P2 P3. rewrite !Q3 by lia. apply S2; lia.
    - split; auto. eapply reach_trans; eauto. }
  intros Hd HL. apply G; auto; [lia|]. intros p q P1 P2 P3. replace q with p by lia. auto.
Qed.

(** * The rest *)
Lemma reverse_reach fuel i j a b (f : nat -> A) : a <= i -> j < b -> reach a b f (reverse_range fuel i j f).
Proof.
  revert i j f. induction fuel as [|k IH]; intros i j f Hi Hj; cbn [reverse_range]; [apply r_refl|].
  destruct (i <? j) eqn:E; [|apply r_refl]. apply Nat.ltb_lt in E.
  apply r_in with i j; try lia. apply IH; lia.
Qed.
Lemma swaps_reach l a b (f : nat -> A) : Forall (fun ij => a <= fst ij < b /\ a <= snd ij < b) l -> reach a b f (swaps l f).
Proof.
  intros H. revert f. induction H as [|[i j] l [H1 H2] _ IH]; intros f; cbn in *; [apply r_refl|].
  apply r_in with i j; auto; apply IH.
Qed.
Lemma around_left v a mid b f g : reach a mid f g -> around v a mid b f -> around v a mid b g.
Proof.
  intros HR (H1 & H2 & H3). split; [|split].
  - apply reach_all with (P := fun w => le w v) (2 := HR); auto. intros x y [E1 E2] H. eauto.
  - eapply equiv_trans; [exact H2|]. apply reach_out with (1 := HR). lia.
  - intros k Hk. destruct (reach_out _ _ _ _ HR k ltac:(lia)) as [E1 E2]. specialize (H3 k Hk). eauto.
Qed.
Lemma around_right v a mid b f g : reach (mid + 1) b f g -> around v a mid b f -> around v a mid b g.
Proof.
  intros HR (H1 & H2 & H3). split; [|split].
  - intros k Hk. destruct (reach_out _ _ _ _ HR k ltac:(lia)) as [E1 E2]. specialize (H1 k Hk). eauto.
  - eapply equiv_trans; [exact H2|]. apply reach_out with (1 := HR). lia.
  - intros k Hk. apply reach_all with (P := fun w => le v w) (2 := HR); auto; [intros x y [E1 E2] H; eauto| |lia].
    intros m Hm. apply H3. lia.
Qed.
Lemma around_sorted v a mid b g : a <= mid < b -> around v a mid b g -> sorted a mid g -> sorted (mid + 1) b g -> sorted a b g.
Proof.
  intros Hm (H1 & [H2 H2'] & H3) S1 S2 i j Hi Hij Hj.
  destruct (le_lt_dec mid i) as [Li|Li].
  - destruct (Nat.eq_dec i mid) as [->|]; [|apply S2; lia]. destruct (Nat.eq_dec j mid) as [->|]; auto.
    apply le_trans with v; auto. apply H3. lia.
  - destruct (le_lt_dec mid j) as [Lj|Lj]; [|apply S1; lia]. apply le_trans with v; [apply H1; lia|].
    destruct (Nat.eq_dec j mid) as [->|]; auto. apply H3. lia.
Qed.
Lemma around_low v a mid b g : a <= mid < b -> around v a mid b g -> low a b g -> low (mid + 1) b g.
Proof.
  intros Hm (H1 & [H2 H2'] & H3) HL x y Hx Hy. destruct (le_lt_dec a x) as [Lx|Lx]; [|apply HL; lia].
  apply le_trans with v; [|apply H3; lia]. destruct (Nat.eq_dec x mid) as [->|]; auto. apply H1. lia.
Qed.

Context (choose : (nat -> A) -> nat -> nat -> nat * hint) (shuffle : nat -> nat -> list (nat * nat)).
Context (choose_in : forall f a b, a + 12 < b -> a <= fst (choose f a b) < b)
        (shuffle_in : forall a b, a + 12 < b -> Forall (fun ij => a <= fst ij < b /\ a <= snd ij < b) (shuffle a b)).

Theorem pdqsort_ok fuel a b limit bal part f : a <= b <= n -> b - a < fuel -> dom f -> low a b f ->
  let g := pdqsort less choose shuffle fuel a b limit bal part f in
  reach a b f g /\ sorted a b g.
Proof.
  revert a b limit bal part f. induction fuel as [|k IH]; intros a b limit bal part f Hb Hf Hd HL; [lia|].
  cbn [pdqsort]. cbn zeta.
  destruct (b - a <=? 12) eqn:E1; [apply insertion_ok; auto|]. apply Nat.leb_gt in E1.
  destruct (limit =? 0); [apply heap_ok; auto; lia|].
  match goal with |- context [if bal then (f, limit) else ?y] => set (fl := if bal then (f, limit) else y) end.
  assert (R1 : reach a b f (fst fl)).
  { unfold fl. destruct bal; [apply r_refl|]. apply swaps_reach. apply shuffle_in. lia. }
  destruct fl as [f1 limit1]. cbn [fst] in R1.
  assert (D1 : dom f1) by (eapply reach_dom; [|exact R1|auto]; lia).
  pose proof (choose_in f1 a b ltac:(lia)) as CI. destruct (choose f1 a b) as [pivot h]. cbn [fst] in CI.
  match goal with |- context [match h with Unknown => ?x | Increasing => ?y | Decreasing => ?z end] =>
    set (fp := match h with Unknown => x | Increasing => y | Decreasing => z end) end.
  assert (R2 : reach a b f1 (fst (fst fp)) /\ a <= snd (fst fp) < b).
  { unfold fp. destruct h; cbn [fst snd]; (split; [|lia]); try apply r_refl. apply reverse_reach; lia. }
  destruct fp as [[f2 pivot2] h2]. cbn [fst snd] in R2. destruct R2 as [R2 CI2].
  assert (D2 : dom f2) by (eapply reach_dom; [|exact R2|auto]; lia).
  assert (R12 : reach a b f f2) by (eapply reach_trans; eauto).
  assert (L2 : low a b f2) by (eapply low_reach; eauto).
  match goal with |- context [match h2 with Unknown => ?x | Increasing => ?y | Decreasing => ?z end] =>
    set (fd := match h2 with Unknown => x | Increasing => y | Decreasing => z end) end.
  assert (R3 : reach a b f2 (fst fd) /\ (snd fd = true -> sorted a b (fst fd))).
  { unfold fd. destruct h2; try (cbn [fst snd]; split; [apply r_refl|discriminate]).
    destruct (bal && part); [|cbn [fst snd]; split; [apply r_refl|discriminate]].
    pose proof (partial_ok a b f2 ltac:(lia) ltac:(lia) D2 L2) as HP. destruct (partial_insertion less a b f2); exact HP. }
  destruct fd as [f3 done]. cbn [fst snd] in R3. destruct R3 as [R3 S3].
  assert (R13 : reach a b f f3) by (eapply reach_trans; eauto).
  destruct done; [split; auto|]. clear S3.
  assert (D3 : dom f3) by (eapply reach_dom; [|exact R3|auto]; lia).
  assert (L3 : low a b f3) by (eapply low_reach; eauto).
  destruct ((0 <? a) && negb (less (f3 (a - 1)) (f3 pivot2))) eqn:E2.
  - apply andb_prop in E2. destruct E2 as [E2 E3]. apply Nat.ltb_lt in E2. apply negb_true_iff in E3.
    apply nless_le in E3; try (apply D3; lia).
    destruct (partition_equal_ok a b pivot2 f3 CI2 ltac:(lia) D3) as (g & mid & P1 & P2 & P3 & P4 & P5).
    { intros m Hm. apply le_trans with (f3 (a - 1)); auto. apply L3; lia. }
    rewrite P1.
    assert (D4 : dom g) by (eapply reach_dom; [|exact P3|auto]; lia).
    assert (L4 : low mid b g).
    { intros x y Hx Hy. destruct (le_lt_dec a x); [apply P5; lia|]. apply (low_reach _ _ _ _ P3 L3); lia. }
    destruct (IH mid b limit1 bal part g ltac:(lia) ltac:(lia) D4 L4) as [I1 I2].
    set (g' := pdqsort less choose shuffle k mid b limit1 bal part g) in *.
    assert (R4 : reach a b g g') by (eapply reach_mono; [| |exact I1]; lia).
    assert (L5 : low mid b g') by (eapply low_reach; eauto).
    split; [eapply reach_trans; [exact R13|]; eapply reach_trans; eauto|].
    pose proof (sorted_reach a mid mid b g g' I1 (or_introl (Nat.le_refl _)) P4) as S5.
    intros i j Hi Hij Hj. destruct (le_lt_dec mid i); [apply I2; lia|]. destruct (le_lt_dec mid j); [apply L5; lia|apply S5; lia].
  - clear E2. destruct (partition_ok a b pivot2 f3 CI2 ltac:(lia) D3) as (g & mid & part2 & P1 & P2 & P3 & P4).
    rewrite P1.
    assert (D4 : dom g) by (eapply reach_dom; [|exact P3|auto]; lia).
    assert (L4 : low a b g) by (eapply low_reach; eauto).
    assert (RG : reach a b f g) by (eapply reach_trans; eauto).
    destruct (mid - a <? b - mid).
    + destruct (IH a mid limit1 true true g ltac:(lia) ltac:(lia) D4) as [I1 I2].
      { intros x y Hx Hy. apply L4; lia. }
      set (g1 := pdqsort less choose shuffle k a mid limit1 true true g) in *.
      assert (RI : reach a b g g1) by (eapply reach_mono; [| |exact I1]; lia).
      assert (D5 : dom g1) by (eapply reach_dom; [|exact RI|auto]; lia).
      pose proof (around_left _ _ _ _ _ _ I1 P4) as A1.
      match goal with |- context [pdqsort _ _ _ k (mid + 1) b limit1 ?u ?v g1] => set (bal2 := u); set (part3 := v) end.
      destruct (IH (mid + 1) b limit1 bal2 part3 g1 ltac:(lia) ltac:(lia) D5) as [J1 J2].
      { apply around_low with (g mid) a; auto. eapply low_reach; eauto. }
      set (g2 := pdqsort less choose shuffle k (mid + 1) b limit1 bal2 part3 g1) in *.
      split.
      * eapply reach_trans; [exact RG|]. eapply reach_trans; [exact RI|]. eapply reach_mono; [| |exact J1]; lia.
      * apply around_sorted with (g mid) mid; auto.
        -- eapply around_right; eauto.
        -- eapply sorted_reach; [exact J1| |auto]. lia.
    + destruct (IH (mid + 1) b limit1 true true g ltac:(lia) ltac:(lia) D4) as [I1 I2].
      { apply around_low with (g mid) a; auto. }
      set (g1 := pdqsort less choose shuffle k (mid + 1) b limit1 true true g) in *.
      assert (RI : reach a b g g1) by (eapply reach_mono; [| |exact I1]; lia).
      assert (D5 : dom g1) by (eapply reach_dom; [|exact RI|auto]; lia).
      pose proof (around_right _ _ _ _ _ _ I1 P4) as A1.
      match goal with |- context [pdqsort _ _ _ k a mid limit1 ?u ?v g1] => set (bal2 := u); set (part3 := v) end.
      destruct (IH a mid limit1 bal2 part3 g1 ltac:(lia) ltac:(lia) D5) as [J1 J2].
      { intros x y Hx Hy. apply (low_reach _ _ _ _ RI L4); lia. }
      set (g2 := pdqsort less choose shuffle k a mid limit1 bal2 part3 g1) in *.
      split.
      * eapply reach_trans; [exact RG|]. eapply reach_trans; [exact RI|]. eapply reach_mono; [| |exact J1]; lia.
      * apply around_sorted with (g mid) mid; auto.
        -- eapply around_left; eauto.
        -- eapply sorted_reach; [exact J1| |auto]. lia.
Qed.
End P.
