(** Positional notation.  Pure mathematics: no model content. *)
From Coq Require Import ZifyBool ZifyNat ZifyN.
From Verif Require Import Lib.Bytes.
Ltac Zify.zify_post_hook ::= Z.div_mod_to_equations.

(** Digits of [n] in base [B], least significant first. *)
Fixpoint drev (B : N) (fuel : nat) (n : N) : list N :=
  match fuel with
  | O => []
  | S f => if n <? B then [n] else n mod B :: drev B f (n / B)
  end.
(** Digits, most significant first, no leading zero ([0] for zero). *)
Definition digits (B n : N) : list N := rev (drev B (S (N.size_nat n)) n).
(** Value of a digit list, most significant first. *)
Definition undig (B : N) (l : list N) : N := fold_left (fun a d => a * B + d) l 0.

Lemma undig_snoc B l d : undig B (l ++ [d]) = undig B l * B + d.
Proof. unfold undig. now rewrite fold_left_app. Qed.

Lemma fold_undig B l a : fold_left (fun a d => a * B + d) l a = a * B ^ N.of_nat (length l) + undig B l.
Proof.
  revert a. induction l as [|x l IH] using rev_ind; intros a.
  - cbn. lia.
  - rewrite undig_snoc, fold_left_app, app_length. cbn [fold_left length]. rewrite IH.
    replace (N.of_nat (length l + 1)) with (N.succ (N.of_nat (length l))) by lia.
    rewrite N.pow_succ_r'. nia.
Qed.

Lemma undig_app B l1 l2 : undig B (l1 ++ l2) = undig B l1 * B ^ N.of_nat (length l2) + undig B l2.
Proof. unfold undig at 1. rewrite fold_left_app. apply fold_undig. Qed.

Lemma size_nat_lt n : n < 2 ^ N.of_nat (N.size_nat n).
Proof.
  destruct n as [|p]; [reflexivity|]. cbn [N.size_nat].
  induction p as [p IH|p IH|]; cbn [Pos.size_nat]; rewrite ?Nat2N.inj_succ, ?N.pow_succ_r'; try lia.
Qed.

Lemma drev_value B fuel n : 2 <= B -> n < 2 ^ N.of_nat fuel ->
  undig B (rev (drev B fuel n)) = n.
Proof.
  intros HB. revert n. induction fuel as [|f IH]; intros n Hn.
  - cbn in *. lia.
  - cbn [drev]. destruct (n <? B) eqn:E; [reflexivity|].
    cbn [rev]. rewrite undig_snoc, IH; [pose proof (N.div_mod n B); nia|].
    rewrite Nat2N.inj_succ, N.pow_succ_r' in Hn.
    apply N.div_lt_upper_bound; nia.
Qed.

Lemma digits_value B n : 2 <= B -> undig B (digits B n) = n.
Proof.
  intros HB. apply drev_value; [exact HB|].
  eapply N.lt_trans; [apply size_nat_lt|]. apply N.pow_lt_mono_r; lia.
Qed.

Lemma drev_lt B fuel n : 2 <= B -> Forall (fun d => d < B) (drev B fuel n).
Proof.
  intros HB. revert n. induction fuel as [|f IH]; intros n; cbn [drev]; [constructor|].
  destruct (n <? B) eqn:E; constructor; try lia; try constructor; auto.
Qed.
Lemma digits_lt B n : 2 <= B -> Forall (fun d => d < B) (digits B n).
Proof. intros HB. unfold digits. apply Forall_rev, drev_lt, HB. Qed.

Lemma digits_nonempty B n : digits B n <> [].
Proof.
  unfold digits. cbn [drev]. destruct (n <? B); cbn [rev]; intros H; try discriminate;
    symmetry in H; now apply app_cons_not_nil in H.
Qed.

Lemma drev_len B fuel n k : 2 <= B -> n < B ^ N.of_nat k -> (1 <= k)%nat ->
  (length (drev B fuel n) <= k)%nat.
Proof.
  intros HB. revert n k. induction fuel as [|f IH]; intros n k Hn Hk; cbn [drev length]; [lia|].
  destruct (n <? B) eqn:E; cbn [length]; [lia|].
  destruct k as [|[|k]]; [lia| |].
  - change (N.of_nat 1) with 1 in Hn. rewrite N.pow_1_r in Hn. lia.
  - apply le_n_S. apply IH; [|lia].
    rewrite Nat2N.inj_succ, N.pow_succ_r' in Hn. apply N.div_lt_upper_bound; lia.
Qed.
Lemma digits_len B n k : 2 <= B -> n < B ^ N.of_nat k -> (1 <= k)%nat ->
  (length (digits B n) <= k)%nat.
Proof. intros. unfold digits. rewrite rev_length. now apply drev_len. Qed.

(** No leading zero. *)
Lemma drev_last B fuel n d l : 2 <= B -> n < 2 ^ N.of_nat fuel -> 0 < n ->
  rev (drev B fuel n) = d :: l -> 0 < d.
Proof.
  intros HB. revert n d l. induction fuel as [|f IH]; intros n d l Hn H0 H.
  - cbn in *. discriminate.
  - cbn [drev] in H. destruct (n <? B) eqn:E.
    + cbn in H. inversion H. lia.
    + cbn [rev] in H.
      rewrite Nat2N.inj_succ, N.pow_succ_r' in Hn.
      assert (Hlt : n / B < 2 ^ N.of_nat f) by (apply N.div_lt_upper_bound; nia).
      assert (Hpos : 0 < n / B) by (apply N.div_str_pos; lia).
      destruct (rev (drev B f (n / B))) as [|d' l'] eqn:E'.
      * assert (drev B f (n / B) = []) by (rewrite <- (rev_involutive (drev _ _ _)), E'; reflexivity).
        pose proof (drev_value B f (n / B) HB Hlt) as HV. rewrite H1 in HV. cbn in HV. lia.
      * cbn in H. inversion H; subst. eapply IH; eauto.
Qed.
Lemma digits_head B n d l : 2 <= B -> 0 < n -> digits B n = d :: l -> 0 < d.
Proof.
  intros HB Hn H. eapply (drev_last B _ n d l HB); [|exact Hn|exact H].
  eapply N.lt_trans; [apply size_nat_lt|]. apply N.pow_lt_mono_r; lia.
Qed.
Lemma digits_0 B : 2 <= B -> digits B 0 = [0].
Proof. intros HB. unfold digits. cbn [N.size_nat drev]. destruct (0 <? B) eqn:E; [reflexivity|lia]. Qed.

Lemma digits_inj B n m : 2 <= B -> digits B n = digits B m -> n = m.
Proof. intros HB H. rewrite <- (digits_value B n HB), <- (digits_value B m HB). now rewrite H. Qed.

(** Values of prefixes are at most the value of the whole. *)
Lemma undig_prefix_le B l1 l2 : 1 <= B -> undig B l1 <= undig B (l1 ++ l2).
Proof.
  intros HB. rewrite undig_app. pose proof (N.pow_nonzero B (N.of_nat (length l2))). nia.
Qed.

(** Fixed number of digits. *)
Fixpoint fdig (B : N) (k : nat) (x : N) : list N :=
  match k with O => [] | S k' => (x / B ^ N.of_nat k') mod B :: fdig B k' x end.
Lemma fdig_length B k x : length (fdig B k x) = k.
Proof. induction k as [|k IH]; cbn [fdig length]; [reflexivity|now rewrite IH]. Qed.
Lemma fdig_lt B k x : 0 < B -> Forall (fun d => d < B) (fdig B k x).
Proof. intros HB. induction k as [|k IH]; cbn [fdig]; constructor; auto. apply N.mod_lt. lia. Qed.
Lemma undig_fdig_mod B k x : 0 < B -> undig B (fdig B k x) = x mod B ^ N.of_nat k.
Proof.
  intros HB. induction k as [|k IH].
  - cbn [fdig]. cbn. now rewrite N.mod_1_r.
  - cbn [fdig]. change (?a :: fdig B k x) with ([a] ++ fdig B k x).
    rewrite undig_app, IH, fdig_length.
    change (undig B [(x / B ^ N.of_nat k) mod B]) with (0 * B + (x / B ^ N.of_nat k) mod B).
    rewrite N.mul_0_l, N.add_0_l, Nat2N.inj_succ, N.pow_succ_r'.
    rewrite (N.mul_comm B).
    rewrite N.mod_mul_r by (try apply N.pow_nonzero; lia). lia.
Qed.
Lemma undig_fdig B k x : 0 < B -> x < B ^ N.of_nat k -> undig B (fdig B k x) = x.
Proof. intros HB Hx. rewrite undig_fdig_mod by exact HB. now apply N.mod_small. Qed.
