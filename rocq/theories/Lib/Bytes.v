(** Byte strings and big-endian numbers.  Pure mathematics: no model content. *)
From Coq Require Export List NArith ZArith Lia Bool.
From Coq Require Import ZifyBool ZifyNat ZifyN.
Export ListNotations.
Ltac Zify.zify_post_hook ::= Z.div_mod_to_equations.
Open Scope N_scope.

(** A Go [[]byte] or [string] is a list of numbers below 256. *)
Definition bytes := list N.
Definition u8 (x : N) : Prop := x < 256.
Definition u16 (x : N) : Prop := x < 65536.
Definition u32 (x : N) : Prop := x < 4294967296.
Definition bytes_ok (l : bytes) : Prop := Forall u8 l.
Definition u8b (x : N) : bool := x <? 256.
Definition bytes_okb (l : bytes) : bool := forallb u8b l.

Lemma bytes_okb_ok l : bytes_okb l = true <-> bytes_ok l.
Proof.
  unfold bytes_okb, bytes_ok, u8b, u8. rewrite forallb_forall, Forall_forall.
  split; intros H x Hx; specialize (H x Hx); lia.
Qed.

(** Big-endian encoding of the low [8*k] bits of [x] on [k] bytes. *)
Fixpoint be (k : nat) (x : N) : bytes :=
  match k with
  | O => []
  | S k' => (x / 256 ^ N.of_nat k') mod 256 :: be k' x
  end.

(** Big-endian reading. *)
Definition unbe (l : bytes) : N := fold_left (fun acc b => acc * 256 + b) l 0.

Lemma be_length k x : length (be k x) = k.
Proof. induction k as [|k IH]; cbn [be length]; congruence. Qed.

Lemma be_ok k x : bytes_ok (be k x).
Proof.
  induction k as [|k IH]; cbn [be]; constructor; [|exact IH].
  unfold u8. apply N.mod_lt. lia.
Qed.

Lemma fold_unbe l acc :
  fold_left (fun acc b => acc * 256 + b) l acc = acc * 256 ^ N.of_nat (length l) + unbe l.
Proof.
  unfold unbe. revert acc. induction l as [|a l IH]; intros acc.
  - cbn [fold_left length]. change (256 ^ N.of_nat 0) with 1. lia.
  - cbn [fold_left length]. rewrite IH. rewrite (IH (0 * 256 + a)).
    rewrite Nat2N.inj_succ, N.pow_succ_r'. lia.
Qed.

Lemma unbe_cons a l : unbe (a :: l) = a * 256 ^ N.of_nat (length l) + unbe l.
Proof. unfold unbe at 1. cbn [fold_left]. rewrite fold_unbe. lia. Qed.

Lemma unbe_app l1 l2 : unbe (l1 ++ l2) = unbe l1 * 256 ^ N.of_nat (length l2) + unbe l2.
Proof. unfold unbe at 1. rewrite fold_left_app. rewrite fold_unbe. reflexivity. Qed.

Lemma pow256_pos k : 0 < 256 ^ k.
Proof. apply N.neq_0_lt_0, N.pow_nonzero. lia. Qed.

Lemma unbe_lt l : bytes_ok l -> unbe l < 256 ^ N.of_nat (length l).
Proof.
  induction l as [|a l IH]; intros H.
  - cbn. lia.
  - inversion H as [|x y Ha Hl]; subst. specialize (IH Hl). rewrite unbe_cons.
    cbn [length]. rewrite Nat2N.inj_succ, N.pow_succ_r'. unfold u8 in Ha. nia.
Qed.

Lemma unbe_be_mod k x : unbe (be k x) = x mod 256 ^ N.of_nat k.
Proof.
  induction k as [|k IH].
  - cbn [be unbe fold_left]. change (256 ^ N.of_nat 0) with 1. rewrite N.mod_1_r. reflexivity.
  - cbn [be]. rewrite unbe_cons, be_length, IH.
    rewrite Nat2N.inj_succ, N.pow_succ_r'.
    pose proof (pow256_pos (N.of_nat k)) as Hp.
    set (P := 256 ^ N.of_nat k) in *.
    rewrite (N.mul_comm 256 P). rewrite N.mod_mul_r by lia. lia.
Qed.

Lemma unbe_be k x : x < 256 ^ N.of_nat k -> unbe (be k x) = x.
Proof. intros H. rewrite unbe_be_mod. apply N.mod_small. exact H. Qed.

Lemma be_unbe_acc l a k : bytes_ok l -> length l = k ->
  be k (a * 256 ^ N.of_nat k + unbe l) = l.
Proof.
  revert a k. induction l as [|b l IH]; intros a k H Hk; subst k.
  - reflexivity.
  - inversion H as [|x y Hb Hl]; subst. cbn [length be].
    rewrite Nat2N.inj_succ, N.pow_succ_r', unbe_cons.
    pose proof (pow256_pos (N.of_nat (length l))) as Hp.
    pose proof (unbe_lt l Hl) as Hlt.
    set (P := 256 ^ N.of_nat (length l)) in *.
    replace (a * (256 * P) + (b * P + unbe l)) with ((a * 256 + b) * P + unbe l) by lia.
    f_equal.
    + rewrite N.div_add_l by lia. rewrite (N.div_small (unbe l)) by lia.
      rewrite N.add_0_r. unfold u8 in Hb. rewrite N.add_comm, N.mod_add by lia.
      apply N.mod_small. lia.
    + apply IH; auto.
Qed.

Lemma be_unbe l : bytes_ok l -> be (length l) (unbe l) = l.
Proof. intros H. apply (be_unbe_acc l 0); auto. Qed.

Lemma be_unbe_k k l : bytes_ok l -> length l = k -> be k (unbe l) = l.
Proof. intros H <-. apply be_unbe, H. Qed.

Lemma be1 x : u8 x -> be 1 x = [x].
Proof. unfold u8. intros H. cbn [be]. f_equal. change (256 ^ N.of_nat 0) with 1.
  rewrite N.div_1_r. apply N.mod_small. exact H. Qed.

Lemma unbe1 x : unbe [x] = x.
Proof. reflexivity. Qed.

Lemma bytes_ok_app l1 l2 : bytes_ok (l1 ++ l2) <-> bytes_ok l1 /\ bytes_ok l2.
Proof. apply Forall_app. Qed.

Lemma bytes_ok_firstn n l : bytes_ok l -> bytes_ok (firstn n l).
Proof. intros H. unfold bytes_ok in *. rewrite Forall_forall in *. intros x Hx.
  apply H. rewrite <- (firstn_skipn n l). apply in_or_app. auto. Qed.

Lemma bytes_ok_skipn n l : bytes_ok l -> bytes_ok (skipn n l).
Proof. intros H. unfold bytes_ok in *. rewrite Forall_forall in *. intros x Hx.
  apply H. rewrite <- (firstn_skipn n l). apply in_or_app. auto. Qed.

(** Splitting a list at exact lengths. *)
Lemma firstn_app_exact {A} (l1 l2 : list A) n : length l1 = n -> firstn n (l1 ++ l2) = l1.
Proof. intros <-. rewrite firstn_app, Nat.sub_diag, firstn_O, app_nil_r, firstn_all. reflexivity. Qed.

Lemma skipn_app_exact {A} (l1 l2 : list A) n : length l1 = n -> skipn n (l1 ++ l2) = l2.
Proof. intros <-. rewrite skipn_app, Nat.sub_diag, skipn_all. reflexivity. Qed.

Lemma skipn_skipn_add {A} (l : list A) x y : skipn x (skipn y l) = skipn (y + x) l.
Proof.
  revert l. induction y as [|y IH]; intros l; [reflexivity|].
  destruct l as [|a l]; cbn [skipn Nat.add]; [apply skipn_nil | apply IH].
Qed.
