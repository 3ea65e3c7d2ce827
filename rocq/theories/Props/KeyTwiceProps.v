(** Property C37, exactly: how often each router key is produced, and when each is once. *)
From Coq Require Import ZArith String Lia.
From Verif Require Import Lib.Str Model.Process Spec.Input Proofs.JsonP Proofs.ProcessP Proofs.ExceptionsP Props.InputProps.
From Coq Require Import List.
Import ListNotations.
Local Open Scope string_scope.
Local Open Scope list_scope.
Local Open Scope N_scope.

(** The entry [b] stands, at [now], for the router key [k]. *)
Definition stands_for (now : Z) (b : brkjson) (k : sd) : Prop :=
  fresh now (bj_expires b) /\ exists ski, is_hex_of (bj_ski b) ski /\ k = BgpsecKey (bj_asn b) ski (bj_pubkey b) 0.
(** [n] of the entries [bs] stand for [k]. *)
Inductive stand_for (now : Z) (k : sd) : list brkjson -> nat -> Prop :=
| sf_nil : stand_for now k [] 0
| sf_yes b bs n : stands_for now b k -> stand_for now k bs n -> stand_for now k (b :: bs) (S n)
| sf_no b bs n : ~ stands_for now b k -> stand_for now k bs n -> stand_for now k (b :: bs) n.

Lemma sd_eq_dec : forall a b : sd, {a = b} + {a <> b}.
Proof. repeat (decide equality; try apply N.eq_dec). Defined.

Definition keys_of sort now vs bs : list sd := snd (fst (fst (process_data sort now vs bs))).
Lemma keys_loop sort now vs bs : keys_of sort now vs bs = brk_loop now bs.
Proof. unfold keys_of, process_data. destruct (vrp_loop now vs) as [[[o se] k4] k6]. reflexivity. Qed.
Lemma one_stands now b k : In k (brk_loop now [b]) <-> stands_for now b k.
Proof.
  destruct (brk_loop_one now b) as [(ski & F & HX & E)|[N E]]; rewrite E; cbn [In].
  - split.
    + intros [<-|[]]. split; [exact F|]. exists ski. auto.
    + intros (_ & s & HS & ->). left. now rewrite (hex_inj _ _ _ HX HS).
  - split; [intros []|]. intros (F & s & HS & _). exfalso. apply N. exists s. auto.
Qed.
Lemma one_length now b : (length (brk_loop now [b]) <= 1)%nat.
Proof. destruct (brk_loop_one now b) as [(ski & _ & _ & E)|[_ E]]; rewrite E; cbn; lia. Qed.

Lemma loop_counts now k bs : stand_for now k bs (count_occ sd_eq_dec (brk_loop now bs) k).
Proof.
  induction bs as [|b bs IH]; [constructor|]. rewrite brk_loop_cons, count_occ_app.
  pose proof (one_stands now b k) as O. pose proof (one_length now b) as L.
  destruct (brk_loop now [b]) as [|x [|y r]]; cbn in L; [| |lia]; cbn [count_occ In] in *.
  - apply sf_no; [|exact IH]. intros H. now apply O.
  - destruct (sd_eq_dec x k) as [->|N].
    + apply sf_yes; [|exact IH]. apply O. now left.
    + apply sf_no; [|exact IH]. intros H. apply O in H as [H|[]]. now apply N.
Qed.
Lemma stand_none now k bs : stand_for now k bs 0 <-> Forall (fun b => ~ stands_for now b k) bs.
Proof.
  split.
  - intros H. remember 0%nat as n eqn:E. induction H; [constructor|discriminate E|]. constructor; auto.
  - induction 1; [constructor|]. now apply sf_no.
Qed.
Lemma loop_in now k bs : In k (brk_loop now bs) <-> Exists (fun b => stands_for now b k) bs.
Proof.
  induction bs as [|b bs IH]; [split; [intros []|inversion 1]|].
  rewrite brk_loop_cons, in_app_iff, one_stands, IH, Exists_cons. tauto.
Qed.

(** C37 Router keys: whatever the lists, a key is produced once for every unexpired entry with
    its AS number, the octets its SKI is written for, and its public key; each is once exactly when no two of
    those entries agree in all three.  (Missing: each once, see [C37_twice_refuted].) *)
Theorem C37_exact_partial : forall sort now vs bs,
  (forall k, stand_for now k bs (count_occ sd_eq_dec (keys_of sort now vs bs) k)) /\
  (NoDup (keys_of sort now vs bs) <->
   ForallOrdPairs (fun b b' => forall k, ~ (stands_for now b k /\ stands_for now b' k)) bs).
Proof.
  intros sort now vs bs. rewrite keys_loop. split; [intros k; apply loop_counts|].
  induction bs as [|b bs IH]; [split; constructor|]. rewrite brk_loop_cons.
  pose proof (one_stands now b) as O. pose proof (one_length now b) as L.
  destruct (brk_loop now [b]) as [|x [|y r]]; cbn in L; [| |lia]; cbn [app].
  - rewrite IH. split.
    + intros H. constructor; [|exact H]. apply Forall_forall. intros b' _ k [H1 _]. now apply O in H1.
    + intros H. now inversion H.
  - rewrite NoDup_cons_iff, IH, loop_in. split.
    + intros [N H]. constructor; [|exact H]. apply Forall_forall. intros b' HB k [H1 H2].
      apply O in H1 as [<-|[]]. apply N. apply Exists_exists. eauto.
    + intros H. inversion H as [|? ? HF HP]. subst. split; [|exact HP]. intros HE. apply Exists_exists in HE as (b' & HB & HS).
      rewrite Forall_forall in HF. apply (HF b' HB x). split; [apply O; now left|exact HS].
Qed.

(** One key written twice, with the letters of its SKI in either case: it is produced twice; had
    one of the entries expired, or another public key, it would be once. *)
Example C37_exact_case :
  count_occ sd_eq_dec (keys_of isort 9 [] [bj 5 "0a" None; bj 6 "0a" None; bj 5 "0A" None]) (BgpsecKey 5 [10] [1; 2] 0) = 2%nat /\
  count_occ sd_eq_dec (keys_of isort 9 [] [bj 5 "0a" None; bj 6 "0a" None; bj 5 "0A" (Some 8%Z)]) (BgpsecKey 5 [10] [1; 2] 0) = 1%nat /\
  NoDup (keys_of isort 9 [] [bj 5 "0a" None; bj 6 "0a" None; bj 5 "0A" (Some 8%Z)]).
Proof.
  split; [reflexivity|]. split; [reflexivity|].
  change (NoDup [BgpsecKey 5 [10] [1; 2] 0; BgpsecKey 6 [10] [1; 2] 0]).
  constructor; [intros [H|[]]; discriminate H|]. constructor; [intros []|constructor].
Qed.

Print Assumptions C37_exact_partial.
