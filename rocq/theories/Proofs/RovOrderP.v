(** Routes while the records of a response are applied, in any order. *)
From Coq Require Import ZArith ZifyBool ZifyNat ZifyN.
From Verif Require Import Model.Conn Spec.Sets Spec.Rov Proofs.DataP Proofs.CacheP.
From Coq Require Import List.
Import ListNotations.
Local Open Scope list_scope.
Local Open Scope N_scope.

(** * Applying records *)
Lemma apply_stays d : forall (R : rset) x, R x -> (forall e, In e d -> rid_of e = x -> get_flag e = 1) -> r_apply R d x.
Proof.
  induction d as [|e d IH]; intros R x HR H; [exact HR|]. cbn [r_apply fold_left]. change (fold_left r_apply1 d ?X) with (r_apply X d).
  apply IH; [|intros f HF; apply H; now right]. unfold r_apply1. destruct (get_flag e =? 1) eqn:E; [now right|]. split; [|exact HR]. intros X.
  specialize (H e (or_introl eq_refl) (eq_sym X)). lia.
Qed.
Lemma apply_comes d : forall (R : rset) x, (exists e, In e d /\ rid_of e = x) -> (forall e, In e d -> rid_of e = x -> get_flag e = 1) -> r_apply R d x.
Proof.
  induction d as [|e d IH]; intros R x HE H; [destruct HE as (e & [] & _)|]. cbn [r_apply fold_left]. change (fold_left r_apply1 d ?X) with (r_apply X d).
  destruct HE as (f & [<-|HF] & HX); [|apply IH; [now exists f|intros g HG; apply H; now right]].
  apply apply_stays; [|intros g HG; apply H; now right]. unfold r_apply1. rewrite (H e (or_introl eq_refl) HX). left. now symmetry.
Qed.
Lemma apply_from d : forall (R : rset) x, r_apply R d x -> R x \/ exists e, In e d /\ rid_of e = x /\ get_flag e = 1.
Proof.
  induction d as [|e d IH]; intros R x H; [now left|]. cbn [r_apply fold_left] in H. change (fold_left r_apply1 d ?X) with (r_apply X d) in H.
  apply IH in H as [H|(f & F1 & F2)]; [|right; exists f; split; [now right|exact F2]]. unfold r_apply1 in H. destruct (get_flag e =? 1) eqn:E; [|destruct H; now left].
  destruct H as [H|H]; [|now left]. right. exists e. split; [now left|]. split; [now symmetry|lia].
Qed.
Lemma apply_kept d : forall (R : rset) x, r_apply R d x -> (forall e, In e d -> rid_of e = x -> get_flag e <> 1) -> R x /\ forall e, In e d -> rid_of e <> x.
Proof.
  induction d as [|e d IH]; intros R x H N; [split; [exact H|intros f []]|]. cbn [r_apply fold_left] in H. change (fold_left r_apply1 d ?X) with (r_apply X d) in H.
  apply IH in H as [H H2]; [|intros f HF; apply N; now right]. unfold r_apply1 in H. destruct (get_flag e =? 1) eqn:E.
  - destruct H as [H|H]; [exfalso; apply (N e (or_introl eq_refl)); [now symmetry|lia]|]. split; [exact H|]. intros f [<-|HF]; [|now apply H2]. intros X. apply (N e (or_introl eq_refl) X). lia.
  - destruct H as [H3 H]. split; [exact H|]. intros f [<-|HF]; [|now apply H2]. intros X. apply H3. now symmetry.
Qed.
Lemma one_flag d (P : rid -> Prop) : (forall e f, In e d -> In f d -> rid_of e = rid_of f -> get_flag e = get_flag f) ->
  (forall a b e f, d = a ++ b -> In e a -> In f b -> P (rid_of e) -> P (rid_of f) -> get_flag f = 1 -> get_flag e = 1) ->
  forall (R : rset) k, ((exists x, R x /\ P x) -> (exists x, r_apply R d x /\ P x) -> exists x, r_apply R (firstn k d) x /\ P x) /\
    ((exists x, r_apply R (firstn k d) x /\ P x) -> (exists x, R x /\ P x) \/ exists x, r_apply R d x /\ P x).
Proof.
  intros HF HO R k. pose proof (firstn_skipn k d) as E. assert (IN : forall e, In e (firstn k d) -> In e d) by (intros e HE; rewrite <- E; apply in_or_app; now left). split.
  - intros (x & X1 & X2) (y & Y1 & Y2).
    destruct (existsb (fun e => if rid_dec (rid_of e) x then negb (get_flag e =? 1) else false) (firstn k d)) eqn:W.
    + apply existsb_exists in W as (e & E1 & E2). destruct (rid_dec (rid_of e) x) as [E3|]; [|discriminate E2]. exists y. split; [|exact Y2].
      destruct (existsb (fun f => if rid_dec (rid_of f) y then get_flag f =? 1 else false) d) eqn:A.
      * apply existsb_exists in A as (f & F1 & F2). destruct (rid_dec (rid_of f) y) as [F3|]; [|discriminate F2].
        apply apply_comes; [exists f; split; [|exact F3]|intros g G1 G2; rewrite <- (HF f g F1 (IN g G1)) by congruence; lia].
        rewrite <- E in F1. apply in_app_or in F1 as [F1|F1]; [exact F1|]. exfalso.
        assert (get_flag e = 1) by (apply (HO _ _ e f (eq_sym E) E1 F1); try lia; [now rewrite E3|now rewrite F3]). lia.
      * assert (N : forall g, In g d -> rid_of g = y -> get_flag g <> 1).
        { intros g G1 G2 G3. enough (false = true) by discriminate. rewrite <- A. apply existsb_exists. exists g. split; [exact G1|]. destruct (rid_dec (rid_of g) y); [lia|contradiction]. }
        apply apply_kept in Y1 as [Y1 Y3]; [|exact N]. apply apply_stays; [exact Y1|]. intros g G1 G2. exfalso. apply (Y3 g (IN g G1) G2).
    + exists x. split; [|exact X2]. apply apply_stays; [exact X1|]. intros e E1 E2. destruct (get_flag e =? 1) eqn:F; [lia|]. exfalso. enough (false = true) by discriminate.
      rewrite <- W. apply existsb_exists. exists e. split; [exact E1|]. destruct (rid_dec (rid_of e) x); [now rewrite F|contradiction].
  - intros (x & X1 & X2). apply apply_from in X1 as [X1|(e & E1 & E2 & E3)]; [left; now exists x|]. right. exists x. split; [|exact X2].
    apply apply_comes; [exists e; auto|]. intros f F1 F2. rewrite <- (HF e f (IN e E1) F1) by congruence. exact E3.
Qed.
Lemma ordp_filter {A} (P : A -> A -> Prop) f l : ForallOrdPairs P l -> ForallOrdPairs P (filter f l).
Proof.
  induction 1 as [|x l H1 H2 IH]; [constructor|]. cbn [filter]. destruct (f x); [|exact IH]. constructor; [|exact IH]. rewrite Forall_forall in *.
  intros y HY. apply filter_In in HY as [HY _]. auto.
Qed.
