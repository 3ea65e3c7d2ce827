From Coq Require Import ZifyBool ZifyNat ZifyN.
From Verif Require Import Model.JsonText Spec.Rfc8259 Proofs.JsonTextP.
Local Open Scope string_scope.
Local Open Scope list_scope.
Local Open Scope N_scope.

(** ** What is read has a text of the grammar *)

Definition dmax : nat := N.to_nat 10000.
Lemma dmax_eq : dmax = N.to_nat 10000.
Proof. reflexivity. Qed.
Global Opaque dmax.
Notation T := (jtext go_str).
Notation E := (jelems go_str).
Notation Ms := (jmembers go_str).

Lemma jchars_app a b : jchars a -> jchars b -> jchars (a ++ b).
Proof.
  induction 1; intros Hb; cbn [app]; [exact Hb|apply jc_plain; auto|apply jc_esc; auto|apply jc_uni; auto].
Qed.

Definition opn_a (n : nat) (l : list json) (b : bytes) : Prop :=
  (l = [] /\ ws b) \/ exists e w, E n l e /\ ws w /\ b = e ++ 44 :: w.
Definition opn_o (n : nat) (l : list (bytes * json)) (b : bytes) : Prop :=
  (l = [] /\ ws b) \/ exists e w, Ms n l e /\ ws w /\ b = e ++ 44 :: w.
Definition here (k : list frame) : nat := dmax - S (length k).

Fixpoint bef (k : list frame) (t : bytes) : Prop :=
  match k with
  | [] => ws t
  | FArr l :: k' => (S (length k') <= dmax)%nat /\ exists p b, t = p ++ 91 :: b /\ bef k' p /\ opn_a (here k') l b
  | FVal l s :: k' => (S (length k') <= dmax)%nat /\ exists p b raw w2 w3,
      t = p ++ 123 :: b ++ 34 :: raw ++ 34 :: w2 ++ 58 :: w3 /\ bef k' p /\ opn_o (here k') l b /\ go_str raw s /\ ws w2 /\ ws w3
  | _ => False
  end.
Definition keyb (k : list frame) (t : bytes) : Prop :=
  match k with
  | FObj l :: k' => (S (length k') <= dmax)%nat /\ exists p b, t = p ++ 123 :: b /\ bef k' p /\ opn_o (here k') l b
  | _ => False
  end.
Definition aft (k : list frame) (t : bytes) : Prop :=
  match k with
  | FArr l :: k' => (S (length k') <= dmax)%nat /\ exists p b, t = p ++ 91 :: b /\ bef k' p /\ E (here k') l b
  | FCol l s :: k' => (S (length k') <= dmax)%nat /\ exists p b raw w2,
      t = p ++ 123 :: b ++ 34 :: raw ++ 34 :: w2 /\ bef k' p /\ opn_o (here k') l b /\ go_str raw s /\ ws w2
  | FMem l :: k' => (S (length k') <= dmax)%nat /\ exists p b, t = p ++ 123 :: b /\ bef k' p /\ Ms (here k') l b
  | _ => False
  end.

Definition sgn (s : bytes) : Prop := s = [] \/ s = [45].
Definition numpre (q : numst) (lit : bytes) : Prop :=
  match q with
  | NNeg => lit = [45]
  | NZero => exists s, sgn s /\ lit = s ++ [48]
  | NInt => exists s c d, sgn s /\ 49 <= c <= 57 /\ Forall digit d /\ lit = s ++ c :: d
  | NDot => exists s i, sgn s /\ jint i /\ lit = s ++ i ++ [46]
  | NFrac => exists s i d, sgn s /\ jint i /\ digits1 d /\ lit = s ++ i ++ 46 :: d
  | NE => exists s i f e, sgn s /\ jint i /\ jfrac f /\ (e = 101 \/ e = 69) /\ lit = s ++ i ++ f ++ [e]
  | NESign => exists s i f e g, sgn s /\ jint i /\ jfrac f /\ (e = 101 \/ e = 69) /\ (g = 43 \/ g = 45) /\ lit = s ++ i ++ f ++ [e; g]
  | NExp => exists s i f e g d, sgn s /\ jint i /\ jfrac f /\ (e = 101 \/ e = 69) /\ (g = [] \/ g = [43] \/ g = [45]) /\
      digits1 d /\ lit = s ++ i ++ f ++ e :: g ++ d
  end.
Lemma digits1_snoc d c : digits1 d -> digit c -> digits1 (d ++ [c]).
Proof. intros [H1 H2] H. split; [destruct d; discriminate|]. apply Forall_app. auto. Qed.
Lemma digits1_one c : digit c -> digits1 [c].
Proof. split; [discriminate|]. repeat constructor; auto; apply H. Qed.
Lemma numpre_step q lit c q' : numpre q lit -> num_next q c = Some (Some q') -> numpre q' (lit ++ [c]).
Proof.
  intros H N. destruct q; cbn in H, N.
  - subst lit. destruct (c =? 48) eqn:C0.
    + injection N as <-. apply N.eqb_eq in C0. subst c. exists [45]. split; [right; reflexivity|reflexivity].
    + destruct ((48 <=? c) && (c <=? 57)) eqn:C1; [|discriminate]. injection N as <-.
      exists [45], c, []. repeat split; try lia; [right; reflexivity|constructor].
  - destruct H as (s & Hs & ->). destruct (c =? 46) eqn:C0.
    + injection N as <-. apply N.eqb_eq in C0. subst c. exists s, [48]. repeat split; auto.
      left; reflexivity. rewrite <- app_assoc. reflexivity.
    + destruct ((c =? 101) || (c =? 69)) eqn:C1; [|discriminate]. injection N as <-.
      exists s, [48], [], c. repeat split; auto; try lia; [left; reflexivity|left; reflexivity|].
      rewrite <- app_assoc. reflexivity.
  - destruct H as (s & a & d & Hs & Ha & Hd & ->). destruct ((48 <=? c) && (c <=? 57)) eqn:C0.
    + injection N as <-. exists s, a, (d ++ [c]). repeat split; auto; try lia.
      * apply Forall_app. split; auto. constructor; [unfold digit; lia|constructor].
      * rewrite <- app_assoc. reflexivity.
    + destruct (c =? 46) eqn:C1.
      * injection N as <-. apply N.eqb_eq in C1. subst c. exists s, (a :: d). repeat split; auto.
        right. exists a, d. auto. rewrite <- app_assoc. reflexivity.
      * destruct ((c =? 101) || (c =? 69)) eqn:C2; [|discriminate]. injection N as <-.
        exists s, (a :: d), [], c. repeat split; auto; try lia; [right; exists a, d; auto|left; reflexivity|].
        rewrite <- app_assoc. reflexivity.
  - destruct H as (s & i & Hs & Hi & ->). destruct ((48 <=? c) && (c <=? 57)) eqn:C0; [|discriminate]. injection N as <-.
    exists s, i, [c]. repeat split; auto; [discriminate|constructor; [unfold digit; lia|constructor]|].
    rewrite <- !app_assoc. reflexivity.
  - destruct H as (s & i & d & Hs & Hi & Hd & ->). destruct ((48 <=? c) && (c <=? 57)) eqn:C0.
    + injection N as <-. exists s, i, (d ++ [c]). assert (digit c) by (unfold digit; lia).
      split; [auto|]. split; [auto|]. split; [apply digits1_snoc; auto|]. rewrite <- !app_assoc. reflexivity.
    + destruct ((c =? 101) || (c =? 69)) eqn:C2; [|discriminate]. injection N as <-.
      exists s, i, (46 :: d), c. split; [auto|]. split; [auto|]. split; [right; exists d; auto|]. split; [lia|].
      rewrite <- !app_assoc. reflexivity.
  - destruct H as (s & i & f & e & Hs & Hi & Hf & He & ->). destruct ((c =? 43) || (c =? 45)) eqn:C0.
    + injection N as <-. exists s, i, f, e, c. do 5 (split; [auto; try lia|]). rewrite <- !app_assoc. reflexivity.
    + destruct ((48 <=? c) && (c <=? 57)) eqn:C1; [|discriminate]. injection N as <-.
      exists s, i, f, e, [], [c]. do 5 (split; [auto; try lia|]). split; [apply digits1_one; unfold digit; lia|].
      rewrite <- !app_assoc. reflexivity.
  - destruct H as (s & i & f & e & g & Hs & Hi & Hf & He & Hg & ->).
    destruct ((48 <=? c) && (c <=? 57)) eqn:C1; [|discriminate]. injection N as <-.
    exists s, i, f, e, [g], [c]. do 4 (split; [auto; try lia|]). split; [destruct Hg as [-> | ->]; auto|].
    split; [apply digits1_one; unfold digit; lia|]. rewrite <- !app_assoc. reflexivity.
  - destruct H as (s & i & f & e & g & d & Hs & Hi & Hf & He & Hg & Hd & ->).
    destruct ((48 <=? c) && (c <=? 57)) eqn:C1; [|discriminate]. injection N as <-.
    exists s, i, f, e, g, (d ++ [c]). do 5 (split; [auto; try lia|]). split; [apply digits1_snoc; auto; unfold digit; lia|].
    rewrite <- !app_assoc. cbn [app]. rewrite <- ?app_assoc. reflexivity.
Qed.
Lemma numpre_ends q lit c : numpre q lit -> num_next q c = None -> jnumber lit.
Proof.
  intros H N. destruct q; cbn in H, N; try discriminate.
  - destruct H as (s & Hs & ->). exists s, [48], [], []. repeat split; auto; left; reflexivity.
  - destruct H as (s & a & d & Hs & Ha & Hd & ->). exists s, (a :: d), [], []. rewrite !app_nil_r.
    repeat split; auto; try (left; reflexivity). right. exists a, d. auto.
  - destruct H as (s & i & d & Hs & Hi & Hd & ->). exists s, i, (46 :: d), []. rewrite app_nil_r.
    repeat split; auto; [right; exists d; auto|left; reflexivity].
  - destruct H as (s & i & f & e & g & d & Hs & Hi & Hf & He & Hg & Hd & ->).
    exists s, i, f, (e :: g ++ d). repeat split; auto. right. exists e, g, d. auto.
Qed.

(** White space after what may be followed by it. *)
Lemma elems_ws n l b c : E n l b -> is_space c = true -> E n l (b ++ [c]).
Proof.
  intros H Hc. apply is_space_spec in Hc. assert (Hw : ws [c]) by (constructor; [exact Hc|constructor]).
  inversion H; subst.
  - rewrite <- !app_assoc. constructor; auto. apply ws_app; auto.
  - rewrite <- !app_assoc. cbn [app]. rewrite <- !app_assoc. constructor; auto. apply ws_app; auto.
Qed.
Lemma member_ws n m b c : jmember go_str n m b -> is_space c = true -> jmember go_str n m (b ++ [c]).
Proof.
  intros H Hc. apply is_space_spec in Hc. assert (Hw : ws [c]) by (constructor; [exact Hc|constructor]).
  inversion H; subst.
  replace ((w1 ++ 34 :: raw ++ 34 :: w2 ++ 58 :: w3 ++ b0 ++ w4) ++ [c])
    with (w1 ++ 34 :: raw ++ 34 :: w2 ++ 58 :: w3 ++ b0 ++ (w4 ++ [c])).
  - constructor; auto. apply ws_app; auto.
  - repeat (cbn [app]; rewrite <- ?app_assoc). reflexivity.
Qed.
Lemma members_ws n l b c : Ms n l b -> is_space c = true -> Ms n l (b ++ [c]).
Proof.
  intros H Hc. inversion H; subst.
  - constructor. apply member_ws; auto.
  - rewrite <- app_assoc. cbn [app]. constructor; auto. apply member_ws; auto.
Qed.
Lemma opn_a_ws n l b c : opn_a n l b -> is_space c = true -> opn_a n l (b ++ [c]).
Proof.
  intros H Hc. apply is_space_spec in Hc. assert (Hw : ws [c]) by (constructor; [exact Hc|constructor]).
  destruct H as [[-> H] | (e & w & He & Hww & ->)].
  - left. split; auto. apply ws_app; auto.
  - right. exists e, (w ++ [c]). split; [exact He|]. split; [apply ws_app; auto|]. rewrite <- app_assoc. reflexivity.
Qed.
Lemma opn_o_ws n l b c : opn_o n l b -> is_space c = true -> opn_o n l (b ++ [c]).
Proof.
  intros H Hc. apply is_space_spec in Hc. assert (Hw : ws [c]) by (constructor; [exact Hc|constructor]).
  destruct H as [[-> H] | (e & w & He & Hww & ->)].
  - left. split; auto. apply ws_app; auto.
  - right. exists e, (w ++ [c]). split; [exact He|]. split; [apply ws_app; auto|]. rewrite <- app_assoc. reflexivity.
Qed.
Ltac appn := repeat (cbn [app]; rewrite <- ?app_assoc).
Lemma bef_ws k t c : bef k t -> is_space c = true -> bef k (t ++ [c]).
Proof.
  intros H Hc. destruct k as [|[l|l|l s|l s|l] k]; cbn in H |- *; try contradiction.
  - apply ws_app; auto. constructor; [apply is_space_spec; auto|constructor].
  - destruct H as (Hk & p & b & -> & Hp & Ho). split; [auto|]. exists p, (b ++ [c]). split; [appn; reflexivity|].
    split; [auto|]. apply opn_a_ws; auto.
  - destruct H as (Hk & p & b & raw & w2 & w3 & -> & Hp & Ho & Hr & H2 & H3). split; [auto|].
    exists p, b, raw, w2, (w3 ++ [c]). split; [appn; reflexivity|]. repeat (split; [assumption|]).
    apply ws_app; auto. constructor; [apply is_space_spec; auto|constructor].
Qed.
Lemma keyb_ws k t c : keyb k t -> is_space c = true -> keyb k (t ++ [c]).
Proof.
  intros H Hc. destruct k as [|[l|l|l s|l s|l] k]; cbn in H |- *; try contradiction.
  destruct H as (Hk & p & b & -> & Hp & Ho). split; [auto|]. exists p, (b ++ [c]). split; [appn; reflexivity|].
  split; [auto|]. apply opn_o_ws; auto.
Qed.
Lemma aft_ws k t c : aft k t -> is_space c = true -> aft k (t ++ [c]).
Proof.
  intros H Hc. destruct k as [|[l|l|l s|l s|l] k]; cbn in H |- *; try contradiction.
  - destruct H as (Hk & p & b & -> & Hp & Ho). split; [auto|]. exists p, (b ++ [c]). split; [appn; reflexivity|].
    split; [auto|]. apply elems_ws; auto.
  - destruct H as (Hk & p & b & raw & w2 & -> & Hp & Ho & Hr & H2). split; [auto|].
    exists p, b, raw, (w2 ++ [c]). split; [appn; reflexivity|]. repeat (split; [assumption|]).
    apply ws_app; auto. constructor; [apply is_space_spec; auto|constructor].
  - destruct H as (Hk & p & b & -> & Hp & Ho). split; [auto|]. exists p, (b ++ [c]). split; [appn; reflexivity|].
    split; [auto|]. apply members_ws; auto.
Qed.

(** The invariant of the scanner. *)
Definition means_read (s : pstate) (t : bytes) : Prop :=
  match s with
  | PBad => True
  | PDone v => exists w b rest, t = w ++ b ++ rest /\ ws w /\ T dmax v b
  | PRun LBegin k => bef k t
  | PRun LBeginOrEnd k => bef k t /\ exists k', k = FArr [] :: k'
  | PRun LKey k => keyb k t
  | PRun LKeyOrEnd k => keyb k t /\ exists k', k = FObj [] :: k'
  | PRun LEnd k => aft k t
  | PRun (LStr raw) k => exists p, t = p ++ 34 :: raw /\ (bef k p \/ keyb k p) /\ jchars raw
  | PRun (LEsc raw) k => exists p r, raw = r ++ [92] /\ t = p ++ 34 :: raw /\ (bef k p \/ keyb k p) /\ jchars r
  | PRun (LHex n raw) k => exists p r h, raw = r ++ 92 :: 117 :: h /\ (length h + n = 4)%nat /\ (1 <= n)%nat /\ Forall hexdig h /\
      t = p ++ 34 :: raw /\ (bef k p \/ keyb k p) /\ jchars r
  | PRun (LLit rest v) k => exists p pre, t = p ++ pre /\ bef k p /\ rest <> [] /\ forall n, T n v (pre ++ rest)
  | PRun (LNum q lit) k => exists p, t = p ++ lit /\ bef k p /\ numpre q lit
  end.

Lemma deliver_ok v k p b : bef k p -> T (dmax - length k) v b -> means_read (deliver v k) (p ++ b).
Proof.
  intros Hp Hv. destruct k as [|[l|l|l s|l s|l] k]; cbn in Hp |- *; try contradiction.
  - exists p, b, []. rewrite app_nil_r. split; [reflexivity|]. split; [exact Hp|].
    cbn [length] in Hv. rewrite Nat.sub_0_r in Hv. exact Hv.
  - destruct Hp as (Hk & p0 & b0 & -> & Hp0 & Ho). split; [exact Hk|].
    destruct Ho as [[-> Hw] | (e & w & He & Hw & ->)].
    + exists p0, (b0 ++ b ++ []). split; [appn; rewrite app_nil_r; reflexivity|]. split; [exact Hp0|].
      cbn [app]. apply je_one; auto. constructor.
    + exists p0, (e ++ 44 :: w ++ b ++ []). split; [appn; rewrite app_nil_r; reflexivity|]. split; [exact Hp0|].
      apply je_more; auto. constructor.
  - destruct Hp as (Hk & p0 & b0 & raw & w2 & w3 & -> & Hp0 & Ho & Hr & H2 & H3). split; [exact Hk|].
    destruct Ho as [[-> Hw] | (e & w & He & Hw & ->)].
    + exists p0, (b0 ++ 34 :: raw ++ 34 :: w2 ++ 58 :: w3 ++ b ++ []). split; [appn; rewrite app_nil_r; reflexivity|].
      split; [exact Hp0|]. apply (jm_one _ _ (s, v)). constructor; auto. constructor.
    + exists p0, (e ++ 44 :: w ++ 34 :: raw ++ 34 :: w2 ++ 58 :: w3 ++ b ++ []). split; [appn; rewrite app_nil_r; reflexivity|].
      split; [exact Hp0|]. apply jm_more; auto. constructor; auto. constructor.
Qed.
Lemma deliver_key k p raw : keyb k p -> jchars raw -> means_read (deliver (JStr (unquote raw)) k) (p ++ 34 :: raw ++ [34]).
Proof.
  intros Hp Hr. destruct k as [|[l|l|l s|l s|l] k]; cbn in Hp |- *; try contradiction.
  destruct Hp as (Hk & p0 & b0 & -> & Hp0 & Ho). split; [exact Hk|].
  exists p0, b0, raw, []. split; [appn; reflexivity|]. split; [exact Hp0|]. split; [exact Ho|].
  split; [split; auto|constructor].
Qed.
Lemma end_ok k t c : aft k t -> is_space c = false -> means_read (end_value c k) (t ++ [c]).
Proof.
  intros H Hc. destruct k as [|[l|l|l s|l s|l] k]; cbn in H |- *; try contradiction.
  - destruct H as (Hk & p & b & -> & Hp & He).
    destruct (c =? 44) eqn:C1; [apply N.eqb_eq in C1; subst c|].
    + cbn. split; [exact Hk|]. exists p, (b ++ [44]). split; [appn; reflexivity|]. split; [exact Hp|].
      right. exists b, []. split; [exact He|]. split; [constructor|reflexivity].
    + destruct (c =? 93) eqn:C2; [apply N.eqb_eq in C2; subst c|exact I].
      replace ((p ++ 91 :: b) ++ [93]) with (p ++ 91 :: b ++ [93]) by (appn; reflexivity).
      apply deliver_ok; [exact Hp|]. replace (dmax - length k)%nat with (S (here k)) by (unfold here; lia).
      apply jt_arr. exact He.
  - destruct H as (Hk & p & b & raw & w2 & -> & Hp & Ho & Hr & H2).
    destruct (c =? 58) eqn:C1; [apply N.eqb_eq in C1; subst c|exact I].
    cbn. split; [exact Hk|]. exists p, b, raw, w2, []. split; [appn; reflexivity|]. repeat (split; [assumption|]). constructor.
  - destruct H as (Hk & p & b & -> & Hp & He).
    destruct (c =? 44) eqn:C1; [apply N.eqb_eq in C1; subst c|].
    + cbn. split; [exact Hk|]. exists p, (b ++ [44]). split; [appn; reflexivity|]. split; [exact Hp|].
      right. exists b, []. split; [exact He|]. split; [constructor|reflexivity].
    + destruct (c =? 125) eqn:C2; [apply N.eqb_eq in C2; subst c|exact I].
      replace ((p ++ 123 :: b) ++ [125]) with (p ++ 123 :: b ++ [125]) by (appn; reflexivity).
      apply deliver_ok; [exact Hp|]. replace (dmax - length k)%nat with (S (here k)) by (unfold here; lia).
      apply jt_obj. exact He.
Qed.
Lemma push_cases s f k : push s f k = PBad \/ push s f k = PRun s (f :: k) /\ (S (length k) <= dmax)%nat.
Proof.
  unfold push, nlen. cbn [length]. destruct (N.of_nat (S (length k)) <=? 10000) eqn:Q; [right|left; reflexivity].
  split; [reflexivity|]. rewrite dmax_eq. lia.
Qed.
Lemma lit_start k t pre rest v : bef k t -> rest <> [] -> (forall n, T n v (pre ++ rest)) -> means_read (PRun (LLit rest v) k) (t ++ pre).
Proof. intros H1 H2 H3. exists t, pre. auto. Qed.
Lemma begin_ok k t c : bef k t -> is_space c = false -> means_read (begin_value c k) (t ++ [c]).
Proof.
  intros H Hc. unfold begin_value.
  destruct (c =? 123) eqn:C1; [apply N.eqb_eq in C1; subst c|].
  { destruct (push_cases LKeyOrEnd (FObj []) k) as [-> | [-> Hk]]; [exact I|].
    cbn. split; [|exists k; reflexivity]. split; [exact Hk|]. exists t, []. split; [reflexivity|]. split; [exact H|].
    left. split; [reflexivity|constructor]. }
  destruct (c =? 91) eqn:C2; [apply N.eqb_eq in C2; subst c|].
  { destruct (push_cases LBeginOrEnd (FArr []) k) as [-> | [-> Hk]]; [exact I|].
    cbn. split; [|exists k; reflexivity]. split; [exact Hk|]. exists t, []. split; [reflexivity|]. split; [exact H|].
    left. split; [reflexivity|constructor]. }
  destruct (c =? 34) eqn:C3; [apply N.eqb_eq in C3; subst c|].
  { cbn. exists t. split; [reflexivity|]. split; [left; exact H|constructor]. }
  destruct (c =? 45) eqn:C4; [apply N.eqb_eq in C4; subst c|].
  { cbn. exists t. auto. }
  destruct (c =? 48) eqn:C5; [apply N.eqb_eq in C5; subst c|].
  { cbn. exists t. split; [reflexivity|]. split; [exact H|]. exists []. split; [left; reflexivity|reflexivity]. }
  destruct (c =? 116) eqn:C6; [apply N.eqb_eq in C6; subst c|].
  { apply lit_start; [exact H|discriminate|]. intros n. apply (jt_true go_str n). }
  destruct (c =? 102) eqn:C7; [apply N.eqb_eq in C7; subst c|].
  { apply lit_start; [exact H|discriminate|]. intros n. apply (jt_false go_str n). }
  destruct (c =? 110) eqn:C8; [apply N.eqb_eq in C8; subst c|].
  { apply lit_start; [exact H|discriminate|]. intros n. apply (jt_null go_str n). }
  destruct ((49 <=? c) && (c <=? 57)) eqn:C9; [|exact I].
  cbn. exists t. split; [reflexivity|]. split; [exact H|]. exists [], c, []. repeat split; try lia; [left; reflexivity|constructor].
Qed.
Lemma elems_nonempty n l b : E n l b -> l <> [].
Proof. intros H. inversion H; subst; [discriminate|]. destruct l0; discriminate. Qed.
Lemma members_nonempty n l b : Ms n l b -> l <> [].
Proof. intros H. inversion H; subst; [discriminate|]. destruct l0; discriminate. Qed.
Lemma key_ok k t c : keyb k t -> means_read (begin_key c k) (t ++ [c]).
Proof.
  intros H. unfold begin_key. destruct (c =? 34) eqn:C; [|exact I]. apply N.eqb_eq in C. subst c.
  cbn. exists t. split; [reflexivity|]. split; [right; exact H|constructor].
Qed.
Lemma done_more v t c : means_read (PDone v) t -> means_read (PDone v) (t ++ [c]).
Proof. intros (w & b & r & -> & Hw & Hv). exists w, b, (r ++ [c]). appn. auto. Qed.

Lemma step_ok s t c : means_read s t -> means_read (pstep s c) (t ++ [c]).
Proof.
  intros H. destruct s as [s k|v|]; [|apply done_more; exact H|exact I].
  destruct s as [| | | | |raw|raw|n raw|rest v|q lit]; cbn [pstep].
  - destruct (is_space c) eqn:Hc; [apply bef_ws; auto|apply begin_ok; auto].
  - destruct H as [H (k' & ->)]. destruct (is_space c) eqn:Hc.
    + split; [apply bef_ws; auto|exists k'; reflexivity].
    + destruct (c =? 93) eqn:C; [apply N.eqb_eq in C; subst c|apply begin_ok; auto].
      cbn [end_value]. change (93 =? 44) with false. change (93 =? 93) with true. cbn iota.
      cbn in H. destruct H as (Hk & p & b & -> & Hp & Ho).
      destruct Ho as [[_ Hw] | (e & w & He & _)]; [|apply elems_nonempty in He; congruence].
      replace ((p ++ 91 :: b) ++ [93]) with (p ++ 91 :: b ++ [93]) by (appn; reflexivity).
      apply deliver_ok; [exact Hp|]. replace (dmax - length k')%nat with (S (here k')) by (unfold here; lia).
      apply jt_arr0. exact Hw.
  - destruct (is_space c) eqn:Hc; [apply keyb_ws; auto|apply key_ok; auto].
  - destruct H as [H (k' & ->)]. destruct (is_space c) eqn:Hc.
    + split; [apply keyb_ws; auto|exists k'; reflexivity].
    + destruct (c =? 125) eqn:C; [apply N.eqb_eq in C; subst c|apply key_ok; auto].
      cbn in H. destruct H as (Hk & p & b & -> & Hp & Ho).
      destruct Ho as [[_ Hw] | (e & w & He & _)]; [|apply members_nonempty in He; congruence].
      replace ((p ++ 123 :: b) ++ [125]) with (p ++ 123 :: b ++ [125]) by (appn; reflexivity).
      apply deliver_ok; [exact Hp|]. replace (dmax - length k')%nat with (S (here k')) by (unfold here; lia).
      apply jt_obj0. exact Hw.
  - destruct (is_space c) eqn:Hc; [apply aft_ws; auto|apply end_ok; auto].
  - destruct H as (p & -> & Hp & Hr).
    destruct (c =? 34) eqn:C1; [apply N.eqb_eq in C1; subst c|].
    { replace ((p ++ 34 :: raw) ++ [34]) with (p ++ 34 :: raw ++ [34]) by (appn; reflexivity).
      destruct Hp as [Hp | Hp]; [|apply deliver_key; auto].
      apply deliver_ok; [exact Hp|]. apply jt_str. split; auto. }
    destruct (c =? 92) eqn:C2; [apply N.eqb_eq in C2; subst c|].
    { exists p, raw. split; [reflexivity|]. split; [appn; reflexivity|]. auto. }
    destruct (c <? 32) eqn:C3; [exact I|].
    exists p. split; [appn; reflexivity|]. split; [exact Hp|]. apply jchars_app; auto. constructor; try lia. constructor.
  - destruct H as (p & r & -> & -> & Hp & Hr).
    destruct (c =? 117) eqn:C1; [apply N.eqb_eq in C1; subst c|].
    { exists p, r, []. split; [appn; reflexivity|]. split; [reflexivity|]. split; [lia|]. split; [constructor|].
      split; [appn; reflexivity|]. auto. }
    destruct (existsb (N.eqb c) (str "bfnrt\/" ++ [34])) eqn:C2; [|exact I].
    exists p. split; [appn; reflexivity|]. split; [exact Hp|]. rewrite <- app_assoc. apply jchars_app; auto.
    apply existsb_exists in C2. destruct C2 as (x & Hx & Ex). apply N.eqb_eq in Ex. subst x.
    apply jc_esc; [cbn in Hx |- *; tauto|constructor].
  - destruct H as (p & r & h & -> & Hn & Hn1 & Hh & -> & Hp & Hr).
    destruct (is_hexd c) eqn:C1; [|exact I]. apply hexdig_is in C1.
    destruct n as [|[|m]]; [lia| |].
    + destruct h as [|a [|b [|d [|]]]]; cbn in Hn; try lia.
      inversion_clear Hh as [|? ? Ha Hh1]. inversion_clear Hh1 as [|? ? Hb Hh2]. inversion_clear Hh2 as [|? ? Hd Hh3].
      exists p. split; [appn; reflexivity|]. split; [exact Hp|]. rewrite <- app_assoc. apply jchars_app; auto.
      cbn [app]. apply jc_uni; auto. constructor.
    + exists p, r, (h ++ [c]). split; [appn; reflexivity|]. split; [rewrite app_length; cbn; lia|]. split; [lia|].
      split; [apply Forall_app; auto|]. split; [appn; reflexivity|]. auto.
  - destruct H as (p & pre & -> & Hp & Hn & Ht).
    destruct rest as [|x [|y rest]]; [congruence| |].
    + destruct (c =? x) eqn:C1; [apply N.eqb_eq in C1; subst c|exact I].
      rewrite <- app_assoc. apply deliver_ok; [exact Hp|apply Ht].
    + destruct (c =? x) eqn:C1; [apply N.eqb_eq in C1; subst c|exact I].
      exists p, (pre ++ [x]). split; [appn; reflexivity|]. split; [exact Hp|]. split; [discriminate|].
      intros n0. rewrite <- app_assoc. apply Ht.
  - destruct H as (p & -> & Hp & Hn).
    destruct (num_next q c) as [[q'|]|] eqn:NN.
    + exists p. split; [appn; reflexivity|]. split; [exact Hp|]. eapply numpre_step; eauto.
    + exact I.
    + assert (Hd : means_read (deliver (JNum lit) k) (p ++ lit)).
      { apply deliver_ok; [exact Hp|]. constructor. eapply numpre_ends; eauto. }
      assert (Hk : (exists v, deliver (JNum lit) k = PDone v) \/ (exists k', deliver (JNum lit) k = PRun LEnd k')).
      { destruct k as [|[l|l|l s|l s|l] k]; cbn in Hp |- *; try contradiction; [left|right|right]; eexists; reflexivity. }
      destruct Hk as [(v & E0) | (k' & E0)]; rewrite E0 in Hd |- *.
      * apply done_more. exact Hd.
      * destruct (is_space c) eqn:Hc; [apply aft_ws; auto|apply end_ok; auto].
Qed.
Theorem sound_run t : means_read (steps t (PRun LBegin [])) t.
Proof.
  induction t as [|c t IH] using rev_ind; [constructor|].
  rewrite steps_app. cbn [fold_left]. apply step_ok. exact IH.
Qed.
Theorem parse_sound t v : parse t = Some v -> exists w b rest, t = w ++ b ++ rest /\ ws w /\ T dmax v b.
Proof.
  intros H. unfold parse, at_eof in H. pose proof (sound_run t) as S0.
  destruct (steps t (PRun LBegin [])) as [s k|v0|]; try discriminate.
  - destruct s; try discriminate. destruct k; try discriminate.
    destruct (num_next q 32) eqn:NN; [discriminate|]. injection H as <-.
    destruct S0 as (p & -> & Hp & Hn). exists p, lit, []. rewrite app_nil_r. split; [reflexivity|]. split; [exact Hp|].
    constructor. eapply numpre_ends; eauto.
  - injection H as <-. exact S0.
Qed.
Definition is_num (v : json) : bool := match v with JNum _ => true | _ => false end.
Theorem parse_complete w b rest v : ws w -> T dmax v b -> is_num v = false -> parse (w ++ b ++ rest) = Some v.
Proof.
  intros Hw Hv Hn. unfold parse. rewrite steps_app, skip_ws by (auto; unfold skips; tauto). rewrite steps_app.
  destruct reads as [R _]. destruct (R _ _ _ Hv [] ltac:(rewrite dmax_eq; cbn [length]; lia)) as [-> | (q & lit & -> & _)]; [|discriminate].
  cbn [deliver]. rewrite steps_done. reflexivity.
Qed.
Theorem parse_iff t v : is_num v = false ->
  (parse t = Some v <-> exists w b rest, t = w ++ b ++ rest /\ ws w /\ T dmax v b).
Proof.
  intros Hn. split; [apply parse_sound|]. intros (w & b & rest & -> & Hw & Hv). apply parse_complete; auto.
Qed.
