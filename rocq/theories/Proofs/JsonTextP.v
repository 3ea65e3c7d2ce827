From Coq Require Import ZifyBool ZifyNat ZifyN.
From Verif Require Import Model.JsonText Spec.Rfc8259.
Ltac Zify.zify_post_hook ::= Z.div_mod_to_equations.
Local Open Scope string_scope.
Local Open Scope list_scope.
Local Open Scope N_scope.

Scheme jtext_mind := Induction for jtext Sort Prop
  with jelems_mind := Induction for jelems Sort Prop
  with jmembers_mind := Induction for jmembers Sort Prop
  with jmember_mind := Induction for jmember Sort Prop.
Combined Scheme json_mind from jtext_mind, jelems_mind, jmembers_mind, jmember_mind.

Notation steps := (fold_left pstep).

Lemma steps_app a b p : steps (a ++ b) p = steps b (steps a p).
Proof. apply fold_left_app. Qed.
Lemma steps_done t v : steps t (PDone v) = PDone v.
Proof. induction t; cbn; auto. Qed.
Lemma steps_bad t : steps t PBad = PBad.
Proof. induction t; cbn; auto. Qed.

Lemma is_space_spec c : is_space c = true <-> In c [32; 9; 10; 13].
Proof. unfold is_space. cbn [In]. lia. Qed.
Lemma ws_app a b : ws a -> ws b -> ws (a ++ b).
Proof. intros. apply Forall_app; auto. Qed.
Lemma ws_nil : ws [].
Proof. constructor. Qed.

(** White space in the states that skip it. *)
Definition skips (s : lex) : Prop := s = LBegin \/ s = LBeginOrEnd \/ s = LKey \/ s = LKeyOrEnd \/ s = LEnd.
Lemma skip_ws s k w : skips s -> ws w -> steps w (PRun s k) = PRun s k.
Proof.
  intros Hs Hw. induction Hw as [|c w Hc Hw IH]; [reflexivity|].
  cbn [fold_left]. apply is_space_spec in Hc.
  replace (pstep (PRun s k) c) with (PRun s k); [exact IH|].
  destruct Hs as [-> | [-> | [-> | [-> | ->]]]]; cbn [pstep]; rewrite Hc; reflexivity.
Qed.

(** Numbers. *)
Definition accepting (q : numst) : bool :=
  match q with NZero | NInt | NFrac | NExp => true | _ => false end.
Lemma steps_digits q d lit k : (q = NInt \/ q = NFrac \/ q = NExp) -> Forall digit d ->
  steps d (PRun (LNum q lit) k) = PRun (LNum q (lit ++ d)) k.
Proof.
  intros Hq Hd. revert lit. induction Hd as [|c d Hc Hd IH]; intros lit.
  - rewrite app_nil_r. reflexivity.
  - cbn [fold_left pstep]. unfold digit in Hc.
    replace (num_next q c) with (Some (Some q)).
    + rewrite IH, <- app_assoc. reflexivity.
    + destruct Hq as [-> | [-> | ->]]; cbn; replace ((48 <=? c) && (c <=? 57)) with true by lia; reflexivity.
Qed.
Lemma digit_notspace c : digit c -> is_space c = false.
Proof. unfold digit, is_space. lia. Qed.
Lemma steps_int k i : jint i ->
  exists q, (q = NZero \/ q = NInt) /\ steps i (PRun LBegin k) = PRun (LNum q i) k.
Proof.
  intros [-> | (c & d & -> & Hc & Hd)].
  - exists NZero. split; [auto|]. reflexivity.
  - exists NInt. split; [auto|]. cbn [fold_left pstep].
    replace (is_space c) with false by (unfold is_space; lia).
    unfold begin_value.
    replace (c =? 123) with false by lia. replace (c =? 91) with false by lia. replace (c =? 34) with false by lia.
    replace (c =? 45) with false by lia. replace (c =? 48) with false by lia. replace (c =? 116) with false by lia.
    replace (c =? 102) with false by lia. replace (c =? 110) with false by lia.
    replace ((49 <=? c) && (c <=? 57)) with true by lia.
    rewrite steps_digits by auto. reflexivity.
Qed.
Lemma steps_negint k i : jint i ->
  exists q, (q = NZero \/ q = NInt) /\ steps i (PRun (LNum NNeg [45]) k) = PRun (LNum q (45 :: i)) k.
Proof.
  intros [-> | (c & d & -> & Hc & Hd)].
  - exists NZero. split; [auto|]. reflexivity.
  - exists NInt. split; [auto|]. cbn [fold_left pstep num_next].
    replace (c =? 48) with false by lia. replace ((48 <=? c) && (c <=? 57)) with true by lia.
    rewrite steps_digits by auto. reflexivity.
Qed.
Lemma steps_frac k f q lit : jfrac f -> (q = NZero \/ q = NInt) ->
  exists q', (q' = NZero \/ q' = NInt \/ q' = NFrac) /\ steps f (PRun (LNum q lit) k) = PRun (LNum q' (lit ++ f)) k.
Proof.
  intros [-> | (d & -> & Hn & Hd)] Hq.
  - exists q. split; [tauto|]. rewrite app_nil_r. reflexivity.
  - exists NFrac. split; [auto|]. destruct d as [|c d]; [congruence|]. inversion_clear Hd as [|? ? Hc Hd'].
    cbn [fold_left pstep]. assert (E : num_next q 46 = Some (Some NDot)) by (destruct Hq as [-> | ->]; reflexivity).
    rewrite E. cbn [fold_left pstep num_next]. unfold digit in Hc.
    replace ((48 <=? c) && (c <=? 57)) with true by lia.
    rewrite steps_digits by auto. rewrite <- !app_assoc. reflexivity.
Qed.
Lemma steps_exp k x q lit : jexp x -> (q = NZero \/ q = NInt \/ q = NFrac) ->
  exists q', accepting q' = true /\ steps x (PRun (LNum q lit) k) = PRun (LNum q' (lit ++ x)) k.
Proof.
  intros [-> | (e & s & d & -> & He & Hs & Hn & Hd)] Hq.
  - exists q. split; [destruct Hq as [-> | [-> | ->]]; reflexivity|]. rewrite app_nil_r. reflexivity.
  - exists NExp. split; [reflexivity|]. destruct d as [|c d]; [congruence|]. inversion_clear Hd as [|? ? Hc Hd'].
    unfold digit in Hc.
    cbn [fold_left pstep]. assert (E : num_next q e = Some (Some NE)).
    { destruct He as [-> | ->], Hq as [-> | [-> | ->]]; reflexivity. }
    rewrite E. clear E.
    destruct Hs as [-> | [-> | ->]].
    + cbn [app fold_left pstep num_next]. replace ((c =? 43) || (c =? 45)) with false by lia.
      replace ((48 <=? c) && (c <=? 57)) with true by lia. cbn iota.
      rewrite steps_digits by auto. rewrite <- !app_assoc. reflexivity.
    + change (steps ([43] ++ c :: d) (PRun (LNum NE (lit ++ [e])) k))
        with (steps d (pstep (PRun (LNum NESign ((lit ++ [e]) ++ [43])) k) c)).
      cbn [pstep num_next]. replace ((48 <=? c) && (c <=? 57)) with true by lia. cbn iota.
      rewrite steps_digits by auto. rewrite <- !app_assoc. reflexivity.
    + change (steps ([45] ++ c :: d) (PRun (LNum NE (lit ++ [e])) k))
        with (steps d (pstep (PRun (LNum NESign ((lit ++ [e]) ++ [45])) k) c)).
      cbn [pstep num_next]. replace ((48 <=? c) && (c <=? 57)) with true by lia. cbn iota.
      rewrite steps_digits by auto. rewrite <- !app_assoc. reflexivity.
Qed.
Lemma steps_number k lit : jnumber lit ->
  exists q, accepting q = true /\ steps lit (PRun LBegin k) = PRun (LNum q lit) k.
Proof.
  intros (s & i & f & x & -> & Hs & Hi & Hf & Hx).
  destruct Hs as [-> | ->].
  - destruct (steps_int k i Hi) as (q & Hq & E). cbn [app]. rewrite steps_app, E.
    destruct (steps_frac k f q i Hf Hq) as (q1 & Hq1 & E1). rewrite steps_app, E1.
    destruct (steps_exp k x q1 (i ++ f) Hx Hq1) as (q2 & Hq2 & E2). exists q2. split; [exact Hq2|].
    rewrite E2, <- app_assoc. reflexivity.
  - destruct (steps_negint k i Hi) as (q & Hq & E). rewrite steps_app.
    change (steps [45] (PRun LBegin k)) with (PRun (LNum NNeg [45]) k). rewrite steps_app, E.
    destruct (steps_frac k f q (45 :: i) Hf Hq) as (q1 & Hq1 & E1). rewrite steps_app, E1.
    destruct (steps_exp k x q1 ((45 :: i) ++ f) Hx Hq1) as (q2 & Hq2 & E2). exists q2. split; [exact Hq2|].
    rewrite E2. cbn [app]. rewrite <- !app_assoc. reflexivity.
Qed.

(** Strings. *)
Lemma hexdig_is c : hexdig c <-> is_hexd c = true.
Proof. unfold hexdig, is_hexd. lia. Qed.
Lemma steps_chars k r raw : jchars r -> steps r (PRun (LStr raw) k) = PRun (LStr (raw ++ r)) k.
Proof.
  intros Hr. revert raw. induction Hr as [|c r H1 H2 H3 Hr IH|c r Hc Hr IH|a b c d r Ha Hb Hc Hd Hr IH]; intros raw.
  - rewrite app_nil_r. reflexivity.
  - cbn [fold_left pstep]. replace (c =? 34) with false by lia. replace (c =? 92) with false by lia.
    replace (c <? 32) with false by lia. rewrite IH, <- app_assoc. reflexivity.
  - cbn [fold_left pstep]. change (92 =? 34) with false. change (92 =? 92) with true. cbn [pstep].
    assert (E : (c =? 117) = false).
    { cbn in Hc. intuition subst; reflexivity. }
    rewrite E. replace (existsb (N.eqb c) (str "bfnrt\/" ++ [34])) with true.
    + rewrite IH, <- !app_assoc. reflexivity.
    + symmetry. apply existsb_exists. exists c. split; [|apply N.eqb_refl]. cbn in Hc |- *. tauto.
  - apply hexdig_is in Ha, Hb, Hc, Hd.
    cbn [fold_left pstep]. change (92 =? 34) with false. change (92 =? 92) with true. cbn [pstep].
    change (117 =? 117) with true. cbn [pstep]. rewrite Ha. cbn [pstep]. rewrite Hb. cbn [pstep]. rewrite Hc. cbn [pstep].
    rewrite Hd. cbn [pstep]. rewrite IH, <- !app_assoc. reflexivity.
Qed.
Lemma steps_string k raw s : skips s -> s <> LEnd -> jchars raw ->
  steps (34 :: raw ++ [34]) (PRun s k) = deliver (JStr (unquote raw)) k.
Proof.
  intros Hs Hn Hr. cbn [fold_left].
  replace (pstep (PRun s k) 34) with (PRun (LStr []) k).
  - rewrite steps_app, (steps_chars _ _ _ Hr). reflexivity.
  - destruct Hs as [-> | [-> | [-> | [-> | ->]]]]; try congruence; reflexivity.
Qed.

(** ** Texts of the grammar are read as what they are *)

Definition go_str (raw s : bytes) : Prop := jchars raw /\ s = unquote raw.
Definition closes (c : N) : Prop := In c [32; 9; 10; 13; 44; 93; 125].
Definition holds_value (f : frame) : Prop := match f with FArr _ | FVal _ _ => True | _ => False end.
Lemma deliver_run v f k : holds_value f -> exists k', deliver v (f :: k) = PRun LEnd k'.
Proof. destruct f; cbn; intros H; try easy; eexists; reflexivity. Qed.
Lemma num_closes q c : accepting q = true -> closes c -> num_next q c = None.
Proof. intros Hq Hc. unfold closes in Hc. cbn in Hc. destruct q; try discriminate; intuition subst; reflexivity. Qed.

(** After a value and white space, a character that ends it. *)
Lemma ws_then v f k w c : holds_value f -> ws w -> steps (w ++ [c]) (deliver v (f :: k)) = pstep (deliver v (f :: k)) c.
Proof.
  intros Hf Hw. rewrite steps_app. destruct (deliver_run v f k Hf) as (k' & ->).
  rewrite skip_ws; [reflexivity|unfold skips; tauto|exact Hw].
Qed.

Lemma or_end s t k : (s = LBeginOrEnd \/ s = LBegin) -> forall w c, t = w ++ [c] -> ws w -> is_space c = false -> c <> 93 ->
  steps t (PRun s k) = begin_value c k.
Proof.
  intros Hs w c -> Hw Hc Hn. rewrite steps_app, skip_ws; [|unfold skips; tauto|exact Hw].
  cbn [fold_left pstep]. destruct Hs as [-> | ->]; cbn [pstep]; rewrite Hc; [|reflexivity].
  replace (c =? 93) with false by lia. reflexivity.
Qed.
Lemma jtext_head M n v b : jtext M n v b -> exists c r, b = c :: r /\ is_space c = false /\ c <> 93.
Proof.
  intros H. inversion H; subst; try (eexists _, _; split; [reflexivity|split; [reflexivity|discriminate]]).
  destruct H0 as (s & i & f & x & -> & Hs & Hi & _).
  destruct Hs as [-> | ->].
  - destruct Hi as [-> | (c & d & -> & Hc & _)].
    + eexists _, _; split; [reflexivity|split; [reflexivity|discriminate]].
    + eexists _, _; split; [reflexivity|]. unfold is_space. lia.
  - eexists _, _; split; [reflexivity|split; [reflexivity|discriminate]].
Qed.
Lemma begin_or_end M n v b w r k : jtext M n v b -> ws w ->
  steps (w ++ b ++ r) (PRun LBeginOrEnd k) = steps (w ++ b ++ r) (PRun LBegin k).
Proof.
  intros Hv Hw. destruct (jtext_head _ _ _ _ Hv) as (c & b' & -> & H1 & H2).
  replace (w ++ (c :: b') ++ r) with ((w ++ [c]) ++ b' ++ r) by (rewrite <- app_assoc; reflexivity).
  rewrite !(steps_app (w ++ [c])). f_equal.
  rewrite (or_end LBeginOrEnd (w ++ [c]) k) with (w := w) (c := c); auto.
  symmetry. eapply or_end; eauto.
Qed.
Lemma key_or_end w c r k : ws w -> is_space c = false -> c <> 125 ->
  steps (w ++ c :: r) (PRun LKeyOrEnd k) = steps (w ++ c :: r) (PRun LKey k).
Proof.
  intros Hw H1 H2. rewrite !steps_app. rewrite (skip_ws LKeyOrEnd), (skip_ws LKey) by (unfold skips; tauto).
  cbn [fold_left pstep]. rewrite H1. replace (c =? 125) with false by lia. reflexivity.
Qed.

Lemma push_ok s f k n : (length k + S n <= N.to_nat 10000)%nat -> push s f k = PRun s (f :: k).
Proof. intros H. unfold push, nlen. cbn [length]. replace (N.of_nat (S (length k)) <=? 10000) with true by lia. reflexivity. Qed.

Theorem reads :
  (forall n v b, jtext go_str n v b -> forall k, (length k + n <= N.to_nat 10000)%nat ->
     steps b (PRun LBegin k) = deliver v k \/
     exists q lit, v = JNum lit /\ b = lit /\ accepting q = true /\ steps b (PRun LBegin k) = PRun (LNum q lit) k) /\
  (forall n l b, jelems go_str n l b -> forall k l0 c, (S (length k) + n <= N.to_nat 10000)%nat -> c = 44 \/ c = 93 ->
     steps (b ++ [c]) (PRun LBegin (FArr l0 :: k)) = pstep (PRun LEnd (FArr (l0 ++ l) :: k)) c) /\
  (forall n l b, jmembers go_str n l b -> forall k l0 c, (S (length k) + n <= N.to_nat 10000)%nat -> c = 44 \/ c = 125 ->
     steps (b ++ [c]) (PRun LKey (FObj l0 :: k)) = pstep (PRun LEnd (FMem (l0 ++ l) :: k)) c) /\
  (forall n m b, jmember go_str n m b -> forall k l0 c, (S (length k) + n <= N.to_nat 10000)%nat -> c = 44 \/ c = 125 ->
     steps (b ++ [c]) (PRun LKey (FObj l0 :: k)) = pstep (PRun LEnd (FMem (l0 ++ [m]) :: k)) c).
Proof.
  assert (VAL : forall n v b (IH : forall k, (length k + n <= N.to_nat 10000)%nat ->
     steps b (PRun LBegin k) = deliver v k \/
     exists q lit, v = JNum lit /\ b = lit /\ accepting q = true /\ steps b (PRun LBegin k) = PRun (LNum q lit) k)
     f k w w' c, (length (f :: k) + n <= N.to_nat 10000)%nat -> holds_value f -> ws w -> ws w' -> closes c ->
     steps ((w ++ b ++ w') ++ [c]) (PRun LBegin (f :: k)) = pstep (deliver v (f :: k)) c).
  { intros n v b IH f k w w' c Hl Hf Hw Hw' Hc.
    rewrite <- !app_assoc, steps_app, skip_ws by (auto; unfold skips; tauto). rewrite steps_app.
    destruct (IH (f :: k) Hl) as [E | (q & lit & -> & -> & Hq & E)]; rewrite E.
    - apply ws_then; auto.
    - rewrite <- (ws_then (JNum lit) f k w' c Hf Hw').
      assert (Hfirst : exists x y, w' ++ [c] = x :: y /\ closes x).
      { destruct w' as [|x w'']; [exists c, []; auto|]. exists x, (w'' ++ [c]). split; [reflexivity|].
        inversion_clear Hw' as [|? ? H1 H2]. unfold closes. cbn in H1 |- *. tauto. }
      destruct Hfirst as (x & y & -> & Hx). cbn [fold_left].
      f_equal. cbn [pstep]. rewrite (num_closes q x Hq Hx).
      destruct (deliver_run (JNum lit) f k Hf) as (k' & ->). cbn [pstep]. reflexivity. }
  apply json_mind.
  - intros n k _. left. reflexivity.
  - intros n k _. left. reflexivity.
  - intros n k _. left. reflexivity.
  - intros n lit Hl k _. right. destruct (steps_number k lit Hl) as (q & Hq & E). exists q, lit. auto.
  - intros n raw s [Hr ->] k _. left. apply steps_string; auto; [unfold skips; tauto|discriminate].
  - intros n w Hw k Hk. left. cbn [fold_left pstep]. change (is_space 91) with false. cbn [begin_value].
    change (begin_value 91 k) with (push LBeginOrEnd (FArr []) k). rewrite (push_ok _ _ _ n) by lia.
    rewrite steps_app, skip_ws by (auto; unfold skips; tauto). reflexivity.
  - intros n l b Hb IH k Hk. left. cbn [fold_left pstep]. change (is_space 91) with false. cbn iota.
    change (begin_value 91 k) with (push LBeginOrEnd (FArr []) k). rewrite (push_ok _ _ _ n) by lia.
    assert (E : steps (b ++ [93]) (PRun LBeginOrEnd (FArr [] :: k)) = steps (b ++ [93]) (PRun LBegin (FArr [] :: k))).
    { clear IH. revert Hb. generalize [93]. revert l.
      intros l r Hb. remember n as n0 eqn:En. clear En. revert r. induction Hb; intros r.
      - rewrite <- !app_assoc. eapply begin_or_end; eauto.
      - rewrite <- !app_assoc. apply IHHb; exact Hk. }
    rewrite E, (IH k [] 93) by (auto; lia). reflexivity.
  - intros n w Hw k Hk. left. cbn [fold_left pstep]. change (is_space 123) with false. cbn iota.
    change (begin_value 123 k) with (push LKeyOrEnd (FObj []) k). rewrite (push_ok _ _ _ n) by lia.
    rewrite steps_app, skip_ws by (auto; unfold skips; tauto). reflexivity.
  - intros n l b Hb IH k Hk. left. cbn [fold_left pstep]. change (is_space 123) with false. cbn iota.
    change (begin_value 123 k) with (push LKeyOrEnd (FObj []) k). rewrite (push_ok _ _ _ n) by lia.
    assert (E : steps (b ++ [125]) (PRun LKeyOrEnd (FObj [] :: k)) = steps (b ++ [125]) (PRun LKey (FObj [] :: k))).
    { clear IH. generalize [125]. clear Hk. induction Hb as [n m b Hm|n l m bl b Hb IHb Hm]; intros r.
      - inversion Hm; subst. rewrite <- !app_assoc. cbn [app]. apply key_or_end; auto; discriminate.
      - rewrite <- !app_assoc. apply IHb. }
    rewrite E, (IH k [] 125) by (auto; lia). reflexivity.
  - intros n v w b w' Hw Hb IH Hw' k l0 c Hk Hc.
    rewrite (VAL n v b IH (FArr l0) k w w' c); auto; [cbn; exact I|destruct Hc as [-> | ->]; unfold closes; cbn; tauto].
  - intros n l v bl w b w' Hbl IHl Hw Hb IH Hw' k l0 c Hk Hc.
    rewrite <- app_assoc. change ((44 :: w ++ b ++ w') ++ [c]) with ([44] ++ (w ++ b ++ w') ++ [c]).
    rewrite app_assoc, steps_app, (IHl k l0 44) by auto.
    change (pstep (PRun LEnd (FArr (l0 ++ l) :: k)) 44) with (PRun LBegin (FArr (l0 ++ l) :: k)).
    rewrite (VAL n v b IH (FArr (l0 ++ l)) k w w' c); auto; [|cbn; exact I|destruct Hc as [-> | ->]; unfold closes; cbn; tauto].
    cbn [deliver]. rewrite <- app_assoc. reflexivity.
  - intros n m b Hm IH k l0 c Hk Hc. apply IH; auto.
  - intros n l m bl b Hl IHl Hm IHm k l0 c Hk Hc.
    rewrite <- app_assoc. change ((44 :: b) ++ [c]) with ([44] ++ b ++ [c]).
    rewrite app_assoc, steps_app, (IHl k l0 44) by auto.
    change (pstep (PRun LEnd (FMem (l0 ++ l) :: k)) 44) with (PRun LKey (FObj (l0 ++ l) :: k)).
    rewrite IHm by auto. rewrite <- app_assoc. reflexivity.
  - intros n raw s v w1 w2 w3 b w4 H1 [Hr ->] H2 H3 Hb IH H4 k l0 c Hk Hc.
    rewrite <- app_assoc, steps_app, skip_ws by (auto; unfold skips; tauto).
    replace ((34 :: raw ++ 34 :: w2 ++ 58 :: w3 ++ b ++ w4) ++ [c])
      with ((34 :: raw ++ [34]) ++ w2 ++ [58] ++ (w3 ++ b ++ w4) ++ [c]).
    2:{ cbn [app]. rewrite <- !app_assoc. cbn [app]. rewrite <- !app_assoc. cbn [app]. rewrite <- ?app_assoc. reflexivity. }
    rewrite steps_app, steps_string; auto; [|unfold skips; tauto|discriminate].
    cbn [deliver]. rewrite steps_app, skip_ws by (auto; unfold skips; tauto).
    rewrite steps_app. change (steps [58] (PRun LEnd (FCol l0 (unquote raw) :: k))) with (PRun LBegin (FVal l0 (unquote raw) :: k)).
    rewrite (VAL n v b IH (FVal l0 (unquote raw)) k w3 w4 c); auto; [cbn; exact I|destruct Hc as [-> | ->]; unfold closes; cbn; tauto].
Qed.
