(** Lemmas on SSH authentication. *)
From Coq Require Import ZifyBool ZifyNat ZifyN.
From Verif Require Import Spec.Auth.
Ltac Zify.zify_post_hook ::= Z.div_mod_to_equations.

Lemma nodup_alphabet : NoDup alphabet.
Proof.
  set (l := alphabet). vm_compute in l. subst l.
  repeat (constructor; [intros HI; repeat (destruct HI as [HI|HI]; [discriminate HI|]); destruct HI|]). constructor.
Qed.
Lemma digit_inj d d' c : digit d c -> digit d' c -> d = d'.
Proof.
  unfold digit. intros H H'. assert (E : N.to_nat d = N.to_nat d'); [|lia].
  apply (proj1 (NoDup_nth_error alphabet) nodup_alphabet); [|congruence]. apply nth_error_Some. congruence.
Qed.
Lemma digit_lt d c : digit d c -> d < 64.
Proof. intros H. assert (L : (N.to_nat d < length alphabet)%nat) by (apply nth_error_Some; unfold digit in H; congruence). change (length alphabet) with 64%nat in L. lia. Qed.
Definition sextets : list N := map N.of_nat (seq 0 64).
Lemma all_digits : forallb (fun d => match nth_error alphabet (N.to_nat d) with Some c => c =? b64char d | None => false end) sextets = true.
Proof. vm_compute. reflexivity. Qed.
Lemma digit_char d : d < 64 -> digit d (b64char d).
Proof.
  intros H. pose proof (proj1 (forallb_forall _ _) all_digits d) as HA.
  assert (HI : In d sextets). { unfold sextets. apply in_map_iff. exists (N.to_nat d). split; [lia|]. apply in_seq. lia. }
  specialize (HA HI). unfold digit. cbn beta in HA. destruct (nth_error alphabet (N.to_nat d)) as [c|]; [|discriminate HA].
  apply N.eqb_eq in HA. now subst c.
Qed.
Lemma digit_b64char d d' : d' < 64 -> digit d (b64char d') -> d = d'.
Proof. intros H HD. apply (digit_inj d d' (b64char d')); [exact HD|now apply digit_char]. Qed.
Lemma b64char_graph d : d < 64 -> In (b64char d) alphabet.
Proof. intros H. apply (nth_error_In alphabet (N.to_nat d)). now apply digit_char. Qed.
Lemma not_alphabet c : c = 61 \/ c = 32 \/ c = 9 \/ c = 13 \/ c = 10 -> ~ In c alphabet.
Proof.
  intros H HI. set (l := alphabet) in HI. vm_compute in l. subst l.
  repeat (destruct HI as [HI|HI]; [lia|]). destruct HI.
Qed.

Lemma has_prefix_iff l p : has_prefix l p = true <-> exists r, l = p ++ r.
Proof.
  revert l. induction p as [|x p IH]; intros l; cbn.
  - split; [intros _; now exists l|intros _; now destruct l].
  - destruct l as [|y l]; [split; [discriminate|intros (r & E); discriminate E]|].
    cbn [has_prefix]. rewrite andb_true_iff, IH. split.
    + intros (E & r & ->). exists r. apply N.eqb_eq in E. now subst.
    + intros (r & [= -> ->]). split; [apply N.eqb_refl|now exists r].
Qed.

(** Induction on lists by groups of three. *)
Lemma three_ind (P : bytes -> Prop) : P [] -> (forall a, P [a]) -> (forall a b, P [a; b]) ->
  (forall a b c r, P r -> P (a :: b :: c :: r)) -> forall l, P l.
Proof.
  intros H0 H1 H2 H3. assert (G : forall n l, (length l <= n)%nat -> P l).
  { induction n as [|n IH]; intros l HL; [destruct l; [exact H0|cbn in HL; lia]|].
    destruct l as [|a [|b [|c r]]]; auto. apply H3, IH. cbn in HL. lia. }
  intros l. now apply (G (length l)).
Qed.
Lemma b64raw_base64 k : bytes_ok k -> forall t, base64 k t -> exists r, t = b64raw k ++ r.
Proof.
  induction k as [|a|a b|a b c k IH] using three_ind; intros HK t HB.
  - now exists t.
  - inversion HB as [|? d1 d2 c1 c2 D1 D2 E| |]; subst. apply Forall_inv in HK as Ha. unfold u8 in Ha.
    pose proof (digit_lt _ _ D1). pose proof (digit_lt _ _ D2). exists (str "=="). cbn [b64raw app].
    assert (E1 : d1 = a / 4) by lia. assert (E2 : d2 = a mod 4 * 16) by lia. clear E. subst d1 d2.
    assert (c1 = b64char (a / 4)) as -> by (pose proof (digit_char (a / 4)) as G; unfold digit in *; assert (Some c1 = Some (b64char (a / 4))) by (rewrite <- D1; apply G; lia); congruence).
    assert (c2 = b64char (a mod 4 * 16)) as -> by (pose proof (digit_char (a mod 4 * 16)) as G; unfold digit in *; assert (Some c2 = Some (b64char (a mod 4 * 16))) by (rewrite <- D2; apply G; lia); congruence).
    reflexivity.
  - inversion HB as [| |? ? d1 d2 d3 c1 c2 c3 D1 D2 D3 E|]; subst. pose proof (Forall_inv HK) as Ha. pose proof (Forall_inv (Forall_inv_tail HK)) as Hb. unfold u8 in Ha, Hb.
    pose proof (digit_lt _ _ D1). pose proof (digit_lt _ _ D2). pose proof (digit_lt _ _ D3). exists (str "="). cbn [b64raw app].
    assert (E1 : d1 = a / 4) by lia. assert (E2 : d2 = a mod 4 * 16 + b / 16) by lia. assert (E3 : d3 = b mod 16 * 4) by lia. clear E. subst d1 d2 d3.
    assert (F : forall d c, d < 64 -> digit d c -> c = b64char d) by (intros d c L D; pose proof (digit_char d L) as G; unfold digit in *; congruence).
    now rewrite <- (F _ c1 H D1), <- (F _ c2 H0 D2), <- (F _ c3 H1 D3).
  - inversion HB as [| | |? ? ? d1 d2 d3 d4 c1 c2 c3 c4 k' t' D1 D2 D3 D4 E HB']; subst.
    pose proof (Forall_inv HK) as Ha. pose proof (Forall_inv (Forall_inv_tail HK)) as Hb. pose proof (Forall_inv (Forall_inv_tail (Forall_inv_tail HK))) as Hc. unfold u8 in Ha, Hb, Hc.
    pose proof (digit_lt _ _ D1) as L1. pose proof (digit_lt _ _ D2) as L2. pose proof (digit_lt _ _ D3) as L3. pose proof (digit_lt _ _ D4) as L4.
    destruct (IH (Forall_inv_tail (Forall_inv_tail (Forall_inv_tail HK))) t' HB') as (r & ->). exists r. cbn [b64raw app].
    assert (E1 : d1 = a / 4) by lia. assert (E2 : d2 = a mod 4 * 16 + b / 16) by lia. assert (E3 : d3 = b mod 16 * 4 + c / 64) by lia. assert (E4 : d4 = c mod 64) by lia. clear E. subst d1 d2 d3 d4.
    assert (F : forall d c, d < 64 -> digit d c -> c = b64char d) by (intros d c0 L D; pose proof (digit_char d L) as G; unfold digit in *; congruence).
    now rewrite <- (F _ c1 L1 D1), <- (F _ c2 L2 D2), <- (F _ c3 L3 D3), <- (F _ c4 L4 D4).
Qed.
(** A key whose raw text starts a listed text starts the listed key. *)
Lemma b64raw_prefix k : bytes_ok k -> forall k' t rest r, bytes_ok k' -> base64 k' t -> ends rest ->
  t ++ rest = b64raw k ++ r -> exists q, k' = k ++ q.
Proof.
  assert (HE : forall rest d r, ends rest -> rest = b64char d :: r -> d < 64 -> False).
  { intros rest d r HE -> L. cbn in HE. pose proof (b64char_graph d L) as HI. revert HI. apply not_alphabet.
    destruct HE as [->|[->| ->]]; auto. }
  assert (HQ : forall d, 61 = b64char d -> d < 64 -> False).
  { intros d E L. pose proof (b64char_graph d L) as HI. rewrite <- E in HI. revert HI. apply not_alphabet. now left. }
  induction k as [|a|a b|a b c k IH] using three_ind; intros HK k' t rest r HK' HB HEn E.
  - now exists k'.
  - pose proof (Forall_inv HK) as Ha. unfold u8 in Ha. cbn [b64raw app] in E.
    destruct HB as [|a' d1 d2 c1 c2 D1 D2 EV|a' b' d1 d2 d3 c1 c2 c3 D1 D2 D3 EV|a' b' c' d1 d2 d3 d4 c1 c2 c3 c4 k'' t' D1 D2 D3 D4 EV HB]; cbn [app] in E.
    + exfalso. apply (HE rest (a / 4) _ HEn E). lia.
    + injection E as -> -> _. apply digit_b64char in D1; [|lia]. apply digit_b64char in D2; [|lia].
      pose proof (Forall_inv HK') as Ha'. unfold u8 in Ha'. exists []. cbn. f_equal. lia.
    + injection E as -> -> _. apply digit_b64char in D1; [|lia]. apply digit_b64char in D2; [|lia]. apply digit_lt in D3.
      pose proof (Forall_inv HK') as Ha'. pose proof (Forall_inv (Forall_inv_tail HK')) as Hb'. unfold u8 in Ha', Hb'. exists [b']. cbn. f_equal. lia.
    + injection E as -> -> _. apply digit_b64char in D1; [|lia]. apply digit_b64char in D2; [|lia]. apply digit_lt in D3, D4.
      pose proof (Forall_inv HK') as Ha'. pose proof (Forall_inv (Forall_inv_tail HK')) as Hb'. pose proof (Forall_inv (Forall_inv_tail (Forall_inv_tail HK'))) as Hc'.
      unfold u8 in Ha', Hb', Hc'. exists (b' :: c' :: k''). cbn. f_equal. lia.
  - pose proof (Forall_inv HK) as Ha. pose proof (Forall_inv (Forall_inv_tail HK)) as Hb. unfold u8 in Ha, Hb. cbn [b64raw app] in E.
    destruct HB as [|a' d1 d2 c1 c2 D1 D2 EV|a' b' d1 d2 d3 c1 c2 c3 D1 D2 D3 EV|a' b' c' d1 d2 d3 d4 c1 c2 c3 c4 k'' t' D1 D2 D3 D4 EV HB]; cbn [app] in E.
    + exfalso. apply (HE rest (a / 4) _ HEn E). lia.
    + exfalso. injection E as _ _ E _. apply (HQ _ E). lia.
    + injection E as -> -> -> _. apply digit_b64char in D1; [|lia]. apply digit_b64char in D2; [|lia]. apply digit_b64char in D3; [|lia].
      pose proof (Forall_inv HK') as Ha'. pose proof (Forall_inv (Forall_inv_tail HK')) as Hb'. unfold u8 in Ha', Hb'. exists []. cbn. f_equal; [lia|f_equal; lia].
    + injection E as -> -> -> _. apply digit_b64char in D1; [|lia]. apply digit_b64char in D2; [|lia]. apply digit_b64char in D3; [|lia]. apply digit_lt in D4.
      pose proof (Forall_inv HK') as Ha'. pose proof (Forall_inv (Forall_inv_tail HK')) as Hb'. pose proof (Forall_inv (Forall_inv_tail (Forall_inv_tail HK'))) as Hc'.
      unfold u8 in Ha', Hb', Hc'. exists (c' :: k''). cbn. f_equal; [lia|f_equal; lia].
  - pose proof (Forall_inv HK) as Ha. pose proof (Forall_inv (Forall_inv_tail HK)) as Hb. pose proof (Forall_inv (Forall_inv_tail (Forall_inv_tail HK))) as Hc.
    unfold u8 in Ha, Hb, Hc. cbn [b64raw app] in E.
    destruct HB as [|a' d1 d2 c1 c2 D1 D2 EV|a' b' d1 d2 d3 c1 c2 c3 D1 D2 D3 EV|a' b' c' d1 d2 d3 d4 c1 c2 c3 c4 k'' t' D1 D2 D3 D4 EV HB]; cbn [app] in E.
    + exfalso. apply (HE rest (a / 4) _ HEn E). lia.
    + exfalso. injection E as _ _ E _. apply (HQ _ E). lia.
    + exfalso. injection E as _ _ _ E _. apply (HQ _ E). lia.
    + injection E as -> -> -> -> E. apply digit_b64char in D1; [|lia]. apply digit_b64char in D2; [|lia]. apply digit_b64char in D3; [|lia]. apply digit_b64char in D4; [|lia].
      pose proof (Forall_inv HK') as Ha'. pose proof (Forall_inv (Forall_inv_tail HK')) as Hb'. pose proof (Forall_inv (Forall_inv_tail (Forall_inv_tail HK'))) as Hc'.
      unfold u8 in Ha', Hb', Hc'.
      destruct (IH (Forall_inv_tail (Forall_inv_tail (Forall_inv_tail HK))) k'' t' rest r) as (q & ->);
        [exact (Forall_inv_tail (Forall_inv_tail (Forall_inv_tail HK')))|exact HB|exact HEn|exact E|].
      exists q. cbn. f_equal; [lia|]. f_equal; [lia|]. f_equal; lia.
Qed.

(** Fields with their lengths in front: no list of fields starts another of the same number. *)
Lemma fields_prefix fs : forall fs' q, length fs = length fs' ->
  Forall (fun f => nlen f < 4294967296) fs -> Forall (fun f => nlen f < 4294967296) fs' ->
  concat (map (fun f : bytes => be 4 (nlen f) ++ f) fs') = concat (map (fun f => be 4 (nlen f) ++ f) fs) ++ q -> fs' = fs /\ q = [].
Proof.
  induction fs as [|f fs IH]; intros [|f' fs'] q HL H H' E; try discriminate HL.
  - cbn in E. now split.
  - cbn [map concat] in E. rewrite <- !app_assoc in E.
    assert (E4 : be 4 (nlen f') = be 4 (nlen f)).
    { apply (f_equal (firstn 4)) in E. rewrite !firstn_app, !be_length, !Nat.sub_diag, !firstn_O, !app_nil_r in E.
      rewrite !firstn_all2 in E by (rewrite be_length; lia). exact E. }
    rewrite E4 in E. apply app_inv_head in E.
    assert (EN : nlen f' = nlen f).
    { apply (f_equal unbe) in E4. pose proof (Forall_inv H) as B. pose proof (Forall_inv H') as B'. cbn beta in B, B'.
      rewrite !unbe_be in E4; [exact E4|exact B|exact B']. }
    assert (EF : f' = f).
    { apply (f_equal (firstn (length f))) in E. assert (EL : length f' = length f) by (unfold nlen in EN; lia).
      rewrite <- EL in E at 1. rewrite !firstn_app, !Nat.sub_diag, !firstn_O, !app_nil_r, !firstn_all in E. exact E. }
    subst f'. apply app_inv_head in E.
    destruct (IH fs' q) as [-> ->]; [now injection HL|exact (Forall_inv_tail H)|exact (Forall_inv_tail H')|exact E|]. now split.
Qed.
Lemma key_blob_prefix nf typ k k' q : key_blob nf typ k -> key_blob nf typ k' -> k' = k ++ q -> k' = k.
Proof.
  intros (_ & fs & L & F & ->) (_ & fs' & L' & F' & ->) E.
  destruct (fields_prefix fs fs' q) as [-> _]; auto; congruence.
Qed.

(** * Lines *)
Lemma split_lines_ok text ls : lines_of text ls -> split_lines text = ls.
Proof.
  intros (HN & -> & HF). induction ls as [|l ls IH]; [now elim HN|].
  assert (HA : forall l, ~ In 10 l -> split_lines l = [l]).
  { clear. induction l as [|c l IH]; intros H; [reflexivity|]. cbn. destruct (c =? 10) eqn:E; [elim H; left; lia|].
    rewrite IH; [reflexivity|]. intros HI. apply H. now right. }
  assert (HB : forall l r, ~ In 10 l -> split_lines (l ++ 10 :: r) = l :: split_lines r).
  { clear. induction l as [|c l IH]; intros r H; [reflexivity|]. cbn. destruct (c =? 10) eqn:E; [elim H; left; lia|].
    rewrite IH; [reflexivity|]. intros HI. apply H. now right. }
  cbn [join_lines]. destruct ls as [|l' ls]; [apply HA; exact (Forall_inv HF)|].
  rewrite HB by exact (Forall_inv HF). f_equal. apply IH; [discriminate|exact (Forall_inv_tail HF)].
Qed.
Lemma split_at_space t t' a b : no_space t -> no_space t' -> t ++ 32 :: a = t' ++ 32 :: b -> t = t' /\ a = b.
Proof.
  revert t'. induction t as [|x t IH]; intros [|y t'] H H' E; cbn in E.
  - injection E as ->. now split.
  - injection E as <- _. elim H'. now left.
  - injection E as -> _. elim H. now left.
  - injection E as -> E. destruct (IH t') as [-> ->]; auto; intros HI; [apply H|apply H']; now right.
Qed.
Lemma listed_iff nf typ blob ls : no_space typ -> (forall r, typ <> 35 :: r) -> typ <> [] -> key_blob nf typ blob ->
  Forall (fun l => l = [] \/ (exists r, l = 35 :: r) \/ exists t k, no_space t /\ key_blob nf t k /\ key_line t k l) ls ->
  existsb (fun k => negb (beqb k []) && has_prefix k (typ ++ 32 :: b64raw blob)) ls = true <->
  exists l, In l ls /\ key_line typ blob l.
Proof.
  intros HT HH H0 HB HF. rewrite existsb_exists. split.
  - intros (l & HI & E). apply andb_true_iff in E as [E1 E2]. apply has_prefix_iff in E2 as (r & E2).
    rewrite Forall_forall in HF. destruct (HF l HI) as [->|[(r' & ->)|(t & k & HS & HK & (tx & rest & EL & HX & HN))]].
    + discriminate E1.
    + destruct typ as [|x typ]; [now elim H0|]. injection E2 as <- _. now elim (HH typ).
    + exists l. split; [exact HI|]. rewrite EL in E2. rewrite <- app_assoc in E2. cbn [app] in E2.
      apply split_at_space in E2 as [-> E2]; [|exact HS|exact HT].
      destruct (b64raw_prefix blob (proj1 HB) k tx rest r (proj1 HK) HX HN E2) as (q & EQ).
      assert (EK : k = blob) by (eapply key_blob_prefix; eauto). rewrite EK in HX. exists tx, rest. auto.
  - intros (l & HI & tx & rest & -> & HX & HN). exists (typ ++ 32 :: tx ++ rest). split; [exact HI|].
    apply andb_true_iff. split.
    + destruct typ; reflexivity.
    + apply has_prefix_iff. destruct (b64raw_base64 blob (proj1 HB) tx HX) as (q & ->).
      exists (q ++ rest). rewrite <- !app_assoc. reflexivity.
Qed.
(** Every key has a Base64 text. *)
Lemma base64_total k : bytes_ok k -> exists t, base64 k t.
Proof.
  induction k as [|a|a b|a b c k IH] using three_ind; intros HK.
  - exists []. constructor.
  - pose proof (Forall_inv HK) as Ha. unfold u8 in Ha. eexists. apply (B_1 a (a / 4) (a mod 4 * 16)); [apply digit_char; lia|apply digit_char; lia|lia].
  - pose proof (Forall_inv HK) as Ha. pose proof (Forall_inv (Forall_inv_tail HK)) as Hb. unfold u8 in Ha, Hb.
    eexists. apply (B_2 a b (a / 4) (a mod 4 * 16 + b / 16) (b mod 16 * 4)); try (apply digit_char; lia). lia.
  - pose proof (Forall_inv HK) as Ha. pose proof (Forall_inv (Forall_inv_tail HK)) as Hb. pose proof (Forall_inv (Forall_inv_tail (Forall_inv_tail HK))) as Hc.
    unfold u8 in Ha, Hb, Hc. destruct (IH (Forall_inv_tail (Forall_inv_tail (Forall_inv_tail HK)))) as (t & HT).
    eexists. apply (B_3 a b c (a / 4) (a mod 4 * 16 + b / 16) (b mod 16 * 4 + c / 64) (c mod 64)); try (apply digit_char; lia); [lia|exact HT].
Qed.
Definition padding (b : bytes) : bytes := match nlen b mod 3 with 0 => [] | 1 => [61; 61] | _ => [61] end.
Lemma base64_padded k : bytes_ok k -> base64 k (b64raw k ++ padding k).
Proof.
  induction k as [|a|a b|a b c k IH] using three_ind; intros HK.
  - constructor.
  - pose proof (Forall_inv HK) as Ha. unfold u8 in Ha. apply (B_1 a (a / 4) (a mod 4 * 16)); [apply digit_char; lia|apply digit_char; lia|lia].
  - pose proof (Forall_inv HK) as Ha. pose proof (Forall_inv (Forall_inv_tail HK)) as Hb. unfold u8 in Ha, Hb.
    apply (B_2 a b (a / 4) (a mod 4 * 16 + b / 16) (b mod 16 * 4)); try (apply digit_char; lia). lia.
  - pose proof (Forall_inv HK) as Ha. pose proof (Forall_inv (Forall_inv_tail HK)) as Hb. pose proof (Forall_inv (Forall_inv_tail (Forall_inv_tail HK))) as Hc.
    unfold u8 in Ha, Hb, Hc. specialize (IH (Forall_inv_tail (Forall_inv_tail (Forall_inv_tail HK)))).
    assert (EP : padding (a :: b :: c :: k) = padding k).
    { unfold padding, nlen. cbn [length]. replace (N.of_nat (S (S (S (length k)))) mod 3) with (N.of_nat (length k) mod 3) by lia. reflexivity. }
    rewrite EP. cbn [b64raw app].
    apply (B_3 a b c (a / 4) (a mod 4 * 16 + b / 16) (b mod 16 * 4 + c / 64) (c mod 64)); try (apply digit_char; lia); [lia|exact IH].
Qed.
Lemma base64_len k t : base64 k t -> length t = (4 * ((length k + 2) / 3))%nat.
Proof.
  intros H. induction H; try reflexivity. cbn [length]. rewrite IHbase64. lia.
Qed.
Lemma base64_unique k t : bytes_ok k -> base64 k t -> t = b64raw k ++ padding k.
Proof.
  revert t. induction k as [|a|a b|a b c k IH] using three_ind; intros t HK HB.
  - now inversion HB.
  - destruct (b64raw_base64 _ HK t HB) as (r & ->). inversion HB; subst. cbn in *. congruence.
  - destruct (b64raw_base64 _ HK t HB) as (r & ->). inversion HB; subst. cbn in *. congruence.
  - destruct (b64raw_base64 _ HK t HB) as (r & ->). inversion HB as [| | |? ? ? d1 d2 d3 d4 c1 c2 c3 c4 k' t' D1 D2 D3 D4 EV HB']; subst.
    f_equal. specialize (IH (b64raw k ++ r) (Forall_inv_tail (Forall_inv_tail (Forall_inv_tail HK))) HB').
    apply app_inv_head in IH. rewrite IH. unfold padding, nlen. cbn [length].
    replace (N.of_nat (S (S (S (length k)))) mod 3) with (N.of_nat (length k) mod 3) by lia. reflexivity.
Qed.
