(** SLURM filters on entries that cannot be read. *)
From Coq Require Import ZArith ZifyBool ZifyNat ZifyN.
From Verif Require Import Model.Slurm Spec.Input Spec.History Spec.SlurmExact Proofs.FormatP Proofs.DataP Proofs.JsonP Proofs.ProcessP Proofs.SlurmP.
From Coq Require Import List.
Local Open Scope list_scope.
Local Open Scope N_scope.
Ltac Zify.zify_post_hook ::= Z.div_mod_to_equations.

Lemma pf_match_exact f v : pf_match f v = true <-> pf_hits f v.
Proof.
  unfold pf_match, pf_hits, pf_get_prefix, get_prefix, get_asn, asn_or_0. rewrite get_prefix2_parse.
  set (asn := match get_asn2 (vj_asn v) with Some n => n | None => 0 end).
  assert (HASN : (match pf_asn f with Some a => asn =? a | None => true end = true) <-> (pf_asn f = None \/ pf_asn f = Some asn)).
  { destruct (pf_asn f) as [a|]; [|split; auto]. rewrite N.eqb_eq. split; [intros ->; auto|].
    intros [H|H]; [discriminate H|injection H as ->; reflexivity]. }
  destruct (parse_prefix (pf_prefix f)) as [p|] eqn:Ef; destruct (parse_prefix (vj_prefix v)) as [r|] eqn:Er.
  - pose proof (parse_prefix_wf _ _ Ef) as [Wf Vf]. pose proof (parse_prefix_wf _ _ Er) as [Wr Vr]. rewrite Vf, Vr. cbn [andb].
    pose proof (covers_spec p r Wf Vf Wr Vr) as HC. destruct (overlaps p r && (bits p <=? bits r)%Z).
    + rewrite HASN. split; [|tauto]. intros H. split; [|exact H]. right. right. exists p, r. split; [reflexivity|]. split; [reflexivity|]. now apply HC.
    + split; [discriminate|]. intros [[H|[H|(p' & r' & E1 & E2 & H)]] _]; [discriminate H|discriminate H|]. injection E1 as <-. injection E2 as <-. now apply HC in H.
  - cbn [is_valid zero_prefix p_bits]. rewrite andb_false_r, HASN. tauto.
  - cbn [is_valid zero_prefix p_bits andb]. rewrite HASN. tauto.
  - cbn [is_valid zero_prefix p_bits andb]. rewrite HASN. tauto.
Qed.

Lemma hex_part_ok n : forall s, (length s <= n)%nat -> hex_part s (fst (hex_decode s)).
Proof.
  induction n as [|n IH]; intros s Hs.
  - destruct s; [|cbn in Hs; lia]. split; [exists [], []; split; [reflexivity|split; [constructor|reflexivity]]|].
    intros a b k' E [_ H]. destruct a; [|discriminate E]. destruct k'; [cbn; lia|discriminate H].
  - assert (STOP : forall s, (forall a b k', s = a ++ b -> is_hex_of a k' -> (length k' <= 0)%nat) -> hex_part s []).
    { intros t H. split; [exists [], t; split; [reflexivity|split; [constructor|reflexivity]]|]. exact H. }
    destruct s as [|x [|y s]].
    + apply IH. cbn. lia.
    + cbn [hex_decode fst]. apply STOP. intros a b k' E [_ H]. destruct a as [|z [|z' a]]; [destruct k'; [cbn; lia|discriminate H]|destruct k'; discriminate H|discriminate E].
    + cbn [hex_decode]. cbn [length] in Hs. destruct (hexval x) as [u|] eqn:Ex; [destruct (hexval y) as [w|] eqn:Ey|].
      * pose proof Ex as Ex0. pose proof Ey as Ey0. apply hexval_lower in Ex0 as [Hx Lx], Ey0 as [Hy Ly].
        destruct (IH s ltac:(lia)) as [(a & b & E & [B H]) M]. destruct (hex_decode s) as [r ok] eqn:Er. cbn [fst] in *. split.
        -- exists (x :: y :: a), b. split; [cbn; now rewrite E|]. split; [constructor; [unfold u8; lia|exact B]|].
           cbn [map hex_encode flat_map app]. rewrite Lx, Ly, H. unfold hex_encode. replace ((u * 16 + w) / 16) with u by lia. replace ((u * 16 + w) mod 16) with w by lia. reflexivity.
        -- intros a' b' k' E' H'. destruct a' as [|x' [|y' a']]; [|destruct H' as [_ H']; destruct k'; discriminate H'|].
           ++ destruct H' as [_ H']. destruct k'; [cbn; lia|discriminate H'].
           ++ injection E' as <- <- E'. destruct H' as [B' H']. destruct k' as [|z k']; [discriminate H'|]. cbn [map hex_encode flat_map app] in H'. injection H' as _ _ H'.
              inversion B' as [|? ? _ B2]; subst. cbn [length]. specialize (M a' b' k' E' (conj B2 H')). lia.
      * apply STOP. intros a b k' E H. destruct k' as [|z k']; [cbn; lia|]. exfalso. pose proof H as H0. apply hex_decode_spec in H0. destruct a as [|x' [|y' a]]; [discriminate H0|discriminate H0|].
        injection E as <- <- _. cbn [hex_decode] in H0. rewrite Ex, Ey in H0. discriminate H0.
      * apply STOP. intros a b k' E H. destruct k' as [|z k']; [cbn; lia|]. exfalso. pose proof H as H0. apply hex_decode_spec in H0. destruct a as [|x' [|y' a]]; [discriminate H0|discriminate H0|].
        injection E as <- <- _. cbn [hex_decode] in H0. rewrite Ex in H0. discriminate H0.
Qed.
Lemma hex_app a : forall b k, is_hex_of a k -> fst (hex_decode (a ++ b)) = k ++ fst (hex_decode b).
Proof.
  enough (HN : forall n a, (length a <= n)%nat -> forall b k, is_hex_of a k -> fst (hex_decode (a ++ b)) = k ++ fst (hex_decode b)) by (intros b k; apply (HN (length a)); lia).
  clear a. induction n as [|n IH]; intros a Ha b k H.
  - destruct a; [|cbn in Ha; lia]. destruct H as [_ H]. destruct k; [reflexivity|discriminate H].
  - destruct a as [|x [|y a]]; [destruct H as [_ H]; destruct k; [reflexivity|discriminate H]|destruct H as [_ H]; destruct k; discriminate H|].
    pose proof H as H0. apply hex_decode_spec in H0. cbn [app hex_decode] in *. destruct (hexval x) as [u|]; [|discriminate H0]. destruct (hexval y) as [w|]; [|discriminate H0].
    destruct (hex_decode a) as [r ok] eqn:E. injection H0 as H1 H2. subst ok. apply hex_decode_spec in E. cbn [length] in Ha. specialize (IH a ltac:(lia) b r E).
    destruct (hex_decode (a ++ b)) as [r' ok']. cbn [fst] in *. subst k. now rewrite IH.
Qed.
Lemma hex_part_is s k : hex_part s k <-> fst (hex_decode s) = k.
Proof.
  split; [|intros <-; apply (hex_part_ok (length s)); lia]. intros [(a & b & -> & H) M]. rewrite (hex_app a b k H).
  destruct (hex_part_ok (length (a ++ b)) (a ++ b) ltac:(lia)) as [(a' & b' & E & H') _]. specialize (M a' b' _ E H'). rewrite (hex_app a b k H) in M. rewrite app_length in M.
  destruct (fst (hex_decode b)); [apply app_nil_r|cbn in M; lia].
Qed.

Lemma brk_exact b k fs : hex_decode (bj_ski b) = (k, false) ->
  (brk_match fs (Some k) b = true <-> (exists f, In f fs /\ bf_asn f = Some (bj_asn b) /\ bf_ski f = []) \/ (exists f, In f fs /\ asks_ski f b /\ bf_ski f = k)) /\
  (brk_match fs None b = true <-> (exists f, In f fs /\ bf_asn f = Some (bj_asn b) /\ bf_ski f = []) \/
     (exists l1 g l2 f l3, fs = l1 ++ g :: l2 ++ f :: l3 /\ asks_ski g b /\ asks_ski f b /\ bf_ski f = k)).
Proof.
  intros EH. induction fs as [|f fs [IS IN]].
  - split; (split; [discriminate|]); [intros [(f & [] & _)|(f & [] & _)]|intros [(f & [] & _)|(l1 & g & l2 & f & l3 & E & _)]]. destruct l1; discriminate E.
  - (* what the head does *)
    assert (HALL : forall P : bfilter -> Prop, (exists g, In g (f :: fs) /\ P g) <-> P f \/ exists g, In g fs /\ P g).
    { intros P. split; [intros (g & [<-|H] & Q); eauto|intros [H|(g & H & Q)]; [exists f; split; [now left|exact H]|exists g; split; [now right|exact Q]]]. }
    assert (HTWO : (exists l1 g l2 h l3, f :: fs = l1 ++ g :: l2 ++ h :: l3 /\ asks_ski g b /\ asks_ski h b /\ bf_ski h = k) <->
      (asks_ski f b /\ exists h, In h fs /\ asks_ski h b /\ bf_ski h = k) \/ (exists l1 g l2 h l3, fs = l1 ++ g :: l2 ++ h :: l3 /\ asks_ski g b /\ asks_ski h b /\ bf_ski h = k)).
    { split.
      - intros (l1 & g & l2 & h & l3 & E & G & H & K). destruct l1 as [|z l1]; injection E as -> E.
        + left. split; [exact G|]. exists h. split; [rewrite E; apply in_or_app; right; now left|auto].
        + right. exists l1, g, l2, h, l3. auto.
      - intros [(G & h & H & K1 & K2)|(l1 & g & l2 & h & l3 & E & G & H & K)].
        + apply in_split in H as (l2 & l3 & ->). exists [], f, l2, h, l3. auto.
        + exists (f :: l1), g, l2, h, l3. rewrite E. auto. }
    rewrite HALL, (HALL (fun g => asks_ski g b /\ bf_ski g = k)), HTWO. clear HALL HTWO.
    cbn [brk_match]. rewrite nlen_nil. unfold ski_lookup. rewrite EH.
    assert (B : forall x y, beqb x y = true <-> x = y) by (intros x y; apply beqb_eq).
    destruct (bf_asn f) as [a|] eqn:EA.
    + destruct (bj_asn b =? a) eqn:Eab.
      * assert (a = bj_asn b) as -> by lia. destruct (bf_ski f) as [|x l] eqn:ES; cbn [is_nil negb].
        -- split; (split; [intros _; left; left; auto|reflexivity]).
        -- assert (AF : asks_ski f b) by (split; [rewrite ES; discriminate|now right]).
           rewrite IS. split.
           ++ destruct (beqb (x :: l) k) eqn:EB; [apply B in EB; split; [intros _; right; left; auto|reflexivity]|].
              assert (NB : x :: l <> k) by (intros E; apply B in E; congruence). split.
              ** rewrite IS. intros [H|H]; [left; now right|right; now right].
              ** rewrite IS. intros [[[_ H]|H]|[[_ H]|H]]; [discriminate H|now left|contradiction|now right].
           ++ split.
              ** intros [H|H]; [left; now right|right; left; auto].
              ** intros [[[_ H]|H]|[[_ H]|H]]; [discriminate H|now left|now right|]. right. destruct H as (l1 & g & l2 & h & l3 & -> & _ & H1 & H2).
                 exists h. split; [apply in_or_app; right; right; apply in_or_app; right; now left|auto].
      * assert (NA : ~ asks_ski f b) by (intros [_ [H|H]]; [congruence|]; rewrite EA in H; injection H as ->; lia).
        assert (NB : Some a <> Some (bj_asn b)) by (intros H; injection H as ->; lia).
        rewrite IS, IN. split; split; intros H; tauto.
    + destruct (bf_ski f) as [|x l] eqn:ES; cbn [is_nil negb].
      * assert (NA : ~ asks_ski f b) by (intros [H _]; now rewrite ES in H). assert (NB : None <> Some (bj_asn b)) by discriminate.
        rewrite IS, IN. split; split; intros H; tauto.
      * assert (AF : asks_ski f b) by (split; [rewrite ES; discriminate|now left]). assert (NB : None <> Some (bj_asn b)) by discriminate.
        rewrite IS. split.
        -- destruct (beqb (x :: l) k) eqn:EB; [apply B in EB; split; [intros _; right; left; auto|reflexivity]|].
           assert (NB' : x :: l <> k) by (intros E; apply B in E; congruence). rewrite IS. split; intros H; tauto.
        -- split; [intros H; tauto|]. intros [[[H _]|H]|[[_ H]|H]]; [discriminate H|now left|now right|]. right. destruct H as (l1 & g & l2 & h & l3 & -> & _ & H1 & H2).
           exists h. split; [apply in_or_app; right; right; apply in_or_app; right; now left|auto].
Qed.

Lemma split_first_spec c s a b : split_first c s = Some (a, b) <-> s = a ++ c :: b /\ ~ In c a.
Proof.
  revert a b. induction s as [|x s IH]; intros a b; cbn [split_first].
  - split; [discriminate|]. intros [E _]. destruct a; discriminate E.
  - destruct (x =? c) eqn:Ex.
    + assert (x = c) as -> by lia. split; [intros E; injection E as <- <-; split; [reflexivity|intros []]|].
      intros [E N]. destruct a as [|y a]; [injection E as E; now rewrite E|]. injection E as E1 E2. exfalso. apply N. now left.
    + destruct (split_first c s) as [[a' b']|].
      * split.
        -- intros E. injection E as <- <-. destruct (proj1 (IH a' b') eq_refl) as [-> N]. split; [reflexivity|]. intros [H|H]; [lia|now apply N].
        -- intros [E N]. destruct a as [|y a]; injection E as E1 E2; [lia|]. assert (HI : Some (a', b') = Some (a, b)) by (apply IH; split; [exact E2|intros H; apply N; now right]).
           injection HI as -> ->. now rewrite E1.
      * split; [discriminate|]. intros [E N]. destruct a as [|y a]; injection E as E1 E2; [lia|]. assert (HI : None = Some (a, b)) by (apply IH; split; [exact E2|intros H; apply N; now right]). discriminate HI.
Qed.
Lemma cidr_exact s n : cidr_size s = Some n <-> cidr_text s n.
Proof.
  unfold cidr_size, cidr_text. split.
  - intros H. destruct (split_first c_slash s) as [[addr len]|] eqn:E; [|discriminate H]. apply split_first_spec in E as [E N].
    destruct (parse_addr addr) as [ip|] eqn:Ea; [|discriminate H]. destruct len as [|c len]; [discriminate H|].
    destruct (undec 0 (c :: len)) as [m|] eqn:Eu; [|discriminate H]. destruct (bitlen ip <? m) eqn:Eb; [discriminate H|]. injection H as <-.
    exists addr, (c :: len), ip. do 3 (split; [assumption|]). split; [discriminate|]. split; [exact Eu|lia].
  - intros (addr & len & ip & E & N & Ha & Hl & Hu & Hb). rewrite (proj2 (split_first_spec c_slash s addr len) (conj E N)), Ha.
    destruct len as [|c len]; [now destruct Hl|]. rewrite Hu. destruct (bitlen ip <? n) eqn:Eb; [lia|reflexivity].
Qed.
Lemma assert_exact l : asserted l (assert_vrps l).
Proof.
  induction l as [|a l IH]; [constructor|]. unfold assert_vrps in *. cbn [flat_map].
  destruct (cidr_size (pa_prefix a)) as [n|] eqn:E.
  - cbn [app]. apply (asserted_one a l _ n); [now apply cidr_exact|exact IH|unfold to_u8; destruct (pa_maxlen a <=? Z.of_N n)%Z; lia|].
    unfold to_u8. destruct (pa_maxlen a <=? Z.of_N n)%Z eqn:Em.
    + exists (Z.of_N n / 256)%Z. lia.
    + exists (pa_maxlen a / 256)%Z. lia.
  - cbn [app]. apply asserted_skip; [|exact IH]. intros n H. apply cidr_exact in H. congruence.
Qed.
