(** Parsing of prefixes, AS numbers and hexadecimal text. *)
From Coq Require Import ZifyBool ZifyNat ZifyN.
From Verif Require Import Model.Slurm Spec.Input Spec.Sets Proofs.FormatP Proofs.DataP.
Ltac Zify.zify_post_hook ::= Z.div_mod_to_equations.

(** * netip.ParsePrefix yields well-formed valid prefixes *)
Lemma parse4_ok s : forall f pd val dl flds l, val <= 255 -> (length flds <= 3)%nat -> bytes_ok flds ->
  parse4 f pd val dl flds s = Some l -> length l = 4%nat /\ bytes_ok l.
Proof.
  induction s as [|c s IH]; intros f pd val dl flds l Hv Hl Hf H; cbn [parse4] in H.
  - destruct (length flds <? 3)%nat eqn:E; [discriminate H|]. injection H as <-.
    rewrite app_length. cbn [length]. split; [lia|]. apply Forall_app. split; [exact Hf|].
    constructor; [unfold u8; lia|constructor].
  - destruct (is_digit c) eqn:Ed.
    + destruct ((dl =? 1)%nat && (val =? 0)); [discriminate H|].
      destruct (255 <? val * 10 + (c - 48)) eqn:E; [discriminate H|].
      apply IH in H; auto. lia.
    + destruct (c =? c_dot); [|discriminate H].
      destruct (f || _ || pd); [discriminate H|].
      destruct (length flds =? 3)%nat eqn:E; [discriminate H|].
      apply IH in H; auto; [lia|rewrite app_length; cbn [length]; lia|].
      apply Forall_app. split; [exact Hf|]. constructor; [unfold u8; lia|constructor].
Qed.
Lemma parse_ipv4_ok s l : parse_ipv4 s = Some l -> length l = 4%nat /\ bytes_ok l.
Proof. apply parse4_ok; [lia|cbn; lia|constructor]. Qed.

Lemma hexval_lt c d : hexval c = Some d -> d < 16.
Proof.
  unfold hexval, is_digit. intros H.
  destruct ((48 <=? c) && (c <=? 57)) eqn:E; [injection H as <-; lia|].
  destruct ((97 <=? c) && (c <=? 102)) eqn:E2; [injection H as <-; lia|].
  destruct ((65 <=? c) && (c <=? 70)) eqn:E3; [injection H as <-; lia|discriminate H].
Qed.
Lemma scan_hex_ok s : forall off acc v o r, acc <= 65535 -> scan_hex off acc s = Some (v, o, r) -> v < 65536.
Proof.
  induction s as [|c s IH]; intros off acc v o r Ha H; cbn [scan_hex] in H.
  - injection H as <- <- <-. lia.
  - destruct (hexval c) as [d|] eqn:E; [|injection H as <- <- <-; lia].
    destruct (3 <? off)%nat; [discriminate H|].
    destruct (65535 <? acc * 16 + d) eqn:E2; [discriminate H|].
    apply IH in H; auto. lia.
Qed.

Lemma wg_snoc gs a : wg gs -> a < 65536 -> wg (gs ++ [a]).
Proof. intros H Ha. apply Forall_app. split; [exact H|]. constructor; [exact Ha|constructor]. Qed.

Lemma loop_ok fuel : forall gs ell s gs' ell' r, wg gs -> (length gs + fuel <= 8)%nat ->
  (forall e, ell = Some e -> (e <= length gs)%nat) ->
  parse6_loop fuel gs ell s = Some (gs', ell', r) ->
  wg gs' /\ (length gs' <= 8)%nat /\ (forall e, ell' = Some e -> (e <= length gs')%nat).
Proof.
  induction fuel as [|fuel IH]; intros gs ell s gs' ell' r Hw Hl He H; cbn [parse6_loop] in H.
  - injection H as <- <- <-. split; [exact Hw|]. split; [lia|exact He].
  - destruct (scan_hex 0 0 s) as [[[acc off] r1]|] eqn:E; [|discriminate H].
    assert (Ha : acc < 65536) by (eapply scan_hex_ok; [|exact E]; lia).
    pose proof (wg_snoc gs acc Hw Ha) as Hw2.
    assert (Hlen : length (gs ++ [acc]) = S (length gs)) by (rewrite app_length; cbn; lia).
    destruct (off =? 0)%nat; [discriminate H|].
    destruct r1 as [|c r1].
    { injection H as <- <- <-. split; [exact Hw2|]. split; [lia|].
      intros e Ee. specialize (He e Ee). lia. }
    destruct (c =? c_dot).
    { destruct (match ell with None => _ | Some _ => false end); [discriminate H|].
      destruct (8 <? length gs + 2)%nat eqn:E8; [discriminate H|].
      destruct (parse_ipv4 s) as [l|] eqn:E4; [|discriminate H].
      apply parse_ipv4_ok in E4 as [L4 B4].
      destruct l as [|x0 [|x1 [|x2 [|x3 [|]]]]]; try discriminate L4.
      injection H as <- <- <-. inversion B4 as [|? ? B0 B4']; subst. inversion B4' as [|? ? B1 B4'']; subst.
      inversion B4'' as [|? ? B2 B4''']; subst. inversion B4''' as [|? ? B3 _]; subst. unfold u8 in *.
      rewrite app_length. cbn [length]. split.
      - apply Forall_app. split; [exact Hw|]. constructor; [lia|]. constructor; [lia|constructor].
      - split; [lia|]. intros e Ee. specialize (He e Ee). lia. }
    destruct (negb (c =? c_colon)); [discriminate H|].
    destruct r1 as [|c2 r2]; [discriminate H|].
    destruct (c2 =? c_colon).
    + destruct ell as [e0|]; [discriminate H|].
      destruct r2 as [|c3 r3].
      * injection H as <- <- <-. split; [exact Hw2|]. split; [lia|]. intros e Ee. injection Ee as <-. lia.
      * apply IH in H; auto; [lia|]. intros e Ee. injection Ee as <-. lia.
    + apply IH in H; auto; [lia|]. intros e Ee. specialize (He e Ee). lia.
Qed.

Lemma undig_lt B l : 0 < B -> Forall (fun d => d < B) l -> undig B l < B ^ N.of_nat (length l).
Proof.
  intros HB. induction l as [|x l IH] using rev_ind; intros H.
  - cbn. lia.
  - rewrite undig_snoc, app_length. cbn [length]. apply Forall_app in H as [H1 H2].
    inversion H2; subst. specialize (IH H1).
    replace (N.of_nat (length l + 1)) with (N.succ (N.of_nat (length l))) by lia.
    rewrite N.pow_succ_r'. nia.
Qed.
Lemma undig8 l : wg l -> length l = 8%nat -> undig 65536 l < 2 ^ 128.
Proof.
  intros H L. change (2 ^ 128) with (65536 ^ N.of_nat 8). rewrite <- L. apply undig_lt; [lia|exact H].
Qed.

Lemma finish6_ok x a : (forall gs ell r, x = Some (gs, ell, r) -> wg gs /\ (length gs <= 8)%nat /\ (forall e, ell = Some e -> (e <= length gs)%nat)) ->
  finish6 x = Some a -> exists n, a = A6 n /\ n < 2 ^ 128.
Proof.
  intros HX H. unfold finish6 in H. destruct x as [[[gs ell] r]|]; [|discriminate H].
  destruct (HX _ _ _ eq_refl) as (Hw & Hl & He).
  destruct r as [|]; [|discriminate H].
  destruct (length gs <? 8)%nat eqn:E.
  - destruct ell as [e|]; [|discriminate H]. specialize (He e eq_refl).
    apply (f_equal (fun o => match o with Some x => x | None => A0 end)) in H. cbv beta iota in H. subst a.
    eexists. split; [reflexivity|]. apply undig8.
    + unfold wg in *. rewrite <- (firstn_skipn e gs) in Hw. apply Forall_app in Hw as [Hw1 Hw2].
      apply Forall_app. split; [exact Hw1|]. apply Forall_app. split; [|exact Hw2].
      apply Forall_forall. intros y Hy. apply repeat_spec in Hy. subst. lia.
    + rewrite !app_length, repeat_length, firstn_length, skipn_length. lia.
  - destruct ell; [discriminate H|]. injection H as <-. eexists. split; [reflexivity|].
    apply undig8; [exact Hw|lia].
Qed.

Lemma parse_addr_ok s a : parse_addr s = Some a -> wf_addr a /\ a <> A0.
Proof.
  unfold parse_addr. intros H. destruct (addr_kind s =? c_dot).
  - destruct (parse_ipv4 s) as [l|] eqn:E; [|discriminate H]. injection H as <-.
    apply parse_ipv4_ok in E as [L B]. split; [|discriminate]. cbn [wf_addr].
    change (2 ^ 32) with (256 ^ N.of_nat 4). rewrite <- L. now apply unbe_lt.
  - destruct (addr_kind s =? c_colon); [|discriminate H].
    assert (HA : exists n, a = A6 n /\ n < 2 ^ 128).
    { unfold parse_ipv6 in H. destruct (existsb (N.eqb c_pct) s); [discriminate H|].
      assert (HF : forall ell t, (forall e : nat, ell = Some e -> (e <= 0)%nat) ->
        finish6 (parse6_loop 8 [] ell t) = Some a -> exists n, a = A6 n /\ n < 2 ^ 128).
      { intros ell t He HF. eapply finish6_ok; [|exact HF]. intros gs l' r Hp.
        eapply loop_ok; [| | |exact Hp]; [constructor|cbn; lia|exact He]. }
      destruct (match s with a :: b :: _ => _ | _ => false end).
      - destruct (skipn 2 s) eqn:E2.
        + injection H as <-. exists 0. split; [reflexivity|]. reflexivity.
        + apply HF in H; [exact H|]. intros e Ee. injection Ee as <-. lia.
      - apply HF in H; [exact H|]. intros e Ee. discriminate Ee. }
    destruct HA as (n & -> & Hn). split; [exact Hn|discriminate].
Qed.

Lemma parse_prefix_wf s p : parse_prefix s = Some p -> wf_prefix p /\ is_valid p = true.
Proof.
  unfold parse_prefix. intros H. destruct (split_last c_slash s) as [[i b]|]; [|discriminate H].
  destruct (parse_addr i) as [a|] eqn:E; [|discriminate H]. apply parse_addr_ok in E as [Hw Hn].
  destruct (negb _); [discriminate H|]. destruct (undec 0 b) as [n|]; [|discriminate H].
  destruct (bitlen a <? n) eqn:E2; [discriminate H|]. injection H as <-.
  split; [|reflexivity]. split; cbn [p_addr p_bits]; [exact Hw|]. split; [exact Hn|lia].
Qed.
Lemma parse_prefix_bits s p : parse_prefix s = Some p ->
  exists b, p_bits p = Some b /\ b <= bitlen (p_addr p) /\ (is4 (p_addr p) = true \/ is6 (p_addr p) = true).
Proof.
  intros H. apply parse_prefix_wf in H as ((Hw & Hb) & Hv). destruct p as [a [b|]]; [|discriminate Hv].
  cbn [p_addr p_bits] in *. exists b. destruct Hb as [Hn Hl]. split; [reflexivity|]. split; [exact Hl|].
  destruct a; [congruence|left; reflexivity|right; reflexivity].
Qed.
Lemma get_prefix2_parse v : get_prefix2 v = parse_prefix (vj_prefix v).
Proof.
  unfold get_prefix2. destruct (parse_prefix (vj_prefix v)) as [p|] eqn:E; [|reflexivity].
  apply parse_prefix_wf in E as [_ ->]. reflexivity.
Qed.

(** * AS numbers *)
Lemma in_cutset_iff c : in_cutset c = true <-> In c [65; 97; 83; 115].
Proof. unfold in_cutset. cbn [In]. lia. Qed.
Lemma trim_as_spec s : exists pre, s = pre ++ trim_as s /\ Forall (fun c => In c [65; 97; 83; 115]) pre /\
  match trim_as s with c :: _ => in_cutset c = false | [] => True end.
Proof.
  induction s as [|c s (pre & E & F & T)].
  - exists []. split; [reflexivity|]. split; [constructor|exact I].
  - cbn [trim_as]. destruct (in_cutset c) eqn:Ec.
    + exists (c :: pre). split; [cbn; congruence|]. split; [|exact T].
      constructor; [now apply in_cutset_iff|exact F].
    + exists []. split; [reflexivity|]. split; [constructor|exact Ec].
Qed.
Lemma trim_as_app pre ds : Forall (fun c => In c [65; 97; 83; 115]) pre -> Forall (fun c => 48 <= c <= 57) ds ->
  trim_as (pre ++ ds) = ds.
Proof.
  intros H D. induction H as [|c pre Hc _ IH].
  - cbn [app]. destruct D as [|d ds Hd _]; [reflexivity|]. cbn [trim_as].
    destruct (in_cutset d) eqn:E; [|reflexivity]. unfold in_cutset in E. lia.
  - cbn [app trim_as]. apply in_cutset_iff in Hc. rewrite Hc. exact IH.
Qed.

Lemma dec_value_mono ds a : Forall (fun c => 48 <= c <= 57) ds ->
  a <= fold_left (fun a c => 10 * a + (c - 48)) ds a.
Proof.
  intros H. revert a. induction H as [|c ds Hc _ IH]; intros a; cbn [fold_left]; [lia|].
  specialize (IH (10 * a + (c - 48))). lia.
Qed.
Lemma parse_uint_loop_spec ds : forall a n, a < 2 ^ 32 ->
  (parse_uint_loop a ds = Some n <->
   Forall (fun c => 48 <= c <= 57) ds /\ n = fold_left (fun a c => 10 * a + (c - 48)) ds a /\ n < 2 ^ 32).
Proof.
  change (2 ^ 32) with 4294967296.
  induction ds as [|c ds IH]; intros a n Ha; cbn [parse_uint_loop fold_left].
  - split; [intros H; injection H as <-; split; [constructor|]; lia|]. intros (_ & -> & _). reflexivity.
  - replace (10 * a + (c - 48)) with (a * 10 + (c - 48)) by lia.
    destruct (is_digit c) eqn:Ed; unfold is_digit in Ed.
    + destruct (4294967295 <? a * 10 + (c - 48)) eqn:E.
      * split; [discriminate|]. intros (HF & -> & Hlt). inversion HF; subst.
        pose proof (dec_value_mono ds (a * 10 + (c - 48)) H2). lia.
      * rewrite IH by lia. split; intros (HF & Hn & Hlt).
        -- split; [constructor; [lia|exact HF]|]. auto.
        -- inversion HF; subst. auto.
    + split; [discriminate|]. intros (HF & _). inversion HF; subst. lia.
Qed.
Lemma parse_uint32_spec ds n : parse_uint32 ds = Some n <-> digits_of ds n /\ n < 2 ^ 32.
Proof.
  unfold parse_uint32, digits_of. destruct ds as [|c ds].
  - split; [discriminate|]. intros ((H & _) & _). congruence.
  - rewrite parse_uint_loop_spec by reflexivity. split; [|tauto].
    intros (H1 & H2 & H3). split; [|exact H3]. split; [discriminate|auto].
Qed.
Lemma get_asn2_str s n : get_asn2 (AsnStr s) = Some n <-> asn_text_loose s n /\ n < 2 ^ 32.
Proof.
  cbn [get_asn2]. rewrite parse_uint32_spec. unfold asn_text_loose. split.
  - intros (HD & Hn). split; [|exact Hn]. destruct (trim_as_spec s) as (pre & E & F & _).
    exists pre, (trim_as s). auto.
  - intros ((pre & ds & -> & F & HD) & Hn). split; [|exact Hn].
    rewrite trim_as_app; [exact HD|exact F|]. apply HD.
Qed.
Lemma get_asn2_u32 a n : match a with AsnU32 m => u32 m | _ => True end -> get_asn2 a = Some n -> n < 2 ^ 32.
Proof.
  intros Hw H. destruct a as [s|m|m e|]; cbn [get_asn2] in H.
  - now apply parse_uint32_spec in H.
  - injection H as <-. exact Hw.
  - injection H as <-. unfold u32_of_float, to_u32. change (2 ^ 32) with 4294967296.
    match goal with |- context [if ?b then _ else _] => destruct b end; lia.
  - discriminate H.
Qed.

Lemma float_is_trunc m e n : float_is m e n -> float_trunc m e = Z.of_N n.
Proof.
  unfold float_is, float_trunc. intros [[H1 H2]|[H1 H2]].
  - replace (0 <=? e)%Z with true by lia. exact H2.
  - replace (0 <=? e)%Z with false by lia. subst m. apply Z.quot_mul.
    apply Z.pow_nonzero; lia.
Qed.
Lemma get_asn2_num m e n : float_is m e n -> n < 2 ^ 32 -> get_asn2 (AsnFloat m e) = Some n.
Proof.
  intros H Hn. cbn [get_asn2]. f_equal. unfold u32_of_float. rewrite (float_is_trunc m e n H).
  change (2 ^ 32) with 4294967296 in Hn. change (- 2 ^ 63)%Z with (-9223372036854775808)%Z.
  change (2 ^ 63)%Z with 9223372036854775808%Z.
  replace ((-9223372036854775808 <=? Z.of_N n) && (Z.of_N n <? 9223372036854775808))%Z with true by lia.
  unfold to_u32. lia.
Qed.

(** * De-duplication keys *)
Lemma prefix_string_no_comma p : wf_prefix p -> is_valid p = true -> ~ In 44 (prefix_string p).
Proof.
  intros (Hwa & Hwb) Hv HI. destruct p as [a [b|]]; [|discriminate]. cbn [p_addr p_bits] in *.
  unfold prefix_string in HI. cbn [p_bits p_addr] in HI.
  assert (HP : forall l, Forall plain l -> ~ In 44 l).
  { intros l H HIl. rewrite Forall_forall in H. apply H in HIl. unfold plain, is_digit in HIl. lia. }
  apply in_app_or in HI as [HI|HI].
  - pose proof (addr_string_chars a Hwa ltac:(tauto)) as H. rewrite Forall_forall in H. apply H in HI.
    unfold addrchar, plain, is_digit, c_dash, c_dot, c_colon in HI. lia.
  - cbn [app In] in HI. destruct HI as [HI|HI]; [discriminate|].
    apply (HP (dec b)); auto. apply dec_plain.
Qed.

(** * Hexadecimal text *)
Lemma hexval_lower c d : hexval c = Some d <-> d < 16 /\ lower c = hexc d.
Proof.
  unfold hexval, lower, hexc, is_digit. split.
  - intros H. destruct ((48 <=? c) && (c <=? 57)) eqn:E.
    { injection H as <-. replace ((65 <=? c) && (c <=? 70)) with false by lia.
      replace (c - 48 <? 10) with true by lia. lia. }
    destruct ((97 <=? c) && (c <=? 102)) eqn:E2.
    { injection H as <-. replace ((65 <=? c) && (c <=? 70)) with false by lia.
      replace (c - 87 <? 10) with false by lia. lia. }
    destruct ((65 <=? c) && (c <=? 70)) eqn:E3; [|discriminate H].
    injection H as <-. replace (c - 55 <? 10) with false by lia. lia.
  - intros [Hd H]. destruct ((65 <=? c) && (c <=? 70)) eqn:E3; destruct (d <? 10) eqn:E4; try lia.
    + replace ((48 <=? c) && (c <=? 57)) with false by lia.
      replace ((97 <=? c) && (c <=? 102)) with false by lia. f_equal. lia.
    + replace ((48 <=? c) && (c <=? 57)) with true by lia. f_equal. lia.
    + replace ((48 <=? c) && (c <=? 57)) with false by lia.
      replace ((97 <=? c) && (c <=? 102)) with true by lia. f_equal. lia.
Qed.
Lemma hexc_inj a b : a < 16 -> b < 16 -> hexc a = hexc b -> a = b.
Proof. unfold hexc. intros Ha Hb H. destruct (a <? 10) eqn:E1, (b <? 10) eqn:E2; lia. Qed.

Lemma hex_decode_spec_len n : forall s k, (length s <= n)%nat -> (hex_decode s = (k, true) <-> is_hex_of s k).
Proof.
  induction n as [|n IH]; intros s k Hs.
  - destruct s; [|cbn in Hs; lia]. cbn [hex_decode]. unfold is_hex_of. cbn [map]. split.
    + intros H. injection H as <-. split; [constructor|reflexivity].
    + intros [_ H]. destruct k; [reflexivity|discriminate H].
  - destruct s as [|a [|b s]].
    + apply IH. cbn. lia.
    + cbn [hex_decode]. split; [intros H; discriminate H|]. intros [_ H]. cbn [map] in H.
      destruct k as [|x k]; discriminate H.
    + cbn [hex_decode]. cbn [length] in Hs.
      unfold is_hex_of. cbn [map].
      destruct (hexval a) as [x|] eqn:Ea; [destruct (hexval b) as [y|] eqn:Eb|].
      * apply hexval_lower in Ea as [Hx Ex], Eb as [Hy Ey].
        destruct (hex_decode s) as [r ok] eqn:Er. split.
        -- intros H. injection H as <- ->. apply IH in Er; [|lia]. destruct Er as [B E].
           split; [constructor; [unfold u8; lia|exact B]|].
           cbn [hex_encode flat_map app]. rewrite Ex, Ey, E. unfold hex_encode.
           replace ((x * 16 + y) / 16) with x by lia. replace ((x * 16 + y) mod 16) with y by lia. reflexivity.
        -- intros [B E]. destruct k as [|z k]; [discriminate E|]. cbn [hex_encode flat_map app] in E.
           inversion B as [|? ? Bz Bk]; subst. unfold u8 in Bz. injection E as E1 E2 E3.
           rewrite Ex in E1. rewrite Ey in E2. apply hexc_inj in E1; [|lia|lia]. apply hexc_inj in E2; [|lia|lia].
           assert (HS : hex_decode s = (k, true)) by (apply IH; [lia|split; [exact Bk|exact E3]]).
           rewrite Er in HS. injection HS as -> ->. f_equal. f_equal. lia.
      * split; [intros H; discriminate H|]. intros [B E]. destruct k as [|z k]; [discriminate E|].
        cbn [hex_encode flat_map app] in E. injection E as E1 E2 E3.
        inversion B as [|? ? Bz Bk]; subst. unfold u8 in Bz.
        assert (hexval b = Some (z mod 16)) by (apply hexval_lower; split; [lia|exact E2]). congruence.
      * split; [intros H; discriminate H|]. intros [B E]. destruct k as [|z k]; [discriminate E|].
        cbn [hex_encode flat_map app] in E. injection E as E1 E2 E3.
        inversion B as [|? ? Bz Bk]; subst. unfold u8 in Bz.
        assert (hexval a = Some (z / 16)) by (apply hexval_lower; split; [lia|exact E1]). congruence.
Qed.
Lemma hex_decode_spec s k : hex_decode s = (k, true) <-> is_hex_of s k.
Proof. apply (hex_decode_spec_len (length s)). lia. Qed.
Lemma hex_decode_bytes s : bytes_ok (fst (hex_decode s)).
Proof.
  enough (HN : forall n s, (length s <= n)%nat -> bytes_ok (fst (hex_decode s))) by (apply (HN (length s)); lia).
  clear s. induction n as [|n IH]; intros s Hs.
  - destruct s; [constructor|cbn in Hs; lia].
  - destruct s as [|a [|b s]]; [constructor|constructor|]. cbn [hex_decode]. cbn [length] in Hs.
    destruct (hexval a) as [x|] eqn:Ea; [|constructor]. destruct (hexval b) as [y|] eqn:Eb; [|constructor].
    apply hexval_lt in Ea, Eb. specialize (IH s ltac:(lia)). destruct (hex_decode s) as [r ok]. cbn [fst] in *.
    constructor; [unfold u8; lia|exact IH].
Qed.
