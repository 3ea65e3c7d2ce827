From Coq Require Import ZifyBool ZifyNat ZifyN.
From Verif Require Import Model.JsonText Spec.Rfc8259 Proofs.JsonTextP Proofs.JsonTextP2.
Ltac Zify.zify_post_hook ::= Z.div_mod_to_equations.
Local Open Scope string_scope.
Local Open Scope list_scope.
Local Open Scope N_scope.

(** ** UTF-8 *)

Lemma utf8_is r : utf8 r = utf8_enc r.
Proof. reflexivity. Qed.
Lemma utf8_2 r : 128 <= r -> r < 2048 -> utf8 r = [192 + r / 64; 128 + r mod 64].
Proof. intros. unfold utf8. replace (r <? 128) with false by lia. replace (r <? 2048) with true by lia. reflexivity. Qed.
Lemma utf8_3 r : 2048 <= r -> r < 65536 -> utf8 r = [224 + r / 4096; 128 + r / 64 mod 64; 128 + r mod 64].
Proof.
  intros. unfold utf8. replace (r <? 128) with false by lia. replace (r <? 2048) with false by lia.
  replace (r <? 65536) with true by lia. reflexivity.
Qed.
Lemma utf8_4 r : 65536 <= r -> utf8 r = [240 + r / 262144; 128 + r / 4096 mod 64; 128 + r / 64 mod 64; 128 + r mod 64].
Proof.
  intros. unfold utf8. replace (r <? 128) with false by lia. replace (r <? 2048) with false by lia.
  replace (r <? 65536) with false by lia. reflexivity.
Qed.
Lemma utf8_ascii r : r < 128 -> utf8 r = [r].
Proof. intros. unfold utf8. replace (r <? 128) with true by lia. reflexivity. Qed.

Lemma len2 a b t : 194 <= a <= 223 -> cont b = true -> utf8_len (a :: b :: t) = 2%nat.
Proof. intros Ha Hb. cbn [utf8_len]. rewrite Hb. replace (194 <=? a) with true by lia. replace (a <=? 223) with true by lia. reflexivity. Qed.
Definition lead3 (a b : N) : bool :=
  (((a =? 224) && (160 <=? b) && (b <=? 191))
   || ((225 <=? a) && (a <=? 236) && cont b)
   || ((a =? 237) && (128 <=? b) && (b <=? 159))
   || ((238 <=? a) && (a <=? 239) && cont b)).
Definition lead4 (a b : N) : bool :=
  (((a =? 240) && (144 <=? b) && (b <=? 191))
   || ((241 <=? a) && (a <=? 243) && cont b)
   || ((a =? 244) && (128 <=? b) && (b <=? 143))).
Lemma utf8_len_eq a b r : utf8_len (a :: b :: r) =
  if (194 <=? a) && (a <=? 223) && cont b then 2%nat
  else match r with
  | c :: r' => if lead3 a b && cont c then 3%nat
               else match r' with d :: _ => if lead4 a b && cont c && cont d then 4%nat else 0%nat | [] => 0%nat end
  | [] => 0%nat
  end.
Proof. reflexivity. Qed.
Lemma len3 a b c t : lead3 a b = true -> cont c = true -> utf8_len (a :: b :: c :: t) = 3%nat.
Proof.
  intros Ha Hc. rewrite utf8_len_eq, Ha, Hc.
  replace ((194 <=? a) && (a <=? 223)) with false; [reflexivity|]. unfold lead3 in Ha. lia.
Qed.
Lemma len4 a b c d t : lead4 a b = true -> cont c = true -> cont d = true -> utf8_len (a :: b :: c :: d :: t) = 4%nat.
Proof.
  intros Ha Hc Hd. rewrite utf8_len_eq, Ha, Hc, Hd.
  replace ((194 <=? a) && (a <=? 223)) with false by (unfold lead4 in Ha; lia).
  replace (lead3 a b) with false by (unfold lead4 in Ha; unfold lead3; lia). reflexivity.
Qed.
Lemma cont_spec c : cont c = true <-> 128 <= c <= 191.
Proof. unfold cont. lia. Qed.

Lemma utf8_len_utf8 r t : scalar r -> 128 <= r -> utf8_len (utf8 r ++ t) = length (utf8 r).
Proof.
  intros Hs Hr. unfold scalar in Hs.
  destruct (N.lt_ge_cases r 2048) as [H2|H2]; [|destruct (N.lt_ge_cases r 65536) as [H3|H3]].
  - rewrite utf8_2 by lia. cbn [app length]. apply len2; [lia|]. apply cont_spec. lia.
  - rewrite utf8_3 by lia. cbn [app length]. apply len3; [|apply cont_spec; lia].
    unfold lead3, cont. set (a := r / 4096). set (b := r / 64 mod 64).
    assert (Ea : r = 4096 * a + r mod 4096 /\ r mod 4096 < 4096) by (unfold a; lia).
    assert (Eb : b = (r mod 4096) / 64) by (unfold b; lia).
    assert (Hb : b < 64) by (unfold b; lia).
    assert (a = 0 -> 32 <= b) by lia. assert (a = 13 -> b <= 31) by lia. lia.
  - rewrite utf8_4 by lia. cbn [app length]. apply len4; [|apply cont_spec; lia|apply cont_spec; lia].
    unfold lead4, cont. set (a := r / 262144). set (b := r / 4096 mod 64).
    assert (Ea : r = 262144 * a + r mod 262144 /\ r mod 262144 < 262144) by (unfold a; lia).
    assert (Eb : b = (r mod 262144) / 4096) by (unfold b; lia).
    assert (Hb : b < 64) by (unfold b; lia).
    assert (a = 0 -> 16 <= b) by lia. assert (a = 4 -> b <= 15) by lia. lia.
Qed.

(** What [utf8_len] takes for a sequence is one. *)
Lemma seq2 a b : 194 <= a <= 223 -> cont b = true -> exists r, scalar r /\ 128 <= r /\ [a; b] = utf8 r.
Proof.
  intros Ha Hb. apply cont_spec in Hb. exists ((a - 192) * 64 + (b - 128)).
  split; [unfold scalar; lia|]. split; [lia|]. rewrite utf8_2 by lia. repeat f_equal; lia.
Qed.
Lemma seq3 a b c : lead3 a b = true -> cont c = true -> exists r, scalar r /\ 128 <= r /\ [a; b; c] = utf8 r.
Proof.
  intros Ha Hc. apply cont_spec in Hc.
  assert (Hb : 128 <= b <= 191 /\ 224 <= a <= 239 /\ (a = 224 -> 160 <= b) /\ (a = 237 -> b <= 159)).
  { unfold lead3, cont in Ha. lia. }
  clear Ha. exists ((a - 224) * 4096 + (b - 128) * 64 + (c - 128)).
  split; [unfold scalar; lia|]. split; [lia|]. rewrite utf8_3 by lia. repeat f_equal; lia.
Qed.
Lemma seq4 a b c d : lead4 a b = true -> cont c = true -> cont d = true ->
  exists r, scalar r /\ 128 <= r /\ [a; b; c; d] = utf8 r.
Proof.
  intros Ha Hc Hd. apply cont_spec in Hc, Hd.
  assert (Hb : 128 <= b <= 191 /\ 240 <= a <= 244 /\ (a = 240 -> 144 <= b) /\ (a = 244 -> b <= 143)).
  { unfold lead4, cont in Ha. lia. }
  clear Ha. exists ((a - 240) * 262144 + (b - 128) * 4096 + (c - 128) * 64 + (d - 128)).
  split; [unfold scalar; lia|]. split; [lia|]. rewrite utf8_4 by lia. repeat f_equal; lia.
Qed.
Lemma utf8_len_cases s :
  (utf8_len s = 0%nat) \/
  (exists a b t, s = a :: b :: t /\ utf8_len s = 2%nat /\ 194 <= a <= 223 /\ cont b = true) \/
  (exists a b c t, s = a :: b :: c :: t /\ utf8_len s = 3%nat /\ lead3 a b = true /\ cont c = true) \/
  (exists a b c d t, s = a :: b :: c :: d :: t /\ utf8_len s = 4%nat /\ lead4 a b = true /\ cont c = true /\ cont d = true).
Proof.
  destruct s as [|a [|b r]]; [left; reflexivity|left; reflexivity|]. rewrite utf8_len_eq.
  destruct ((194 <=? a) && (a <=? 223) && cont b) eqn:H2.
  { apply andb_true_iff in H2 as [H2 H2']. right. left. exists a, b, r. repeat split; auto; lia. }
  destruct r as [|c r]; [left; reflexivity|]. destruct (lead3 a b && cont c) eqn:H3.
  { apply andb_true_iff in H3 as [H3 H3']. right. right. left. exists a, b, c, r. repeat split; auto. }
  destruct r as [|d r]; [left; reflexivity|]. destruct (lead4 a b && cont c && cont d) eqn:H4; [|left; reflexivity].
  apply andb_true_iff in H4 as [H4 H4']. apply andb_true_iff in H4 as [H4 H5].
  right. right. right. exists a, b, c, d, r. repeat split; auto.
Qed.
Lemma ill_fffd : utf8 65533 = fffd.
Proof. reflexivity. Qed.

(** ** [unquote] *)

Lemma unquote_ascii c t : c < 128 -> c <> 92 -> unquote (c :: t) = c :: unquote t.
Proof. intros H1 H2. cbn [unquote]. replace (c =? 92) with false by lia. replace (c <? 128) with true by lia. reflexivity. Qed.
Lemma unquote_high x t : 128 <= x -> unquote (x :: t) =
  match utf8_len (x :: t), t with
  | 2%nat, b :: t1 => x :: b :: unquote t1
  | 3%nat, b :: c :: t1 => x :: b :: c :: unquote t1
  | 4%nat, b :: c :: d :: t1 => x :: b :: c :: d :: unquote t1
  | _, _ => fffd ++ unquote t
  end.
Proof. intros H. cbn [unquote]. replace (x =? 92) with false by lia. replace (x <? 128) with false by lia. reflexivity. Qed.
Lemma unquote_seq r t : scalar r -> r <> 92 -> unquote (utf8 r ++ t) = utf8 r ++ unquote t.
Proof.
  intros Hs Hn. destruct (N.lt_ge_cases r 128) as [H1|H1].
  { rewrite utf8_ascii by lia. apply unquote_ascii; auto. }
  pose proof (utf8_len_utf8 r t Hs H1) as L.
  destruct (N.lt_ge_cases r 2048) as [H2|H2]; [|destruct (N.lt_ge_cases r 65536) as [H3|H3]].
  - rewrite utf8_2 in L |- * by lia. cbn [app length] in L |- *. rewrite unquote_high, L by lia. reflexivity.
  - rewrite utf8_3 in L |- * by lia. cbn [app length] in L |- *. rewrite unquote_high, L by lia. reflexivity.
  - rewrite utf8_4 in L |- * by lia. cbn [app length] in L |- *. rewrite unquote_high, L by lia. reflexivity.
Qed.
Lemma unquote_esc c t : c <> 117 -> unquote (92 :: c :: t) = esc1 c :: unquote t.
Proof. intros H. cbn [unquote]. change (92 =? 92) with true. replace (c =? 117) with false by lia. reflexivity. Qed.
Definition after_surrogate (r : N) (t : bytes) : bytes :=
  match t with
  | e :: f :: a' :: b' :: c' :: d' :: t3 =>
      if (e =? 92) && (f =? 117) && is_high r && is_low (u4 a' b' c' d')
      then utf8_enc (pair r (u4 a' b' c' d')) ++ unquote t3
      else fffd ++ unquote t
  | _ => fffd ++ unquote t
  end.
Lemma unquote_u a b c d t : unquote (92 :: 117 :: a :: b :: c :: d :: t) =
  if is_high (u4 a b c d) || is_low (u4 a b c d) then after_surrogate (u4 a b c d) t
  else utf8_enc (u4 a b c d) ++ unquote t.
Proof. reflexivity. Qed.
Lemma hexd_val c v : v < 16 -> (c = 48 + v /\ v < 10 \/ c = 55 + v /\ 10 <= v \/ c = 87 + v /\ 10 <= v) ->
  hexd c = v /\ hexdig c.
Proof.
  intros Hv H. unfold hexd, hexdig. destruct (c <=? 57) eqn:C1; [lia|]. destruct (c <=? 70) eqn:C2; lia.
Qed.
Lemma hexval4_u4 a b c d r : hexval4 a b c d r -> u4 a b c d = r /\ hexdig a /\ hexdig b /\ hexdig c /\ hexdig d /\ r < 65536.
Proof.
  intros (w & x & y & z & -> & F). inversion_clear F as [|? ? ? ? [A1 A2] F1]. inversion_clear F1 as [|? ? ? ? [B1 B2] F2].
  inversion_clear F2 as [|? ? ? ? [C1 C2] F3]. inversion_clear F3 as [|? ? ? ? [D1 D2] F4].
  destruct (hexd_val _ _ A1 A2), (hexd_val _ _ B1 B2), (hexd_val _ _ C1 C2), (hexd_val _ _ D1 D2).
  unfold u4. subst. repeat split; auto. lia.
Qed.
Lemma utf8_pos r : utf8 r <> [].
Proof. unfold utf8. destruct (r <? 128), (r <? 2048), (r <? 65536); discriminate. Qed.
Lemma utf8_ge r : 128 <= r -> Forall (fun c => 128 <= c) (utf8 r).
Proof.
  intros H. destruct (N.lt_ge_cases r 2048) as [H2|H2]; [|destruct (N.lt_ge_cases r 65536) as [H3|H3]].
  - rewrite utf8_2 by lia. repeat constructor; lia.
  - rewrite utf8_3 by lia. repeat constructor; lia.
  - rewrite utf8_4 by lia. repeat constructor; lia.
Qed.
Lemma jchars_high s : Forall (fun c => 128 <= c) s -> jchars s.
Proof. induction 1; [constructor|]. apply jc_plain; auto; lia. Qed.
Lemma jchars_utf8 r : 32 <= r -> r <> 34 -> r <> 92 -> jchars (utf8 r).
Proof.
  intros H1 H2 H3. destruct (N.lt_ge_cases r 128) as [H|H].
  - rewrite utf8_ascii by lia. apply jc_plain; auto. constructor.
  - apply jchars_high, utf8_ge. exact H.
Qed.

Lemma escapes_esc1 c x : In (c, x) escapes -> c <> 117 /\ esc1 c = x /\ In c (str "\/bfnrt" ++ [34]).
Proof.
  intros H. cbn in H. repeat (destruct H as [H|H]; [injection H as <- <-; split; [discriminate|]; split; [reflexivity|cbn; tauto]|]).
  contradiction.
Qed.

(** Strings that are well formed are read as the text they stand for. *)
Theorem means_read_as raw s : means raw s -> jchars raw /\ unquote raw = s.
Proof.
  induction 1 as [|r t s Hs H1 H2 H3 Ht [IH1 IH2]|c x t s Hc Ht [IH1 IH2]|a b c d r t s Hx Hs Ht [IH1 IH2]
                 |a b c d h a' b' c' d' l r t s Hh Hl R1 R2 Eh El Ht [IH1 IH2]].
  - split; [constructor|reflexivity].
  - split; [apply jchars_app; [apply jchars_utf8; auto|exact IH1]|]. rewrite unquote_seq by auto. rewrite IH2. reflexivity.
  - destruct (escapes_esc1 c x Hc) as (E1 & E2 & E3). split; [apply jc_esc; auto|].
    rewrite unquote_esc by auto. rewrite IH2, E2. reflexivity.
  - destruct (hexval4_u4 _ _ _ _ _ Hx) as (U & A & B & C & D & R). split; [apply jc_uni; auto|].
    rewrite unquote_u, U. replace (is_high r || is_low r) with false; [rewrite IH2; reflexivity|].
    unfold is_high, is_low. unfold scalar in Hs. lia.
  - destruct (hexval4_u4 _ _ _ _ _ Hh) as (U & A & B & C & D & R).
    destruct (hexval4_u4 _ _ _ _ _ Hl) as (U' & A' & B' & C' & D' & R').
    split; [apply jc_uni; auto; apply jc_uni; auto|].
    rewrite unquote_u, U. assert (Hhi : is_high h = true) by (unfold is_high; lia). rewrite Hhi. cbn [orb after_surrogate].
    rewrite U', Hhi. replace (is_low l) with true by (unfold is_low; lia). cbn [N.eqb Pos.eqb andb].
    rewrite IH2. f_equal. rewrite <- utf8_is. f_equal. unfold pair. lia.
Qed.

(** ** Every string that is read is text *)

Lemma text_app a b : is_text a -> is_text b -> is_text (a ++ b).
Proof. induction 1; intros; auto. rewrite <- app_assoc. constructor; auto. Qed.
Lemma text_one r : scalar r -> is_text (utf8 r).
Proof. intros H. rewrite <- (app_nil_r (utf8 r)). constructor; auto. constructor. Qed.
Lemma text_fffd : is_text fffd.
Proof. change fffd with (utf8 65533). apply text_one. unfold scalar. lia. Qed.
Lemma esc1_lt c : c < 128 -> esc1 c < 128.
Proof.
  intros H. unfold esc1. destruct (c =? 98), (c =? 102), (c =? 110), (c =? 114), (c =? 116); lia.
Qed.
Lemma u4_lt a b c d : hexdig a -> hexdig b -> hexdig c -> hexdig d -> u4 a b c d < 65536.
Proof.
  assert (H : forall c, hexdig c -> hexd c < 16).
  { intros x Hx. unfold hexdig in Hx. unfold hexd. destruct (x <=? 57) eqn:C1; [lia|]. destruct (x <=? 70) eqn:C2; lia. }
  intros Ha Hb Hc Hd. unfold u4. pose proof (H a Ha). pose proof (H b Hb). pose proof (H c Hc). pose proof (H d Hd). lia.
Qed.
Lemma jchars_inv_esc c t : jchars (92 :: c :: t) -> (c <> 117 /\ c < 128 /\ jchars t) \/
  exists a b x d t', c = 117 /\ t = a :: b :: x :: d :: t' /\ hexdig a /\ hexdig b /\ hexdig x /\ hexdig d /\ jchars t'.
Proof.
  intros H. inversion H; subst; [congruence| |].
  - left. cbn in H2. intuition (subst; try discriminate; try lia; auto).
  - right. eexists _, _, _, _, _. split; [reflexivity|]. split; [reflexivity|]. auto.
Qed.
Lemma jchars_tail a t : 128 <= a -> jchars (a :: t) -> jchars t.
Proof. intros Ha H. inversion H; subst; auto; lia. Qed.
Theorem unquote_text raw : jchars raw -> is_text (unquote raw).
Proof.
  remember (length raw) as n eqn:En. revert raw En. induction n as [n IH] using lt_wf_ind. intros raw -> J.
  destruct raw as [|x t]; [constructor|].
  destruct (N.eq_dec x 92) as [->|Hx].
  - destruct t as [|c t]; [inversion J; subst; congruence|].
    destruct (jchars_inv_esc c t J) as [(H1 & H2 & H3) | (a & b & y & d & t' & -> & -> & Ha & Hb & Hy & Hd & Jt)].
    + rewrite unquote_esc by auto. change (esc1 c :: unquote t) with ([esc1 c] ++ unquote t). pose proof (esc1_lt c H2) as L.
      rewrite <- (utf8_ascii (esc1 c)) by auto. constructor; [unfold scalar; lia|].
      eapply IH; [|reflexivity|exact H3]. cbn. lia.
    + rewrite unquote_u. set (r := u4 a b y d). assert (Hr : r < 65536) by (apply u4_lt; auto).
      assert (R1 : is_text (unquote t')) by (eapply IH; [|reflexivity|exact Jt]; cbn; lia).
      destruct (is_high r || is_low r) eqn:HS.
      * assert (R2 : is_text (fffd ++ unquote t')) by (apply text_app; [apply text_fffd|exact R1]).
        unfold after_surrogate. destruct t' as [|e [|f [|a' [|b' [|c' [|d' t3]]]]]]; auto.
        destruct ((e =? 92) && (f =? 117) && is_high r && is_low (u4 a' b' c' d')) eqn:HP; auto.
        assert (e = 92 /\ f = 117) as [-> ->] by lia.
        destruct (jchars_inv_esc 117 _ Jt) as [(H1 & _) | (a2 & b2 & y2 & d2 & t2 & _ & Q & Ha2 & Hb2 & Hy2 & Hd2 & Jt2)]; [congruence|].
        injection Q as <- <- <- <- <-. rewrite <- utf8_is. constructor.
        -- unfold pair, scalar. unfold is_high, is_low in HP. lia.
        -- eapply IH; [|reflexivity|exact Jt2]. cbn. lia.
      * rewrite <- utf8_is. constructor; auto. unfold scalar. unfold is_high, is_low in HS. lia.
  - destruct (N.lt_ge_cases x 128) as [Hl|Hl].
    + rewrite unquote_ascii by auto. change (x :: unquote t) with ([x] ++ unquote t). rewrite <- (utf8_ascii x) by auto.
      constructor; [unfold scalar; lia|]. eapply IH; [|reflexivity|]; [cbn; lia|]. inversion J; subst; auto; congruence.
    + rewrite unquote_high by auto. assert (Jt := jchars_tail _ _ Hl J).
      assert (R0 : is_text (fffd ++ unquote t)).
      { apply text_app; [apply text_fffd|]. eapply IH; [|reflexivity|exact Jt]. cbn. lia. }
      destruct (utf8_len_cases (x :: t)) as [-> | [(a & b & t' & Q & -> & Ha & Hb) | [(a & b & c & t' & Q & -> & Ha & Hc) | (a & b & c & d & t' & Q & -> & Ha & Hc & Hd)]]].
      * exact R0.
      * injection Q as -> ->. destruct (seq2 a b Ha Hb) as (r & Hs & Hr & E0).
        change (a :: b :: unquote t') with ([a; b] ++ unquote t'). rewrite E0. constructor; auto.
        eapply IH; [|reflexivity|]; [cbn; lia|]. apply cont_spec in Hb. eapply jchars_tail; [|exact Jt]. lia.
      * injection Q as -> ->. destruct (seq3 a b c Ha Hc) as (r & Hs & Hr & E0).
        change (a :: b :: c :: unquote t') with ([a; b; c] ++ unquote t'). rewrite E0. constructor; auto.
        eapply IH; [|reflexivity|]; [cbn; lia|]. apply cont_spec in Hc.
        assert (128 <= b) by (unfold lead3, cont in Ha; lia).
        eapply jchars_tail; [|eapply jchars_tail; [|exact Jt]]; lia.
      * injection Q as -> ->. destruct (seq4 a b c d Ha Hc Hd) as (r & Hs & Hr & E0).
        change (a :: b :: c :: d :: unquote t') with ([a; b; c; d] ++ unquote t'). rewrite E0. constructor; auto.
        eapply IH; [|reflexivity|]; [cbn; lia|]. apply cont_spec in Hc, Hd.
        assert (128 <= b) by (unfold lead4, cont in Ha; lia).
        eapply jchars_tail; [|eapply jchars_tail; [|eapply jchars_tail; [|exact Jt]]]; lia.
Qed.

(** ** [quote] *)

Lemma quote_ascii c t : c < 128 -> quote (c :: t) = esc_ascii c ++ quote t.
Proof. intros H. cbn [quote]. replace (c <? 128) with true by lia. reflexivity. Qed.
Lemma quote_high x t : 128 <= x -> quote (x :: t) =
  match utf8_len (x :: t), t with
  | 2%nat, b :: t1 => x :: b :: quote t1
  | 3%nat, b :: c :: t1 =>
      if (x =? 226) && (b =? 128) && ((c =? 168) || (c =? 169))
      then [92; 117; 50; 48; 50; hexlow (c - 160)] ++ quote t1
      else x :: b :: c :: quote t1
  | 4%nat, b :: c :: d :: t1 => x :: b :: c :: d :: quote t1
  | _, _ => [92; 117; 102; 102; 102; 100] ++ quote t
  end.
Proof. intros H. cbn [quote]. replace (x <? 128) with false by lia. reflexivity. Qed.
Lemma quote_seq r t : scalar r -> 128 <= r -> r <> 8232 -> r <> 8233 -> quote (utf8 r ++ t) = utf8 r ++ quote t.
Proof.
  intros Hs H1 N1 N2. pose proof (utf8_len_utf8 r t Hs H1) as L.
  destruct (N.lt_ge_cases r 2048) as [H2|H2]; [|destruct (N.lt_ge_cases r 65536) as [H3|H3]].
  - rewrite utf8_2 in L |- * by lia. cbn [app length] in L |- *. rewrite quote_high, L by lia. reflexivity.
  - rewrite utf8_3 in L |- * by lia. cbn [app length] in L |- *. rewrite quote_high, L by lia.
    replace ((224 + r / 4096 =? 226) && (128 + r / 64 mod 64 =? 128) && ((128 + r mod 64 =? 168) || (128 + r mod 64 =? 169))) with false;
      [reflexivity|].
    assert (r <> 8232 /\ r <> 8233) by lia. lia.
  - rewrite utf8_4 in L |- * by lia. cbn [app length] in L |- *. rewrite quote_high, L by lia. reflexivity.
Qed.
Lemma hexlow_val d : d < 16 -> hexdig (hexlow d) /\ hexd (hexlow d) = d.
Proof. intros H. apply and_comm. apply hexd_val; [exact H|]. unfold hexlow. destruct (d <? 10) eqn:C; lia. Qed.
Lemma esc_ascii_reads c t u : c < 128 -> jchars t -> unquote t = u ->
  jchars (esc_ascii c ++ t) /\ unquote (esc_ascii c ++ t) = c :: u.
Proof.
  intros Hc Ht <-. unfold esc_ascii.
  destruct ((c =? 34) || (c =? 92)) eqn:C1.
  { assert (c = 34 \/ c = 92) as [-> | ->] by lia; split; try reflexivity; apply jc_esc; auto; cbn; tauto. }
  destruct (c =? 8) eqn:C2; [apply N.eqb_eq in C2; subst c; split; [apply jc_esc; auto; cbn; tauto|reflexivity]|].
  destruct (c =? 12) eqn:C3; [apply N.eqb_eq in C3; subst c; split; [apply jc_esc; auto; cbn; tauto|reflexivity]|].
  destruct (c =? 10) eqn:C4; [apply N.eqb_eq in C4; subst c; split; [apply jc_esc; auto; cbn; tauto|reflexivity]|].
  destruct (c =? 13) eqn:C5; [apply N.eqb_eq in C5; subst c; split; [apply jc_esc; auto; cbn; tauto|reflexivity]|].
  destruct (c =? 9) eqn:C6; [apply N.eqb_eq in C6; subst c; split; [apply jc_esc; auto; cbn; tauto|reflexivity]|].
  destruct ((c <? 32) || (c =? 60) || (c =? 62) || (c =? 38)) eqn:C7.
  - destruct (hexlow_val (c / 16) ltac:(lia)) as [X1 X2]. destruct (hexlow_val (c mod 16) ltac:(lia)) as [Y1 Y2].
    split; [apply jc_uni; auto; unfold hexdig; lia|].
    cbn [app]. rewrite unquote_u. unfold u4. rewrite X2, Y2. change (hexd 48) with 0.
    replace (0 * 4096 + 0 * 256 + c / 16 * 16 + c mod 16) with c by lia.
    replace (is_high c || is_low c) with false by (unfold is_high, is_low; lia).
    rewrite <- utf8_is, utf8_ascii by auto. reflexivity.
  - split; [cbn [app]; apply jc_plain; auto; lia|]. cbn [app]. apply unquote_ascii; auto. lia.
Qed.
Theorem quote_reads s : is_text s -> jchars (quote s) /\ unquote (quote s) = s.
Proof.
  induction 1 as [|r t Hs Ht [IH1 IH2]]; [split; [constructor|reflexivity]|].
  destruct (N.lt_ge_cases r 128) as [H1|H1].
  { rewrite utf8_ascii by auto. cbn [app]. rewrite quote_ascii by auto. apply esc_ascii_reads; auto. }
  destruct (N.eq_dec r 8232) as [->|N1]; [|destruct (N.eq_dec r 8233) as [->|N2]].
  - change (utf8 8232) with [226; 128; 168]. change (quote ([226; 128; 168] ++ t)) with ([92; 117; 50; 48; 50; 56] ++ quote t).
    split; [apply jc_uni; auto; unfold hexdig; lia|]. cbn [app]. rewrite unquote_u. rewrite IH2. reflexivity.
  - change (utf8 8233) with [226; 128; 169]. change (quote ([226; 128; 169] ++ t)) with ([92; 117; 50; 48; 50; 57] ++ quote t).
    split; [apply jc_uni; auto; unfold hexdig; lia|]. cbn [app]. rewrite unquote_u. rewrite IH2. reflexivity.
  - rewrite quote_seq by auto. split.
    + apply jchars_app; auto. apply jchars_high, utf8_ge. exact H1.
    + rewrite unquote_seq by (auto; lia). rewrite IH2. reflexivity.
Qed.
