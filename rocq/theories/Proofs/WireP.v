(** Proofs about the wire format: C01 to C06. *)
From Coq Require Import ZifyBool ZifyNat ZifyN.
From Verif Require Import Model.Pdu Spec.Wire.
Ltac Zify.zify_post_hook ::= Z.div_mod_to_equations.

Lemma nlen_app {A} (l1 l2 : list A) : nlen (l1 ++ l2) = nlen l1 + nlen l2.
Proof. unfold nlen. rewrite app_length. lia. Qed.
Lemma nlen_be k x : nlen (be k x) = N.of_nat k.
Proof. unfold nlen. now rewrite be_length. Qed.

(** * Slices *)
Lemma slice_ok {E} l a b : a <= b -> b <= nlen l ->
  @slice E l a b = Ok (sub l (N.to_nat a) (N.to_nat (b - a))).
Proof.
  intros H1 H2. unfold slice, sub.
  replace ((a <=? b) && (b <=? nlen l))%bool with true by lia. reflexivity.
Qed.

Lemma sub_length l a n : (a + n <= length l)%nat -> length (sub l a n) = n.
Proof. intros H. unfold sub. rewrite firstn_length, skipn_length. lia. Qed.

Lemma getU32_ok {E} l a n : (4 <= n)%nat -> (a + n <= length l)%nat ->
  @getU32 E (sub l a n) = Ok (fld l a 4).
Proof.
  intros Hn H. unfold getU32, nlen. rewrite sub_length by lia.
  replace (N.of_nat n <? 4) with false by lia.
  unfold fld, sub. rewrite firstn_firstn. now replace (Nat.min 4 n) with 4%nat by lia.
Qed.

Lemma getU32_whole {E} l : 4 <= nlen l -> @getU32 E l = Ok (fld l 0 4).
Proof. intros H. unfold getU32. replace (nlen l <? 4) with false by lia. reflexivity. Qed.

Lemma index_ok {E} l i : i < nlen l -> @index E l i = Ok (fld l (N.to_nat i) 1).
Proof.
  intros H. unfold index. unfold nlen in H.
  destruct (nth_error l (N.to_nat i)) as [x|] eqn:Hx.
  - f_equal. unfold fld. apply nth_error_split in Hx as (l1 & l2 & -> & Hl).
    rewrite skipn_app_exact by exact Hl. cbn [firstn]. symmetry. apply unbe1.
  - apply nth_error_None in Hx. lia.
Qed.

(** * Fields of a frame and of its payload *)
Lemma sub_sub l a m b n : (b + n <= m)%nat -> sub (sub l a m) b n = sub l (a + b) n.
Proof.
  intros H. unfold sub.
  rewrite skipn_firstn_comm, skipn_skipn_add, firstn_firstn.
  f_equal; lia.
Qed.
Lemma fld_sub l a m b n : (b + n <= m)%nat -> fld (sub l a m) b n = fld l (a + b) n.
Proof. intros H. unfold fld. f_equal. apply (sub_sub l a m b n H). Qed.

Lemma sub_app_l l r a n : (a + n <= length l)%nat -> sub (l ++ r) a n = sub l a n.
Proof.
  intros H. unfold sub. rewrite skipn_app, firstn_app, skipn_length.
  replace (n - (length l - a))%nat with 0%nat by lia. cbn [firstn]. apply app_nil_r.
Qed.
Lemma fld_app_l l r a n : (a + n <= length l)%nat -> fld (l ++ r) a n = fld l a n.
Proof. intros H. unfold fld. f_equal. apply (sub_app_l l r a n H). Qed.
Lemma sub_next l r k a n : length l = k -> (k <= a)%nat -> sub (l ++ r) a n = sub r (a - k) n.
Proof.
  intros H1 H2. unfold sub. rewrite skipn_app, H1.
  rewrite (skipn_all2 l) by lia. reflexivity.
Qed.
Lemma fld_next l r k a n : length l = k -> (k <= a)%nat -> fld (l ++ r) a n = fld r (a - k) n.
Proof. intros H1 H2. unfold fld. f_equal. apply (sub_next l r k a n H1 H2). Qed.
Lemma fld_here k x r : x < 256 ^ N.of_nat k -> fld (be k x ++ r) 0 k = x.
Proof.
  intros H. unfold fld. cbn [skipn]. rewrite firstn_app_exact by apply be_length.
  now apply unbe_be.
Qed.
Lemma fld_end k x : x < 256 ^ N.of_nat k -> fld (be k x) 0 k = x.
Proof. intros H. rewrite <- (app_nil_r (be k x)). now apply fld_here. Qed.

Lemma fld_lt b a n : bytes_ok b -> fld b a n < 256 ^ N.of_nat n.
Proof.
  intros H. unfold fld.
  eapply N.lt_le_trans; [apply unbe_lt, bytes_ok_firstn, bytes_ok_skipn, H|].
  apply N.pow_le_mono_r; [lia|]. rewrite firstn_length. lia.
Qed.

(** * Decode in terms of frames *)
Lemma read_spec k b : read k b =
  if nlen b <? k then Err EIO else Ok (sub b 0 (N.to_nat k), skipn (N.to_nat k) b).
Proof. reflexivity. Qed.

Lemma nlen_skipn n (b : bytes) : nlen (skipn n b) = nlen b - N.of_nat n.
Proof. unfold nlen. rewrite skipn_length. lia. Qed.

Lemma decode_short w b : nlen b < 8 -> decode w b = Err EIO.
Proof.
  intros H. unfold decode.
  do 4 (rewrite read_spec; cbn [bind fst snd]; rewrite ?nlen_skipn;
        match goal with |- context [if ?c then Err EIO else Ok _] =>
          destruct c eqn:?; [reflexivity|] end; cbn [bind fst snd]).
  lia.
Qed.

Definition payload (b : bytes) : bytes := sub b 8 (N.to_nat (w_len b - 8)).

Lemma read_app k l r : nlen l = k -> read k (l ++ r) = Ok (l, r).
Proof.
  intros H. unfold read. rewrite nlen_app.
  replace (nlen l + nlen r <? k) with false by lia.
  unfold nlen in H. rewrite firstn_app_exact, skipn_app_exact by lia. reflexivity.
Qed.

Lemma decode_long w b : 8 <= nlen b ->
  decode w b =
    if w_len b <? 8 then Err ELength
    else if 262168 <? w_len b then Err ELength
    else if nlen b <? w_len b then Err EIO
    else do p <- decode_payload w (w_ver b) (w_type b) (w_sess b) (payload b);
         Ok (p, skipn (N.to_nat (w_len b)) b).
Proof.
  intros H.
  destruct b as [|b0 [|b1 [|b2 [|b3 [|b4 [|b5 [|b6 [|b7 tl]]]]]]]];
    try (exfalso; unfold nlen in H; cbn [length] in H; lia).
  assert (Hn : nlen (b0 :: b1 :: b2 :: b3 :: b4 :: b5 :: b6 :: b7 :: tl) = 8 + nlen tl)
    by (unfold nlen; cbn [length]; lia).
  rewrite Hn. unfold decode.
  change (b0 :: b1 :: b2 :: b3 :: b4 :: b5 :: b6 :: b7 :: tl)
    with ([b0] ++ [b1] ++ [b2; b3] ++ [b4; b5; b6; b7] ++ tl).
  rewrite read_app by reflexivity. cbn [bind fst snd].
  rewrite read_app by reflexivity. cbn [bind fst snd].
  rewrite read_app by reflexivity. cbn [bind fst snd].
  rewrite read_app by reflexivity. cbn [bind fst snd].
  set (b := [b0] ++ [b1] ++ [b2; b3] ++ [b4; b5; b6; b7] ++ tl).
  change (unbe [b0]) with (w_ver b). change (unbe [b1]) with (w_type b).
  change (unbe [b2; b3]) with (w_sess b). change (unbe [b4; b5; b6; b7]) with (w_len b).
  unfold messageMaxSize.
  destruct (w_len b <? 8) eqn:H8; [reflexivity|].
  destruct (262168 <? w_len b) eqn:Hm; [reflexivity|].
  rewrite read_spec.
  replace (nlen tl <? w_len b - 8) with (8 + nlen tl <? w_len b) by lia.
  destruct (8 + nlen tl <? w_len b) eqn:Hl; [reflexivity|]. cbn [bind fst snd].
  change (sub tl 0 (N.to_nat (w_len b - 8))) with (payload b).
  replace (skipn (N.to_nat (w_len b)) b) with (skipn (N.to_nat (w_len b - 8)) tl); [reflexivity|].
  replace (N.to_nat (w_len b)) with (8 + N.to_nat (w_len b - 8))%nat by lia.
  reflexivity.
Qed.

(** * The payload switch against the offset specification *)
Lemma payload_len b : frame_ok b -> length (payload b) = N.to_nat (w_len b - 8).
Proof.
  intros (H1 & H2 & H3 & H4). unfold payload. apply sub_length. unfold nlen in *. lia.
Qed.

Ltac fldpay H := unfold payload; rewrite ?fld_sub by lia; cbn [Nat.add].

Lemma prefix_from_w4 x plen : prefix_from (A4 x) (Z.of_N plen) = w_pfx (A4 x) 32 plen.
Proof.
  unfold prefix_from, w_pfx. cbn [bitlen].
  replace ((0 <=? Z.of_N plen) && (Z.of_N plen <=? Z.of_N 32))%Z with (plen <=? 32) by lia.
  destruct (plen <=? 32); [|reflexivity]. now rewrite N2Z.id.
Qed.
Lemma prefix_from_w6 x plen : prefix_from (A6 x) (Z.of_N plen) = w_pfx (A6 x) 128 plen.
Proof.
  unfold prefix_from, w_pfx. cbn [bitlen].
  replace ((0 <=? Z.of_N plen) && (Z.of_N plen <=? Z.of_N 128))%Z with (plen <=? 128) by lia.
  destruct (plen <=? 128); [|reflexivity]. now rewrite N2Z.id.
Qed.

Lemma iwrap64 z : (- 2 ^ 63 <= z < 2 ^ 63)%Z -> iwrap 64 z = z.
Proof.
  intros H. unfold iwrap. change (64 - 1)%Z with 63%Z.
  rewrite Z.mod_small; [lia|]. change (2 ^ 64)%Z with (2 * 2 ^ 63)%Z. lia.
Qed.

Lemma fld_rk b : bytes_ok b -> 4 <= nlen b -> w_sess b / 256 = fld b 2 1 /\ w_sess b mod 256 = fld b 3 1.
Proof.
  intros Hb H. unfold w_sess, fld.
  destruct b as [|b0 [|b1 [|b2 [|b3 tl]]]]; try (exfalso; unfold nlen in H; cbn [length] in H; lia).
  cbn [firstn skipn]. rewrite unbe1. unfold unbe. cbn [fold_left].
  unfold bytes_ok in Hb. rewrite !Forall_cons_iff in Hb. unfold u8 in Hb. lia.
Qed.

Lemma decode_payload_error b : bytes_ok b -> frame_ok b -> w_type b = 10 ->
  (exists p, decode_payload 64 (w_ver b) (w_type b) (w_sess b) (payload b) = Ok p /\ w_pdu b p) \/
  ((exists e, decode_payload 64 (w_ver b) (w_type b) (w_sess b) (payload b) = Err e) /\
   forall p, ~ w_pdu b p).
Proof.
  intros Hb Hf Ht. pose proof (payload_len b Hf) as Hpl.
  destruct Hf as (F1 & F2 & F3 & F4).
  rewrite Ht. unfold decode_payload. cbn -[payload slice getU32 iadd int_of_u32 u32add w_ver w_sess].
  replace (nlen (payload b)) with (w_len b - 8) by (unfold nlen; lia).
  destruct (w_len b - 8 <? 8) eqn:H8.
  { right. split; [eexists; reflexivity|]. intros p Hp. inversion Hp; try congruence. lia. }
  rewrite slice_ok by (unfold nlen; lia). cbn [bind].
  change (N.to_nat 0) with 0%nat. change (N.to_nat (4 - 0)) with 4%nat.
  rewrite getU32_ok by lia. cbn [bind].
  replace (fld (payload b) 0 4) with (fld b 8 4) by (unfold payload; rewrite fld_sub by lia; reflexivity).
  pose proof (fld_lt b 8 4 Hb) as Hlp. change (256 ^ N.of_nat 4) with 4294967296 in Hlp.
  set (lp := fld b 8 4) in *.
  assert (Hi : int_of_u32 64 lp = Z.of_N lp) by (apply iwrap64; lia).
  assert (Hia : iadd 64 (Z.of_N lp) 8 = (Z.of_N lp + 8)%Z) by (unfold iadd; apply iwrap64; lia).
  rewrite Hi, Hia.
  destruct (Z.of_N (w_len b - 8) <? Z.of_N lp + 8)%Z eqn:Hl1.
  { right. split; [eexists; reflexivity|]. intros p Hp. inversion Hp; try congruence.
    subst lp. lia. }
  assert (Hs4 : u32add lp 4 = lp + 4) by (unfold u32add; apply N.mod_small; lia).
  assert (Hs8 : u32add lp 8 = lp + 8) by (unfold u32add; apply N.mod_small; lia).
  rewrite Hs4, Hs8.
  rewrite slice_ok by (unfold nlen; lia). cbn [bind].
  rewrite slice_ok by (unfold nlen; lia). cbn [bind].
  rewrite getU32_ok by lia. cbn [bind].
  replace (fld (payload b) (N.to_nat (lp + 4)) 4) with (fld b (12 + N.to_nat lp) 4)
    by (unfold payload; rewrite fld_sub by lia; f_equal; lia).
  pose proof (fld_lt b (12 + N.to_nat lp) 4 Hb) as Hlt. change (256 ^ N.of_nat 4) with 4294967296 in Hlt.
  set (lt := fld b (12 + N.to_nat lp) 4) in *.
  assert (Hi2 : int_of_u32 64 lt = Z.of_N lt) by (apply iwrap64; lia).
  rewrite Hi2. unfold iadd. rewrite iwrap64 by lia.
  destruct (Z.of_N (w_len b - 8) <? Z.of_N lp + 8 + Z.of_N lt)%Z eqn:Hl2.
  { right. split; [eexists; reflexivity|]. intros p Hp.
    inversion Hp as [ | | | | | | | | | | lp' lt' T1 T2 T3 T4 T5 T6]; try congruence.
    assert (lp' = lp) by exact T3. subst lp'. assert (lt' = lt) by exact T5. subst lt'. lia. }
  assert (Hs8t : u32add (lp + 8) lt = lp + 8 + lt) by (unfold u32add; apply N.mod_small; lia).
  rewrite Hs8t. rewrite slice_ok by (unfold nlen; lia). cbn [bind].
  left. eexists. split; [reflexivity|].
  replace (sub (payload b) (N.to_nat 4) (N.to_nat (lp + 4 - 4))) with (sub b 12 (N.to_nat lp)).
  2:{ unfold payload. rewrite sub_sub by lia. f_equal; lia. }
  replace (sub (payload b) (N.to_nat (lp + 8)) (N.to_nat (lp + 8 + lt - (lp + 8))))
    with (sub b (16 + N.to_nat lp) (N.to_nat lt)).
  2:{ unfold payload. rewrite sub_sub by lia. f_equal; lia. }
  eapply W_error with (lp := lp) (lt := lt); try reflexivity; try assumption; lia.
Qed.

Lemma decode_payload_spec b : bytes_ok b -> frame_ok b ->
  (exists p, decode_payload 64 (w_ver b) (w_type b) (w_sess b) (payload b) = Ok p /\ w_pdu b p) \/
  ((exists e, decode_payload 64 (w_ver b) (w_type b) (w_sess b) (payload b) = Err e) /\
   forall p, ~ w_pdu b p).
Proof.
  intros Hb Hf. destruct (N.eq_dec (w_type b) 10) as [H10|H10].
  { now apply decode_payload_error. }
  pose proof (payload_len b Hf) as Hpl. destruct Hf as (F1 & F2 & F3 & F4).
  assert (Hn : nlen (payload b) = w_len b - 8) by (unfold nlen; lia).
  unfold decode_payload. rewrite Hn.
  unfold PDU_ID_SERIAL_NOTIFY, PDU_ID_SERIAL_QUERY, PDU_ID_RESET_QUERY, PDU_ID_CACHE_RESPONSE,
    PDU_ID_IPV4_PREFIX, PDU_ID_IPV6_PREFIX, PDU_ID_END_OF_DATA, PDU_ID_CACHE_RESET,
    PDU_ID_ROUTER_KEY, PDU_ID_ERROR_REPORT.
  destruct (w_type b =? 0) eqn:T0.
  { destruct (w_len b - 8 =? 4) eqn:HL; cbn [negb].
    - left. rewrite getU32_whole by (unfold nlen; lia). cbn [bind]. eexists. split; [reflexivity|].
      fldpay b. constructor; lia.
    - right. split; [eexists; reflexivity|]. intros p Hp. inversion Hp; lia. }
  destruct (w_type b =? 1) eqn:T1.
  { destruct (w_len b - 8 =? 4) eqn:HL; cbn [negb].
    - left. rewrite getU32_whole by (unfold nlen; lia). cbn [bind]. eexists. split; [reflexivity|].
      fldpay b. constructor; lia.
    - right. split; [eexists; reflexivity|]. intros p Hp. inversion Hp; lia. }
  destruct (w_type b =? 2) eqn:T2.
  { destruct (w_len b - 8 =? 0) eqn:HL; cbn [negb].
    - left. eexists. split; [reflexivity|]. constructor; lia.
    - right. split; [eexists; reflexivity|]. intros p Hp. inversion Hp; lia. }
  destruct (w_type b =? 3) eqn:T3.
  { destruct (w_len b - 8 =? 0) eqn:HL; cbn [negb].
    - left. eexists. split; [reflexivity|]. constructor; lia.
    - right. split; [eexists; reflexivity|]. intros p Hp. inversion Hp; lia. }
  destruct (w_type b =? 4) eqn:T4.
  { destruct (w_len b - 8 =? 12) eqn:HL; cbn [negb].
    - left. rewrite (index_ok _ 1) by (unfold nlen; lia). cbn [bind].
      rewrite (slice_ok _ 4 8) by (unfold nlen; lia). cbn [bind].
      unfold addr_from_slice.
      replace (nlen (sub (payload b) (N.to_nat 4) (N.to_nat (8 - 4)))) with 4
        by (unfold nlen; rewrite sub_length by lia; reflexivity).
      cbn [N.eqb Pos.eqb].
      rewrite (slice_ok _ 8) by (unfold nlen; lia). cbn [bind].
      rewrite getU32_ok by lia. cbn [bind].
      rewrite (index_ok _ 0), (index_ok _ 2) by (unfold nlen; lia). cbn [bind].
      eexists. split; [reflexivity|].
      rewrite prefix_from_w4.
      change (unbe (sub (payload b) (N.to_nat 4) (N.to_nat (8 - 4)))) with (fld (payload b) 4 4).
      change (N.to_nat 0) with 0%nat. change (N.to_nat 1) with 1%nat.
      change (N.to_nat 2) with 2%nat. change (N.to_nat 8) with 8%nat.
      fldpay b. constructor; lia.
    - right. split; [eexists; reflexivity|]. intros p Hp. inversion Hp; lia. }
  destruct (w_type b =? 6) eqn:T6.
  { destruct (w_len b - 8 =? 24) eqn:HL; cbn [negb].
    - left. rewrite (index_ok _ 1) by (unfold nlen; lia). cbn [bind].
      rewrite (slice_ok _ 4 20) by (unfold nlen; lia). cbn [bind].
      unfold addr_from_slice.
      replace (nlen (sub (payload b) (N.to_nat 4) (N.to_nat (20 - 4)))) with 16
        by (unfold nlen; rewrite sub_length by lia; reflexivity).
      cbn [N.eqb Pos.eqb].
      rewrite (slice_ok _ 20) by (unfold nlen; lia). cbn [bind].
      rewrite getU32_ok by lia. cbn [bind].
      rewrite (index_ok _ 0), (index_ok _ 2) by (unfold nlen; lia). cbn [bind].
      eexists. split; [reflexivity|].
      rewrite prefix_from_w6.
      change (unbe (sub (payload b) (N.to_nat 4) (N.to_nat (20 - 4)))) with (fld (payload b) 4 16).
      change (N.to_nat 0) with 0%nat. change (N.to_nat 1) with 1%nat.
      change (N.to_nat 2) with 2%nat. change (N.to_nat 20) with 20%nat.
      fldpay b. constructor; lia.
    - right. split; [eexists; reflexivity|]. intros p Hp. inversion Hp; lia. }
  destruct (w_type b =? 7) eqn:T7.
  { destruct (w_len b - 8 =? 4) eqn:HL; cbn [negb andb].
    - left. rewrite getU32_whole by (unfold nlen; lia). cbn [bind]. eexists. split; [reflexivity|].
      fldpay b. apply W_eod0; lia.
    - destruct (w_len b - 8 =? 16) eqn:HL2; cbn [negb andb].
      + left.
        rewrite (slice_ok _ 0 4), (slice_ok _ 4 8), (slice_ok _ 8 12), (slice_ok _ 12 16)
          by (unfold nlen; lia). cbn [bind].
        rewrite getU32_ok by lia. cbn [bind]. rewrite getU32_ok by lia. cbn [bind].
        rewrite getU32_ok by lia. cbn [bind]. rewrite getU32_ok by lia. cbn [bind].
        eexists. split; [reflexivity|].
        change (N.to_nat 0) with 0%nat. change (N.to_nat 4) with 4%nat.
        change (N.to_nat 8) with 8%nat. change (N.to_nat 12) with 12%nat.
        fldpay b. apply W_eod1; lia.
      + right. split; [eexists; reflexivity|]. intros p Hp. inversion Hp; lia. }
  destruct (w_type b =? 8) eqn:T8.
  { destruct (w_len b - 8 =? 0) eqn:HL; cbn [negb].
    - left. eexists. split; [reflexivity|]. constructor; lia.
    - right. split; [eexists; reflexivity|]. intros p Hp. inversion Hp; lia. }
  destruct (w_type b =? 9) eqn:T9.
  { destruct (w_len b - 8 <? 28) eqn:HL.
    - right. split; [eexists; reflexivity|]. intros p Hp. inversion Hp; lia.
    - left. rewrite (slice_ok _ 20 24) by (unfold nlen; lia). cbn [bind].
      rewrite getU32_ok by lia. cbn [bind].
      rewrite (slice_ok _ 24) by (unfold nlen; lia). cbn [bind].
      rewrite (slice_ok _ 0 20) by (unfold nlen; lia). cbn [bind].
      eexists. split; [reflexivity|].
      destruct (fld_rk b Hb) as [-> _]; [lia|].
      change (N.to_nat 20) with 20%nat. change (N.to_nat 0) with 0%nat.
      change (N.to_nat (20 - 0)) with 20%nat. change (N.to_nat 24) with 24%nat.
      unfold payload. rewrite fld_sub, !sub_sub by lia. cbn [Nat.add].
      replace (w_len b - 8 - 24) with (w_len b - 32) by lia.
      apply W_rkey; lia. }
  replace (w_type b =? 10) with false by lia.
  right. split; [eexists; reflexivity|]. intros p Hp. inversion Hp; lia.
Qed.

Lemma w_pdu_fun b p q : w_pdu b p -> w_pdu b q -> p = q.
Proof.
  intros Hp Hq.
  destruct Hp; destruct Hq; try congruence; try lia.
Qed.

(** * C05 *)
Lemma decode_iff b p rest : bytes_ok b ->
  decode 64 b = Ok (p, rest) <->
  frame_ok b /\ w_pdu b p /\ rest = skipn (N.to_nat (w_len b)) b.
Proof.
  intros Hb. split.
  - intros H. destruct (nlen b <? 8) eqn:H8.
    { rewrite decode_short in H by lia. discriminate. }
    rewrite decode_long in H by lia.
    destruct (w_len b <? 8) eqn:E1; [discriminate|].
    destruct (262168 <? w_len b) eqn:E2; [discriminate|].
    destruct (nlen b <? w_len b) eqn:E3; [discriminate|].
    assert (Hf : frame_ok b) by (unfold frame_ok; lia).
    destruct (decode_payload_spec b Hb Hf) as [(q & Hq & Hw)|[(e & He) _]].
    + rewrite Hq in H. cbn [bind] in H. inversion H; subst. auto.
    + rewrite He in H. discriminate.
  - intros (Hf & Hw & ->). pose proof Hf as (F1 & F2 & F3 & F4).
    rewrite decode_long by exact F1.
    replace (w_len b <? 8) with false by lia.
    replace (262168 <? w_len b) with false by lia.
    replace (nlen b <? w_len b) with false by lia.
    destruct (decode_payload_spec b Hb Hf) as [(q & Hq & Hw')|[_ Hno]].
    + rewrite Hq. cbn [bind]. now rewrite (w_pdu_fun b p q Hw Hw').
    + now apply Hno in Hw.
Qed.

(** * C02 *)
Lemma decode_no_panic b : bytes_ok b -> decode 64 b <> Panic.
Proof.
  intros Hb H. destruct (nlen b <? 8) eqn:H8.
  { rewrite decode_short in H by lia. discriminate. }
  rewrite decode_long in H by lia.
  destruct (w_len b <? 8) eqn:E1; [discriminate|].
  destruct (262168 <? w_len b) eqn:E2; [discriminate|].
  destruct (nlen b <? w_len b) eqn:E3; [discriminate|].
  assert (Hf : frame_ok b) by (unfold frame_ok; lia).
  destruct (decode_payload_spec b Hb Hf) as [(q & Hq & Hw)|[(e & He) _]].
  - rewrite Hq in H. discriminate.
  - rewrite He in H. discriminate.
Qed.

(** * Serialisation *)
Ltac szg := match goal with |- ?x < 256 ^ N.of_nat ?k =>
    let v := eval vm_compute in (256 ^ N.of_nat k) in change (x < v) end;
  unfold u8, u16, u32 in *; try assumption; try lia.
Ltac fstep :=
  match goal with
  | |- context [fld (be ?k ?x ++ ?r) 0 ?k] => rewrite (fld_here k x r) by szg
  | |- context [fld (be ?k ?x ++ ?r) ?a ?n] =>
      rewrite (fld_next (be k x) r k a n (be_length k x)) by lia; cbn [Nat.sub]
  | |- context [sub (be ?k ?x ++ ?r) ?a ?n] =>
      rewrite (sub_next (be k x) r k a n (be_length k x)) by lia; cbn [Nat.sub]
  end.
Ltac fcalc := unfold w_ver, w_type, w_sess, w_len,
   PDU_ID_SERIAL_NOTIFY, PDU_ID_SERIAL_QUERY, PDU_ID_RESET_QUERY, PDU_ID_CACHE_RESPONSE,
    PDU_ID_IPV4_PREFIX, PDU_ID_IPV6_PREFIX, PDU_ID_END_OF_DATA, PDU_ID_CACHE_RESET,
    PDU_ID_ROUTER_KEY, PDU_ID_ERROR_REPORT; repeat fstep; try reflexivity.

Lemma sub_all l r : sub (l ++ r) 0 (length l) = l.
Proof. unfold sub. cbn [skipn]. now apply firstn_app_exact. Qed.

Lemma frame_of b rest : 8 <= nlen b -> nlen b <= 262168 -> w_len (b ++ rest) = nlen b -> frame_ok (b ++ rest).
Proof. intros H1 H2 H3. unfold frame_ok. rewrite H3, nlen_app. lia. Qed.

Lemma to_u8_bits a k (p : prefix) : p_addr p = a -> p_bits p = Some k -> k < 256 ->
  to_u8 (bits p) = k.
Proof.
  intros _ Hk Hl. unfold to_u8, bits. rewrite Hk.
  rewrite Z.mod_small by lia. apply N2Z.id.
Qed.

Ltac nlens := rewrite ?nlen_app, ?nlen_be; cbn [N.of_nat Pos.of_succ_nat Pos.succ].

Ltac start b0 :=
  eexists; split; [reflexivity|]; rewrite <- ?app_assoc;
  match goal with |- context [w_len ?b] => set (b0 := b) end.
Ltac okb := unfold bytes_ok; rewrite ?Forall_app; repeat split; try apply be_ok; assumption.

Lemma encode_wire p rest : wf_pdu p -> sendable p ->
  exists b, encode p = Ok b /\ w_len (b ++ rest) = nlen b /\ 8 <= nlen b /\ nlen b <= 262168
    /\ bytes_ok b /\ w_pdu (b ++ rest) (normal p).
Proof.
  intros Hwf Hs. destruct p as [v s n|v s n|v|v s|v f m a p|v f m a p|v s n r t e|v|v f ski a spki|v c cp msg];
    cbn [encode wf_pdu sendable normal] in *.
  - destruct Hwf as (Hv & Hs' & Hn). start B.
    assert (E1 : w_ver B = v) by (subst B; fcalc).
    assert (E2 : w_type B = 0) by (subst B; fcalc).
    assert (E3 : w_sess B = s) by (subst B; fcalc).
    assert (E4 : w_len B = 12) by (subst B; fcalc).
    assert (E5 : fld B 8 4 = n) by (subst B; fcalc).
    pose proof (W_notify B E2 E4) as H. rewrite E1, E3, E5 in H.
    rewrite E4. nlens. repeat split; try reflexivity; try lia; try okb; try exact H.
  - destruct Hwf as (Hv & Hs' & Hn). start B.
    assert (E1 : w_ver B = v) by (subst B; fcalc).
    assert (E2 : w_type B = 1) by (subst B; fcalc).
    assert (E3 : w_sess B = s) by (subst B; fcalc).
    assert (E4 : w_len B = 12) by (subst B; fcalc).
    assert (E5 : fld B 8 4 = n) by (subst B; fcalc).
    pose proof (W_query B E2 E4) as H. rewrite E1, E3, E5 in H.
    rewrite E4. nlens. repeat split; try reflexivity; try lia; try okb; try exact H.
  - start B.
    assert (E1 : w_ver B = v) by (subst B; fcalc).
    assert (E2 : w_type B = 2) by (subst B; fcalc).
    assert (E4 : w_len B = 8) by (subst B; fcalc).
    pose proof (W_reset B E2 E4) as H. rewrite E1 in H.
    rewrite E4. nlens. repeat split; try reflexivity; try lia; try okb; try exact H.
  - destruct Hwf as (Hv & Hs'). start B.
    assert (E1 : w_ver B = v) by (subst B; fcalc).
    assert (E2 : w_type B = 3) by (subst B; fcalc).
    assert (E3 : w_sess B = s) by (subst B; fcalc).
    assert (E4 : w_len B = 8) by (subst B; fcalc).
    pose proof (W_response B E2 E4) as H. rewrite E1, E3 in H.
    rewrite E4. nlens. repeat split; try reflexivity; try lia; try okb; try exact H.
  - destruct Hwf as (Hv & Hf & Hm & Ha & Hp). destruct Hs as (Hs1 & Hs2).
    destruct p as [[|x|x] pb]; cbn [p_addr] in *; try discriminate.
    destruct pb as [k|]; [|discriminate]. unfold wf_prefix in Hp. cbn in Hp.
    destruct Hp as (Hx & _ & Hk). cbn [as4 bind].
    rewrite (to_u8_bits (A4 x) k) by (reflexivity || lia). start B.
    assert (E1 : w_ver B = v) by (subst B; fcalc).
    assert (E2 : w_type B = 4) by (subst B; fcalc).
    assert (E4 : w_len B = 20) by (subst B; fcalc).
    assert (E5 : fld B 8 1 = f) by (subst B; fcalc).
    assert (E6 : fld B 9 1 = k) by (subst B; fcalc).
    assert (E7 : fld B 10 1 = m) by (subst B; fcalc).
    assert (E8 : fld B 12 4 = x) by (subst B; fcalc).
    assert (E9 : fld B 16 4 = a) by (subst B; fcalc).
    pose proof (W_v4 B E2 E4) as H. rewrite E1, E5, E6, E7, E8, E9 in H.
    unfold w_pfx in H. replace (k <=? 32) with true in H by lia.
    rewrite E4. nlens. repeat split; try reflexivity; try lia; try okb; try exact H.
  - destruct Hwf as (Hv & Hf & Hm & Ha & Hp). destruct Hs as (Hs1 & Hs2).
    destruct p as [[|x|x] pb]; cbn [p_addr] in *; try discriminate.
    destruct pb as [k|]; [|discriminate]. unfold wf_prefix in Hp. cbn in Hp.
    destruct Hp as (Hx & _ & Hk). cbn [as16].
    rewrite (to_u8_bits (A6 x) k) by (reflexivity || lia). start B.
    assert (E1 : w_ver B = v) by (subst B; fcalc).
    assert (E2 : w_type B = 6) by (subst B; fcalc).
    assert (E4 : w_len B = 32) by (subst B; fcalc).
    assert (E5 : fld B 8 1 = f) by (subst B; fcalc).
    assert (E6 : fld B 9 1 = k) by (subst B; fcalc).
    assert (E7 : fld B 10 1 = m) by (subst B; fcalc).
    assert (E8 : fld B 12 16 = x) by (subst B; fcalc).
    assert (E9 : fld B 28 4 = a) by (subst B; fcalc).
    pose proof (W_v6 B E2 E4) as H. rewrite E1, E5, E6, E7, E8, E9 in H.
    unfold w_pfx in H. replace (k <=? 128) with true in H by lia.
    rewrite E4. nlens. repeat split; try reflexivity; try lia; try okb; try exact H.
  - destruct Hwf as (Hv & Hs' & Hn & Hr & Ht & He). destruct (v =? 0) eqn:Hv0.
    + start B.
      assert (E1 : w_ver B = v) by (subst B; fcalc).
      assert (E2 : w_type B = 7) by (subst B; fcalc).
      assert (E3 : w_sess B = s) by (subst B; fcalc).
      assert (E4 : w_len B = 12) by (subst B; fcalc).
      assert (E5 : fld B 8 4 = n) by (subst B; fcalc).
      pose proof (W_eod0 B E2 E4) as H. rewrite E1, E3, E5 in H.
      rewrite E4. nlens. repeat split; try reflexivity; try lia; try okb; try exact H.
    + start B.
      assert (E1 : w_ver B = v) by (subst B; fcalc).
      assert (E2 : w_type B = 7) by (subst B; fcalc).
      assert (E3 : w_sess B = s) by (subst B; fcalc).
      assert (E4 : w_len B = 24) by (subst B; fcalc).
      assert (E5 : fld B 8 4 = n) by (subst B; fcalc).
      assert (E6 : fld B 12 4 = r) by (subst B; fcalc).
      assert (E7 : fld B 16 4 = t) by (subst B; fcalc).
      assert (E8 : fld B 20 4 = e) by (subst B; fcalc).
      pose proof (W_eod1 B E2 E4) as H. rewrite E1, E3, E5, E6, E7, E8 in H.
      rewrite E4. nlens. repeat split; try reflexivity; try lia; try okb; try exact H.
  - start B.
    assert (E1 : w_ver B = v) by (subst B; fcalc).
    assert (E2 : w_type B = 8) by (subst B; fcalc).
    assert (E4 : w_len B = 8) by (subst B; fcalc).
    pose proof (W_creset B E2 E4) as H. rewrite E1 in H.
    rewrite E4. nlens. repeat split; try reflexivity; try lia; try okb; try exact H.
  - destruct Hwf as (Hv & Hf & Hski & Ha & Hspki). destruct Hs as (Hs1 & Hs2 & Hs3).
    replace (nlen ski =? 20) with true by lia. cbn [negb]. start B.
    assert (Lski : length ski = 20%nat) by (unfold nlen in Hs1; lia).
    assert (E1 : w_ver B = v) by (subst B; fcalc).
    assert (E2 : w_type B = 9) by (subst B; fcalc).
    assert (E3 : fld B 2 1 = f) by (subst B; fcalc).
    assert (E4 : w_len B = 32 + nlen spki) by (subst B; fcalc).
    assert (E5 : sub B 8 20 = ski) by (subst B; repeat fstep; rewrite <- Lski; apply sub_all).
    assert (E6 : fld B 28 4 = a).
    { subst B. repeat fstep. rewrite (fld_next ski _ 20) by (assumption || lia). cbn [Nat.sub]. fcalc. }
    assert (E7 : sub B 32 (N.to_nat (w_len B - 32)) = spki).
    { rewrite E4. replace (N.to_nat (32 + nlen spki - 32)) with (length spki) by (unfold nlen; lia).
      subst B. repeat fstep. rewrite (sub_next ski _ 20) by (assumption || lia). cbn [Nat.sub].
      repeat fstep. apply sub_all. }
    pose proof (W_rkey B E2) as H. rewrite E7, E1, E3, E5, E6 in H.
    assert (Hge : 36 <= w_len B) by lia. specialize (H Hge).
    rewrite E4. nlens. rewrite Hs1. repeat split; try reflexivity; try lia; try okb; try exact H.
  - destruct Hwf as (Hv & Hc & Hcp & Hmsg).
    set (msg' := match msg with [] => [] | _ => msg ++ [0] end).
    assert (Hm' : (if negb (beqb msg []) then msg ++ be 1 0 else []) = msg') by (destruct msg; reflexivity).
    assert (Hl' : nlen msg + (if negb (beqb msg []) then 1 else 0) = nlen msg').
    { destruct msg; [reflexivity|]. subst msg'. rewrite nlen_app. reflexivity. }
    assert (Hl'' : nlen msg' <= nlen msg + 1).
    { rewrite <- Hl'. destruct (negb _); lia. }
    assert (Hok : bytes_ok msg').
    { subst msg'. destruct msg; [constructor|]. apply Forall_app. split; [assumption|].
      repeat constructor. }
    rewrite <- !N.add_assoc in *. rewrite Hl', Hm'. start B.
    assert (E1 : w_ver B = v) by (subst B; fcalc).
    assert (E2 : w_type B = 10) by (subst B; fcalc).
    assert (E3 : w_sess B = c) by (subst B; fcalc).
    assert (E4 : w_len B = 16 + nlen cp + nlen msg') by (subst B; fcalc; lia).
    assert (E5 : nlen cp = fld B 8 4) by (subst B; fcalc).
    assert (E6 : sub B 12 (N.to_nat (nlen cp)) = cp).
    { subst B. repeat fstep. replace (N.to_nat (nlen cp)) with (length cp) by (unfold nlen; lia).
      apply sub_all. }
    assert (E7 : nlen msg' = fld B (12 + N.to_nat (nlen cp)) 4).
    { subst B. fcalc. rewrite (fld_next cp _ (length cp)) by (unfold nlen; lia).
      match goal with |- context [fld _ ?o 4] => replace o with 0%nat by (unfold nlen; lia) end. fcalc. }
    assert (E8 : sub B (16 + N.to_nat (nlen cp)) (N.to_nat (nlen msg')) = msg').
    { assert (HN : N.to_nat (nlen cp) = length cp) by (unfold nlen; lia). rewrite HN.
      subst B. repeat fstep. rewrite (sub_next cp _ (length cp)) by lia.
      fstep. match goal with |- context [sub _ ?o _] => replace o with 0%nat by (unfold nlen; lia) end.
      replace (N.to_nat (nlen msg')) with (length msg') by (unfold nlen; lia). apply sub_all. }
    assert (H : w_pdu B (ErrorReport (w_ver B) (w_sess B) (sub B 12 (N.to_nat (nlen cp)))
                           (sub B (16 + N.to_nat (nlen cp)) (N.to_nat (nlen msg'))))).
    { eapply W_error; try exact E2; try exact E5; try exact E7; lia. }
    rewrite E1, E3, E6, E8 in H.
    rewrite E4. nlens. repeat split; try lia; try okb.
    subst msg'. destruct msg; exact H.
Qed.
