(** Consequences: round trip, framing, length field, re-serialisation. *)
From Coq Require Import ZifyBool ZifyNat ZifyN.
From Verif Require Import Model.Pdu Spec.Wire Proofs.WireP.
Ltac Zify.zify_post_hook ::= Z.div_mod_to_equations.

Lemma Ok_inj {A E} (a b : A) : @Ok A E a = Ok b -> a = b.
Proof. congruence. Qed.

Lemma roundtrip p rest : wf_pdu p -> sendable p -> bytes_ok rest ->
  exists b, encode p = Ok b /\ decode 64 (b ++ rest) = Ok (normal p, rest).
Proof.
  intros Hwf Hs Hr. destruct (encode_wire p rest Hwf Hs) as (b & E & Hl & H8 & Hm & Hok & Hw).
  exists b. split; [exact E|]. apply decode_iff.
  - apply Forall_app. split; assumption.
  - split; [now apply frame_of|]. split; [exact Hw|].
    rewrite Hl. symmetry. apply skipn_app_exact. unfold nlen. lia.
Qed.

Lemma encode_injective p q b : wf_pdu p -> sendable p -> wf_pdu q -> sendable q ->
  encode p = Ok b -> encode q = Ok b -> normal p = normal q.
Proof.
  intros Hp1 Hp2 Hq1 Hq2 Ep Eq.
  destruct (roundtrip p [] Hp1 Hp2) as (b1 & E1 & D1); [constructor|].
  destruct (roundtrip q [] Hq1 Hq2) as (b2 & E2 & D2); [constructor|].
  congruence.
Qed.

Lemma encode_bytes_ok p : wf_pdu p -> sendable p -> forall b, encode p = Ok b -> bytes_ok b.
Proof.
  intros H1 H2 b E. destruct (encode_wire p [] H1 H2) as (b' & E' & _ & _ & _ & Hok & _). congruence.
Qed.

Lemma stream_roundtrip l rest : Forall wf_pdu l -> Forall sendable l -> bytes_ok rest ->
  exists b, encode_all l = Ok b /\ decode_n 64 (length l) (b ++ rest) = Ok (map normal l, rest).
Proof.
  intros Hwf Hs Hr. induction l as [|p l IH]; cbn [encode_all decode_n length map].
  - exists []. split; reflexivity.
  - apply Forall_cons_iff in Hwf as [Hwf1 Hwf2]. apply Forall_cons_iff in Hs as [Hs1 Hs2].
    destruct (IH Hwf2 Hs2) as (bl & El & Dl).
    assert (Hbl : bytes_ok bl).
    { clear - Hwf2 Hs2 El. revert bl El. induction l as [|q l IH2]; cbn [encode_all]; intros bl El.
      - inversion El. constructor.
      - apply Forall_cons_iff in Hwf2 as [A1 A2]. apply Forall_cons_iff in Hs2 as [B1 B2].
        destruct (encode q) as [bq| |] eqn:Eq; try discriminate. cbn [bind] in El.
        destruct (encode_all l) as [br| |] eqn:Er; try discriminate. cbn [bind] in El.
        inversion El; subst. apply Forall_app. split; [now apply (encode_bytes_ok q)|].
        now apply IH2. }
    destruct (roundtrip p (bl ++ rest) Hwf1 Hs1) as (b & E & D).
    { apply Forall_app. split; assumption. }
    exists (b ++ bl). rewrite E, El. cbn [bind]. split; [reflexivity|].
    rewrite <- app_assoc, D. cbn [bind fst snd]. rewrite Dl. reflexivity.
Qed.

Lemma firstn_nlen n (b : bytes) : nlen (firstn n b) = N.min (N.of_nat n) (nlen b).
Proof. unfold nlen. rewrite firstn_length. lia. Qed.

Lemma fld_firstn b k a n : (a + n <= k)%nat -> fld (firstn k b) a n = fld b a n.
Proof.
  intros H. unfold fld. f_equal. rewrite skipn_firstn_comm, firstn_firstn. f_equal. lia.
Qed.

Lemma prefix_no_decode p b k : wf_pdu p -> sendable p -> encode p = Ok b ->
  (k < length b)%nat -> forall r, decode 64 (firstn k b) <> Ok r.
Proof.
  intros H1 H2 E Hk [q rest] D.
  destruct (encode_wire p [] H1 H2) as (b' & E' & Hl & _ & _ & Hok & _).
  assert (b' = b) by congruence. subst b'. rewrite app_nil_r in Hl.
  apply decode_iff in D; [|now apply bytes_ok_firstn].
  destruct D as ((F1 & F2 & F3 & F4) & _ & _).
  rewrite firstn_nlen in F1, F4. assert (H8 : (8 <= k)%nat) by lia.
  unfold w_len in *. rewrite fld_firstn in F4 by lia.
  unfold nlen in *. lia.
Qed.

(** * C04 *)
Lemma length_field p b : wf_pdu p -> encode p = Ok b -> nlen b < 4294967296 ->
  (b = [] /\ exists v f ski a spki, p = RouterKey v f ski a spki /\ nlen ski <> 20)
  \/ (8 <= nlen b /\ w_len b = nlen b).
Proof.
  intros Hwf E Hlt.
  destruct p as [v s n|v s n|v|v s|v f m a p|v f m a p|v s n r t e|v|v f ski a spki|v c cp msg];
    cbn [encode wf_pdu] in *.
  - right. apply Ok_inj in E; subst b. nlens. split; [lia|]. fcalc.
  - right. apply Ok_inj in E; subst b. nlens. split; [lia|]. fcalc.
  - right. apply Ok_inj in E; subst b. nlens. split; [lia|]. unfold w_len. repeat fstep.
    rewrite (fld_end 4) by szg. reflexivity.
  - right. apply Ok_inj in E; subst b. nlens. split; [lia|]. unfold w_len. repeat fstep.
    rewrite (fld_end 4) by szg. reflexivity.
  - right. destruct (as4 (p_addr p)) as [a4| |] eqn:A4; try discriminate. cbn [bind] in E.
    assert (L4 : nlen a4 = 4).
    { destruct (p_addr p); cbn [as4] in A4; try discriminate; [|destruct (is4in6 _); [|discriminate]];
        reflexivity || (inversion A4; reflexivity). }
    apply Ok_inj in E; subst b. nlens. rewrite L4. split; [lia|]. fcalc.
  - right. apply Ok_inj in E; subst b. nlens.
    assert (L16 : nlen (as16 (p_addr p)) = 16) by (destruct (p_addr p); apply nlen_be).
    rewrite L16. split; [lia|]. fcalc.
  - right. apply Ok_inj in E; subst b. destruct (v =? 0); nlens; (split; [lia|]); fcalc.
  - right. apply Ok_inj in E; subst b. nlens. split; [lia|]. unfold w_len. repeat fstep.
    rewrite (fld_end 4) by szg. reflexivity.
  - destruct (nlen ski =? 20) eqn:H20; cbn [negb] in E.
    + right. apply Ok_inj in E; subst b. revert Hlt. nlens. intros Hlt. split; [lia|]. fcalc. lia.
    + left. apply Ok_inj in E; subst b. split; [reflexivity|]. exists v, f, ski, a, spki. split; [reflexivity|lia].
  - right. apply Ok_inj in E; subst b. revert Hlt. nlens.
    set (al := if negb (beqb msg []) then 1 else 0).
    assert (Hal : nlen (if negb (beqb msg []) then msg ++ be 1 0 else []) = nlen msg + al).
    { subst al. destruct msg as [|m0 msg]; [reflexivity|].
      change (negb (beqb (m0 :: msg) [])) with true. cbv iota. rewrite nlen_app. reflexivity. }
    rewrite Hal. intros Hlt. split; [lia|]. fcalc. lia.
Qed.

(** * C06 *)
Lemma be_fld b a n : bytes_ok b -> (a + n <= length b)%nat -> be n (fld b a n) = sub b a n.
Proof.
  intros Hb H. unfold fld. apply be_unbe_k.
  - apply bytes_ok_firstn, bytes_ok_skipn, Hb.
  - apply sub_length. exact H.
Qed.
Lemma sub_join b a n m : sub b a n ++ sub b (a + n) m = sub b a (n + m).
Proof.
  unfold sub. rewrite <- (firstn_skipn n (firstn (n + m) (skipn a b))).
  rewrite firstn_firstn, skipn_firstn_comm, skipn_skipn_add. repeat f_equal; lia.
Qed.
Lemma sub_join' b a c n m : c = (a + n)%nat -> sub b a n ++ sub b c m = sub b a (n + m).
Proof. intros ->. apply sub_join. Qed.

Ltac join := repeat (rewrite sub_join' by lia; cbn [Nat.add]).

Lemma fld_0 b a n : bytes_ok b -> (a + n <= length b)%nat -> fld b a n = 0 -> be n 0 = sub b a n.
Proof. intros H1 H2 H3. rewrite <- H3. now apply be_fld. Qed.
Lemma fld_is b a n x : bytes_ok b -> (a + n <= length b)%nat -> fld b a n = x -> be n x = sub b a n.
Proof. intros H1 H2 H3. rewrite <- H3. now apply be_fld. Qed.

Lemma bits_w_pfx a max plen : plen <= max \/ plen = 255 -> max < 255 ->
  to_u8 (bits (w_pfx a max plen)) = plen.
Proof.
  intros H Hm. unfold to_u8, bits, w_pfx. cbn [p_bits].
  destruct (plen <=? max) eqn:E.
  - rewrite Z.mod_small by lia. apply N2Z.id.
  - destruct H as [H|H]; [lia|]. subst. reflexivity.
Qed.
Lemma bits_w_pfx' a max plen : max < 255 ->
  to_u8 (bits (w_pfx a max plen)) = plen -> plen <= max \/ plen = 255.
Proof.
  intros Hm H. unfold to_u8, bits, w_pfx in H. cbn [p_bits] in H.
  destruct (plen <=? max) eqn:E; [lia|]. right. vm_compute in H. lia.
Qed.

Lemma reencode b p rest : bytes_ok b -> decode 64 b = Ok (p, rest) -> canonical b ->
  encode p = Ok (firstn (N.to_nat (w_len b)) b).
Proof.
  intros Hb D (C2 & C4 & C6 & C7 & C8 & C9 & C10).
  apply decode_iff in D; [|exact Hb]. destruct D as ((F1 & F2 & F3 & F4) & Hw & _).
  assert (Hlen : (N.to_nat (w_len b) <= length b)%nat) by (unfold nlen in F4; lia).
  change (firstn (N.to_nat (w_len b)) b) with (sub b 0 (N.to_nat (w_len b))).
  destruct Hw as [T L|T L|T L|T L|T L|T L|T L|T L|T L|T L|lp lt T L Hlp L1 Hlt L2];
    cbn [encode]; rewrite ?L in *;
    unfold PDU_ID_SERIAL_NOTIFY, PDU_ID_SERIAL_QUERY, PDU_ID_RESET_QUERY, PDU_ID_CACHE_RESPONSE,
      PDU_ID_IPV4_PREFIX, PDU_ID_IPV6_PREFIX, PDU_ID_END_OF_DATA, PDU_ID_CACHE_RESET,
      PDU_ID_ROUTER_KEY, PDU_ID_ERROR_REPORT.
  - rewrite (fld_is b 4 4 12 Hb), (fld_is b 1 1 0 Hb) by (assumption || lia).
    unfold w_ver, w_sess. rewrite !be_fld by (assumption || lia). join. reflexivity.
  - rewrite (fld_is b 4 4 12 Hb), (fld_is b 1 1 1 Hb) by (assumption || lia).
    unfold w_ver, w_sess. rewrite !be_fld by (assumption || lia). join. reflexivity.
  - rewrite (fld_is b 4 4 8 Hb), (fld_is b 1 1 2 Hb) by (assumption || lia).
    unfold w_ver, w_sess in *. rewrite (fld_is b 2 2 0 Hb) by (auto || lia).
    rewrite !be_fld by (assumption || lia). join. reflexivity.
  - rewrite (fld_is b 4 4 8 Hb), (fld_is b 1 1 3 Hb) by (assumption || lia).
    unfold w_ver, w_sess in *. rewrite !be_fld by (assumption || lia). join. reflexivity.
  - specialize (C4 T) as (C4a & C4b & C4c). cbn [w_pfx p_addr as4 bind].
    fold (w_pfx (A4 (fld b 12 4)) 32 (fld b 9 1)). rewrite bits_w_pfx by lia.
    rewrite (fld_is b 4 4 20 Hb), (fld_is b 1 1 4 Hb) by (assumption || lia).
    unfold w_ver, w_sess in *. rewrite (fld_is b 2 2 0 Hb), (fld_is b 11 1 0 Hb) by (auto || lia).
    rewrite !be_fld by (assumption || lia). join. reflexivity.
  - specialize (C6 T) as (C4a & C4b & C4c). cbn [w_pfx p_addr as16].
    fold (w_pfx (A6 (fld b 12 16)) 128 (fld b 9 1)). rewrite bits_w_pfx by lia.
    rewrite (fld_is b 4 4 32 Hb), (fld_is b 1 1 6 Hb) by (assumption || lia).
    unfold w_ver, w_sess in *. rewrite (fld_is b 2 2 0 Hb), (fld_is b 11 1 0 Hb) by (auto || lia).
    rewrite !be_fld by (assumption || lia). join. reflexivity.
  - specialize (C7 T). replace (w_ver b =? 0) with true by lia.
    rewrite (fld_is b 4 4 12 Hb), (fld_is b 1 1 7 Hb) by (assumption || lia).
    unfold w_ver, w_sess in *. rewrite !be_fld by (assumption || lia). join. reflexivity.
  - specialize (C7 T). replace (w_ver b =? 0) with false by lia.
    rewrite (fld_is b 4 4 24 Hb), (fld_is b 1 1 7 Hb) by (assumption || lia).
    unfold w_ver, w_sess in *. rewrite !be_fld by (assumption || lia). join. reflexivity.
  - rewrite (fld_is b 4 4 8 Hb), (fld_is b 1 1 8 Hb) by (assumption || lia).
    unfold w_ver, w_sess in *. rewrite (fld_is b 2 2 0 Hb) by (auto || lia).
    rewrite !be_fld by (assumption || lia). join. reflexivity.
  - unfold nlen in F4 |- *. rewrite !sub_length by lia.
    cbn [N.of_nat Pos.of_succ_nat Pos.succ N.eqb Pos.eqb negb].
    replace (32 + N.of_nat (N.to_nat (w_len b - 32))) with (w_len b) by lia.
    rewrite (fld_is b 4 4 (w_len b) Hb), (fld_is b 1 1 9 Hb), (fld_is b 3 1 0 Hb)
      by (auto || reflexivity || lia).
    unfold w_ver. rewrite !be_fld by (assumption || lia).
    join. f_equal. f_equal. lia.
  - specialize (C10 T). rewrite <- Hlp in C10. assert (lt = 0) by lia.
    unfold nlen in F4 |- *. rewrite !sub_length by lia.
    rewrite H in *. change (N.to_nat 0) with 0%nat.
    change (sub b (16 + N.to_nat lp) 0) with (@nil N).
    cbn [beqb list_eq_dec negb N.of_nat]. rewrite !N.add_0_r.
    replace (12 + N.of_nat (N.to_nat lp) + 4) with (w_len b) by lia.
    rewrite N2Nat.id.
    change (if negb (beqb [] []) then 1 else 0) with 0.
    change (if negb (beqb [] []) then [] ++ be 1 0 else []) with (@nil N).
    rewrite ?N.add_0_r.
    rewrite (fld_is b 4 4 (w_len b) Hb), (fld_is b 1 1 10 Hb), (fld_is b 8 4 lp Hb),
       (fld_is b (12 + N.to_nat lp) 4 0 Hb) by (auto || reflexivity || lia).
    unfold w_ver, w_sess. rewrite !be_fld by (assumption || lia). rewrite app_nil_r.
    join. f_equal. f_equal. lia.
Qed.

Lemma reencode_conv b p rest : bytes_ok b -> decode 64 b = Ok (p, rest) ->
  encode p = Ok (firstn (N.to_nat (w_len b)) b) -> canonical b.
Proof.
  intros Hb D E.
  apply decode_iff in D; [|exact Hb]. destruct D as ((F1 & F2 & F3 & F4) & Hw & _).
  assert (Hlen : (N.to_nat (w_len b) <= length b)%nat) by (unfold nlen in F4; lia).
  set (B := firstn (N.to_nat (w_len b)) b) in *.
  assert (HB : forall a n, (a + n <= N.to_nat (w_len b))%nat -> fld b a n = fld B a n).
  { intros a n H. subst B. now rewrite fld_firstn. }
  assert (HL : nlen B = w_len b) by (subst B; rewrite firstn_nlen; lia).
  assert (Hlt : forall a n, fld b a n < 256 ^ N.of_nat n) by (intros; now apply fld_lt).
  clearbody B.
  pose proof (Hlt 0%nat 1%nat) as Hv. pose proof (Hlt 2%nat 2%nat) as Hse.
  change (256 ^ N.of_nat 1) with 256 in Hv. change (256 ^ N.of_nat 2) with 65536 in Hse.
  fold (w_ver b) in Hv. fold (w_sess b) in Hse.
  unfold canonical.
  destruct Hw as [T L|T L|T L|T L|T L|T L|T L|T L|T L|T L|lp lt T L Hlp L1 Hlt' L2];
    cbn [encode] in E; rewrite T;
    (repeat apply conj); intros T'; try discriminate; clear T'.
  - apply Ok_inj in E; subst B. unfold w_sess. rewrite HB by lia. fcalc.
  - cbn [w_pfx p_addr as4 bind] in E. fold (w_pfx (A4 (fld b 12 4)) 32 (fld b 9 1)) in E.
    apply Ok_inj in E; subst B.
    pose proof (Hlt 8%nat 1%nat). pose proof (Hlt 10%nat 1%nat).
    pose proof (Hlt 12%nat 4%nat).
    split; [|split].
    + unfold w_sess. rewrite HB by lia. fcalc.
    + rewrite (HB 11%nat) by lia. fcalc.
    + apply (bits_w_pfx' (A4 (fld b 12 4))); [lia|].
      rewrite (HB 9%nat 1%nat) at 2 by lia. fcalc.
      rewrite fld_here; [reflexivity|]. unfold to_u8. szg.
  - cbn [w_pfx p_addr as16] in E. fold (w_pfx (A6 (fld b 12 16)) 128 (fld b 9 1)) in E.
    apply Ok_inj in E; subst B.
    pose proof (Hlt 8%nat 1%nat). pose proof (Hlt 10%nat 1%nat).
    split; [|split].
    + unfold w_sess. rewrite HB by lia. fcalc.
    + rewrite (HB 11%nat) by lia. fcalc.
    + apply (bits_w_pfx' (A6 (fld b 12 16))); [lia|].
      rewrite (HB 9%nat 1%nat) at 2 by lia. fcalc.
      rewrite fld_here; [reflexivity|]. unfold to_u8. szg.
  - destruct (w_ver b =? 0) eqn:Hz; apply Ok_inj in E; subst B.
    + split; intros; [exact L|lia].
    + exfalso. unfold w_len in L. rewrite HB in L by (unfold w_len; lia). revert L. fcalc. discriminate.
  - destruct (w_ver b =? 0) eqn:Hz; apply Ok_inj in E; subst B.
    + exfalso. unfold w_len in L. rewrite HB in L by (unfold w_len; lia). revert L. fcalc. discriminate.
    + split; intros; lia.
  - apply Ok_inj in E; subst B. unfold w_sess. rewrite HB by lia. fcalc.
  - unfold nlen at 1 in E. unfold nlen in F4. rewrite sub_length in E by lia.
    cbn [N.of_nat Pos.of_succ_nat Pos.succ N.eqb Pos.eqb negb] in E.
    apply Ok_inj in E; subst B. pose proof (Hlt 2%nat 1%nat).
    rewrite (HB 3%nat) by lia. fcalc.
  - apply Ok_inj in E; subst B. rewrite <- Hlp. unfold nlen in F4.
    revert HL. nlens.
    assert (Ncp : nlen (sub b 12 (N.to_nat lp)) = lp) by (unfold nlen; rewrite sub_length by lia; lia).
    assert (Nmsg : nlen (sub b (16 + N.to_nat lp) (N.to_nat lt)) = lt)
      by (unfold nlen; rewrite sub_length by lia; lia).
    rewrite Ncp.
    set (msg := sub b (16 + N.to_nat lp) (N.to_nat lt)) in *.
    pose proof (HB (12 + N.to_nat lp)%nat 4%nat) as HX.
    rewrite <- Hlt' in HX. specialize (HX ltac:(lia)).
    revert HX. fcalc.
    rewrite (fld_next (sub b 12 (N.to_nat lp)) _ (N.to_nat lp)) by (try apply sub_length; lia).
    match goal with |- context [fld _ ?o 4] => replace o with 0%nat by lia end.
    rewrite Nmsg. destruct (negb (beqb msg [])).
    + rewrite fld_here by szg. lia.
    + intros _. change (nlen (@nil N)) with 0. intros HL. fold (w_len b) in HL |- *. lia.
Qed.

Lemma reencode_iff b p rest : bytes_ok b -> decode 64 b = Ok (p, rest) ->
  (encode p = Ok (firstn (N.to_nat (w_len b)) b) <-> canonical b).
Proof.
  intros Hb D. split; intros H; [now apply (reencode_conv b p rest) | now apply (reencode b p rest)].
Qed.

Lemma decode_consumes b p rest : bytes_ok b -> decode 64 b = Ok (p, rest) ->
  b = firstn (N.to_nat (w_len b)) b ++ rest
  /\ nlen (firstn (N.to_nat (w_len b)) b) = w_len b.
Proof.
  intros Hb D. apply decode_iff in D; [|exact Hb]. destruct D as ((F1 & F2 & F3 & F4) & _ & ->).
  split; [symmetry; apply firstn_skipn|]. rewrite firstn_nlen. lia.
Qed.
