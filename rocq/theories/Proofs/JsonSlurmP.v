From Coq Require Import ZifyBool ZifyNat ZifyN.
From Verif Require Import Model.JsonFile Spec.Rfc8416 Spec.Auth Proofs.JsonNumP Proofs.JsonFileP.
Local Open Scope string_scope.
Local Open Scope list_scope.
Local Open Scope N_scope.
Ltac Zify.zify_post_hook ::= Z.div_mod_to_equations.

(** ** Base64 without '=' at the end is refused *)
Lemma url_digit_char d c : url_digit d c -> c <> 61 /\ c <> 10 /\ c <> 13.
Proof.
  unfold url_digit. intros H. apply nth_error_In in H. repeat split; intros ->; vm_compute in H; intuition discriminate.
Qed.
Lemma url_chars k t : base64url k t -> Forall (fun c => c <> 61 /\ c <> 10 /\ c <> 13) t.
Proof. induction 1; repeat (constructor; [match goal with H : url_digit ?d ?c |- ?c <> _ /\ _ => exact (url_digit_char d c H) end|]); try assumption; constructor. Qed.
Lemma url_length k t : base64url k t -> (length k mod 3 <> 0 -> length t mod 4 <> 0)%nat.
Proof.
  induction 1; cbn [length]; try (cbn; lia). intros H6.
  replace (S (S (S (length k)))) with (length k + 1 * 3)%nat in H6 by lia. rewrite Nat.mod_add in H6 by lia.
  replace (S (S (S (S (length t))))) with (length t + 1 * 4)%nat by lia. rewrite Nat.mod_add by lia. auto.
Qed.
Lemma groups_short n : forall t, (length t <= n)%nat -> Forall (fun c => c <> 61) t -> (length t mod 4 <> 0)%nat -> b64groups t = None.
Proof.
  induction n as [|n IH]; intros t HL HF HM.
  { destruct t; [now elim HM|cbn in HL; lia]. }
  destruct t as [|a [|b [|c [|d r]]]]; try reflexivity; [now elim HM|].
  inversion_clear HF as [|? ? Ha HF1]. inversion_clear HF1 as [|? ? Hb HF2]. inversion_clear HF2 as [|? ? Hc HF3]. inversion_clear HF3 as [|? ? Hd HF4].
  cbn [b64groups]. replace (c =? 61) with false by lia. replace (d =? 61) with false by lia. cbn [andb].
  rewrite (IH r); [|cbn in HL; lia|exact HF4|].
  - destruct (b64val a), (b64val b), (b64val c), (b64val d); reflexivity.
  - cbn [length] in HM. replace (S (S (S (S (length r))))) with (length r + 1 * 4)%nat in HM by lia. now rewrite Nat.mod_add in HM by lia.
Qed.
Lemma filter_all {A} (p : A -> bool) l : Forall (fun x => p x = true) l -> filter p l = l.
Proof. induction 1 as [|x l H Hl IH]; [reflexivity|]. cbn. now rewrite H, IH. Qed.
Theorem url_refused k t : base64url k t -> (length k mod 3 <> 0)%nat -> b64dec t = None.
Proof.
  intros H HM. unfold b64dec. pose proof (url_chars k t H) as HC.
  rewrite filter_all by (eapply Forall_impl; [|exact HC]; cbn beta; intros; lia).
  apply (groups_short (length t)); [lia|eapply Forall_impl; [|exact HC]; cbn beta; tauto|now apply (url_length k t)].
Qed.
(** ... and with '=' at the end and the standard alphabet it is what it stands for. *)
Lemma std_digit d c : digit d c -> c = b64char d /\ d < 64.
Proof.
  unfold digit. intros H. assert (L : d < 64).
  { assert (N.to_nat d < length alphabet)%nat by (apply nth_error_Some; congruence). change (length alphabet) with 64%nat in *. lia. }
  split; [|exact L].
  assert (G : forall n, (n < 64)%nat -> nth_error alphabet n = Some (b64char (N.of_nat n))).
  { intros n Hn. do 64 (destruct n as [|n]; [reflexivity|]). lia. }
  specialize (G (N.to_nat d) ltac:(lia)). rewrite N2Nat.id in G. congruence.
Qed.
Ltac stds := repeat match goal with H : digit _ _ |- _ => apply std_digit in H as [-> ?] end.
Theorem std_read k t : bytes_ok k -> base64 k t -> b64dec t = Some k.
Proof.
  intros HB H. assert (G : b64groups t = Some k /\ Forall (fun c => c <> 10 /\ c <> 13) t).
  { induction H as [|a d1 d2 c1 c2 D1 D2 E|a b d1 d2 d3 c1 c2 c3 D1 D2 D3 E|a b c d1 d2 d3 d4 c1 c2 c3 c4 k t D1 D2 D3 D4 E H IH].
    - split; [reflexivity|constructor].
    - stds. split.
      + change (str "==") with [61; 61]. cbn [b64groups]. rewrite !b64val_char by assumption. change ((61 =? 61) && (61 =? 61)) with true. cbn iota.
        do 2 f_equal. lia.
      + change (str "==") with [61; 61]. pose proof (b64char_ok d1). pose proof (b64char_ok d2). unfold b64c in *. repeat (constructor; [lia|]). constructor.
    - stds. split.
      + change (str "=") with [61]. cbn [b64groups]. rewrite !b64val_char by assumption. pose proof (b64char_ok d3). unfold b64c in *.
        replace (b64char d3 =? 61) with false by lia. cbn [andb]. change (61 =? 61) with true. cbn iota.
        inversion_clear HB as [|? ? B1 HB1]. inversion_clear HB1 as [|? ? B2 _]. unfold u8 in *.
        repeat f_equal; lia.
      + change (str "=") with [61]. pose proof (b64char_ok d1). pose proof (b64char_ok d2). pose proof (b64char_ok d3). unfold b64c in *. repeat (constructor; [lia|]). constructor.
    - inversion_clear HB as [|? ? B1 HB1]. inversion_clear HB1 as [|? ? B2 HB2]. inversion_clear HB2 as [|? ? B3 HB3]. unfold u8 in *.
      destruct (IH HB3) as [I1 I2]. stds. split.
      + rewrite b64groups4 by assumption. rewrite I1. repeat f_equal; lia.
      + pose proof (b64char_ok d1). pose proof (b64char_ok d2). pose proof (b64char_ok d3). pose proof (b64char_ok d4). unfold b64c in *.
        repeat (constructor; [lia|]). exact I2. }
  destruct G as [G1 G2]. unfold b64dec. rewrite filter_all; [exact G1|]. eapply Forall_impl; [|exact G2]. cbn beta. intros; lia.
Qed.

Lemma char_digit d : d < 64 -> digit d (b64char d).
Proof.
  intros H. unfold digit.
  assert (G : forall n, (n < 64)%nat -> nth_error alphabet n = Some (b64char (N.of_nat n))).
  { intros n Hn. do 64 (destruct n as [|n]; [reflexivity|]). lia. }
  specialize (G (N.to_nat d) ltac:(lia)). now rewrite N2Nat.id in G.
Qed.
Lemma std_base64 k : bytes_ok k -> base64 k (b64std k).
Proof.
  induction k as [|a|a b|a b c r IH] using three_ind; intros HL.
  - constructor.
  - assert (Ha : a < 256) by now inversion HL. apply (B_1 a (a / 4) (a mod 4 * 16)); [apply char_digit|apply char_digit|]; lia.
  - assert (Ha : a < 256) by now inversion HL. assert (Hb : b < 256) by (inversion HL as [|? ? ? H1]; now inversion H1).
    apply (B_2 a b (a / 4) (a mod 4 * 16 + b / 16) (b mod 16 * 4)); [apply char_digit|apply char_digit|apply char_digit|]; lia.
  - inversion_clear HL as [|? ? Ha HL1]. inversion_clear HL1 as [|? ? Hb HL2]. inversion_clear HL2 as [|? ? Hc HL3]. unfold u8 in *. rewrite b64std_cons.
    apply (B_3 a b c (a / 4) (a mod 4 * 16 + b / 16) (b mod 16 * 4 + c / 64) (c mod 64)); [apply char_digit|apply char_digit|apply char_digit|apply char_digit| |now apply IH]; lia.
Qed.

(** ** One member that cannot be read spoils the file *)
Lemma struct_fails {A} (f : A -> bytes -> json -> option A) l1 k j l2 :
  (forall x, f x k j = None) -> forall a, dec_struct f a (JObj (l1 ++ (k, j) :: l2)) = None.
Proof.
  intros H a. cbn [dec_struct]. rewrite fold_left_app. cbn [fold_left].
  assert (G : forall l, fold_left (fun acc m => match acc with Some x => f x (fst m) (snd m) | None => None end) l None = None) by (intros l; induction l; auto).
  destruct (fold_left _ l1 (Some a)) as [x|]; cbn [fst snd]; rewrite ?H; apply G.
Qed.
Lemma elems_fails {A} (el : A -> json -> option A) zero l1 j l2 :
  (forall x, el x j = None) -> forall old, dec_elems el zero old (l1 ++ j :: l2) = None.
Proof.
  intros H. induction l1 as [|v l1 IH]; intros old; cbn [app dec_elems]; [now rewrite H|].
  destruct (el (hd zero old) v); [|reflexivity]. now rewrite IH.
Qed.
Lemma slice_fails {A} (el : A -> json -> option A) zero l1 j l2 :
  (forall x, el x j = None) -> forall cur, dec_slice el zero cur (JArr (l1 ++ j :: l2)) = None.
Proof.
  intros H cur. cbn [dec_slice]. destruct (l1 ++ j :: l2) eqn:E; [now destruct l1|]. rewrite <- E. now rewrite elems_fails.
Qed.
Lemma bfilter_fails a a' b b' c c' d d' t y : b64dec t = None ->
  parse y = Some (with_entry "validationOutputFilters" "bgpsecFilters" a a' b b' c c' (JObj (d ++ (str "SKI", JStr t) :: d'))) ->
  decode_slurm y = None.
Proof.
  intros H HP. unfold decode_slurm. rewrite HP. unfold with_entry. unfold dec_config at 1. rewrite struct_fails; [reflexivity|].
  intros x. fields. unfold dec_filters. rewrite struct_fails; [reflexivity|]. intros x1. fields. rewrite slice_fails; [reflexivity|].
  intros x2. unfold dec_bfilter. apply struct_fails. intros x3. fields. cbn [dec_bytes]. now rewrite H.
Qed.
Lemma bassert_fails a a' b b' c c' d d' k t y : b64dec t = None -> k = "SKI"%string \/ k = "routerPublicKey"%string ->
  parse y = Some (with_entry "locallyAddedAssertions" "bgpsecAssertions" a a' b b' c c' (JObj (d ++ (str k, JStr t) :: d'))) ->
  decode_slurm y = None.
Proof.
  intros H HK HP. unfold decode_slurm. rewrite HP. unfold with_entry. unfold dec_config at 1. rewrite struct_fails; [reflexivity|].
  intros x. fields. unfold dec_asserts. rewrite struct_fails; [reflexivity|]. intros x1. fields. rewrite slice_fails; [reflexivity|].
  intros x2. unfold dec_bassert. apply struct_fails. intros x3. destruct HK as [-> | ->]; fields; cbn [dec_bytes]; now rewrite H.
Qed.

(** ** A SLURM file with padded Base64 is read as it is meant *)
Lemma puint_back n : n < 2 ^ 32 -> dec_puint32 (JNum (dec n)) = Some (Some n).
Proof. intros H. unfold dec_puint32. now rewrite uint_back by lia. Qed.
Lemma pfilter_back f : pfilter_ok f -> dec_pfilter (mkPF [] None, []) (pfilter_doc f) = Some f.
Proof.
  destruct f as [[p a] c]. unfold pfilter_ok, pfilter_doc, dec_pfilter, dec_struct. cbn [fst snd pf_prefix pf_asn]. intros H.
  destruct p as [|p0 p]; destruct a as [a|]; destruct c as [|c0 c]; cbn [maybe_str maybe_num app fold_left fst snd]; fields;
    cbn [dec_string fst snd pf_prefix pf_asn]; rewrite ?(puint_back a H); reflexivity.
Qed.
Lemma bfilter_back b64 f : (forall k, bytes_ok k -> base64 k (b64 k)) -> bfilter_ok f -> dec_bfilter (mkBF None [], []) (bfilter_doc b64 f) = Some f.
Proof.
  intros HB. destruct f as [[a s] c]. unfold bfilter_ok, bfilter_doc, dec_bfilter, dec_struct. cbn [fst snd bf_asn bf_ski]. intros [H1 H2].
  pose proof (std_read s _ H2 (HB s H2)) as E.
  destruct a as [a|]; destruct s as [|s0 s]; destruct c as [|c0 c]; cbn [maybe_str maybe_b64 maybe_num app fold_left fst snd]; fields;
    cbn [dec_string dec_bytes fst snd bf_asn bf_ski]; rewrite ?(puint_back a H1), ?E; reflexivity.
Qed.
Lemma passert_back a : passert_ok a -> dec_passert (mkPA [] 0 0 []) (passert_doc a) = Some a.
Proof.
  destruct a as [p n m c]. unfold passert_ok, passert_doc, dec_passert, dec_struct. cbn [pa_prefix pa_asn pa_maxlen pa_comment]. intros [H1 H2].
  destruct (m =? 0)%Z eqn:E; destruct c as [|c0 c]; cbn [maybe_str app fold_left fst snd]; fields;
    rewrite uint_back by lia; cbn [dec_string dec_int64 pa_prefix pa_asn pa_maxlen pa_comment]; rewrite ?(int_zdec m H2);
    try (apply Z.eqb_eq in E; subst m); reflexivity.
Qed.
Lemma bassert_back b64 a : (forall k, bytes_ok k -> base64 k (b64 k)) -> bassert_ok a -> dec_bassert (mkBA [] 0 [], []) (bassert_doc b64 a) = Some a.
Proof.
  intros HB. destruct a as [[s n k] c]. unfold bassert_ok, bassert_doc, dec_bassert, dec_struct. cbn [fst snd ba_ski ba_asn ba_key]. intros (H1 & H2 & H3).
  pose proof (std_read s _ H2 (HB s H2)) as E1. pose proof (std_read k _ H3 (HB k H3)) as E2.
  destruct c as [|c0 c]; cbn [maybe_str app fold_left fst snd]; fields;
    rewrite uint_back by lia; cbn [dec_string dec_bytes fst snd ba_ski ba_asn ba_key]; rewrite ?E1, ?E2;
    cbn [dec_string dec_bytes fst snd ba_ski ba_asn ba_key]; rewrite ?E1, ?E2; reflexivity.
Qed.
Theorem slurm_back b64 pf bf pa ba : (forall k, bytes_ok k -> base64 k (b64 k)) ->
  Forall pfilter_ok pf -> Forall bfilter_ok bf -> Forall passert_ok pa -> Forall bassert_ok ba ->
  exists v, dec_config (mkSF 0 (None, None) (None, None)) (slurm_doc b64 pf bf pa ba) =
            Some (mkSF v (Some (pf, []), Some (bf, [])) (Some (pa, []), Some (ba, []))).
Proof.
  intros HB H1 H2 H3 H4. exists 1%Z.
  assert (E1 : dec_slice dec_pfilter (mkPF [] None, []) None (JArr (map pfilter_doc pf)) = Some (Some (pf, []))).
  { rewrite (slice_back _ _ pfilter_doc (fun x => x)); [now rewrite map_id|]. eapply Forall_impl; [|exact H1]. apply pfilter_back. }
  assert (E2 : dec_slice dec_bfilter (mkBF None [], []) None (JArr (map (bfilter_doc b64) bf)) = Some (Some (bf, []))).
  { rewrite (slice_back _ _ (bfilter_doc b64) (fun x => x)); [now rewrite map_id|]. eapply Forall_impl; [|exact H2]. intros f. now apply bfilter_back. }
  assert (E3 : dec_slice dec_passert (mkPA [] 0 0 []) None (JArr (map passert_doc pa)) = Some (Some (pa, []))).
  { rewrite (slice_back _ _ passert_doc (fun x => x)); [now rewrite map_id|]. eapply Forall_impl; [|exact H3]. apply passert_back. }
  assert (E4 : dec_slice dec_bassert (mkBA [] 0 [], []) None (JArr (map (bassert_doc b64) ba)) = Some (Some (ba, []))).
  { rewrite (slice_back _ _ (bassert_doc b64) (fun x => x)); [now rewrite map_id|]. eapply Forall_impl; [|exact H4]. intros f. now apply bassert_back. }
  unfold slurm_doc, dec_config, dec_struct. cbn [fold_left fst snd]. fields. cbn [sf_version sf_filters sf_asserts].
  change (dec_int64 0 (JNum (str "1"))) with (Some 1%Z). cbn iota. cbn [sf_version sf_filters sf_asserts].
  assert (F1 : dec_filters (None, None) (JObj [(str "prefixFilters", JArr (map pfilter_doc pf)); (str "bgpsecFilters", JArr (map (bfilter_doc b64) bf))])
               = Some (Some (pf, []), Some (bf, []))).
  { unfold dec_filters, dec_struct. cbn [fold_left fst snd]. fields. cbn [fst snd]. rewrite E1. cbn [fst snd]. rewrite E2. reflexivity. }
  assert (F2 : dec_asserts (None, None) (JObj [(str "prefixAssertions", JArr (map passert_doc pa)); (str "bgpsecAssertions", JArr (map (bassert_doc b64) ba))])
               = Some (Some (pa, []), Some (ba, []))).
  { unfold dec_asserts, dec_struct. cbn [fold_left fst snd]. fields. cbn [fst snd]. rewrite E3. cbn [fst snd]. rewrite E4. reflexivity. }
  rewrite F1. cbn [sf_version sf_filters sf_asserts]. rewrite F2. reflexivity.
Qed.
