(** Textual forms parse back: C59, and what C16 needs. *)
From Coq Require Import ZifyBool ZifyNat ZifyN.
From Verif Require Import Model.Format.
Ltac Zify.zify_post_hook ::= Z.div_mod_to_equations.

Lemma fmt_app_assoc4 {A} (a b c : list A) : (a ++ b) ++ c = a ++ b ++ c.
Proof. symmetry. apply app_assoc. Qed.

(** * Characters *)
Lemma decc_digit d : d < 10 -> is_digit (decc d) = true.
Proof. unfold is_digit, decc. lia. Qed.
Lemma hexval_hexc d : d < 16 -> hexval (hexc d) = Some d.
Proof.
  intros H. unfold hexval, hexc, is_digit. destruct (d <? 10) eqn:E.
  - replace ((48 <=? 48 + d) && (48 + d <=? 57)) with true by lia. f_equal. lia.
  - replace ((48 <=? 87 + d) && (87 + d <=? 57)) with false by lia.
    replace ((97 <=? 87 + d) && (87 + d <=? 102)) with true by lia. f_equal. lia.
Qed.
Lemma decc_hexc d : d < 10 -> decc d = hexc d.
Proof. intros H. unfold hexc, decc. replace (d <? 10) with true by lia. reflexivity. Qed.

Definition plain (c : N) : Prop := is_digit c = true \/ (97 <= c /\ c <= 102).
Lemma hexc_plain d : d < 16 -> plain (hexc d).
Proof. intros H. unfold plain, hexc, is_digit. destruct (d <? 10) eqn:E; lia. Qed.
Lemma decc_plain d : d < 10 -> plain (decc d).
Proof. intros H. rewrite decc_hexc by exact H. apply hexc_plain. lia. Qed.
Lemma plain_neq c : plain c -> c <> c_dot /\ c <> c_colon /\ c <> c_pct /\ c <> c_slash /\ c <> c_dash.
Proof. unfold plain, is_digit, c_dot, c_colon, c_pct, c_slash, c_dash. lia. Qed.

Lemma dec_plain n : Forall plain (dec n).
Proof.
  unfold dec. apply Forall_map. eapply Forall_impl; [|apply digits_lt; lia].
  intros d Hd. now apply decc_plain.
Qed.
Lemma hexs_plain n : Forall plain (hexs n).
Proof.
  unfold hexs. apply Forall_map. eapply Forall_impl; [|apply digits_lt; lia].
  intros d Hd. now apply hexc_plain.
Qed.
Lemma dec_cons n : exists c l, dec n = c :: l.
Proof.
  unfold dec. destruct (digits 10 n) eqn:E; [now apply digits_nonempty in E|].
  cbn. eauto.
Qed.
Lemma hexs_cons n : exists c l, hexs n = c :: l /\ plain c.
Proof.
  pose proof (hexs_plain n) as H. unfold hexs in *.
  destruct (digits 16 n) eqn:E; [now apply digits_nonempty in E|].
  cbn in *. inversion H; subst. eauto.
Qed.

(** * Decimal numbers *)
Lemma undec_digits ds acc : Forall (fun d => d < 10) ds ->
  undec acc (map decc ds) = Some (acc * 10 ^ N.of_nat (length ds) + undig 10 ds).
Proof.
  revert acc. induction ds as [|d ds IH]; intros acc H.
  - cbn. f_equal. lia.
  - inversion H as [|? ? Hd Hds]; subst. cbn [map undec]. rewrite decc_digit by exact Hd.
    rewrite IH by exact Hds. f_equal.
    change (d :: ds) with ([d] ++ ds). rewrite undig_app, app_length.
    change (undig 10 [d]) with (0 * 10 + d). cbn [length].
    replace (N.of_nat (1 + length ds)) with (N.succ (N.of_nat (length ds))) by lia.
    rewrite N.pow_succ_r'. unfold decc. replace (48 + d - 48) with d by lia. nia.
Qed.
Lemma undec_dec n : undec 0 (dec n) = Some n.
Proof.
  unfold dec. rewrite undec_digits by (apply digits_lt; lia).
  rewrite digits_value by lia. reflexivity.
Qed.
Lemma dec_inj n m : dec n = dec m -> n = m.
Proof. intros H. pose proof (undec_dec n) as Hn. rewrite H, undec_dec in Hn. congruence. Qed.

(** * IPv4 *)
Lemma parse4_more ds val dl flds rest :
  0 < val -> (1 <= dl)%nat -> Forall (fun d => d < 10) ds ->
  val * 10 ^ N.of_nat (length ds) + undig 10 ds <= 255 ->
  parse4 false false val dl flds (map decc ds ++ rest)
  = parse4 false false (val * 10 ^ N.of_nat (length ds) + undig 10 ds) (dl + length ds) flds rest.
Proof.
  revert val dl. induction ds as [|d ds IH]; intros val dl Hv Hdl Hds Hle.
  - cbn [map app length]. f_equal; cbn; lia.
  - inversion Hds as [|? ? Hd Hds']; subst.
    cbn [map app parse4]. rewrite decc_digit by exact Hd.
    replace (val =? 0) with false by lia. rewrite andb_false_r.
    replace (decc d - 48) with d by (unfold decc; lia).
    assert (HX : val * 10 ^ N.of_nat (length (d :: ds)) + undig 10 (d :: ds)
            = (val * 10 + d) * 10 ^ N.of_nat (length ds) + undig 10 ds).
    { change (d :: ds) with ([d] ++ ds) at 2. rewrite undig_app.
      change (undig 10 [d]) with (0 * 10 + d). cbn [length].
      rewrite Nat2N.inj_succ, N.pow_succ_r'. nia. }
    rewrite HX in *.
    assert (1 <= 10 ^ N.of_nat (length ds)) by (pose proof (N.pow_nonzero 10 (N.of_nat (length ds))); lia).
    replace (255 <? val * 10 + d) with false by nia.
    rewrite IH by (assumption || nia). f_equal. cbn [length]. lia.
Qed.

Lemma parse4_dec f pd a flds rest : a < 256 ->
  parse4 f pd 0 0 flds (dec a ++ rest) = parse4 false false a (length (dec a)) flds rest.
Proof.
  intros Ha. unfold dec. destruct (digits 10 a) as [|d l] eqn:E; [now apply digits_nonempty in E|].
  pose proof (digits_lt 10 a ltac:(lia)) as Hlt. rewrite E in Hlt. inversion Hlt as [|? ? Hd Hl]; subst.
  pose proof (digits_value 10 a ltac:(lia)) as Hv. rewrite E in Hv.
  cbn [map app parse4]. rewrite decc_digit by exact Hd. cbn [Nat.eqb andb].
  replace (0 * 10 + (decc d - 48)) with d by (unfold decc; lia).
  replace (255 <? d) with false by lia.
  destruct (N.eq_dec a 0) as [->|Hn].
  - rewrite digits_0 in E by lia. inversion E; subst. reflexivity.
  - assert (0 < d) by (eapply (digits_head 10 a); eauto; lia).
    change (d :: l) with ([d] ++ l) in Hv. rewrite undig_app in Hv.
    change (undig 10 [d]) with (0 * 10 + d) in Hv. rewrite N.mul_0_l, N.add_0_l in Hv.
    rewrite parse4_more; try assumption; try lia. rewrite Hv.
    cbn [length]. now rewrite map_length.
Qed.

Lemma parse4_dot val dl flds rest : rest <> [] -> (length flds < 3)%nat ->
  parse4 false false val dl flds ([c_dot] ++ rest) = parse4 false true 0 0 (flds ++ [val]) rest.
Proof.
  intros Hr Hl. cbn. destruct rest as [|c rest]; [congruence|].
  replace (length flds =? 3)%nat with false by lia. reflexivity.
Qed.

Lemma dec_app_nonempty n r : dec n ++ r <> [].
Proof. destruct (dec_cons n) as (c & l & ->). discriminate. Qed.

Lemma parse_ipv4_dotted a b c d : a < 256 -> b < 256 -> c < 256 -> d < 256 ->
  parse_ipv4 (dec a ++ [c_dot] ++ dec b ++ [c_dot] ++ dec c ++ [c_dot] ++ dec d) = Some [a; b; c; d].
Proof.
  intros Ha Hb Hc Hd. unfold parse_ipv4.
  rewrite parse4_dec, parse4_dot by (assumption || apply dec_app_nonempty || (cbn; lia)).
  rewrite parse4_dec, parse4_dot by (assumption || apply dec_app_nonempty || (cbn; lia)).
  rewrite <- (app_nil_r (dec d)).
  rewrite parse4_dec, parse4_dot by (assumption || apply dec_app_nonempty || (cbn; lia)).
  rewrite parse4_dec by assumption. reflexivity.
Qed.

Lemma be4_four x : exists a b c d, be 4 x = [a; b; c; d] /\ a < 256 /\ b < 256 /\ c < 256 /\ d < 256.
Proof.
  pose proof (be_ok 4 x) as H. pose proof (be_length 4 x) as L.
  destruct (be 4 x) as [|a [|b [|c [|d [|]]]]]; try discriminate.
  unfold bytes_ok in H. rewrite !Forall_cons_iff in H. unfold u8 in H.
  exists a, b, c, d. tauto.
Qed.

Lemma parse_string4 x : parse_ipv4 (string4 x) = Some (be 4 x).
Proof.
  unfold string4. destruct (be4_four x) as (a & b & c & d & E & H). rewrite E.
  apply parse_ipv4_dotted; tauto.
Qed.

Definition addrchar (c : N) : Prop := plain c \/ c = c_dot \/ c = c_colon.
Lemma ac_dot : addrchar c_dot. Proof. right. now left. Qed.
Lemma ac_colon : addrchar c_colon. Proof. right. now right. Qed.
Lemma string4_chars x : Forall addrchar (string4 x).
Proof.
  unfold string4. destruct (be4_four x) as (a & b & c & d & E & H). rewrite E.
  assert (P : forall n, Forall addrchar (dec n)).
  { intros n. eapply Forall_impl; [|apply dec_plain]. unfold addrchar. auto. }
  rewrite !Forall_app. repeat split; auto; repeat (apply Forall_cons; [apply ac_dot|]); constructor.
Qed.

Lemma addr_kind_skip l r : Forall plain l -> addr_kind (l ++ r) = addr_kind r.
Proof.
  intros H. induction H as [|c l Hc Hl IH]; [reflexivity|].
  cbn [app addr_kind]. destruct (plain_neq c Hc) as (H1 & H2 & H3 & _).
  replace (c =? c_dot) with false by lia. replace (c =? c_colon) with false by lia.
  replace (c =? c_pct) with false by lia. exact IH.
Qed.

Lemma kind_string4 x : addr_kind (string4 x) = c_dot.
Proof.
  unfold string4. destruct (be4_four x) as (a & b & c & d & E & H). rewrite E.
  rewrite addr_kind_skip by apply dec_plain. reflexivity.
Qed.

Lemma parse_addr_string4 x : x < 2 ^ 32 -> parse_addr (string4 x) = Some (A4 x).
Proof.
  intros Hx. unfold parse_addr. rewrite kind_string4. cbn [N.eqb c_dot Pos.eqb].
  rewrite parse_string4. rewrite unbe_be; [reflexivity|exact Hx].
Qed.

(** * IPv6 *)
Definition nonhex_start (r : bytes) : Prop :=
  match r with [] => True | c :: _ => hexval c = None end.

Lemma scan_hex_digits ds off acc r : Forall (fun d => d < 16) ds -> nonhex_start r ->
  (off + length ds <= 4)%nat -> acc * 16 ^ N.of_nat (length ds) + undig 16 ds <= 65535 ->
  scan_hex off acc (map hexc ds ++ r)
  = Some (acc * 16 ^ N.of_nat (length ds) + undig 16 ds, (off + length ds)%nat, r).
Proof.
  revert off acc. induction ds as [|d ds IH]; intros off acc Hds Hr Hoff Hle.
  - cbn [map app length]. replace (acc * 16 ^ N.of_nat 0 + undig 16 []) with acc by (cbn; lia).
    replace (off + 0)%nat with off by lia.
    destruct r as [|c r]; [reflexivity|]. cbn in Hr. cbn. now rewrite Hr.
  - inversion Hds as [|? ? Hd Hds']; subst.
    assert (HX : acc * 16 ^ N.of_nat (length (d :: ds)) + undig 16 (d :: ds)
            = (acc * 16 + d) * 16 ^ N.of_nat (length ds) + undig 16 ds).
    { change (d :: ds) with ([d] ++ ds) at 2. rewrite undig_app.
      change (undig 16 [d]) with (0 * 16 + d). cbn [length].
      rewrite Nat2N.inj_succ, N.pow_succ_r'. nia. }
    rewrite HX in *. cbn [length] in Hoff.
    cbn [map app scan_hex]. rewrite hexval_hexc by exact Hd.
    replace (3 <? off)%nat with false by lia.
    assert (1 <= 16 ^ N.of_nat (length ds)) by (pose proof (N.pow_nonzero 16 (N.of_nat (length ds))); lia).
    replace (65535 <? acc * 16 + d) with false by nia.
    rewrite IH by (assumption || lia). f_equal. f_equal. f_equal. cbn [length]. lia.
Qed.

Lemma scan_hexs g r : g < 65536 -> nonhex_start r ->
  exists off, scan_hex 0 0 (hexs g ++ r) = Some (g, S off, r).
Proof.
  intros Hg Hr. unfold hexs.
  pose proof (digits_len 16 g 4 ltac:(lia) ltac:(exact Hg) ltac:(lia)) as Hl.
  pose proof (digits_value 16 g ltac:(lia)) as Hv.
  rewrite scan_hex_digits; try assumption; try lia; [|apply digits_lt; lia].
  rewrite Hv. destruct (digits 16 g) eqn:E; [now apply digits_nonempty in E|].
  exists (length l). cbn [length]. rewrite N.mul_0_l. reflexivity.
Qed.

Lemma scan_dec a r : a < 256 -> nonhex_start r ->
  exists v off, scan_hex 0 0 (dec a ++ r) = Some (v, S off, r).
Proof.
  intros Ha Hr. unfold dec.
  pose proof (digits_lt 10 a ltac:(lia)) as Hlt.
  pose proof (digits_len 10 a 3 ltac:(lia) ltac:(cbn; lia) ltac:(lia)) as Hl.
  replace (map decc (digits 10 a)) with (map hexc (digits 10 a)).
  2:{ apply map_ext_in. intros d Hd. rewrite Forall_forall in Hlt. symmetry. apply decc_hexc. now apply Hlt. }
  assert (Hlt16 : Forall (fun d => d < 16) (digits 10 a)).
  { eapply Forall_impl; [|exact Hlt]. cbn. intros. lia. }
  assert (Hb : undig 16 (digits 10 a) < 16 ^ N.of_nat (length (digits 10 a))).
  { clear - Hlt16. induction (digits 10 a) as [|d l IH] using rev_ind; [reflexivity|].
    apply Forall_app in Hlt16 as [H1 H2]. inversion H2; subst. rewrite undig_snoc, app_length.
    cbn [length]. replace (N.of_nat (length l + 1)) with (N.succ (N.of_nat (length l))) by lia.
    rewrite N.pow_succ_r'. specialize (IH H1). nia. }
  assert (16 ^ N.of_nat (length (digits 10 a)) <= 16 ^ 3) by (apply N.pow_le_mono_r; lia).
  change (16 ^ 3) with 4096 in *.
  rewrite scan_hex_digits; try assumption; try lia.
  destruct (digits 10 a) eqn:E; [now apply digits_nonempty in E|].
  eexists _, (length l). cbn [length]. reflexivity.
Qed.

(** Groups separated by colons. *)
Fixpoint joinc (l : list N) : bytes :=
  match l with [] => [] | [g] => hexs g | g :: l' => hexs g ++ [c_colon] ++ joinc l' end.

Lemma joinc_cons l : l <> [] -> exists c r, joinc l = c :: r /\ plain c.
Proof.
  destruct l as [|g l]; [congruence|]. intros _.
  destruct (hexs_cons g) as (c & r & E & P). cbn [joinc]. rewrite E.
  destruct l; cbn; eauto.
Qed.
Lemma joinc_chars l : Forall addrchar (joinc l).
Proof.
  induction l as [|g l IH]; [constructor|].
  assert (P : Forall addrchar (hexs g)).
  { eapply Forall_impl; [|apply hexs_plain]. unfold addrchar. auto. }
  cbn [joinc]. destruct l; [exact P|]. rewrite !Forall_app. repeat split; auto.
  repeat (apply Forall_cons; [apply ac_colon|]); constructor.
Qed.

Definition wg (l : list N) : Prop := Forall (fun g => g < 65536) l.

Lemma loop_join l : forall fuel gs ell, l <> [] -> (length l <= fuel)%nat -> wg l ->
  parse6_loop fuel gs ell (joinc l) = Some (gs ++ l, ell, []).
Proof.
  induction l as [|g l IH]; intros fuel gs ell Hne Hf Hw; [congruence|].
  destruct fuel as [|fuel]; [cbn in Hf; lia|]. inversion Hw as [|? ? Hg Hw']; subst.
  cbn [parse6_loop]. destruct l as [|g2 l].
  - cbn [joinc]. rewrite <- (app_nil_r (hexs g)).
    destruct (scan_hexs g [] Hg I) as (off & ->). reflexivity.
  - change (joinc (g :: g2 :: l)) with (hexs g ++ [c_colon] ++ joinc (g2 :: l)).
    destruct (scan_hexs g ([c_colon] ++ joinc (g2 :: l)) Hg eq_refl) as (off & ->).
    cbn [Nat.eqb app]. change (c_colon =? c_dot) with false. change (c_colon =? c_colon) with true.
    cbn [negb].
    destruct (joinc_cons (g2 :: l) ltac:(discriminate)) as (c & r & E & P). rewrite E.
    destruct (plain_neq c P) as (_ & Hc & _). replace (c =? c_colon) with false by lia.
    rewrite <- E. rewrite IH; [|discriminate|cbn in *; lia|exact Hw'].
    now rewrite <- app_assoc.
Qed.

Lemma loop_join_ell l : forall fuel gs r, l <> [] -> (length l <= fuel)%nat -> wg l ->
  parse6_loop fuel gs None (joinc l ++ [c_colon; c_colon] ++ r)
  = match r with
    | [] => Some (gs ++ l, Some (length gs + length l)%nat, [])
    | _ => parse6_loop (fuel - length l) (gs ++ l) (Some (length gs + length l)%nat) r
    end.
Proof.
  induction l as [|g l IH]; intros fuel gs r Hne Hf Hw; [congruence|].
  destruct fuel as [|fuel]; [cbn in Hf; lia|]. inversion Hw as [|? ? Hg Hw']; subst.
  cbn [parse6_loop]. destruct l as [|g2 l].
  - cbn [joinc].
    destruct (scan_hexs g ([c_colon; c_colon] ++ r) Hg eq_refl) as (off & ->).
    cbn [Nat.eqb app length]. change (c_colon =? c_dot) with false. change (c_colon =? c_colon) with true.
    cbn [negb]. replace (S fuel - 1)%nat with fuel by lia. reflexivity.
  - change (joinc (g :: g2 :: l)) with (hexs g ++ [c_colon] ++ joinc (g2 :: l)).
    rewrite <- !app_assoc.
    destruct (scan_hexs g ([c_colon] ++ joinc (g2 :: l) ++ [c_colon; c_colon] ++ r) Hg eq_refl) as (off & ->).
    cbn [Nat.eqb app]. change (c_colon =? c_dot) with false. change (c_colon =? c_colon) with true.
    cbn [negb].
    destruct (joinc_cons (g2 :: l) ltac:(discriminate)) as (c & r' & E & P). rewrite E.
    destruct (plain_neq c P) as (_ & Hc & _). cbn [app]. replace (c =? c_colon) with false by lia.
    change (c :: r' ++ c_colon :: c_colon :: r) with ((c :: r') ++ [c_colon; c_colon] ++ r).
    rewrite <- E. rewrite IH; [|discriminate|cbn in *; lia|exact Hw'].
    rewrite <- app_assoc, app_length. cbn [length app Nat.sub].
    replace (length gs + 1 + S (length l))%nat with (length gs + S (S (length l)))%nat by lia.
    reflexivity.
Qed.

(** The run of zeros found by the printer. *)
Lemma zrun_spec l : (zrun l <= length l)%nat /\ firstn (zrun l) l = repeat 0 (zrun l).
Proof.
  induction l as [|g l (IH1 & IH2)]; [split; [cbn; lia|reflexivity]|].
  destruct g as [|p]; cbn [zrun length]; [|split; [lia|reflexivity]].
  split; [lia|]. cbn [firstn repeat]. now rewrite IH2.
Qed.

Definition zinv (g : list N) (b : nat * nat) : Prop :=
  b = (255%nat, 0%nat) \/
  ((2 <= snd b)%nat /\ (fst b + snd b <= length g)%nat
   /\ firstn (snd b) (skipn (fst b) g) = repeat 0 (snd b)).

Lemma find_zeros_inv g l i b : l = skipn i g -> (i <= length g)%nat -> zinv g b -> zinv g (find_zeros l i b).
Proof.
  revert i b. induction l as [|x l IH]; intros i b Hl Hi Hb; [exact Hb|].
  cbn [find_zeros].
  assert (Hlen : length (x :: l) = (length g - i)%nat) by (rewrite Hl; apply skipn_length).
  cbn [length] in Hlen.
  apply IH.
  - change l with (skipn 1 (x :: l)). rewrite Hl, skipn_skipn_add. f_equal. lia.
  - lia.
  - destruct ((2 <=? zrun (x :: l))%nat && (snd b <? zrun (x :: l))%nat) eqn:E; [|exact Hb].
    right. destruct (zrun_spec (x :: l)) as [Hz1 Hz2]. cbn [fst snd].
    apply andb_true_iff in E as [E1 E2]. apply Nat.leb_le in E1.
    cbn [length] in Hz1.
    split; [exact E1|]. split; [lia|]. rewrite <- Hl. exact Hz2.
Qed.

Lemma emit6_none g : length g = 8%nat -> emit6 9 g 255 255 0 = joinc g.
Proof.
  intros H. destruct g as [|g0 [|g1 [|g2 [|g3 [|g4 [|g5 [|g6 [|g7 [|]]]]]]]]]; try discriminate.
  cbn -[hexs]. rewrite app_nil_r. reflexivity.
Qed.

Lemma emit6_run g zs r : length g = 8%nat -> (2 <= r)%nat -> (zs + r <= 8)%nat ->
  emit6 9 g zs (zs + r) 0 = joinc (firstn zs g) ++ [c_colon; c_colon] ++ joinc (skipn (zs + r) g).
Proof.
  intros H Hr Hz. destruct g as [|g0 [|g1 [|g2 [|g3 [|g4 [|g5 [|g6 [|g7 [|]]]]]]]]]; try discriminate.
  clear H.
  do 7 (destruct zs as [|zs]; [
    do 9 (destruct r as [|r]; [first [exfalso; lia | cbn -[hexs]; rewrite ?app_nil_r; repeat (rewrite <- app_assoc; cbn [app]); reflexivity]|]);
    exfalso; lia|]).
  exfalso; lia.
Qed.

Lemma no_pct l : Forall addrchar l -> existsb (N.eqb c_pct) l = false.
Proof.
  intros H. induction H as [|c l Hc Hl IH]; [reflexivity|].
  cbn [existsb]. rewrite IH, orb_false_r.
  unfold addrchar, plain, is_digit, c_dot, c_colon, c_pct in *. lia.
Qed.

Lemma groups_length x : length (groups x) = 8%nat.
Proof. apply fdig_length. Qed.
Lemma groups_wg x : wg (groups x).
Proof. apply fdig_lt. lia. Qed.
Lemma groups_value x : x < 2 ^ 128 -> undig 65536 (groups x) = x.
Proof. intros H. apply undig_fdig; [lia|exact H]. Qed.

Lemma split3 (g : list N) zs r : (zs + r <= length g)%nat ->
  firstn r (skipn zs g) = repeat 0 r ->
  g = firstn zs g ++ repeat 0 r ++ skipn (zs + r) g.
Proof.
  intros H E. rewrite <- E, <- skipn_skipn_add, firstn_skipn, firstn_skipn. reflexivity.
Qed.

Lemma string6_shape x : x < 2 ^ 128 ->
  (string6 x = joinc (groups x)) \/
  (exists zs r, (2 <= r)%nat /\ (zs + r <= 8)%nat /\
     string6 x = joinc (firstn zs (groups x)) ++ [c_colon; c_colon] ++ joinc (skipn (zs + r) (groups x)) /\
     groups x = firstn zs (groups x) ++ repeat 0 r ++ skipn (zs + r) (groups x)).
Proof.
  intros Hx. unfold string6. pose proof (groups_length x) as HL.
  pose proof (find_zeros_inv (groups x) (groups x) 0 (255%nat, 0%nat) eq_refl ltac:(lia) (or_introl eq_refl)) as HZ.
  destruct (find_zeros (groups x) 0 (255%nat, 0%nat)) as [zs r]. cbn [fst snd].
  destruct HZ as [HZ|(H1 & H2 & H3)].
  - inversion HZ; subst. left. now apply emit6_none.
  - cbn [fst snd] in *. right. exists zs, r. rewrite HL in H2.
    split; [exact H1|]. split; [exact H2|]. split; [now apply emit6_run|].
    apply split3; [lia|exact H3].
Qed.

Lemma parse_string6 x : x < 2 ^ 128 -> parse_ipv6 (string6 x) = Some (A6 x).
Proof.
  intros Hx. pose proof (groups_length x) as HL. pose proof (groups_wg x) as HW.
  pose proof (groups_value x Hx) as HV.
  unfold parse_ipv6.
  destruct (string6_shape x Hx) as [->|(zs & r & Hr & Hz & -> & HG)].
  - rewrite no_pct by apply joinc_chars.
    assert (Hne : groups x <> []) by (destruct (groups x); [discriminate|congruence]).
    destruct (joinc_cons (groups x) Hne) as (c & l & E & P).
    destruct (plain_neq c P) as (_ & Hc & _).
    replace (match joinc (groups x) with a :: b :: _ => (a =? c_colon) && (b =? c_colon) | _ => false end)
      with false.
    2:{ rewrite E. destruct l; [reflexivity|]. replace (c =? c_colon) with false by lia. reflexivity. }
    rewrite loop_join by (assumption || lia). cbn [app finish6]. rewrite HL. cbn [Nat.ltb Nat.leb].
    now rewrite HV.
  - set (l1 := firstn zs (groups x)) in *. set (l2 := skipn (zs + r) (groups x)) in *.
    assert (L1 : length l1 = zs) by (subst l1; rewrite firstn_length; lia).
    assert (L2 : length l2 = (8 - (zs + r))%nat) by (subst l2; rewrite skipn_length; lia).
    assert (W1 : wg l1) by (subst l1; apply Forall_forall; intros y Hy; unfold wg in HW; rewrite Forall_forall in HW; apply HW; rewrite <- (firstn_skipn zs); apply in_or_app; now left).
    assert (W2 : wg l2) by (subst l2; apply Forall_forall; intros y Hy; unfold wg in HW; rewrite Forall_forall in HW; apply HW; rewrite <- (firstn_skipn (zs + r)); apply in_or_app; now right).
    rewrite no_pct.
    2:{ rewrite !Forall_app. repeat split; try apply joinc_chars. repeat (apply Forall_cons; [apply ac_colon|]); constructor. }
    assert (HF : forall ll, length ll = (8 - r)%nat -> ll = l1 ++ l2 ->
      finish6 (Some (ll, Some zs, [])) = Some (A6 x)).
    { intros ll Hll Ell. cbn [finish6]. rewrite Hll. replace (8 - r <? 8)%nat with true by lia.
      replace (8 - (8 - r))%nat with r by lia.
      rewrite Ell, firstn_app_exact, skipn_app_exact by exact L1. rewrite <- HG, HV. reflexivity. }
    destruct (Nat.eq_dec zs 0) as [Hz0|Hz0].
    + assert (l1 = []) by (destruct l1; [reflexivity|cbn in L1; lia]).
      rewrite H in *. cbn [joinc app]. change (c_colon =? c_colon) with true. cbn [andb skipn].
      destruct l2 as [|g l2'] eqn:E2.
      * cbn [joinc]. cbn [length] in L2. assert (r = 8%nat) by lia. subst r. f_equal. f_equal.
        rewrite <- HV, HG. reflexivity.
      * destruct (joinc_cons (g :: l2') ltac:(discriminate)) as (c & q & E & P). rewrite E, <- E.
        rewrite loop_join; [|discriminate|lia|exact W2]. cbn [app].
        rewrite <- Hz0. apply HF; [lia|reflexivity].
    + assert (Hne : l1 <> []) by (destruct l1; [cbn in L1; lia|congruence]).
      destruct (joinc_cons l1 Hne) as (c & l & E & P).
      destruct (plain_neq c P) as (_ & Hc & _).
      replace (match joinc l1 ++ [c_colon; c_colon] ++ joinc l2 with a :: b :: _ => (a =? c_colon) && (b =? c_colon) | _ => false end)
        with false.
      2:{ rewrite E. cbn [app]. destruct (l ++ _); [reflexivity|]. replace (c =? c_colon) with false by lia. reflexivity. }
      rewrite loop_join_ell by (assumption || lia). cbn [app length Nat.add].
      destruct l2 as [|g l2'] eqn:E2.
      * cbn [joinc]. rewrite L1. apply HF; [cbn [length] in L2; lia|now rewrite app_nil_r].
      * destruct (joinc_cons (g :: l2') ltac:(discriminate)) as (c' & q & E' & P'). rewrite E', <- E'.
        rewrite loop_join; [|discriminate|lia|exact W2].
        rewrite L1. apply HF; [rewrite app_length; lia|reflexivity].
Qed.

Lemma string6_chars x : x < 2 ^ 128 -> Forall addrchar (string6 x).
Proof.
  intros Hx. destruct (string6_shape x Hx) as [->|(zs & r & Hr & Hz & -> & HG)].
  - apply joinc_chars.
  - rewrite !Forall_app. repeat split; try apply joinc_chars. repeat (apply Forall_cons; [apply ac_colon|]); constructor.
Qed.

Lemma kind_joinc l r : l <> [] -> r = [] \/ (exists r', r = c_colon :: r') -> (2 <= length l)%nat \/ r <> [] ->
  addr_kind (joinc l ++ r) = c_colon.
Proof.
  destruct l as [|g l]; [congruence|]. intros _ Hr Hl. cbn [joinc].
  destruct l as [|g2 l].
  - rewrite addr_kind_skip by apply hexs_plain.
    destruct Hr as [->|(r' & ->)]; [destruct Hl; [cbn in *; lia|congruence]|reflexivity].
  - rewrite <- !app_assoc, addr_kind_skip by apply hexs_plain. reflexivity.
Qed.

Lemma kind_string6 x : x < 2 ^ 128 -> addr_kind (string6 x) = c_colon.
Proof.
  intros Hx. pose proof (groups_length x) as HL.
  destruct (string6_shape x Hx) as [->|(zs & r & Hr & Hz & -> & HG)].
  - rewrite <- (app_nil_r (joinc _)). apply kind_joinc; auto.
    + destruct (groups x); discriminate.
    + left. lia.
  - destruct (firstn zs (groups x)) eqn:E; [reflexivity|]. apply kind_joinc.
    + discriminate.
    + right. cbn. eauto.
    + right. discriminate.
Qed.

Lemma be4_unbe_groups y a b c d : y < 2 ^ 32 -> be 4 y = [a; b; c; d] ->
  y = (a * 256 + b) * 65536 + (c * 256 + d).
Proof.
  intros Hy E. rewrite <- (unbe_be 4 y Hy), E. unfold unbe. cbn [fold_left]. lia.
Qed.

Lemma parse_mapped x : x / 2 ^ 32 = 65535 ->
  parse_addr (str_mapped ++ string4 (x mod 2 ^ 32)) = Some (A6 x).
Proof.
  intros Hx. unfold parse_addr.
  change (addr_kind (str_mapped ++ string4 (x mod 2 ^ 32))) with c_colon.
  change (c_colon =? c_dot) with false. change (c_colon =? c_colon) with true. cbv iota.
  set (y := x mod 2 ^ 32).
  assert (Hy : y < 2 ^ 32) by (apply N.mod_lt; lia).
  unfold parse_ipv6. rewrite no_pct.
  2:{ apply Forall_app. split; [|apply string4_chars].
      unfold str_mapped. repeat (apply Forall_cons; [unfold addrchar, plain, is_digit, c_colon; lia|]); constructor. }
  cbn [str_mapped app skipn]. change ((58 =? c_colon) && (58 =? c_colon)) with true. cbv iota.
  destruct (scan_hexs 65535 ([c_colon] ++ string4 y) ltac:(lia) eq_refl) as (off & E1).
  pose proof (parse_string4 y) as HP4.
  destruct (be4_four y) as (a & b & c & d & E & Ha & Hb & Hc & Hd).
  pose proof (be4_unbe_groups y a b c d Hy E) as HY.
  rewrite E in HP4.
  assert (HS : exists ch r, string4 y = ch :: r /\ plain ch).
  { unfold string4. rewrite E. destruct (dec_cons a) as (ch & l & Ed).
    pose proof (dec_plain a) as P. rewrite Ed in *. inversion P; subst. cbn. eauto. }
  destruct HS as (ch & r & ES & Pch). destruct (plain_neq ch Pch) as (_ & Hcol & _).
  assert (HS2 : exists v off, scan_hex 0 0 (string4 y) =
            Some (v, S off, [c_dot] ++ dec b ++ [c_dot] ++ dec c ++ [c_dot] ++ dec d)).
  { unfold string4. rewrite E. apply scan_dec; [exact Ha|reflexivity]. }
  destruct HS2 as (v & off2 & E2).
  assert (HE : parse6_loop 8 [] (Some 0%nat) (hexs 65535 ++ [c_colon] ++ string4 y)
     = Some ([65535; a * 256 + b; c * 256 + d], Some 0%nat, [])).
  { cbn [parse6_loop]. rewrite E1. cbn [Nat.eqb app].
    change (c_colon =? c_dot) with false. change (c_colon =? c_colon) with true. cbn [negb].
    rewrite ES. replace (ch =? c_colon) with false by lia. rewrite <- ES. rewrite E2.
    cbn [Nat.eqb app]. change (c_dot =? c_dot) with true. cbv iota. cbn [length Nat.ltb Nat.leb Nat.add].
    rewrite HP4. reflexivity. }
  change (102 :: 102 :: 102 :: 102 :: 58 :: string4 y) with (hexs 65535 ++ [c_colon] ++ string4 y).
  rewrite HE. cbn [finish6 length Nat.ltb Nat.leb Nat.sub firstn skipn repeat app].
  f_equal. f_equal. unfold undig. cbn [fold_left].
  assert (x = 65535 * 2 ^ 32 + y) by (subst y; rewrite <- Hx; pose proof (N.div_mod x (2 ^ 32)); lia).
  lia.
Qed.

Lemma parse_addr_string a : wf_addr a -> a <> A0 -> parse_addr (addr_string a) = Some a.
Proof.
  destruct a as [|x|x]; intros Hw Hn; [congruence| |]; cbn [addr_string wf_addr] in *.
  - now apply parse_addr_string4.
  - destruct (is4in6 (A6 x)) eqn:E.
    + cbn [is4in6] in E. apply parse_mapped. lia.
    + unfold parse_addr. rewrite kind_string6 by exact Hw. cbn [N.eqb c_dot c_colon Pos.eqb].
      now apply parse_string6.
Qed.

Lemma split_last_app c a b : ~ In c b -> split_last c (a ++ c :: b) = Some (a, b).
Proof.
  intros H. assert (HN : split_last c b = None).
  { clear a. induction b as [|x b IH]; [reflexivity|]. cbn [split_last].
    rewrite IH by (intros HH; apply H; now right).
    replace (x =? c) with false; [reflexivity|]. symmetry. apply N.eqb_neq. intros ->. apply H. now left. }
  induction a as [|x a IH]; cbn [app split_last].
  - rewrite HN. now rewrite N.eqb_refl.
  - now rewrite IH.
Qed.

Lemma plain_no_slash l : Forall plain l -> ~ In c_slash l.
Proof.
  intros H HI. rewrite Forall_forall in H. apply H in HI.
  unfold plain, is_digit, c_slash in HI. lia.
Qed.

(** C59 *)
Lemma parse_prefix_string p : wf_prefix p -> is_valid p = true ->
  parse_prefix (prefix_string p) = Some p.
Proof.
  intros (Hwa & Hwb) Hv. destruct p as [a [b|]]; [|discriminate]. cbn [p_addr p_bits] in *.
  destruct Hwb as [Hn Hb].
  unfold prefix_string. cbn [p_bits p_addr]. unfold parse_prefix.
  change ([c_slash] ++ dec b) with (c_slash :: dec b).
  rewrite split_last_app by apply plain_no_slash, dec_plain.
  rewrite parse_addr_string by assumption.
  assert (Hlead : match dec b with [] => false | [_] => true | c :: _ => (49 <=? c) && (c <=? 57) end = true).
  { unfold dec. destruct (N.eq_dec b 0) as [->|Hb0]; [rewrite digits_0 by lia; reflexivity|].
    destruct (digits 10 b) as [|d l] eqn:E; [now apply digits_nonempty in E|].
    pose proof (digits_head 10 b d l ltac:(lia) ltac:(lia) E).
    pose proof (digits_lt 10 b ltac:(lia)) as HL. rewrite E in HL. inversion HL; subst.
    destruct l; [reflexivity|]. cbn [map]. unfold decc. lia. }
  rewrite Hlead. cbn [negb]. rewrite undec_dec.
  replace (bitlen a <? b) with false by lia. reflexivity.
Qed.

Lemma prefix_string_inj p q : wf_prefix p -> is_valid p = true -> wf_prefix q -> is_valid q = true ->
  prefix_string p = prefix_string q -> p = q.
Proof.
  intros H1 H2 H3 H4 H. pose proof (parse_prefix_string p H1 H2) as Hp.
  rewrite H, parse_prefix_string in Hp by assumption. congruence.
Qed.
