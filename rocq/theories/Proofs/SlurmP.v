(** SLURM filters and assertions. *)
From Coq Require Import ZifyBool ZifyNat ZifyN.
From Verif Require Import Model.Slurm Spec.Input Spec.History Proofs.FormatP Proofs.DataP Proofs.JsonP.
Ltac Zify.zify_post_hook ::= Z.div_mod_to_equations.

(** * Containment of prefixes *)
Lemma testbit_above w x i : x < 2 ^ w -> w <= i -> N.testbit x i = false.
Proof.
  intros Hx Hi. rewrite <- (N.mod_small x (2 ^ w) Hx). now apply N.mod_pow2_bits_high.
Qed.
Lemma lt_of_testbit w x : (forall i, w <= i -> N.testbit x i = false) -> x < 2 ^ w.
Proof.
  intros H. assert (E : x = x mod 2 ^ w).
  { apply N.bits_inj. intros i. destruct (N.lt_ge_cases i w) as [Hi|Hi].
    - now rewrite N.mod_pow2_bits_low.
    - rewrite N.mod_pow2_bits_high by exact Hi. now apply H. }
  rewrite E. apply N.mod_lt. apply N.pow_nonzero. lia.
Qed.
Lemma top_eq_bits w b x y : x < 2 ^ w -> y < 2 ^ w ->
  (top_eq w b x y = true <-> bits_agree w b x y).
Proof.
  intros Hx Hy. unfold top_eq, bits_agree. rewrite N.eqb_eq, <- !N.shiftr_div_pow2. split.
  - intros E i Hi. replace i with ((i - (w - b)) + (w - b)) by lia.
    rewrite <- !N.shiftr_spec by apply N.le_0_l. now rewrite E.
  - intros E. apply N.bits_inj. intros i. rewrite !N.shiftr_spec by apply N.le_0_l.
    destruct (N.lt_ge_cases (i + (w - b)) w) as [Hi|Hi].
    + apply E. lia.
    + rewrite (testbit_above w x), (testbit_above w y); auto.
Qed.

Definition flip (i x : N) : N := if N.testbit x i then N.clearbit x i else N.setbit x i.
Lemma flip_eq i x : N.testbit (flip i x) i = negb (N.testbit x i).
Proof.
  unfold flip. destruct (N.testbit x i) eqn:E; [apply N.clearbit_eq|apply N.setbit_eq].
Qed.
Lemma flip_neq i j x : i <> j -> N.testbit (flip i x) j = N.testbit x j.
Proof.
  intros H. unfold flip. destruct (N.testbit x i); [now apply N.clearbit_neq|now apply N.setbit_neq].
Qed.

(** One family, [w] bits. *)
Lemma covers_bits w bf br x y : x < 2 ^ w -> y < 2 ^ w -> bf <= w -> br <= w ->
  ((forall z, z < 2 ^ w -> bits_agree w br y z -> bits_agree w bf x z) <->
   bf <= br /\ bits_agree w bf x y).
Proof.
  intros Hx Hy Hbf Hbr. split.
  - intros H. assert (HA : bits_agree w bf x y) by (apply H; [exact Hy|intros i _; reflexivity]).
    split; [|exact HA]. destruct (N.le_gt_cases bf br) as [Hle|Hgt]; [exact Hle|exfalso].
    assert (HF : bits_agree w bf x (flip (w - bf) y)).
    { apply H.
      - apply lt_of_testbit. intros i Hi. rewrite flip_neq by lia. now apply (testbit_above w y).
      - intros i Hi. rewrite flip_neq by lia. reflexivity. }
    specialize (HF (w - bf) ltac:(lia)). specialize (HA (w - bf) ltac:(lia)). rewrite flip_eq in HF.
    rewrite HA in HF. destruct (N.testbit y (w - bf)); discriminate HF.
  - intros [Hle HA] z Hz Hyz i Hi. rewrite (HA i Hi). apply Hyz. lia.
Qed.

Lemma covers_spec f r : wf_prefix f -> is_valid f = true -> wf_prefix r -> is_valid r = true ->
  (overlaps f r && (bits f <=? bits r)%Z = true <-> covers f r).
Proof.
  intros (Wf & Bf) Vf (Wr & Br) Vr. destruct f as [af [bf|]]; [|discriminate Vf]. destruct r as [ar [br|]]; [|discriminate Vr].
  cbn [p_addr p_bits] in *. destruct Bf as [Nf Lf], Br as [Nr Lr]. unfold overlaps, covers, in_prefix, bits. cbn [p_addr p_bits].
  rewrite andb_true_iff.
  destruct af as [|x|x]; [congruence| |]; (destruct ar as [|y|y]; [congruence| |]); cbn [wf_addr bitlen] in *.
  - rewrite (top_eq_bits 32) by assumption. pose proof (covers_bits 32 bf br x y Wf Wr Lf Lr) as HC.
    split.
    + intros [H1 H2]. assert (bf <= br) by lia. replace (N.min bf br) with bf in H1 by lia.
      intros a Wa Ha. destruct a as [|z|z]; try contradiction.
      apply (proj2 HC (conj H H1)); [exact Wa|exact Ha].
    + intros H. destruct (proj1 HC) as [H1 H2].
      { intros z Hz Hzz. exact (H (A4 z) Hz Hzz). }
      replace (N.min bf br) with bf by lia. split; [exact H2|lia].
  - split; [intros [H _]; discriminate H|]. intros H. exfalso.
    apply (H (A6 y) Wr). intros i _. reflexivity.
  - split; [intros [H _]; discriminate H|]. intros H. exfalso.
    apply (H (A4 y) Wr). intros i _. reflexivity.
  - rewrite (top_eq_bits 128) by assumption. pose proof (covers_bits 128 bf br x y Wf Wr Lf Lr) as HC.
    split.
    + intros [H1 H2]. assert (bf <= br) by lia. replace (N.min bf br) with bf in H1 by lia.
      intros a Wa Ha. destruct a as [|z|z]; try contradiction.
      apply (proj2 HC (conj H H1)); [exact Wa|exact Ha].
    + intros H. destruct (proj1 HC) as [H1 H2].
      { intros z Hz Hzz. exact (H (A6 z) Hz Hzz). }
      replace (N.min bf br) with bf by lia. split; [exact H2|lia].
Qed.

(** * Prefix filters *)
Lemma parse_prefix_nil : parse_prefix [] = None. Proof. reflexivity. Qed.
Lemma pf_match_spec f v r asn : (pf_prefix f = [] \/ parse_prefix (pf_prefix f) <> None) ->
  parse_prefix (vj_prefix v) = Some r -> get_asn2 (vj_asn v) = Some asn ->
  (pf_match f v = true <-> pf_covers f r asn).
Proof.
  intros Hf Hr Ha. unfold pf_match, pf_covers, pf_get_prefix, get_prefix, get_asn.
  rewrite get_prefix2_parse, Hr, Ha. pose proof (parse_prefix_wf _ _ Hr) as [Wr Vr].
  assert (HASN : (match pf_asn f with Some a => asn =? a | None => true end = true) <-> (pf_asn f = None \/ pf_asn f = Some asn)).
  { destruct (pf_asn f) as [a|]; [|split; auto]. rewrite N.eqb_eq. split; [intros ->; auto|].
    intros [H|H]; [discriminate H|injection H as ->; reflexivity]. }
  destruct (parse_prefix (pf_prefix f)) as [fp|] eqn:Ef.
  - pose proof (parse_prefix_wf _ _ Ef) as [Wf Vf]. rewrite Vf, Vr. cbn [andb].
    pose proof (covers_spec fp r Wf Vf Wr Vr) as HC.
    destruct (overlaps fp r && (bits fp <=? bits r)%Z).
    + rewrite HASN. split; [|tauto]. intros H. split; [|exact H]. right. exists fp. split; [reflexivity|]. now apply HC.
    + split; [discriminate|]. intros [[H|(fp' & E & H)] _].
      * rewrite H in Ef. discriminate Ef.
      * injection E as <-. now apply HC in H.
  - destruct Hf as [Hf|Hf]; [|congruence]. cbn [is_valid zero_prefix p_bits andb]. rewrite HASN. tauto.
Qed.

Lemma fold_split {A} (f : A -> bool) l : forall a b,
  fold_left (fun st v => let '(added, removed) := st in
    if f v then (added, removed ++ [v]) else (added ++ [v], removed)) l (a, b)
  = (a ++ filter (fun v => negb (f v)) l, b ++ filter f l).
Proof.
  induction l as [|x l IH]; intros a b; cbn [fold_left filter]; [now rewrite !app_nil_r|].
  destruct (f x); cbn [negb]; rewrite IH, <- ?app_assoc; reflexivity.
Qed.
Lemma splits_filter {A} (P : A -> Prop) f l : (forall x, In x l -> (f x = true <-> P x)) ->
  splits P l (filter (fun v => negb (f v)) l) (filter f l).
Proof.
  intros H. induction l as [|x l IH]; [constructor|]. cbn [filter].
  pose proof (H x (or_introl eq_refl)) as Hx.
  assert (HI : splits P l (filter (fun v => negb (f v)) l) (filter f l)) by (apply IH; intros y Hy; apply H; now right).
  destruct (f x); cbn [negb]; constructor; auto; [now apply Hx|]. intros HP. apply Hx in HP. discriminate HP.
Qed.
Lemma filter_on_vrps_eq fs vs :
  filter_on_vrps fs vs = (filter (fun v => negb (existsb (fun f => pf_match f v) fs)) vs,
                          filter (fun v => existsb (fun f => pf_match f v) fs) vs).
Proof.
  unfold filter_on_vrps. destruct fs as [|f fs].
  - cbn [existsb negb]. f_equal; clear; induction vs as [|v vs IH]; cbn [filter]; congruence.
  - rewrite (fold_split (fun v => existsb (fun f0 => pf_match f0 v) (f :: fs))). reflexivity.
Qed.

(** * Router key filters *)
(** The loop with the cached decoding is a plain disjunction when the SKI is hexadecimal. *)
Definition bf_matchb (f : bfilter) (asn : N) (ski : bytes) : bool :=
  match bf_asn f with
  | Some a => (asn =? a) && (is_nil (bf_ski f) || beqb (bf_ski f) ski)
  | None => negb (is_nil (bf_ski f)) && beqb (bf_ski f) ski
  end.
Lemma nlen_nil {A} (l : list A) : negb (nlen l =? 0) = negb (is_nil l).
Proof. destruct l; unfold nlen; cbn [length is_nil negb]; [reflexivity|]. lia. Qed.
Lemma brk_match_hex b ski : hex_decode (bj_ski b) = (ski, true) -> forall fs cache,
  (cache = None \/ cache = Some ski) ->
  brk_match fs cache b = existsb (fun f => bf_matchb f (bj_asn b) ski) fs.
Proof.
  intros HH. induction fs as [|f fs IH]; intros cache Hc; [reflexivity|].
  cbn [brk_match existsb]. unfold bf_matchb at 1. rewrite nlen_nil.
  assert (HL : ski_lookup cache b = (ski, true)) by (unfold ski_lookup; destruct Hc as [-> | ->]; auto).
  rewrite HL. cbn [negb].
  destruct (bf_asn f) as [a|].
  - destruct (bj_asn b =? a); cbn [andb]; [|now apply IH].
    destruct (is_nil (bf_ski f)); cbn [negb orb]; [reflexivity|].
    destruct (beqb (bf_ski f) ski); [reflexivity|]. cbn [orb]. apply IH. now right.
  - destruct (is_nil (bf_ski f)); cbn [negb andb orb]; [now apply IH|].
    destruct (beqb (bf_ski f) ski); [reflexivity|]. cbn [orb]. apply IH. now right.
Qed.
Lemma bf_matchb_spec f b ski : hex_decode (bj_ski b) = (ski, true) ->
  (bf_matchb f (bj_asn b) ski = true <-> bf_agrees f b).
Proof.
  intros HH. unfold bf_matchb, bf_agrees.
  assert (HK : forall k, beqb k ski = true <-> is_hex_of (bj_ski b) k).
  { intros k. rewrite beqb_eq, <- hex_decode_spec, HH. split; congruence. }
  assert (HN : is_nil (bf_ski f) = true <-> bf_ski f = []) by (destruct (bf_ski f); cbn; split; congruence).
  specialize (HK (bf_ski f)).
  destruct (bf_asn f) as [a|].
  - rewrite andb_true_iff, orb_true_iff, N.eqb_eq, HK, HN. split.
    + intros [H1 H2]. split; [left; discriminate|]. split; [right; congruence|exact H2].
    + intros (_ & [H|H] & H2); [discriminate H|]. injection H as ->. auto.
  - rewrite andb_true_iff, negb_true_iff, HK. split.
    + intros [H1 H2]. assert (bf_ski f <> []) by (rewrite <- HN; congruence).
      split; [now right|]. split; [now left|now right].
    + intros ([H|H] & _ & H2); [congruence|]. split; [|tauto].
      apply not_true_is_false. rewrite HN. exact H.
Qed.
(** Not hexadecimal: a filter without SKI decides by ASN. *)
Lemma filter_on_brks_eq fs bs :
  filter_on_brks fs bs = (filter (fun b => negb (brk_match fs None b)) bs, filter (brk_match fs None) bs).
Proof.
  unfold filter_on_brks. destruct fs as [|f fs].
  - cbn [brk_match negb]. f_equal; clear; induction bs as [|v vs IH]; cbn [filter]; congruence.
  - rewrite (fold_split (brk_match (f :: fs) None)). reflexivity.
Qed.

(** * Idempotence *)
Lemma filter_keep_all {A} (f : A -> bool) l : (forall x, In x l -> f x = true) -> filter f l = l.
Proof.
  induction l as [|x l IH]; intros H; [reflexivity|]. cbn [filter]. rewrite (H x) by now left.
  f_equal. apply IH. intros y Hy. apply H. now right.
Qed.
Lemma filter_none {A} (f : A -> bool) l : (forall x, In x l -> f x = false) -> filter f l = [].
Proof.
  induction l as [|x l IH]; intros H; [reflexivity|]. cbn [filter]. rewrite (H x) by now left.
  apply IH. intros y Hy. apply H. now right.
Qed.
Lemma filter_twice {A} (f : A -> bool) l :
  filter (fun x => negb (f x)) (filter (fun x => negb (f x)) l) = filter (fun x => negb (f x)) l /\
  filter f (filter (fun x => negb (f x)) l) = [].
Proof.
  split; [apply filter_keep_all|apply filter_none]; intros x Hx; apply filter_In in Hx as [_ H].
  - exact H.
  - now apply negb_true_iff in H.
Qed.

(** * Assertions *)
Lemma undec_prefix_ok s p : parse_prefix s = Some p -> forall a b, split_first c_slash s = Some (a, b) ->
  ~ In c_slash b -> cidr_size s = p_bits p.
Proof.
  intros Hp a b Hs Hb. unfold cidr_size. rewrite Hs.
  assert (HL : split_last c_slash s = Some (a, b)).
  { clear Hp. revert a Hs. induction s as [|x s IH]; intros a Hs; [discriminate Hs|].
    cbn [split_first] in Hs. cbn [split_last].
    assert (HN : forall t : bytes, ~ In c_slash t -> split_last c_slash t = None).
    { clear. induction t as [|y t IH]; intros H; [reflexivity|]. cbn [split_last]. rewrite IH by (intros G; apply H; now right).
      destruct (y =? c_slash) eqn:E; [|reflexivity]. exfalso. apply H. left. lia. }
    destruct (x =? c_slash) eqn:E.
    - injection Hs as <- <-. now rewrite (HN _ Hb).
    - destruct (split_first c_slash s) as [[a' b']|]; [|discriminate Hs]. injection Hs as <- <-.
      rewrite (IH a' eq_refl). reflexivity. }
  unfold parse_prefix in Hp. rewrite HL in Hp. destruct (parse_addr a) as [ad|]; [|discriminate Hp].
  destruct b as [|c b]; [discriminate Hp|].
  match type of Hp with context [negb ?x] => destruct x end; cbn [negb] in Hp; [|discriminate Hp].
  destruct (undec 0 (c :: b)) as [n|]; [|discriminate Hp].
  destruct (bitlen ad <? n); [discriminate Hp|]. injection Hp as <-. reflexivity.
Qed.
(** A parsable prefix has exactly one slash. *)
Lemma split_last_no c s a b : split_last c s = Some (a, b) -> s = a ++ c :: b /\ ~ In c b.
Proof.
  revert a. induction s as [|x s IH]; intros a H; [discriminate H|]. cbn [split_last] in H.
  destruct (split_last c s) as [[a' b']|] eqn:E.
  - injection H as <- <-. destruct (IH a' eq_refl) as [-> HN]. split; [reflexivity|exact HN].
  - destruct (x =? c) eqn:E2; [|discriminate H]. injection H as <- <-. apply N.eqb_eq in E2. subst x.
    split; [reflexivity|]. clear IH. revert E. induction s as [|y s IH]; intros E; [intros []|].
    cbn [split_last] in E. destruct (split_last c s) as [[]|]; [discriminate E|].
    destruct (y =? c) eqn:E3; [discriminate E|]. intros [H|H]; [lia|now apply IH].
Qed.
Lemma parse4_chars s : forall f pd val dl flds l, parse4 f pd val dl flds s = Some l ->
  Forall (fun c => is_digit c = true \/ c = c_dot) s.
Proof.
  induction s as [|c s IH]; intros f pd val dl flds l H; [constructor|]. cbn [parse4] in H.
  destruct (is_digit c) eqn:Ed.
  - destruct ((dl =? 1)%nat && (val =? 0)); [discriminate H|].
    destruct (255 <? val * 10 + (c - 48)); [discriminate H|]. apply IH in H. constructor; auto.
  - destruct (c =? c_dot) eqn:E; [|discriminate H].
    destruct (f || _ || pd); [discriminate H|]. destruct (length flds =? 3)%nat; [discriminate H|].
    apply IH in H. constructor; [right; lia|exact H].
Qed.
Definition hexdig (c : N) : Prop := hexval c <> None.
Lemma scan_hex_chars s : forall off acc v o r, scan_hex off acc s = Some (v, o, r) ->
  exists u, s = u ++ r /\ Forall hexdig u.
Proof.
  induction s as [|c s IH]; intros off acc v o r H; cbn [scan_hex] in H.
  - injection H as <- <- <-. exists []. split; [reflexivity|constructor].
  - destruct (hexval c) as [d|] eqn:E.
    + destruct (3 <? off)%nat; [discriminate H|]. destruct (65535 <? acc * 16 + d); [discriminate H|].
      apply IH in H as (u & -> & HF). exists (c :: u). split; [reflexivity|]. constructor; [unfold hexdig; congruence|exact HF].
    + injection H as <- <- <-. exists []. split; [reflexivity|constructor].
Qed.
Definition v6c (c : N) : Prop := hexdig c \/ c = c_dot \/ c = c_colon.
Lemma digit_hexdig c : is_digit c = true -> hexdig c.
Proof. intros H. unfold hexdig, hexval. rewrite H. discriminate. Qed.
Lemma loop_chars fuel : forall gs ell s gs' ell', parse6_loop fuel gs ell s = Some (gs', ell', []) -> Forall v6c s.
Proof.
  assert (HF : forall u, Forall hexdig u -> Forall v6c u).
  { intros u H. eapply Forall_impl; [|exact H]. intros c Hc. now left. }
  induction fuel as [|fuel IH]; intros gs ell s gs' ell' H; cbn [parse6_loop] in H.
  - injection H as _ _ ->. constructor.
  - destruct (scan_hex 0 0 s) as [[[acc off] r1]|] eqn:E; [|discriminate H].
    apply scan_hex_chars in E as (u & -> & Hu). apply HF in Hu.
    destruct (off =? 0)%nat; [discriminate H|].
    destruct r1 as [|c r1]; [rewrite app_nil_r; exact Hu|].
    destruct (c =? c_dot) eqn:Ec.
    { destruct (match ell with None => _ | Some _ => false end); [discriminate H|].
      destruct (8 <? length gs + 2)%nat; [discriminate H|].
      destruct (parse_ipv4 (u ++ c :: r1)) as [l|] eqn:E4; [|discriminate H].
      apply parse4_chars in E4. eapply Forall_impl; [|exact E4]. intros x [Hx|Hx]; [left; now apply digit_hexdig|right; now left]. }
    destruct (negb (c =? c_colon)) eqn:Ecc; [discriminate H|].
    destruct r1 as [|c2 r2]; [discriminate H|].
    apply Forall_app. split; [exact Hu|]. assert (v6c c) by (right; right; lia). constructor; [assumption|].
    destruct (c2 =? c_colon) eqn:Ec2.
    + destruct ell as [e0|]; [discriminate H|]. constructor; [right; right; lia|].
      destruct r2 as [|c3 r3]; [constructor|]. now apply IH in H.
    + now apply IH in H.
Qed.
Lemma finish6_chars x a : finish6 x = Some a -> exists gs ell, x = Some (gs, ell, []).
Proof. destruct x as [[[gs ell] [|]]|]; cbn [finish6]; intros H; try discriminate H. eauto. Qed.
Lemma parse_addr_chars s a : parse_addr s = Some a -> Forall v6c s.
Proof.
  unfold parse_addr. intros H. destruct (addr_kind s =? c_dot).
  - destruct (parse_ipv4 s) as [l|] eqn:E; [|discriminate H]. apply parse4_chars in E.
    eapply Forall_impl; [|exact E]. intros x [Hx|Hx]; [left; now apply digit_hexdig|right; now left].
  - destruct (addr_kind s =? c_colon); [|discriminate H]. unfold parse_ipv6 in H.
    destruct (existsb (N.eqb c_pct) s); [discriminate H|].
    destruct s as [|c0 [|c1 s]].
    + constructor.
    + apply finish6_chars in H as (gs & ell & H). now apply loop_chars in H.
    + destruct ((c0 =? c_colon) && (c1 =? c_colon)) eqn:E.
      * constructor; [right; right; lia|]. constructor; [right; right; lia|].
        cbn [skipn] in H. destruct s as [|c s]; [constructor|].
        apply finish6_chars in H as (gs & ell & H). now apply loop_chars in H.
      * apply finish6_chars in H as (gs & ell & H). now apply loop_chars in H.
Qed.
Lemma v6c_no_slash s : Forall v6c s -> ~ In c_slash s.
Proof.
  intros H HI. rewrite Forall_forall in H. apply H in HI. destruct HI as [HI|[HI|HI]]; [|discriminate HI|discriminate HI].
  apply HI. reflexivity.
Qed.
Lemma split_first_app c a b : ~ In c a -> split_first c (a ++ c :: b) = Some (a, b).
Proof.
  induction a as [|x a IH]; intros H; cbn [app split_first].
  - now rewrite N.eqb_refl.
  - destruct (x =? c) eqn:E; [exfalso; apply H; left; lia|]. rewrite IH; [reflexivity|]. intros G. apply H. now right.
Qed.
(** Every prefix netip.ParsePrefix accepts is accepted by net.ParseCIDR with the same length. *)
Lemma cidr_parse s p : parse_prefix s = Some p -> cidr_size s = p_bits p.
Proof.
  intros Hp. pose proof Hp as Hp'. unfold parse_prefix in Hp'.
  destruct (split_last c_slash s) as [[a b]|] eqn:E; [|discriminate Hp'].
  destruct (parse_addr a) as [ad|] eqn:Ea; [|discriminate Hp'].
  apply split_last_no in E as [-> HN]. apply parse_addr_chars, v6c_no_slash in Ea.
  eapply undec_prefix_ok; [exact Hp|apply split_first_app; exact Ea|exact HN].
Qed.
(** What net.ParseCIDR accepts. *)
Lemma split_first_text c s a b : split_first c s = Some (a, b) -> s = a ++ c :: b.
Proof.
  revert a. induction s as [|x s IH]; intros a H; [discriminate H|]. cbn [split_first] in H.
  destruct (x =? c) eqn:E.
  - injection H as <- <-. apply N.eqb_eq in E. now subst x.
  - destruct (split_first c s) as [[a' b']|]; [|discriminate H]. injection H as <- <-. now rewrite (IH a' eq_refl).
Qed.
Lemma cidr_size_text s n : cidr_size s = Some n -> exists addr len ip m, s = addr ++ c_slash :: len /\
  parse_addr addr = Some ip /\ len <> [] /\ undec 0 len = Some m /\ m <= bitlen ip.
Proof.
  unfold cidr_size. intros H. destruct (split_first c_slash s) as [[addr len]|] eqn:E; [|discriminate H].
  destruct (parse_addr addr) as [ip|] eqn:Ea; [|discriminate H]. destruct len as [|c len]; [discriminate H|].
  destruct (undec 0 (c :: len)) as [m|] eqn:Eu; [|discriminate H]. destruct (bitlen ip <? m) eqn:Eb; [discriminate H|].
  exists addr, (c :: len), ip, m. split; [now apply split_first_text|]. split; [exact Ea|]. split; [discriminate|].
  split; [exact Eu|]. lia.
Qed.
