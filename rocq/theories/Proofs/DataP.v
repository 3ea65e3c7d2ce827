(** Record identity (C16) and the diff functions (C07, C09, C10). *)
From Coq Require Import ZifyBool ZifyNat ZifyN.
From Verif Require Import Model.Data Spec.Sets Proofs.FormatP.
Ltac Zify.zify_post_hook ::= Z.div_mod_to_equations.

(** * C16: keys *)
Lemma split_first_eq (c : N) a b a' b' : ~ In c a -> ~ In c a' ->
  a ++ c :: b = a' ++ c :: b' -> a = a' /\ b = b'.
Proof.
  revert a'. induction a as [|x a IH]; intros [|x' a'] H1 H2 E; cbn in *.
  - inversion E. auto.
  - inversion E; subst. exfalso. apply H2. now left.
  - inversion E; subst. exfalso. apply H1. now left.
  - inversion E; subst. destruct (IH a') as [-> ->]; auto.
Qed.

Lemma plain_no c l : (c = c_dash \/ c = c_slash \/ c = c_dot \/ c = c_colon) -> Forall plain l -> ~ In c l.
Proof.
  intros Hc H HI. rewrite Forall_forall in H. apply H in HI. apply plain_neq in HI.
  unfold c_dash, c_slash, c_dot, c_colon in *. lia.
Qed.

Lemma hex_encode_plain l : bytes_ok l -> Forall plain (hex_encode l).
Proof.
  intros H. induction H as [|x l Hx Hl IH]; [constructor|].
  cbn [hex_encode flat_map app]. unfold u8 in Hx.
  constructor; [apply hexc_plain; lia|]. constructor; [apply hexc_plain; lia|exact IH].
Qed.

Lemma hex_decode_encode l : bytes_ok l -> hex_decode (hex_encode l) = (l, true).
Proof.
  intros H. induction H as [|x l Hx Hl IH]; [reflexivity|]. unfold u8 in Hx.
  cbn [hex_encode flat_map app]. cbn [hex_decode]. rewrite !hexval_hexc by lia.
  fold (hex_encode l). rewrite IH. f_equal. f_equal. lia.
Qed.
Lemma hex_encode_inj a b : bytes_ok a -> bytes_ok b -> hex_encode a = hex_encode b -> a = b.
Proof.
  intros Ha Hb H. pose proof (hex_decode_encode a Ha) as E. rewrite H, hex_decode_encode in E by exact Hb.
  congruence.
Qed.

Lemma addr_string_chars a : wf_addr a -> a <> A0 -> Forall addrchar (addr_string a).
Proof.
  destruct a as [|x|x]; cbn [wf_addr addr_string]; intros H Hn; [congruence|apply string4_chars|].
  destruct (is4in6 (A6 x)).
  - apply Forall_app. split; [|apply string4_chars].
    unfold str_mapped. repeat (apply Forall_cons; [unfold addrchar, plain, is_digit, c_colon; lia|]); constructor.
  - now apply string6_chars.
Qed.

Lemma prefix_string_no_dash p : wf_prefix p -> is_valid p = true -> ~ In c_dash (prefix_string p).
Proof.
  intros (Hwa & Hwb) Hv HI. destruct p as [a [b|]]; [|discriminate]. cbn [p_addr p_bits] in *.
  unfold prefix_string in HI. cbn [p_bits p_addr] in HI.
  apply in_app_or in HI as [HI|HI].
  - pose proof (addr_string_chars a Hwa ltac:(tauto)) as H. rewrite Forall_forall in H. apply H in HI.
    unfold addrchar, plain, is_digit, c_dash, c_dot, c_colon in HI. lia.
  - cbn [app In] in HI. destruct HI as [HI|HI]; [discriminate|].
    apply (plain_no c_dash (dec b)); auto. apply dec_plain.
Qed.

Lemma prefix_string_slash p : wf_prefix p -> is_valid p = true -> In c_slash (prefix_string p).
Proof.
  intros (Hwa & Hwb) Hv. destruct p as [a [b|]]; [|discriminate].
  unfold prefix_string. cbn [p_bits p_addr]. apply in_or_app. right. now left.
Qed.

Lemma hashkey_rid a b : wf_sd a -> wf_sd b -> (hashkey a = hashkey b <-> rid_of a = rid_of b).
Proof.
  intros Ha Hb. split.
  - destruct a as [p1 a1 m1 f1|a1 s1 k1 f1], b as [p2 a2 m2 f2|a2 s2 k2 f2]; cbn [hashkey rid_of wf_sd] in *; intros E.
    + destruct Ha as (Hp1 & Hv1 & _), Hb as (Hp2 & Hv2 & _).
      apply split_first_eq in E as [E1 E2]; [|now apply prefix_string_no_dash|now apply prefix_string_no_dash].
      apply split_first_eq in E2 as [E2 E3];
        [|apply plain_no; auto; apply dec_plain|apply plain_no; auto; apply dec_plain].
      apply prefix_string_inj in E1; try assumption. apply dec_inj in E2. apply dec_inj in E3. congruence.
    + destruct Ha as (Hp1 & Hv1 & _). exfalso.
      apply split_first_eq in E as [E1 E2];
        [|now apply prefix_string_no_dash|apply plain_no; auto; apply dec_plain].
      pose proof (prefix_string_slash p1 Hp1 Hv1) as HS. rewrite E1 in HS.
      revert HS. apply plain_no; auto. apply dec_plain.
    + destruct Hb as (Hp1 & Hv1 & _). exfalso.
      apply split_first_eq in E as [E1 E2];
        [|apply plain_no; auto; apply dec_plain|now apply prefix_string_no_dash].
      pose proof (prefix_string_slash p2 Hp1 Hv1) as HS. rewrite <- E1 in HS.
      revert HS. apply plain_no; auto. apply dec_plain.
    + destruct Ha as (_ & Hs1 & Hk1 & _), Hb as (_ & Hs2 & Hk2 & _).
      apply split_first_eq in E as [E1 E2];
        [|apply plain_no; auto; apply dec_plain|apply plain_no; auto; apply dec_plain].
      apply split_first_eq in E2 as [E2 E3];
        [|apply plain_no; auto; now apply hex_encode_plain|apply plain_no; auto; now apply hex_encode_plain].
      apply dec_inj in E1. apply hex_encode_inj in E2; try assumption. apply hex_encode_inj in E3; try assumption.
      congruence.
  - destruct a, b; cbn; intros E; inversion E; reflexivity.
Qed.

Lemma equals_rid a b : equals a b = true <-> rid_of a = rid_of b.
Proof.
  destruct a as [p1 a1 m1 f1|a1 s1 k1 f1], b as [p2 a2 m2 f2|a2 s2 k2 f2]; cbn; split; intros E; try discriminate.
  - rewrite !andb_true_iff, prefix_eqb_eq, !N.eqb_eq in E. destruct E as [[-> ->] ->]. reflexivity.
  - inversion E. rewrite !N.eqb_refl. cbn. now apply prefix_eqb_eq.
  - rewrite !andb_true_iff, !beqb_eq, !N.eqb_eq in E. destruct E as [[-> ->] ->]. reflexivity.
  - inversion E. rewrite N.eqb_refl. cbn. rewrite andb_true_iff, !beqb_eq. auto.
Qed.

(** * Maps *)
Lemma rid_set_flag f d : rid_of (set_flag f d) = rid_of d.
Proof. destruct d; reflexivity. Qed.
Lemma wf_set_flag f d : u8 f -> wf_sd d -> wf_sd (set_flag f d).
Proof. destruct d; cbn; tauto. Qed.
Lemma flag_set_flag f d : get_flag (set_flag f d) = f.
Proof. destruct d; reflexivity. Qed.

(** Flag of the last record with identity [x]. *)
Definition last_flag (l : list sd) (x : rid) : option N :=
  fold_left (fun acc d => if rid_dec x (rid_of d) then Some (get_flag d) else acc) l None.

Lemma map_get_convert l x : Forall wf_sd l -> wf_sd x ->
  map_get (convert_map l) (hashkey x) = last_flag l (rid_of x).
Proof.
  intros Hl Hx. unfold convert_map, last_flag.
  assert (G : forall l m acc, Forall wf_sd l -> map_get m (hashkey x) = acc ->
    map_get (fold_left (fun m v => (hashkey v, get_flag v) :: m) l m) (hashkey x)
    = fold_left (fun acc d => if rid_dec (rid_of x) (rid_of d) then Some (get_flag d) else acc) l acc).
  { clear l Hl. induction l as [|d l IH]; intros m acc Hl Hm; [exact Hm|].
    inversion Hl; subst. cbn [fold_left]. apply IH; [assumption|]. cbn [map_get].
    destruct (rid_dec (rid_of x) (rid_of d)) as [E|E].
    - apply hashkey_rid in E; try assumption. rewrite E.
      replace (beqb (hashkey d) (hashkey d)) with true by (symmetry; now apply beqb_eq). reflexivity.
    - replace (beqb (hashkey x) (hashkey d)) with false; [reflexivity|].
      symmetry. apply not_true_iff_false. rewrite beqb_eq, hashkey_rid by assumption. exact E. }
  now apply G.
Qed.

Lemma last_flag_none l x : last_flag l x = None <-> ~ In x (ids l).
Proof.
  induction l as [|d l IH] using rev_ind; [cbn; tauto|].
  unfold last_flag, ids in *. rewrite fold_left_app, map_app, in_app_iff. cbn.
  destruct (rid_dec x (rid_of d)) as [E|E].
  - split; [discriminate|]. intros H. exfalso. apply H. auto.
  - rewrite IH. split; intros H; [intros [H1|[H1|[]]]; auto|auto].
Qed.
Lemma last_flag_some l x f : last_flag l x = Some f -> exists d, In d l /\ rid_of d = x /\ get_flag d = f.
Proof.
  induction l as [|d l IH] using rev_ind; [discriminate|].
  unfold last_flag in *. rewrite fold_left_app. cbn.
  destruct (rid_dec x (rid_of d)) as [E|E]; intros H.
  - inversion H. exists d. split; [apply in_or_app; right; now left|auto].
  - destruct (IH H) as (d' & H1 & H2). exists d'. split; [apply in_or_app; now left|exact H2].
Qed.

Lemma map_has_convert l x : Forall wf_sd l -> wf_sd x ->
  map_has (convert_map l) (hashkey x) = mem (rid_of x) (ids l).
Proof.
  intros Hl Hx. unfold map_has, mem. rewrite map_get_convert by assumption.
  destruct (last_flag l (rid_of x)) eqn:E; destruct (in_dec rid_dec (rid_of x) (ids l)) as [H|H]; try reflexivity.
  - exfalso. apply last_flag_none in H. congruence.
  - apply last_flag_none in E. contradiction.
Qed.

Lemma mem_in x l : mem x l = true <-> In x l.
Proof. unfold mem. destruct (in_dec rid_dec x l); split; auto; discriminate. Qed.
Lemma mem_not x l : mem x l = false <-> ~ In x l.
Proof. unfold mem. destruct (in_dec rid_dec x l); split; auto; try discriminate; contradiction. Qed.

(** * C07 *)
Lemma flat_map_filter {A B} (f : A -> B) (c : A -> bool) l :
  flat_map (fun x => if c x then [] else [f x]) l = map f (filter (fun x => negb (c x)) l).
Proof. induction l as [|x l IH]; [reflexivity|]. cbn. rewrite IH. destruct (c x); reflexivity. Qed.
Lemma flat_map_filter2 {A} (c : A -> bool) l :
  flat_map (fun x => if c x then [x] else []) l = filter c l.
Proof. induction l as [|x l IH]; [reflexivity|]. cbn. rewrite IH. destruct (c x); reflexivity. Qed.
Lemma flat_map_ext_in {A B} (f g : A -> list B) l : (forall x, In x l -> f x = g x) -> flat_map f l = flat_map g l.
Proof.
  induction l as [|x l IH]; intros H; [reflexivity|]. cbn. rewrite H by now left.
  rewrite IH; [reflexivity|]. intros y Hy. apply H. now right.
Qed.
Lemma filter_false {A} (l : list A) : filter (fun _ => false) l = [].
Proof. induction l; auto. Qed.

Lemma compute_diff_exact new prev pop : Forall wf_sd new -> Forall wf_sd prev ->
  compute_diff new prev pop =
    (map (set_flag 1) (filter (fun x => negb (mem (rid_of x) (ids prev))) new),
     map (set_flag 0) (filter (fun x => negb (mem (rid_of x) (ids new))) prev),
     filter (fun x => pop && mem (rid_of x) (ids new)) prev).
Proof.
  intros Hn Hp. unfold compute_diff. rewrite Forall_forall in Hn, Hp.
  assert (HN : Forall wf_sd new) by now apply Forall_forall.
  assert (HP : Forall wf_sd prev) by now apply Forall_forall.
  f_equal; [f_equal|].
  - rewrite (flat_map_ext_in _ (fun x => if mem (rid_of x) (ids prev) then [] else [set_flag FLAG_ADDED x])).
    + apply flat_map_filter.
    + intros x Hx. now rewrite map_has_convert by auto.
  - rewrite (flat_map_ext_in _ (fun x => if mem (rid_of x) (ids new) then [] else [set_flag FLAG_REMOVED x])).
    + apply flat_map_filter.
    + intros x Hx. now rewrite map_has_convert by auto.
  - rewrite <- flat_map_filter2. apply flat_map_ext_in. intros x Hx. rewrite map_has_convert by auto.
    destruct (mem (rid_of x) (ids new)), pop; reflexivity.
Qed.

(** * What a list of diff records does to a router's set *)
Lemma r_apply_snoc R l d : r_apply R (l ++ [d]) = r_apply1 (r_apply R l) d.
Proof. unfold r_apply. now rewrite fold_left_app. Qed.

(** The last record for [x] decides. *)
Lemma r_apply_last R l x : flags01 l ->
  (r_apply R l x <-> match last_flag l x with Some f => f = 1 | None => R x end).
Proof.
  induction l as [|d l IH] using rev_ind; intros Hf; [cbn; tauto|].
  rewrite r_apply_snoc.
  assert (HL : last_flag (l ++ [d]) x = if rid_dec x (rid_of d) then Some (get_flag d) else last_flag l x).
  { unfold last_flag. rewrite fold_left_app. reflexivity. }
  rewrite HL.
  assert (Hd : get_flag d = 1 \/ get_flag d = 0) by (apply Hf, in_or_app; right; now left).
  assert (IHl : r_apply R l x <-> match last_flag l x with Some f => f = 1 | None => R x end).
  { apply IH. intros e He. apply Hf, in_or_app. now left. }
  unfold r_apply1. destruct (get_flag d =? 1) eqn:E; destruct (rid_dec x (rid_of d)) as [Ex|Ex].
  - split; intros; [lia|now left].
  - rewrite <- IHl. split; intros H; [destruct H; [contradiction|assumption]|now right].
  - split; intros H; [destruct H; contradiction|lia].
  - rewrite <- IHl. split; intros H; [tauto|split; assumption].
Qed.

(** In a difference for [R] no identity is both announced and withdrawn. *)
Lemma diff_for_flag R l d x f : diff_for R l -> In d l -> rid_of d = x -> last_flag l x = Some f -> get_flag d = f.
Proof.
  intros (Hf & Ha & Hw) Hd Hx HL. destruct (last_flag_some l x f HL) as (e & He & Hex & Hef).
  destruct (Hf d Hd) as [D|D], (Hf e He) as [E|E]; try congruence.
  - exfalso. apply (Ha d Hd D). rewrite Hx, <- Hex. now apply Hw.
  - exfalso. apply (Ha e He E). rewrite Hex, <- Hx. now apply Hw.
Qed.

Lemma in_ids d l : In d l -> In (rid_of d) (ids l).
Proof. apply in_map. Qed.
Lemma ids_in x l : In x (ids l) -> exists d, In d l /\ rid_of d = x.
Proof. intros H. apply in_map_iff in H as (d & E & H). eauto. Qed.

(** Membership in ApplyDiff. *)
Lemma in_apply_diff diff prev d : Forall wf_sd diff -> Forall wf_sd prev ->
  In d (apply_diff diff prev) <->
    (In d prev /\ ~ In (rid_of d) (ids diff)) \/
    (In d diff /\ get_flag d = 1) \/
    (In d diff /\ get_flag d = 0 /\ (last_flag prev (rid_of d) = None \/ last_flag prev (rid_of d) = Some 0)).
Proof.
  intros HD HP. pose proof HD as HD'. pose proof HP as HP'. rewrite Forall_forall in HD', HP'.
  unfold apply_diff. rewrite in_app_iff, !in_flat_map.
  split.
  - intros [(x & Hx & H)|(x & Hx & H)].
    + rewrite map_has_convert in H by auto. destruct (mem (rid_of x) (ids diff)) eqn:E; [destruct H|].
      destruct H as [->|[]]. left. split; [assumption|]. now apply mem_not.
    + rewrite map_get_convert in H by auto. unfold FLAG_ADDED, FLAG_REMOVED in H.
      destruct (get_flag x =? 1) eqn:E1.
      * destruct H as [->|[]]. right. left. split; [assumption|lia].
      * destruct (get_flag x =? 0) eqn:E0; [|destruct H].
        right. right. destruct (last_flag prev (rid_of x)) as [f|] eqn:EL.
        -- destruct (f =? 0) eqn:Ef; [|destruct H]. destruct H as [->|[]].
           split; [assumption|]. split; [lia|]. right. rewrite EL. f_equal. lia.
        -- destruct H as [->|[]]. split; [assumption|]. split; [lia|]. now left.
  - intros [(H1 & H2)|[(H1 & H2)|(H1 & H2 & H3)]].
    + left. exists d. split; [assumption|]. rewrite map_has_convert by auto.
      apply mem_not in H2. rewrite H2. now left.
    + right. exists d. split; [assumption|]. rewrite H2. now left.
    + right. exists d. split; [assumption|]. rewrite H2. cbn [N.eqb FLAG_ADDED FLAG_REMOVED Pos.eqb].
      rewrite map_get_convert by auto. destruct H3 as [-> | ->]; now left.
Qed.

Lemma wf_apply_diff diff prev : Forall wf_sd diff -> Forall wf_sd prev -> Forall wf_sd (apply_diff diff prev).
Proof.
  intros HD HP. apply Forall_forall. intros d Hd.
  apply in_apply_diff in Hd; [|assumption|assumption]. rewrite Forall_forall in HD, HP.
  destruct Hd as [(H & _)|[(H & _)|(H & _)]]; auto.
Qed.

Lemma flags_apply_diff diff prev : Forall wf_sd diff -> Forall wf_sd prev -> flags01 diff -> flags01 prev ->
  flags01 (apply_diff diff prev).
Proof.
  intros HD HP FD FP d Hd. apply in_apply_diff in Hd; [|assumption|assumption].
  destruct Hd as [(H & _)|[(H & _)|(H & _)]]; auto.
Qed.

(** * C09: merging two diffs *)
Lemma merge_sequential R d1 d2 : Forall wf_sd d1 -> Forall wf_sd d2 ->
  diff_for R d1 -> diff_for (r_apply R d1) d2 ->
  r_eq (r_apply R (apply_diff d2 d1)) (r_apply (r_apply R d1) d2).
Proof.
  intros W1 W2 D1 D2 x.
  pose proof D1 as (F1 & A1 & Wd1). pose proof D2 as (F2 & A2 & Wd2).
  rewrite r_apply_last by (apply flags_apply_diff; assumption).
  rewrite (r_apply_last (r_apply R d1) d2) by assumption.
  pose proof (r_apply_last R d1 x F1) as RL.
  (* the flag of any record for x in the merged list *)
  destruct (last_flag d2 x) as [f2|] eqn:E2.
  - destruct (last_flag_some d2 x f2 E2) as (e & He & Hex & Hef).
    destruct (last_flag (apply_diff d2 d1) x) as [f|] eqn:E.
    + destruct (last_flag_some _ x f E) as (d & Hd & Hdx & Hdf).
      apply in_apply_diff in Hd; [|assumption|assumption].
      assert (f = f2) as ->; [|tauto].
      destruct Hd as [(H1 & H2)|[(H1 & H2)|(H1 & H2 & H3)]].
      * exfalso. apply H2. rewrite Hdx, <- Hex. now apply in_ids.
      * rewrite <- Hdf. now apply (diff_for_flag (r_apply R d1) d2 d x).
      * rewrite <- Hdf. now apply (diff_for_flag (r_apply R d1) d2 d x).
    + (* x disappeared: added by d1, withdrawn by d2 *)
      apply last_flag_none in E.
      assert (N1 : get_flag e <> 1).
      { intros G. apply E. rewrite <- Hex. apply in_ids. apply in_apply_diff; auto. }
      assert (G0 : get_flag e = 0) by (destruct (F2 e He); congruence).
      destruct (last_flag d1 x) as [f1|] eqn:E1.
      * destruct (last_flag_some d1 x f1 E1) as (c & Hc & Hcx & Hcf).
        assert (f1 = 1).
        { destruct (F1 c Hc) as [G|G]; [congruence|]. exfalso. apply E. rewrite <- Hex. apply in_ids.
          apply in_apply_diff; auto. right. right. split; [assumption|]. split; [assumption|].
          right. rewrite Hex, E1. congruence. }
        split; intros HH; [|congruence].
        exfalso. apply (A1 c Hc); [congruence|]. now rewrite Hcx.
      * exfalso. apply E. rewrite <- Hex. apply in_ids. apply in_apply_diff; auto.
        right. right. split; [assumption|]. split; [assumption|]. left. now rewrite Hex.
  - rewrite RL. clear RL. assert (N2 : ~ In x (ids d2)) by now apply last_flag_none.
    destruct (last_flag (apply_diff d2 d1) x) as [f|] eqn:E.
    + destruct (last_flag_some _ x f E) as (d & Hd & Hdx & Hdf).
      apply in_apply_diff in Hd; [|assumption|assumption].
      destruct Hd as [(H1 & H2)|[(H1 & H2)|(H1 & H2 & H3)]].
      2,3: exfalso; apply N2; rewrite <- Hdx; now apply in_ids.
      destruct (last_flag d1 x) as [f1|] eqn:E1.
      * assert (f = f1) as ->; [|tauto]. rewrite <- Hdf. now apply (diff_for_flag R d1 d x).
      * exfalso. apply last_flag_none in E1. apply E1. rewrite <- Hdx. now apply in_ids.
    + destruct (last_flag d1 x) as [f1|] eqn:E1; [|tauto].
      destruct (last_flag_some d1 x f1 E1) as (c & Hc & Hcx & Hcf).
      exfalso. apply last_flag_none in E. apply E. rewrite <- Hcx. apply in_ids.
      apply in_apply_diff; auto. left. split; [assumption|]. now rewrite Hcx.
Qed.

(** C10: withdrawals of a merged diff are clean; an announcement is unclean exactly
    when the record was withdrawn by the first diff and re-announced by the second. *)
Lemma merge_withdraws_clean R d1 d2 : Forall wf_sd d1 -> Forall wf_sd d2 ->
  diff_for R d1 -> diff_for (r_apply R d1) d2 -> withdraws_clean R (apply_diff d2 d1).
Proof.
  intros W1 W2 D1 D2 d Hd Hf.
  pose proof D1 as (F1 & A1 & Wd1). pose proof D2 as (F2 & A2 & Wd2).
  apply in_apply_diff in Hd; [|assumption|assumption].
  destruct Hd as [(H1 & H2)|[(H1 & H2)|(H1 & H2 & H3)]]; [now apply Wd1|congruence|].
  pose proof (Wd2 d H1 H2) as HR. rewrite r_apply_last in HR by assumption.
  destruct H3 as [H3|H3]; rewrite H3 in HR; [exact HR|discriminate].
Qed.

Lemma merge_announces_iff R d1 d2 : Forall wf_sd d1 -> Forall wf_sd d2 ->
  diff_for R d1 -> diff_for (r_apply R d1) d2 ->
  (announces_clean R (apply_diff d2 d1) <->
   ~ exists a b, In a d1 /\ In b d2 /\ rid_of a = rid_of b /\ get_flag a = 0 /\ get_flag b = 1).
Proof.
  intros W1 W2 D1 D2.
  pose proof D1 as (F1 & A1 & Wd1). pose proof D2 as (F2 & A2 & Wd2).
  split.
  - intros H (a & b & Ha & Hb & E & Fa & Fb).
    apply (H b); [apply in_apply_diff; auto|exact Fb|]. rewrite <- E. now apply Wd1.
  - intros H d Hd Hf HR. apply in_apply_diff in Hd; [|assumption|assumption].
    destruct Hd as [(H1 & H2)|[(H1 & H2)|(H1 & H2 & H3)]]; [now apply (A1 d)| |congruence].
    pose proof (A2 d H1 H2) as HN. rewrite r_apply_last in HN by assumption.
    destruct (last_flag d1 (rid_of d)) as [f|] eqn:E; [|contradiction].
    destruct (last_flag_some _ _ _ E) as (c & Hc & Ec & Fc).
    apply H. exists c, d. repeat split; auto.
    destruct (F1 c Hc); congruence.
Qed.

(** * A boolean check of [wf_sd], for examples *)
Definition wf_addrb (a : addr) : bool :=
  match a with A0 => true | A4 x => x <? 2 ^ 32 | A6 x => x <? 2 ^ 128 end.
Definition wf_prefixb (p : prefix) : bool :=
  wf_addrb (p_addr p) &&
  match p_bits p with Some b => negb (addr_eqb (p_addr p) A0) && (b <=? bitlen (p_addr p)) | None => true end.
Lemma wf_prefixb_ok p : wf_prefixb p = true -> wf_prefix p.
Proof.
  destruct p as [a b]. unfold wf_prefixb, wf_prefix. cbn [p_addr p_bits].
  rewrite andb_true_iff. intros [H1 H2]. split.
  - destruct a as [|x|x]; cbn [wf_addr wf_addrb] in *; [exact I|apply N.ltb_lt; exact H1|apply N.ltb_lt; exact H1].
  - destruct b as [b|]; [|exact I]. rewrite andb_true_iff in H2. destruct H2 as [H2 H3].
    split; [destruct a; try discriminate|apply N.leb_le; exact H3].
Qed.
Definition wf_sdb (d : sd) : bool :=
  match d with
  | VRP p a m f => wf_prefixb p && is_valid p && (a <? 4294967296) && (m <? 256) && (f <? 256)
  | BgpsecKey a s k f => (a <? 4294967296) && bytes_okb s && bytes_okb k && (f <? 256)
  end.
Lemma wf_sdb_ok d : wf_sdb d = true -> wf_sd d.
Proof.
  destruct d; cbn [wf_sdb wf_sd]; rewrite !andb_true_iff, ?N.ltb_lt; unfold u32, u8.
  - intros [[[[H1 H2] H3] H4] H5]. split; [now apply wf_prefixb_ok|auto].
  - intros [[[H1 H2] H3] H4]. rewrite bytes_okb_ok in H2, H3. auto.
Qed.
Lemma wf_sds_ok l : forallb wf_sdb l = true -> Forall wf_sd l.
Proof. intros H. apply Forall_forall. intros x Hx. apply wf_sdb_ok. rewrite forallb_forall in H. auto. Qed.
Lemma wf_sdss_ok l : forallb (forallb wf_sdb) l = true -> Forall (Forall wf_sd) l.
Proof. intros H. apply Forall_forall. intros x Hx. apply wf_sds_ok. rewrite forallb_forall in H. auto. Qed.
