(** Local exceptions on the records, and what a router that connects afresh holds. *)
From Coq Require Import ZArith ZifyBool ZifyNat ZifyN.
From Verif Require Import Model.Conn Spec.Input Spec.Refresh Spec.Sets Spec.History Spec.Response Spec.Router Spec.Rov Spec.EndToEnd Spec.Exceptions
  Proofs.FormatP Proofs.DataP Proofs.CacheP Proofs.ConnP Proofs.JsonP Proofs.SlurmP Proofs.StateP Proofs.RouterP Proofs.EndToEndP.
From Coq Require Import List.
Local Open Scope list_scope.
Local Open Scope N_scope.

Lemma listed_app now vs vs' bs bs' x : listed now (vs ++ vs') (bs ++ bs') x <-> listed now vs bs x \/ listed now vs' bs' x.
Proof.
  unfold listed. split.
  - intros [(v & p & asn & HV & H)|(b & k & HB & H)]; [apply in_app_or in HV as [HV|HV]|apply in_app_or in HB as [HB|HB]]; eauto 10.
  - intros [[(v & p & asn & HV & H)|(b & k & HB & H)]|[(v & p & asn & HV & H)|(b & k & HB & H)]].
    + left. exists v, p, asn. split; [apply in_or_app; now left|exact H].
    + right. exists b, k. split; [apply in_or_app; now left|exact H].
    + left. exists v, p, asn. split; [apply in_or_app; now right|exact H].
    + right. exists b, k. split; [apply in_or_app; now right|exact H].
Qed.
Lemma hex_inj t k k' : is_hex_of t k -> is_hex_of t k' -> k = k'.
Proof. intros H H'. apply hex_decode_spec in H, H'. rewrite H in H'. now injection H'. Qed.
Lemma lower_hex k : bytes_ok k -> is_hex_of (hex_encode k) k.
Proof. intros H. apply hex_decode_spec. now apply hex_decode_encode. Qed.

Lemma filters_exclude now s roa brk x : readable s ->
  listed now (fst (filter_on_vrps (s_pfilters s) roa)) (fst (filter_on_brks (s_bfilters s) brk)) x <-> listed now roa brk x /\ ~ excluded s x.
Proof.
  intros [HF _]. rewrite filter_on_vrps_eq, filter_on_brks_eq. cbn [fst].
  assert (PF : forall v p asn f, In f (s_pfilters s) -> entry_ok now v p asn -> pf_match f v = true <-> pf_covers f p asn).
  { intros v p asn f Hf (H1 & H2 & _). apply pf_match_spec; auto. }
  assert (BF : forall b k, is_hex_of (bj_ski b) k -> brk_match (s_bfilters s) None b = true <-> excluded s (RK (bj_asn b) k (bj_pubkey b))).
  { intros b k Hk. pose proof Hk as Hk'. apply hex_decode_spec in Hk'. rewrite (brk_match_hex b k Hk') by now left. rewrite existsb_exists. cbn [excluded].
    assert (E : forall f, bf_matchb f (bj_asn b) k = true <-> (bf_asn f <> None \/ bf_ski f <> []) /\ (bf_asn f = None \/ bf_asn f = Some (bj_asn b)) /\ (bf_ski f = [] \/ bf_ski f = k)).
    { intros f. rewrite (bf_matchb_spec f b k Hk'). unfold bf_agrees. split; intros (A & B & C); repeat (split; [assumption|]); destruct C as [C|C]; auto; right.
      - exact (hex_inj _ _ _ C Hk).
      - now rewrite C. }
    split; intros (f & F1 & F2); exists f; (split; [exact F1|]); now apply E. }
  split.
  - intros [(v & p & asn & HV & HE & ->)|(b & k & HB & HX & HK & ->)].
    + apply filter_In in HV as [HV HM]. split; [left; eauto 6|]. intros (f & Hf & HC). apply (PF v p asn f Hf HE) in HC.
      assert (existsb (fun f => pf_match f v) (s_pfilters s) = true) as E by (apply existsb_exists; eauto). rewrite E in HM. discriminate HM.
    + apply filter_In in HB as [HB HM]. split; [right; eauto 7|]. intros HC. apply (BF b k HK) in HC. rewrite HC in HM. discriminate HM.
  - intros [[(v & p & asn & HV & HE & ->)|(b & k & HB & HX & HK & ->)] HN].
    + left. exists v, p, asn. split; [|auto]. apply filter_In. split; [exact HV|]. apply Bool.negb_true_iff, Bool.not_true_iff_false. intros E. apply existsb_exists in E as (f & Hf & HM).
      apply HN. exists f. split; [exact Hf|]. now apply (PF v p asn f Hf HE).
    + right. exists b, k. split; [|auto]. apply filter_In. split; [exact HB|]. apply Bool.negb_true_iff, Bool.not_true_iff_false. intros E. apply HN. now apply (BF b k HK).
Qed.
Lemma assertions_include now s x : wf_slurm s -> readable s -> listed now (assert_vrps (s_passerts s)) (assert_brks (s_basserts s)) x <-> included s x.
Proof.
  intros [W1 W2] [_ HM]. rewrite Forall_forall in W1, W2. split.
  - intros [(v & p & asn & HV & (H1 & H2 & (b & B1 & B2 & B3 & B4) & H4) & ->)|(b & k & HB & HX & HK & ->)].
    + unfold assert_vrps in HV. apply in_flat_map in HV as (a & Ha & HV). destruct (cidr_size (pa_prefix a)) as [size|] eqn:EC; [|destruct HV].
      destruct HV as [<-|[]]. cbn [vj_prefix vj_asn vj_length] in *. rewrite (cidr_parse _ _ H1), B1 in EC. injection EC as <-.
      exists a, b. do 4 (split; [assumption|]). split; [cbn in H2; now injection H2|]. split; [|exact B4].
      specialize (HM a Ha). apply parse_prefix_bits in H1 as (b' & Hb' & Hl & _). rewrite B1 in Hb'. injection Hb' as <-.
      assert (bitlen (p_addr p) <= 128) by (destruct (p_addr p); cbn [bitlen]; lia).
      unfold to_u8. destruct (pa_maxlen a <=? Z.of_N b)%Z eqn:E; lia.
    + unfold assert_brks in HB. apply in_map_iff in HB as (a & <- & Ha). cbn [bj_asn bj_ski bj_pubkey] in *. exists a. split; [exact Ha|]. split; [reflexivity|]. split; [|reflexivity].
      apply (hex_inj _ _ _ (lower_hex (ba_ski a) ltac:(now apply W2)) HK).
  - destruct x as [p asn m|asn ski key]; cbn [included].
    + intros (a & b & Ha & H1 & B1 & B2 & <- & -> & B4). left.
      exists (mkVJ (pa_prefix a) (N.max b (Z.to_N (pa_maxlen a))) (AsnU32 (pa_asn a)) (pa_comment a) None), p, (pa_asn a). cbn [vj_length]. split.
      * unfold assert_vrps. apply in_flat_map. exists a. split; [exact Ha|]. rewrite (cidr_parse _ _ H1), B1. left. f_equal.
        specialize (HM a Ha). pose proof H1 as H1'. apply parse_prefix_bits in H1' as (b' & Hb' & Hl & _). rewrite B1 in Hb'. injection Hb' as <-.
        assert (bitlen (p_addr p) <= 128) by (destruct (p_addr p); cbn [bitlen]; lia).
        unfold to_u8. destruct (pa_maxlen a <=? Z.of_N b)%Z eqn:E; lia.
      * split; [|reflexivity]. split; [exact H1|]. split; [reflexivity|]. split; [|exact I]. exists b. cbn [vj_length]. repeat split; auto. lia.
    + intros (a & Ha & <- & <- & <-). right. exists (mkBJ (ba_asn a) None [] (ba_key a) (hex_encode (ba_ski a))), (ba_ski a). cbn [bj_asn bj_ski bj_pubkey bj_expires].
      split; [unfold assert_brks; apply in_map_iff; eauto|]. split; [exact I|]. split; [|reflexivity]. apply lower_hex. now apply W2.
Qed.
(** What the daemon makes of file and exceptions is what they stand for. *)
Lemma content_due now sl d x : match sl with Some s => wf_slurm s /\ readable s | None => True end ->
  content now sl d x <-> due (now / 1000000000) sl (roa_of d) (rl_brk d) x.
Proof.
  destruct sl as [s|]; [|reflexivity]. intros [HW HR]. cbn [content due]. unfold filter_assert. cbn [fst snd].
  rewrite listed_app, (filters_exclude _ s _ _ x HR), (assertions_include _ s x HW HR). reflexivity.
Qed.

(** * A router that connects afresh *)
Lemma turn_feeds e c h i : wf_env e ->
  no_dup_keys (st_slurm (State.after e c (h ++ [i]))) (st_data (State.after e c (h ++ [i]))) ->
  exists us, Forall (Forall wf_sd) us /\ Forall (fun n => NoDup (ids n)) us /\
    st_server (State.after e c (h ++ [i])) = run (st_server (State.after e c h)) us.
Proof.
  intros HE HN. rewrite after_snoc in *. pose proof (turn_outcome e c h i HE (after_inv e c h HE)) as HT.
  pose proof (fetch_spec e (slurm_on c h) i (State.after e c h)) as HF.
  destruct (fetch _ _ _ _) as [s2 new]. destruct (turn e c h i) as [s' ns]. cbn [fst] in *.
  destruct HF as (F1 & _). destruct HT as [HI HO]. pose proof (outcome_keeps _ _ _ _ _ _ _ _ HO) as (K1 & K2 & _). rewrite K1, K2 in HN.
  assert (ONE : forall sds, Forall wf_sd sds -> NoDup (ids sds) -> st_server s' = step (st_server s2) sds ->
    exists us, Forall (Forall wf_sd) us /\ Forall (fun n => NoDup (ids n)) us /\ st_server s' = run (st_server (State.after e c h)) us).
  { intros sds Hw Hd E. exists [sds]. split; [now constructor|]. split; [now constructor|]. rewrite E, F1. reflexivity. }
  assert (NONE : st_server s' = st_server s2 ->
    exists us, Forall (Forall wf_sd) us /\ Forall (fun n => NoDup (ids n)) us /\ st_server s' = run (st_server (State.after e c h)) us).
  { intros E. exists []. split; [constructor|]. split; [constructor|]. cbn. now rewrite E. }
  destruct HO as [? s1 sds v b ? ? _ _ HWs _ HNs HP (_ & _ & _ & HS & _)|s1 sds v b ? ? _ _ HWs _ HNs HP [(_ & _ & _ & _ & HS & _)|(_ & -> & _)]|?|? t _ _ _ _ _ _ HS _ _ _ _].
  - apply prepare_keeps in HP as (_ & HQ & _). rewrite HQ in HS. apply (ONE sds); auto.
  - apply prepare_keeps in HP as (_ & HQ & _). rewrite HQ in HS. apply (ONE sds); auto.
  - apply prepare_keeps in HP as (_ & HQ & _). now apply NONE.
  - now apply NONE.
  - apply (ONE []); [constructor|constructor|exact HS].
Qed.
Lemma after_feeds e c h : wf_env e -> keys_once e c h ->
  exists us, Forall (Forall wf_sd) us /\ Forall (fun n => NoDup (ids n)) us /\ st_server (State.after e c h) = run (new_server 3) us.
Proof.
  intros HE. induction h as [|i h IH] using rev_ind; intros HK.
  - exists []. split; [constructor|]. split; [constructor|reflexivity].
  - destruct IH as (us & U1 & U2 & U3); [intros h1 h2 E; apply (HK h1 (h2 ++ [i])); now rewrite E, app_assoc|].
    destruct (turn_feeds e c h i HE) as (vs & V1 & V2 & V3); [apply (HK (h ++ [i]) []); now rewrite app_nil_r|].
    exists (us ++ vs). split; [apply Forall_app; auto|]. split; [apply Forall_app; auto|]. unfold run in *. rewrite fold_left_app, <- U3. exact V3.
Qed.
Lemma okr_allowed v nk x : okr v nk x = true <-> allowed v nk x.
Proof. destruct x; cbn [okr allowed]; [tauto|]. destruct nk, (v =? 0) eqn:E; cbn; intuition (try discriminate; try lia). Qed.
(** It gets what is served, also if that is nothing. *)
Lemma newcomer e c cfg s v tr h : wf_env e -> u16 s -> cfg_version cfg < 256 -> v <= cfg_version cfg -> acceptable (accept tr (new_rtr_server cfg s)) v ->
  keys_once e c h ->
  exists cl r, poll (new_rtr_server cfg s) v (st_server (State.after e c h)) (accept tr (new_rtr_server cfg s)) fresh_router = Some (cl, r) /\
    forall x, In x (ro_set r) <-> allowed v (keys_off tr cfg) x /\ served (State.after e c h) x.
Proof.
  intros HE Hs Hb Hv HA HK. destruct (after_feeds e c h HE HK) as (us & U1 & U2 & U3).
  destruct (ask_reset cfg s v tr 3 Hs Hb Hv us (accept tr (new_rtr_server cfg s)) fresh_router U1 U2) as (cl & r & E & _ & R0 & R1).
  { split; [constructor|]. split; [|exact HA]. unfold accept. destruct (s_enforce _), tr; try reflexivity; destruct (s_disableBGPSec _); reflexivity. }
  { reflexivity. }
  rewrite <- U3 in E, R0, R1. exists cl, r. unfold poll. rewrite E. cbn [fresh_router ro_at]. split; [reflexivity|].
  intros x. unfold served, get_current_sds. destruct (sdCurrent (st_server (State.after e c h))) as [|d l] eqn:EC.
  - rewrite R0 by reflexivity. cbn. tauto.
  - destruct R1 as [_ R1]; [discriminate|]. rewrite R1, okr_allowed. reflexivity.
Qed.

(** Router keys do not matter for routes. *)
Lemma alike_vrps (R S : rset) : (forall p a m, R (RV p a m) <-> S (RV p a m)) -> alike R S.
Proof.
  intros H t.
  assert (V : valid R t <-> valid S t) by (split; intros (x & H1 & H2); (destruct x as [p a m|]; [|destruct H2]); exists (RV p a m); (split; [now apply H|exact H2])).
  assert (C : covered R t <-> covered S t) by (split; intros (x & H1 & H2); (destruct x as [p a m|]; [|destruct H2]); exists (RV p a m); (split; [now apply H|exact H2])).
  unfold invalid, not_found. tauto.
Qed.
