(** Lemmas on the refresh of the data. *)
From Coq Require Import ZifyBool ZifyNat ZifyN Permutation.
From Verif Require Import Model.State Spec.Refresh Proofs.FormatP Proofs.DataP Proofs.CacheP Proofs.JsonP Proofs.ProcessP Proofs.SlurmP.
Ltac Zify.zify_post_hook ::= Z.div_mod_to_equations.

(** * The slices *)
Lemma append_shared_read {A} spare (base tail a : list A) :
  let (v, t) := append_shared spare base tail a in read base t v = base ++ a.
Proof.
  unfold append_shared. destruct (length a <=? spare)%nat; cbn [read]; [|reflexivity].
  now rewrite firstn_app, firstn_all, Nat.sub_diag, firstn_O, app_nil_r.
Qed.
Definition processed (sl : option slurm) (d : rpkilist) : list vrpjson * list brkjson :=
  match sl with None => (roa_of d, rl_brk d) | Some s => filter_assert s (roa_of d) (rl_brk d) end.
Lemma content_processed now sl d x :
  content now sl d x = listed (now / second) (fst (processed sl d)) (snd (processed sl d)) x.
Proof. destruct sl; reflexivity. Qed.
Lemma slurm_step_values s roa : rl_roa (st_data s) = Some roa ->
  let '(v, vt, b, bt) := slurm_step s roa in
  (read roa vt v, read (rl_brk (st_data s)) bt b) = processed (st_slurm s) (st_data s).
Proof.
  intros HR. assert (HO : roa_of (st_data s) = roa) by (unfold roa_of; now rewrite HR).
  unfold slurm_step, processed. rewrite HO. destruct (st_slurm s) as [sl|].
  2:{ cbn [read firstn]. now rewrite !app_nil_r. }
  unfold filter_assert.
  set (av := assert_vrps (s_passerts sl)). set (ab := assert_brks (s_basserts sl)).
  pose proof (append_shared_read (rl_spare (st_data s)) roa (st_vtail s) av) as H1.
  pose proof (append_shared_read (rl_bspare (st_data s)) (rl_brk (st_data s)) (st_btail s) ab) as H2.
  destruct (append_shared (rl_spare (st_data s)) roa (st_vtail s) av) as [v1 t1].
  destruct (append_shared (rl_bspare (st_data s)) (rl_brk (st_data s)) (st_btail s) ab) as [v2 t2].
  destruct (s_pfilters sl) as [|f fs]; destruct (s_bfilters sl) as [|g gs];
    rewrite ?H1, ?H2; reflexivity.
Qed.

(** * Well-formedness *)
Lemma to_u8_lt z : to_u8 z < 256.
Proof. unfold to_u8. lia. Qed.
Lemma Forall_incl {A} (P : A -> Prop) l m : incl m l -> Forall P l -> Forall P m.
Proof. rewrite !Forall_forall. intros H1 H2 x Hx. apply H2, H1, Hx. Qed.
Lemma processed_wf sl d : wf_list d -> match sl with Some s => wf_slurm s | None => True end ->
  Forall wf_vj (fst (processed sl d)) /\ Forall wf_bj (snd (processed sl d)).
Proof.
  intros [H1 H2] HS. destruct sl as [s|]; [|split; assumption].
  destruct HS as [S1 S2]. unfold processed, filter_assert. cbn [fst snd]. split; apply Forall_app; split.
  - rewrite filter_on_vrps_eq. cbn [fst]. apply (Forall_incl _ (roa_of d)); [|exact H1].
    intros x Hx. now apply filter_In in Hx.
  - unfold assert_vrps. apply Forall_forall. intros v Hv. apply in_flat_map in Hv as (a & Ha & Hv).
    destruct (cidr_size (pa_prefix a)); [|destruct Hv]. destruct Hv as [<-|[]]. unfold wf_vj. cbn.
    rewrite Forall_forall in S1. specialize (S1 a Ha).
    split; [apply to_u8_lt|exact S1].
  - rewrite filter_on_brks_eq. cbn [fst]. apply (Forall_incl _ (rl_brk d)); [|exact H2].
    intros x Hx. now apply filter_In in Hx.
  - unfold assert_brks. apply Forall_forall. intros b Hb. apply in_map_iff in Hb as (a & <- & Ha).
    rewrite Forall_forall in S2. destruct (S2 a Ha) as (U1 & U2 & U3). unfold wf_bj. cbn. auto.
Qed.

Lemma process_listed sort now vs bs : sorts sort -> Forall wf_vj vs -> Forall wf_bj bs ->
  let '(vrps, brks, _, _) := process_data sort now vs bs in
  Forall wf_sd (vrps ++ brks) /\ (forall x, In x (ids (vrps ++ brks)) <-> listed now vs bs x) /\
  (NoDup (map key_of bs) -> NoDup (ids (vrps ++ brks))).
Proof.
  intros HS HV HB. pose proof (process_vrps sort now vs bs HS HV) as H.
  destruct (process_data sort now vs bs) as [[[vrps brks] c4] c6] eqn:EP.
  assert (EB : brks = brk_loop now bs).
  { unfold process_data in EP. destruct (vrp_loop now vs) as [[[o se] k4] k6]. now injection EP as _ <- _ _. }
  destruct H as (H1 & H2 & _ & H3 & _). subst brks. split; [|split].
  - apply Forall_app. split; [exact H3|now apply brk_loop_wf].
  - intros x. unfold ids. rewrite map_app, in_app_iff, !in_map_iff. unfold listed. split.
    + intros [(d & <- & Hd)|(d & <- & Hd)].
      * left. apply H1 in Hd as (v & p & asn & I1 & I2 & ->). exists v, p, asn. auto.
      * right. apply brk_loop_in in Hd as (b & ski & I1 & I2 & I3 & ->). exists b, ski. auto.
    + intros [(v & p & asn & I1 & I2 & ->)|(b & ski & I1 & I2 & I3 & ->)].
      * left. exists (VRP p asn (vj_length v) 0). split; [reflexivity|]. apply H1. exists v, p, asn. auto.
      * right. exists (BgpsecKey (bj_asn b) ski (bj_pubkey b) 0). split; [reflexivity|].
        apply brk_loop_in. exists b, ski. auto.
  - intros HN. unfold ids. rewrite map_app. apply NoDup_app_disj.
    + exact H2.
    + clear - HN. induction bs as [|b bs IH]; [constructor|]. rewrite brk_loop_cons, map_app.
      cbn [map] in HN. inversion HN as [|? ? N1 N2]; subst. destruct (brk_loop_one now b) as [(ski & F & HX & ->)|[_ ->]].
      2:{ cbn [map app]. now apply IH. }
      cbn [map app]. constructor; [|now apply IH]. intros HI. apply in_map_iff in HI as (d & E & Hd).
      apply brk_loop_in in Hd as (b' & ski' & I1 & _ & I3 & ->). cbn [rid_of] in E. injection E as E1 E2 E3.
      apply N1. apply in_map_iff. exists b'. split; [|exact I1]. unfold key_of.
      destruct HX as [_ HX]. destruct I3 as [_ I3]. rewrite HX, I3. congruence.
    + intros x Hx Hy. apply in_map_iff in Hx as (d & E & Hd). apply in_map_iff in Hy as (d' & E' & Hd').
      apply H1 in Hd as (v & p & asn & _ & _ & ->). apply brk_loop_in in Hd' as (b & ski & _ & _ & _ & ->).
      rewrite <- E in E'. discriminate E'.
Qed.

(** * State invariant *)
Definition wf_os (o : option slurm) : Prop := match o with Some s => wf_slurm s | None => True end.
Definition sinv (s : state) : Prop := inv (st_server s) /\ wf_list (st_data s) /\ wf_os (st_slurm s).

Lemma prepare_spec e s now roa : wf_env e -> sinv s -> rl_roa (st_data s) = Some roa ->
  let '(s1, sds, v, b) := prepare e s now roa in
  Forall wf_sd sds /\ (forall x, In x (ids sds) <-> content now (st_slurm s) (st_data s) x) /\
  (no_dup_keys (st_slurm s) (st_data s) -> NoDup (ids sds)) /\
  (exists vt bt, s1 = set_tails s vt bt /\ slurm_step s roa = (v, vt, b, bt) /\
    (read roa vt v, read (rl_brk (st_data s)) bt b) = processed (st_slurm s) (st_data s)).
Proof.
  intros (HE & _) (_ & HD & HS) HR. unfold prepare. pose proof (slurm_step_values s roa HR) as HV.
  destruct (slurm_step s roa) as [[[v vt] b] bt] eqn:EST.
  destruct (processed_wf (st_slurm s) (st_data s) HD HS) as [W1 W2]. rewrite <- HV in W1, W2. cbn [fst snd] in W1, W2.
  pose proof (process_listed (e_sort e) (now / second) _ _ HE W1 W2) as HP.
  destruct (process_data _ _ _ _) as [[[vrps brks] c4] c6]. destruct HP as (P1 & P2 & P3).
  split; [exact P1|]. split; [|split].
  - intros x. rewrite P2, content_processed, <- HV. reflexivity.
  - intros HN. apply P3. unfold no_dup_keys in HN. replace (read (rl_brk (st_data s)) bt b) with (snd (processed (st_slurm s) (st_data s))).
    + destruct (st_slurm s); exact HN.
    + now rewrite <- HV.
  - exists vt, bt. auto.
Qed.

Definition keeps (s s' : state) : Prop :=
  st_data s' = st_data s /\ st_slurm s' = st_slurm s /\ st_hcache s' = st_hcache s /\ st_hslurm s' = st_hslurm s.

(** What applyUpdateFromNewState does with records [sds]. *)
Definition applied (c : scfg) (s1 : state) (sds : list sd) v b (s' : state) (ns : list N) : Prop :=
  keeps s1 s' /\ st_vtail s' = st_vtail s1 /\ st_btail s' = st_btail s1 /\
  st_server s' = step (st_server s1) sds /\
  ((s' = s1 /\ ns = [] /\ same_set (sdCurrent (st_server s1)) sds) \/
   (~ same_set (sdCurrent (st_server s1)) sds /\ st_exported s' = mkEx (rl_build (st_data s1)) v b /\
    ns = if sc_notify c then [sdCurrentSerial (st_server s')] else [])).
Lemma apply_update_spec c s1 sds v b : inv (st_server s1) -> Forall wf_sd sds ->
  let (s', ns) := apply_update c s1 sds v b in applied c s1 sds v b s' ns.
Proof.
  intros Hi Hw. pose proof (add_data_changes _ _ Hi Hw) as (H1 & H2 & _).
  unfold apply_update, applied, step. destruct (add_data (st_server s1) sds) as [sv ch] eqn:EA. cbn [fst snd] in *.
  destruct ch.
  - split; [repeat split|]. split; [reflexivity|]. split; [reflexivity|]. split; [reflexivity|].
    right. split; [now apply H1|]. split; reflexivity.
  - split; [repeat split|]. split; [reflexivity|]. split; [reflexivity|]. split; [now rewrite H2|].
    left. split; [reflexivity|]. split; [reflexivity|].
    rewrite <- same_setb_eq. apply not_false_is_true. intros E.
    assert (false = true) as HF; [|discriminate HF]. apply H1. rewrite <- same_setb_eq. congruence.
Qed.

(** * The two ways of computing the state again *)
Definition usable (e : env) (c : scfg) (now : Z) (d : rpkilist) : Prop :=
  rl_roa d <> None /\ time_check e c now d = None.
Lemma recent_check e c now d : recent e c now d <-> time_check e c now d = None.
Proof.
  unfold recent, time_check. destruct (sc_check c); [|split; [reflexivity|intros _ HF; discriminate HF]].
  change built with build_time. change day with hours24.
  destruct (build_time e d) as [b|].
  - destruct (b + hours24 <? now)%Z eqn:E; split; try discriminate.
    + intros H. destruct (H eq_refl) as (b' & E' & L). injection E' as <-. lia.
    + reflexivity.
    + intros _ _. exists b. split; [reflexivity|lia].
  - split; [|discriminate]. intros H. destruct (H eq_refl) as (b' & E' & _). discriminate E'.
Qed.

Lemma update_spec e c now proc s : wf_env e -> sinv s ->
  let '(s', ns, err) := update_from_new_state e c now proc s in
  (usable e c now (st_data s) /\ err = None /\
   exists s1 sds v b, Forall wf_sd sds /\ (forall x, In x (ids sds) <-> content proc (st_slurm s) (st_data s) x) /\
     (no_dup_keys (st_slurm s) (st_data s) -> NoDup (ids sds)) /\
     prepare e s proc (roa_of (st_data s)) = (s1, sds, v, b) /\ applied c s1 sds v b s' ns) \/
  (~ usable e c now (st_data s) /\ s' = s /\ ns = [] /\
   (err = Some ETooOld <-> rl_roa (st_data s) <> None /\ time_check e c now (st_data s) = Some ETooOld)).
Proof.
  intros HE Hi. unfold update_from_new_state, usable. destruct (rl_roa (st_data s)) as [roa|] eqn:ER.
  2:{ right. split; [intros [H _]; now apply H|]. repeat split; try discriminate. intros [H _]. now elim H. }
  destruct (time_check e c now (st_data s)) as [x|] eqn:ET.
  { right. split; [intros [_ H]; discriminate H|]. split; [reflexivity|]. split; [reflexivity|].
    split; [intros [= ->]|intros [_ [= ->]]]; split; congruence || reflexivity. }
  pose proof (prepare_spec e s proc roa HE Hi ER) as HP.
  destruct (prepare e s proc roa) as [[[s1 sds] v] b] eqn:EPR. destruct HP as (P1 & P2 & P3 & vt & bt & -> & _).
  assert (Hi1 : inv (st_server (set_tails s vt bt))) by apply Hi.
  pose proof (apply_update_spec c _ _ v b Hi1 P1) as HA.
  destruct (apply_update c (set_tails s vt bt) sds v b) as [s2 ns]. left. split; [split; [discriminate|reflexivity]|].
  split; [reflexivity|]. exists (set_tails s vt bt), sds, v, b. split; [exact P1|]. split; [exact P2|]. split; [exact P3|].
  split; [|exact HA]. unfold roa_of. now rewrite ER.
Qed.
Lemma reload_spec e c now proc s : wf_env e -> sinv s ->
  let (s', ns) := reload_from_current_state e c now proc s in
  (usable e c now (st_data s) /\
   exists s1 sds v b, Forall wf_sd sds /\ (forall x, In x (ids sds) <-> content proc (st_slurm s) (st_data s) x) /\
     (no_dup_keys (st_slurm s) (st_data s) -> NoDup (ids sds)) /\
     prepare e s proc (roa_of (st_data s)) = (s1, sds, v, b) /\
     ((nlen (sdCurrent (st_server s)) <> nlen sds /\ applied c s1 sds v b s' ns) \/
      (nlen (sdCurrent (st_server s)) = nlen sds /\ s' = s1 /\ ns = []))) \/
  (~ usable e c now (st_data s) /\ s' = s /\ ns = []).
Proof.
  intros HE Hi. unfold reload_from_current_state, usable. destruct (rl_roa (st_data s)) as [roa|] eqn:ER.
  2:{ right. split; [intros [H _]; now apply H|]. repeat split. }
  destruct (time_check e c now (st_data s)) as [x|] eqn:ET.
  { right. split; [intros [_ H]; discriminate H|]. split; reflexivity. }
  pose proof (prepare_spec e s proc roa HE Hi ER) as HP.
  destruct (prepare e s proc roa) as [[[s1 sds] v] b] eqn:EPR. destruct HP as (P1 & P2 & P3 & vt & bt & -> & _).
  assert (Hi1 : inv (st_server (set_tails s vt bt))) by apply Hi.
  pose proof (apply_update_spec c _ _ v b Hi1 P1) as HA.
  destruct (negb (count_sds (st_server (set_tails s vt bt)) =? nlen sds)) eqn:EN.
  - destruct (apply_update c (set_tails s vt bt) sds v b) as [s2 ns]. left. split; [split; [discriminate|reflexivity]|].
    exists (set_tails s vt bt), sds, v, b. split; [exact P1|]. split; [exact P2|]. split; [exact P3|].
    split; [unfold roa_of; now rewrite ER|]. left. split; [|exact HA].
    apply negb_true_iff, N.eqb_neq in EN. exact EN.
  - left. split; [split; [discriminate|reflexivity]|].
    exists (set_tails s vt bt), sds, v, b. split; [exact P1|]. split; [exact P2|]. split; [exact P3|].
    split; [unfold roa_of; now rewrite ER|]. right. split; [|split; reflexivity].
    apply negb_false_iff, N.eqb_eq in EN. exact EN.
Qed.

(** * Fetching *)
Lemma beqb_false a b : beqb a b = false -> a <> b.
Proof. intros E ->. rewrite (proj2 (beqb_eq b b) eq_refl) in E. discriminate E. Qed.
Lemma update_file_spec e f s : let (s', u) := update_file e f s in
  st_server s' = st_server s /\ st_slurm s' = st_slurm s /\ st_hslurm s' = st_hslurm s /\
  exported_roa s' = exported_roa s /\ exported_brk s' = exported_brk s /\
  ex_build (st_exported s') = ex_build (st_exported s) /\
  (u = false -> st_data s' = st_data s /\ st_exported s' = st_exported s /\ st_vtail s' = st_vtail s /\ st_btail s' = st_btail s) /\
  (u = true -> st_vtail s' = [] /\ st_btail s' = [] /\
     st_exported s' = mkEx (ex_build (st_exported s)) (Own (exported_roa s)) (Own (exported_brk s)) /\
     exists x, f = Some x /\ e_decode e x = Some (st_data s')) /\
  st_hcache s' = match f with None => st_hcache s | Some x => Some (e_sha e x) end /\
  (u = true <-> exists x d, f = Some x /\ e_decode e x = Some d /\ st_hcache s <> Some (e_sha e x)).
Proof.
  unfold update_file. destruct f as [x|].
  2:{ repeat split; try discriminate. intros (x & d & E & _). discriminate E. }
  destruct (match st_hcache s with Some h0 => beqb h0 (e_sha e x) | None => false end) eqn:ES.
  { destruct (st_hcache s) as [h0|] eqn:EH; [|discriminate ES]. apply beqb_eq in ES. subst h0.
    repeat split; try discriminate; try assumption. intros (y & d & [= <-] & _ & H). now elim H. }
  assert (HN : st_hcache s <> Some (e_sha e x)).
  { destruct (st_hcache s) as [h0|]; [|discriminate]. apply beqb_false in ES. intros [= E]. now apply ES. }
  destruct (e_decode e x) as [d|] eqn:ED; cbn.
  - do 6 (split; [reflexivity|]). split; [discriminate|]. split.
    { intros _. do 3 (split; [reflexivity|]). exists x. auto. }
    split; [reflexivity|]. split; [intros _; exists x, d; auto|reflexivity].
  - repeat split; try discriminate. intros (y & d & [= <-] & E & _). congruence.
Qed.
Lemma update_slurm_spec e f s : let (s', u) := update_slurm e f s in
  st_server s' = st_server s /\ st_data s' = st_data s /\ st_hcache s' = st_hcache s /\
  st_exported s' = st_exported s /\ st_vtail s' = st_vtail s /\ st_btail s' = st_btail s /\
  (u = false -> st_slurm s' = st_slurm s) /\
  (u = true -> exists x sl, f = Some x /\ e_dslurm e x = Some sl /\ st_slurm s' = Some sl) /\
  st_hslurm s' = match f with None => st_hslurm s | Some x => Some (e_sha e x) end /\
  (u = true <-> exists x d, f = Some x /\ e_dslurm e x = Some d /\ st_hslurm s <> Some (e_sha e x)).
Proof.
  unfold update_slurm. destruct f as [x|].
  2:{ repeat split; try discriminate. intros (x & d & E & _). discriminate E. }
  destruct (match st_hslurm s with Some h0 => beqb h0 (e_sha e x) | None => false end) eqn:ES.
  { destruct (st_hslurm s) as [h0|] eqn:EH; [|discriminate ES]. apply beqb_eq in ES. subst h0.
    repeat split; try discriminate; try assumption. intros (y & d & [= <-] & _ & H). now elim H. }
  assert (HN : st_hslurm s <> Some (e_sha e x)).
  { destruct (st_hslurm s) as [h0|]; [|discriminate]. apply beqb_false in ES. intros [= E]. now apply ES. }
  destruct (e_dslurm e x) as [d|] eqn:ED; cbn.
  - do 6 (split; [reflexivity|]). split; [discriminate|]. split; [intros _; exists x, d; auto|].
    split; [reflexivity|]. split; [intros _; exists x, d; auto|reflexivity].
  - repeat split; try discriminate. intros (y & d & [= <-] & E & _). congruence.
Qed.

Lemma fetch_spec e on i s : let (s', u) := fetch e on i s in
  st_server s' = st_server s /\
  exported_roa s' = exported_roa s /\ exported_brk s' = exported_brk s /\
  ex_build (st_exported s') = ex_build (st_exported s) /\
  (u = false -> st_data s' = st_data s /\ st_slurm s' = st_slurm s /\ st_exported s' = st_exported s /\
                st_vtail s' = st_vtail s /\ st_btail s' = st_btail s) /\
  (wf_env e -> sinv s -> sinv s') /\
  (on = false -> st_slurm s' = st_slurm s) /\
  ((st_data s' = st_data s /\ st_exported s' = st_exported s /\ st_vtail s' = st_vtail s /\ st_btail s' = st_btail s) \/
   (st_vtail s' = [] /\ st_btail s' = [] /\
    st_exported s' = mkEx (ex_build (st_exported s)) (Own (exported_roa s)) (Own (exported_brk s)) /\
    exists x, i_file i = Some x /\ e_decode e x = Some (st_data s'))) /\
  st_hcache s' = match i_file i with None => st_hcache s | Some x => Some (e_sha e x) end /\
  st_hslurm s' = (if on then match i_slurm i with None => st_hslurm s | Some x => Some (e_sha e x) end else st_hslurm s) /\
  (u = true <-> (exists x d, i_file i = Some x /\ e_decode e x = Some d /\ st_hcache s <> Some (e_sha e x)) \/
     (on = true /\ exists x d, i_slurm i = Some x /\ e_dslurm e x = Some d /\ st_hslurm s <> Some (e_sha e x))).
Proof.
  unfold fetch.
  assert (HS : let (s1, u1) := (if on then update_slurm e (i_slurm i) s else (s, false)) in
    st_server s1 = st_server s /\ st_data s1 = st_data s /\ st_hcache s1 = st_hcache s /\
    st_exported s1 = st_exported s /\ st_vtail s1 = st_vtail s /\ st_btail s1 = st_btail s /\
    (u1 = false -> st_slurm s1 = st_slurm s) /\
    (u1 = true -> exists x sl, i_slurm i = Some x /\ e_dslurm e x = Some sl /\ st_slurm s1 = Some sl) /\
    st_hslurm s1 = (if on then match i_slurm i with None => st_hslurm s | Some x => Some (e_sha e x) end else st_hslurm s) /\
    (on = false -> st_slurm s1 = st_slurm s) /\
    (u1 = true <-> on = true /\ exists x d, i_slurm i = Some x /\ e_dslurm e x = Some d /\ st_hslurm s <> Some (e_sha e x))).
  { destruct on.
    - pose proof (update_slurm_spec e (i_slurm i) s) as H. destruct (update_slurm e (i_slurm i) s) as [s1 u1].
      destruct H as (A1 & A2 & A3 & A4 & A5 & A6 & A7 & A8 & A9 & A10). do 9 (split; [assumption|]).
      split; [discriminate|]. rewrite A10. split; [intros H; split; [reflexivity|exact H]|intros [_ H]; exact H].
    - do 6 (split; [reflexivity|]). split; [reflexivity|]. split; [discriminate|]. split; [reflexivity|]. split; [reflexivity|].
      split; [discriminate|intros [H _]; discriminate H]. }
  destruct (if on then update_slurm e (i_slurm i) s else (s, false)) as [s1 u1].
  destruct HS as (A1 & A2 & A3 & A4 & A5 & A6 & A7 & A8 & A9 & A9b & A10).
  pose proof (update_file_spec e (i_file i) s1) as HF. destruct (update_file e (i_file i) s1) as [s2 u2].
  destruct HF as (B1 & B2 & B3 & B4 & B5 & B6 & B7 & B8 & B9 & B10).
  assert (EX : exported_roa s1 = exported_roa s) by (unfold exported_roa; congruence).
  assert (EY : exported_brk s1 = exported_brk s) by (unfold exported_brk; congruence).
  split; [congruence|]. split; [congruence|]. split; [congruence|]. split; [congruence|]. split.
  { intros E. apply orb_false_iff in E as [E1 E2]. destruct (B7 E1) as (C1 & C2 & C3 & C4). rewrite B2, (A7 E2).
    repeat split; congruence. }
  split.
  { intros (_ & W1 & W2) (I1 & I2 & I3). split; [now rewrite B1, A1|]. split.
    - destruct u2.
      + destruct (B8 eq_refl) as (_ & _ & _ & x & _ & Hd). now apply W1 in Hd.
      + destruct (B7 eq_refl) as (-> & _). now rewrite A2.
    - rewrite B2. destruct u1.
      + destruct (A8 eq_refl) as (x & sl & _ & Hd & ->). now apply W2 in Hd.
      + now rewrite A7. }
  split; [intros E; rewrite B2; now apply A9b|]. split.
  { destruct u2; [right|left].
    - destruct (B8 eq_refl) as (C1 & C2 & C3 & C4). repeat split; congruence.
    - destruct (B7 eq_refl) as (C1 & C2 & C3 & C4). repeat split; congruence. }
  split; [rewrite B9, A3; reflexivity|]. split; [now rewrite B3|].
  rewrite orb_true_iff, A10, B10, A3. reflexivity.
Qed.

(** * Refreshes *)
Lemma drop_spec e now s : drop_stale e now s = s \/
  (st_server (drop_stale e now s) = step (st_server s) [] /\ keeps s (drop_stale e now s) /\
   st_exported (drop_stale e now s) = st_exported s /\ st_vtail (drop_stale e now s) = st_vtail s /\
   st_btail (drop_stale e now s) = st_btail s /\
   exists t, exported_build e s = Some t /\ (t + hours24 < now)%Z).
Proof.
  unfold drop_stale. destruct (exported_build e s) as [t|]; [|now left].
  destruct (hours24 <? now - t)%Z eqn:E; [|now left]. right. cbn [set_server st_server st_exported st_vtail st_btail].
  split; [reflexivity|]. split; [repeat split|]. do 3 (split; [reflexivity|]). exists t. split; [reflexivity|lia].
Qed.

Lemma after_snoc e c h i : after e c (h ++ [i]) = fst (turn e c h i).
Proof. destruct h as [|j h]; [reflexivity|]. cbn [app after turn]. now rewrite fold_left_app. Qed.
Definition slurm_on (c : scfg) (h : list input) : bool := sc_slurm c && (is_nil h || sc_slurm_refresh c).
Lemma turn_eq e c h i : turn e c h i =
  let '(s2, new) := fetch e (slurm_on c h) i (after e c h) in
  if new || is_nil h then
    let '(s3, ns, err) := update_from_new_state e c (i_now i) (i_proc i) s2 in
    match err with
    | Some ETooOld => (if is_nil h then s3 else drop_stale e (i_late i) s3, ns)
    | _ => (s3, ns)
    end
  else reload_from_current_state e c (i_now i) (i_proc i) s2.
Proof.
  destruct h as [|j h]; cbn [turn is_nil slurm_on].
  - unfold first_refresh, slurm_on. cbn [is_nil orb]. rewrite andb_true_r. cbn [after].
    destruct (fetch e (sc_slurm c) i init_state) as [s2 new]. rewrite orb_true_r.
    destruct (update_from_new_state e c (i_now i) (i_proc i) s2) as [[s3 ns] [[]|]]; reflexivity.
  - unfold refresh, slurm_on. cbn [is_nil orb]. destruct (fetch _ _ _ _) as [s2 new]. rewrite orb_false_r.
    destruct new; [|reflexivity]. destruct (update_from_new_state e c (i_now i) (i_proc i) s2) as [[s3 ns] [[]|]]; reflexivity.
Qed.

(** What one refresh does: fetch, then one of four things. *)
Inductive outcome (e : env) (c : scfg) (h : list input) (i : input) (s2 : state) : bool -> state -> list N -> Prop :=
| O_update new s1 sds v b s' ns : new || is_nil h = true -> usable e c (i_now i) (st_data s2) ->
    Forall wf_sd sds -> (forall x, In x (ids sds) <-> content (i_proc i) (st_slurm s2) (st_data s2) x) ->
    (no_dup_keys (st_slurm s2) (st_data s2) -> NoDup (ids sds)) ->
    prepare e s2 (i_proc i) (roa_of (st_data s2)) = (s1, sds, v, b) -> applied c s1 sds v b s' ns ->
    outcome e c h i s2 new s' ns
| O_reload s1 sds v b s' ns : is_nil h = false -> usable e c (i_now i) (st_data s2) ->
    Forall wf_sd sds -> (forall x, In x (ids sds) <-> content (i_proc i) (st_slurm s2) (st_data s2) x) ->
    (no_dup_keys (st_slurm s2) (st_data s2) -> NoDup (ids sds)) ->
    prepare e s2 (i_proc i) (roa_of (st_data s2)) = (s1, sds, v, b) ->
    ((nlen (sdCurrent (st_server s2)) <> nlen sds /\ applied c s1 sds v b s' ns) \/
     (nlen (sdCurrent (st_server s2)) = nlen sds /\ s' = s1 /\ ns = [])) ->
    outcome e c h i s2 false s' ns
| O_skip new : ~ usable e c (i_now i) (st_data s2) -> outcome e c h i s2 new s2 []
| O_drop s' t : is_nil h = false -> ~ usable e c (i_now i) (st_data s2) ->
    time_check e c (i_now i) (st_data s2) = Some ETooOld -> rl_roa (st_data s2) <> None ->
    exported_build e s2 = Some t -> (t + hours24 < i_late i)%Z ->
    st_server s' = step (st_server s2) [] -> keeps s2 s' -> st_exported s' = st_exported s2 ->
    st_vtail s' = st_vtail s2 -> st_btail s' = st_btail s2 ->
    outcome e c h i s2 true s' [].
Lemma turn_outcome e c h i : wf_env e -> sinv (after e c h) ->
  let (s2, new) := fetch e (slurm_on c h) i (after e c h) in
  let (s', ns) := turn e c h i in
  sinv s2 /\ outcome e c h i s2 new s' ns.
Proof.
  intros HE Hi. rewrite turn_eq. pose proof (fetch_spec e (slurm_on c h) i (after e c h)) as HF.
  destruct (fetch e (slurm_on c h) i (after e c h)) as [s2 new].
  destruct HF as (_ & _ & _ & _ & _ & HW & _). specialize (HW HE Hi). cbv beta iota zeta.
  destruct (new || is_nil h) eqn:EN.
  - pose proof (update_spec e c (i_now i) (i_proc i) s2 HE HW) as HU.
    destruct (update_from_new_state e c (i_now i) (i_proc i) s2) as [[s3 ns] err].
    destruct HU as [(HUS & -> & s1 & sds & v & b & P1 & P2 & P3 & P4 & P5)|(HNU & -> & -> & HERR)].
    + split; [exact HW|]. eapply O_update; eassumption.
    + destruct err as [[]|]; [split; [exact HW|now apply O_skip]| |split; [exact HW|now apply O_skip]].
      split; [exact HW|]. destruct (is_nil h) eqn:EH; [now apply O_skip|].
      destruct (drop_spec e (i_late i) s2) as [->|(D1 & D2 & D3 & D4 & D5 & t & D6 & D7)]; [now apply O_skip|].
      destruct (proj1 HERR eq_refl) as [R1 R2]. rewrite orb_false_r in EN. subst new.
      eapply O_drop; eassumption.
  - pose proof (reload_spec e c (i_now i) (i_proc i) s2 HE HW) as HU. apply orb_false_iff in EN as [-> EH].
    destruct (reload_from_current_state e c (i_now i) (i_proc i) s2) as [s3 ns]. split; [exact HW|].
    destruct HU as [(HUS & s1 & sds & v & b & P1 & P2 & P3 & P4 & P5)|(HNU & -> & ->)].
    + eapply O_reload; eassumption.
    + now apply O_skip.
Qed.

Lemma prepare_keeps e s now roa s1 sds v b : prepare e s now roa = (s1, sds, v, b) ->
  keeps s s1 /\ st_server s1 = st_server s /\ st_exported s1 = st_exported s.
Proof.
  unfold prepare. destruct (slurm_step s roa) as [[[v0 vt] b0] bt]. destruct (process_data _ _ _ _) as [[[vrps brks] c4] c6].
  intros [= <- _ _ _]. repeat split.
Qed.
Lemma outcome_keeps e c h i s2 new s' ns : outcome e c h i s2 new s' ns -> keeps s2 s'.
Proof.
  intros [? s1 sds v b ? ? _ _ _ _ _ HP (HK & _)|s1 sds v b ? ? _ _ _ _ _ HP [(_ & HK & _)|(_ & -> & _)]|?|? t _ _ _ _ _ _ _ HK _ _ _].
  - apply prepare_keeps in HP as (HK' & _). unfold keeps in *. intuition congruence.
  - apply prepare_keeps in HP as (HK' & _). unfold keeps in *. intuition congruence.
  - now apply prepare_keeps in HP as (HK' & _).
  - repeat split.
  - exact HK.
Qed.
Lemma outcome_inv e c h i s2 new s' ns : sinv s2 -> outcome e c h i s2 new s' ns -> sinv s'.
Proof.
  intros (I1 & I2 & I3) HO. pose proof (outcome_keeps _ _ _ _ _ _ _ _ HO) as (K1 & K2 & _).
  split; [|rewrite K1, K2; now split].
  destruct HO as [? s1 sds v b ? ? _ _ HWs _ _ HP (_ & _ & _ & HS & _)|s1 sds v b ? ? _ _ HWs _ _ HP [(_ & _ & _ & _ & HS & _)|(_ & -> & _)]|?|? t _ _ _ _ _ _ HS _ _ _ _].
  - apply prepare_keeps in HP as (_ & HQ & _). rewrite HS. apply step_inv; [now rewrite HQ|exact HWs].
  - apply prepare_keeps in HP as (_ & HQ & _). rewrite HS. apply step_inv; [now rewrite HQ|exact HWs].
  - apply prepare_keeps in HP as (_ & HQ & _). now rewrite HQ.
  - exact I1.
  - rewrite HS. apply step_inv; [exact I1|constructor].
Qed.
Lemma sinv_init : sinv init_state.
Proof. split; [apply inv_new|]. split; [split; constructor|exact I]. Qed.
Lemma after_inv e c h : wf_env e -> sinv (after e c h).
Proof.
  intros HE. induction h as [|i h IH] using rev_ind; [apply sinv_init|]. rewrite after_snoc.
  pose proof (turn_outcome e c h i HE IH) as HT. destruct (fetch _ _ _ _) as [s2 new]. destruct (turn e c h i) as [s' ns].
  destruct HT as [HI HO]. now apply outcome_inv in HO.
Qed.

(** * C43 and C46: what is served after a refresh with a usable file *)
Lemma step_served sv sds : inv sv -> Forall wf_sd sds -> forall x, In x (ids (sdCurrent (step sv sds))) <-> In x (ids sds).
Proof. intros Hi Hw. exact (step_set sv sds Hi Hw). Qed.
Lemma refresh_publishes e c h i : wf_env e ->
  (snd (fetch e (slurm_on c h) i (after e c h)) = true \/ h = []) ->
  let s' := fst (turn e c h i) in
  usable e c (i_now i) (st_data s') ->
  forall x, served s' x <-> content (i_proc i) (st_slurm s') (st_data s') x.
Proof.
  intros HE HN. pose proof (turn_outcome e c h i HE (after_inv e c h HE)) as HT.
  destruct (fetch e (slurm_on c h) i (after e c h)) as [s2 new]. cbn [snd] in HN.
  destruct (turn e c h i) as [s' ns]. cbn [fst]. destruct HT as [HI HO]. cbv zeta. intros HU x.
  pose proof (outcome_keeps _ _ _ _ _ _ _ _ HO) as (K1 & K2 & _). rewrite K1 in HU.
  assert (HN2 : new || is_nil h = true). { destruct HN as [->| ->]; [reflexivity|apply orb_true_r]. }
  rewrite K1, K2. unfold served, get_current_sds.
  destruct HO as [? s1 sds v b ? ? _ _ HWs HIn _ HP (_ & _ & _ & HS & _)|s1 sds v b ? ? EH|? HNU|? t ? HNU].
  - apply prepare_keeps in HP as (_ & HQ & _). rewrite HS, <- HIn. apply step_served; [rewrite HQ; apply HI|exact HWs].
  - exfalso. cbn [orb] in HN2. congruence.
  - now elim HNU.
  - now elim HNU.
Qed.

(** * The current files are the last ones that could be decoded *)
Definition pick {A} (e : env) (h0 : option bytes) (f : option bytes) (dec : bytes -> option A) (old : A) : A :=
  match f with
  | None => old
  | Some x => if match h0 with Some y => beqb y (e_sha e x) | None => false end then old
              else match dec x with Some d => d | None => old end
  end.
Lemma fetch_data e on i s : st_data (fst (fetch e on i s)) = pick e (st_hcache s) (i_file i) (e_decode e) (st_data s).
Proof.
  unfold fetch. pose proof (update_slurm_spec e (i_slurm i) s) as HU.
  destruct on; [destruct (update_slurm e (i_slurm i) s) as [s1 u1]; destruct HU as (_ & A2 & A3 & _); rewrite <- A2, <- A3; clear A2 A3|
    generalize s as s1; clear HU; intros s1];
  unfold update_file, pick; destruct (i_file i) as [x|]; try reflexivity;
  destruct (match st_hcache s1 with Some y => beqb y (e_sha e x) | None => false end); try reflexivity;
  destruct (e_decode e x); reflexivity.
Qed.
Definition some_slurm (e : env) (x : bytes) : option (option slurm) := option_map Some (e_dslurm e x).
Lemma fetch_slurm e on i s : st_slurm (fst (fetch e on i s)) =
  if on then pick e (st_hslurm s) (i_slurm i) (some_slurm e) (st_slurm s) else st_slurm s.
Proof.
  unfold fetch. destruct on.
  - unfold update_slurm, pick, some_slurm. destruct (i_slurm i) as [x|].
    + destruct (match st_hslurm s with Some y => beqb y (e_sha e x) | None => false end).
      * pose proof (update_file_spec e (i_file i) s) as HF. destruct (update_file e (i_file i) s) as [s2 u2]. apply HF.
      * cbv zeta. destruct (e_dslurm e x) as [d|]; cbn [option_map].
        -- match goal with |- context [update_file e (i_file i) ?z] => pose proof (update_file_spec e (i_file i) z) as HF; destruct (update_file e (i_file i) z) as [s2 u2] end.
           cbn in HF |- *. apply HF.
        -- match goal with |- context [update_file e (i_file i) ?z] => pose proof (update_file_spec e (i_file i) z) as HF; destruct (update_file e (i_file i) z) as [s2 u2] end.
           cbn in HF |- *. apply HF.
    + pose proof (update_file_spec e (i_file i) s) as HF. destruct (update_file e (i_file i) s) as [s2 u2]. apply HF.
  - pose proof (update_file_spec e (i_file i) s) as HF. destruct (update_file e (i_file i) s) as [s2 u2]. apply HF.
Qed.
Lemma last_some_app l m acc : last_some (l ++ m) acc = last_some m (last_some l acc).
Proof. revert acc. induction l as [|[x|] l IH]; intros acc; cbn [app last_some]; auto. Qed.
Lemma last_ok_app {A} (dec : bytes -> option A) st l m : last_ok dec st (l ++ m) = last_ok dec (last_ok dec st l) m.
Proof. revert st. induction l as [|[x|] l IH]; intros st; cbn [app last_ok]; auto. Qed.
Lemma last_some_in l : forall x, last_some l None = Some x -> In (Some x) l.
Proof.
  induction l as [|o l IH] using rev_ind; intros x; [discriminate|]. rewrite last_some_app, in_app_iff.
  destruct o as [y|]; cbn [last_some]; [intros [= <-]; right; now left|]. intros E. left. now apply IH.
Qed.
Lemma last_ok_some {A} (dec : bytes -> option A) st l : forall x d, last_some l None = Some x -> dec x = Some d -> last_ok dec st l = d.
Proof.
  induction l as [|o l IH] using rev_ind; intros x d; [discriminate|]. rewrite last_some_app, last_ok_app.
  destruct o as [y|]; cbn [last_some last_ok].
  - intros [= ->] ->. reflexivity.
  - apply IH.
Qed.
Lemma pick_last {A} e (dec : bytes -> option A) st l f : no_collision e (l ++ [f]) ->
  pick e (option_map (e_sha e) (last_some l None)) f dec (last_ok dec st l) = last_ok dec st (l ++ [f]).
Proof.
  intros HC. rewrite last_ok_app. unfold pick. destruct f as [x|]; cbn [last_ok]; [|reflexivity].
  destruct (last_some l None) as [y|] eqn:EL; cbn [option_map]; [|reflexivity].
  destruct (beqb (e_sha e y) (e_sha e x)) eqn:EB; [|reflexivity]. apply beqb_eq in EB.
  assert (y = x) as ->.
  { apply HC; [|apply in_app_iff; right; now left|exact EB]. apply in_app_iff. left. now apply last_some_in. }
  destruct (dec x) as [d|] eqn:ED; [|reflexivity]. now apply (last_ok_some dec st l x).
Qed.
Lemma no_collision_app e l m : no_collision e (l ++ m) -> no_collision e l.
Proof. intros H x y Hx Hy. apply H; apply in_app_iff; auto. Qed.
Lemma slurm_files_snoc c h i : slurm_files c (h ++ [i]) = slurm_files c h ++ (if slurm_on c h then [i_slurm i] else []).
Proof.
  unfold slurm_files, slurm_on. destruct (sc_slurm c); [|reflexivity]. cbn [andb].
  destruct (sc_slurm_refresh c); [rewrite orb_true_r; apply map_app|]. rewrite orb_false_r.
  destruct h as [|j h]; [reflexivity|]. cbn [app map firstn is_nil]. reflexivity.
Qed.
Lemma history e c h : wf_env e -> no_collision e (files h) -> no_collision e (slurm_files c h) ->
  st_data (after e c h) = last_ok (e_decode e) empty_list (files h) /\
  st_hcache (after e c h) = option_map (e_sha e) (last_some (files h) None) /\
  st_slurm (after e c h) = last_ok (some_slurm e) None (slurm_files c h) /\
  st_hslurm (after e c h) = option_map (e_sha e) (last_some (slurm_files c h) None).
Proof.
  intros HE. induction h as [|i h IH] using rev_ind; intros H1 H2.
  { unfold slurm_files. destruct (sc_slurm c), (sc_slurm_refresh c); repeat split. }
  unfold files in H1. rewrite map_app in H1. rewrite slurm_files_snoc in H2.
  destruct (IH (no_collision_app _ _ _ H1) (no_collision_app _ _ _ H2)) as (D1 & D2 & D3 & D4).
  rewrite after_snoc. pose proof (turn_outcome e c h i HE (after_inv e c h HE)) as HT.
  pose proof (fetch_spec e (slurm_on c h) i (after e c h)) as HF.
  pose proof (fetch_data e (slurm_on c h) i (after e c h)) as E1.
  pose proof (fetch_slurm e (slurm_on c h) i (after e c h)) as E2.
  destruct (fetch e (slurm_on c h) i (after e c h)) as [s2 new]. destruct (turn e c h i) as [s' ns]. cbn [fst] in *.
  destruct HT as [_ HO]. apply outcome_keeps in HO as (K1 & K2 & K3 & K4). rewrite K1, K2, K3, K4.
  destruct HF as (_ & _ & _ & _ & _ & _ & _ & _ & F1 & F2 & _). rewrite E1, E2, F1, F2, D1, D2, D3, D4.
  unfold files. rewrite map_app, slurm_files_snoc. cbn [map]. fold (files h).
  split; [now apply pick_last|]. split; [rewrite last_some_app; destruct (i_file i); reflexivity|].
  destruct (slurm_on c h); [|rewrite app_nil_r; split; reflexivity].
  split; [now apply pick_last|]. rewrite last_some_app. destruct (i_slurm i); reflexivity.
Qed.
(** The fetch reports news exactly when there is some. *)
Lemma news_fetch e c h i : wf_env e -> no_collision e (files (h ++ [i])) -> no_collision e (slurm_files c (h ++ [i])) ->
  h <> [] -> (snd (fetch e (slurm_on c h) i (after e c h)) = true <-> news e c h i).
Proof.
  intros HE H1 H2 Hh. unfold files in H1. rewrite map_app in H1. rewrite slurm_files_snoc in H2.
  destruct (history e c h HE (no_collision_app _ _ _ H1) (no_collision_app _ _ _ H2)) as (_ & D2 & _ & D4).
  pose proof (fetch_spec e (slurm_on c h) i (after e c h)) as HF.
  destruct (fetch e (slurm_on c h) i (after e c h)) as [s2 new]. cbn [snd].
  destruct HF as (_ & _ & _ & _ & _ & _ & _ & _ & _ & _ & ->). rewrite D2, D4.
  assert (HQ : forall A (dec : bytes -> option A) l f, no_collision e (l ++ [f]) ->
    ((exists x d, f = Some x /\ dec x = Some d /\ option_map (e_sha e) (last_some l None) <> Some (e_sha e x)) <-> is_new dec l f)).
  { intros A dec l f HC. unfold is_new. split; intros (x & d & -> & Hd & HN); exists x, d; split; auto; split; auto.
    - intros E. apply HN. rewrite E. reflexivity.
    - intros E. apply HN. destruct (last_some l None) as [y|] eqn:EL; [|discriminate E]. cbn [option_map] in E. injection E as E.
      f_equal. apply HC; [apply in_app_iff; left; now apply last_some_in|apply in_app_iff; right; now left|exact E]. }
  unfold news. rewrite HQ by exact H1. unfold slurm_on. destruct h as [|j h]; [now elim Hh|]. cbn [is_nil orb].
  destruct (sc_slurm c) eqn:S1; cbn [andb]; [|intuition discriminate].
  destruct (sc_slurm_refresh c) eqn:S2; [|intuition discriminate].
  rewrite HQ; [tauto|]. unfold slurm_on in H2. rewrite S1, S2 in H2. exact H2.
Qed.

(** * The served set corresponds to the current files, or these are unusable for good *)
Lemma check_mono e c t t' d : (t <= t')%Z -> time_check e c t d <> None -> time_check e c t' d <> None.
Proof.
  unfold time_check. destruct (sc_check c); [|auto]. destruct (build_time e d) as [b|]; [|auto]. intros H.
  destruct (b + hours24 <? t)%Z eqn:E1; destruct (b + hours24 <? t')%Z eqn:E2; try (intros _; discriminate); [|auto].
  apply Z.ltb_lt in E1. apply Z.ltb_ge in E2. lia.
Qed.
Lemma fresh_mono t t' x : (t <= t')%Z -> fresh t' x -> fresh t x.
Proof. destruct x; cbn [fresh]; [lia|auto]. Qed.
Lemma listed_mono t t' vs bs x : (t <= t')%Z -> listed t' vs bs x -> listed t vs bs x.
Proof.
  intros H [(v & p & a & I1 & I2 & I3)|(b & k & I1 & I2 & I3 & I4)].
  - left. exists v, p, a. split; [exact I1|]. split; [|exact I3]. unfold entry_ok in *. intuition eauto using fresh_mono.
  - right. exists b, k. split; [exact I1|]. split; [eauto using fresh_mono|auto].
Qed.
Lemma content_mono t t' sl d x : (t <= t')%Z -> content t' sl d x -> content t sl d x.
Proof.
  intros H. rewrite !content_processed. apply listed_mono. apply Z.div_le_mono; [reflexivity|exact H].
Qed.
Definition synced (e : env) (c : scfg) (t : Z) (s : state) : Prop :=
  (exists t0, (t0 <= t)%Z /\ forall x, served s x <-> content t0 (st_slurm s) (st_data s) x) \/
  rl_roa (st_data s) = None \/ time_check e c t (st_data s) <> None.
Lemma synced_mono e c t t' s : (t <= t')%Z -> synced e c t s -> synced e c t' s.
Proof.
  intros H [(t0 & L & HS)|[HR|HC]]; [left; exists t0; split; [lia|exact HS]|right; now left|].
  right. right. exact (check_mono e c t t' _ H HC).
Qed.
Lemma ordered_app h i : ordered_h (h ++ [i]) -> ordered_h h.
Proof.
  intros [HF H]. split; [now apply Forall_app in HF|]. intros h1 a b h2 E. apply (H h1 a b (h2 ++ [i])). rewrite E, <- app_assoc. reflexivity.
Qed.
Lemma ordered_last h i : ordered_h (h ++ [i]) -> (i_got i <= i_now i <= i_proc i)%Z /\ (i_proc i <= i_late i)%Z.
Proof. intros [HF _]. apply Forall_app in HF as [_ HF]. now inversion HF. Qed.
Lemma ordered_next h j i : ordered_h ((h ++ [j]) ++ [i]) -> (i_proc j <= i_now i)%Z.
Proof.
  intros HO. pose proof (ordered_last _ _ HO). pose proof (ordered_last _ _ (ordered_app _ _ HO)). destruct HO as [_ HO].
  specialize (HO h j i []). rewrite <- app_assoc in HO. specialize (HO eq_refl). lia.
Qed.
Lemma not_usable e c t d : ~ usable e c t d -> rl_roa d = None \/ time_check e c t d <> None.
Proof.
  unfold usable. intros H. destruct (rl_roa d) as [r|]; [right|now left].
  intros E. apply H. split; [discriminate|exact E].
Qed.
Lemma unusable_mono e c t t' d : (t <= t')%Z -> rl_roa d = None \/ time_check e c t d <> None -> rl_roa d = None \/ time_check e c t' d <> None.
Proof. intros L [H|H]; [now left|right; exact (check_mono e c t t' d L H)]. Qed.
Lemma outcome_synced e c h i s new s' ns :
  wf_env e -> sinv s -> (i_now i <= i_proc i)%Z -> (new = false -> h <> [] -> synced e c (i_now i) s) -> outcome e c h i s new s' ns ->
  synced e c (i_proc i) s'.
Proof.
  intros HE HI HLE HSy HO. pose proof (outcome_keeps _ _ _ _ _ _ _ _ HO) as (K1 & K2 & _). unfold synced. rewrite K1, K2.
  destruct HO as [? s1 sds v b ? ? _ _ HWs HIn _ HP (_ & _ & _ & HS & _)|s1 sds v b ? ? EH _ HWs HIn _ HP [(_ & _ & _ & _ & HS & _)|(_ & -> & _)]|? HNU|? t EH HNU].
  - left. exists (i_proc i). split; [lia|]. intros x. rewrite <- HIn. unfold served, get_current_sds. rewrite HS.
    apply prepare_keeps in HP as (_ & HQ & _). apply step_served; [rewrite HQ; apply HI|exact HWs].
  - left. exists (i_proc i). split; [lia|]. intros x. rewrite <- HIn. unfold served, get_current_sds. rewrite HS.
    apply prepare_keeps in HP as (_ & HQ & _). apply step_served; [rewrite HQ; apply HI|exact HWs].
  - assert (Hh : h <> []) by (intros ->; discriminate EH).
    apply prepare_keeps in HP as (_ & HQ & _). destruct (HSy eq_refl Hh) as [(t0 & L & H0)|H0]; [left|right; now apply (unusable_mono _ _ (i_now i))].
    exists t0. split; [lia|]. intros x. rewrite <- H0. unfold served, get_current_sds. now rewrite HQ.
  - right. apply (unusable_mono _ _ (i_now i)); [exact HLE|now apply not_usable].
  - right. apply (unusable_mono _ _ (i_now i)); [exact HLE|now apply not_usable].
Qed.
Lemma after_synced e c h i : wf_env e -> ordered_h (h ++ [i]) -> synced e c (i_proc i) (after e c (h ++ [i])).
Proof.
  intros HE. revert i. induction h as [|j h IH] using rev_ind; intros i HO; rewrite after_snoc.
  - pose proof (turn_outcome e c [] i HE (after_inv e c [] HE)) as HT.
    destruct (fetch _ _ _ _) as [s2 new]. destruct (turn e c [] i) as [s' ns]. destruct HT as [HI HT].
    refine (outcome_synced _ _ _ _ _ _ _ _ HE HI (proj2 (proj1 (ordered_last _ _ HO))) _ HT). intros _ H. now elim H.
  - pose proof (turn_outcome e c (h ++ [j]) i HE (after_inv e c (h ++ [j]) HE)) as HT.
    pose proof (fetch_spec e (slurm_on c (h ++ [j])) i (after e c (h ++ [j]))) as HF.
    destruct (fetch _ _ _ _) as [s2 new]. destruct (turn e c (h ++ [j]) i) as [s' ns]. destruct HT as [HI HT].
    refine (outcome_synced _ _ _ _ _ _ _ _ HE HI (proj2 (proj1 (ordered_last _ _ HO))) _ HT). intros -> _.
    destruct HF as (F1 & _ & _ & _ & F2 & _). destruct (F2 eq_refl) as (F3 & F4 & _).
    pose proof (ordered_next _ _ _ HO) as L.
    pose proof (synced_mono e c _ _ _ L (IH j (ordered_app _ _ HO))) as HY. unfold synced, served in *.
    rewrite F1, F3, F4. exact HY.
Qed.
Lemma synced_usable e c t s : synced e c t s -> usable e c t (st_data s) ->
  exists t0, (t0 <= t)%Z /\ forall x, served s x <-> content t0 (st_slurm s) (st_data s) x.
Proof. intros [H|[H|H]] [U1 U2]; [exact H|now elim U1|now elim H]. Qed.

(** * C44 *)
Lemma applied_served c s1 sds v b s' ns : inv (st_server s1) -> Forall wf_sd sds -> applied c s1 sds v b s' ns ->
  (forall x, served s' x <-> In x (ids sds)) /\
  ((st_server s' = st_server s1 /\ same_served s1 s' /\ ns = [] /\ s' = s1) \/
   (~ same_served s1 s' /\ ns = (if sc_notify c then [serial_of s'] else []) /\
    st_exported s' = mkEx (rl_build (st_data s1)) v b)).
Proof.
  intros Hi Hw (_ & _ & _ & HS & HC).
  assert (HX : forall x, served s' x <-> In x (ids sds)).
  { intros x. unfold served, get_current_sds. rewrite HS. now apply step_served. }
  split; [exact HX|]. destruct HC as [(-> & -> & _)|(HN & HEX & ->)].
  - left. repeat split; auto.
  - right. split; [|split; [reflexivity|exact HEX]]. intros H. apply HN. intros x. rewrite <- HX. apply H.
Qed.
Lemma quiet e c h i : wf_env e -> h <> [] -> ordered_h (h ++ [i]) ->
  snd (fetch e (slurm_on c h) i (after e c h)) = false ->
  let s := after e c h in let s' := fst (turn e c h i) in
  st_data s' = st_data s /\ st_slurm s' = st_slurm s /\
  (forall x, served s' x -> served s x) /\
  (forall x, served s x -> ~ served s' x ->
     (exists t, (t <= i_proc i)%Z /\ content t (st_slurm s) (st_data s) x) /\ ~ content (i_proc i) (st_slurm s) (st_data s) x) /\
  (same_served s s' -> st_server s' = st_server s).
Proof.
  intros HE Hh HO HN. cbv zeta. pose proof (turn_outcome e c h i HE (after_inv e c h HE)) as HT.
  pose proof (fetch_spec e (slurm_on c h) i (after e c h)) as HF.
  destruct (fetch _ _ _ _) as [s2 new]. cbn [snd] in HN. subst new.
  destruct HF as (F1 & _ & _ & _ & F2 & _). destruct (F2 eq_refl) as (F3 & F4 & _). clear F2.
  destruct (turn e c h i) as [s' ns]. cbn [fst]. destruct HT as [HI HT].
  pose proof (outcome_keeps _ _ _ _ _ _ _ _ HT) as (K1 & K2 & _). rewrite K1, K2.
  split; [exact F3|]. split; [exact F4|].
  assert (HB : forall s0, st_server s0 = st_server (after e c h) ->
    (forall x, served s0 x -> served (after e c h) x) /\
    (forall x, served (after e c h) x -> ~ served s0 x ->
      (exists t, (t <= i_proc i)%Z /\ content t (st_slurm (after e c h)) (st_data (after e c h)) x) /\
      ~ content (i_proc i) (st_slurm (after e c h)) (st_data (after e c h)) x) /\
    (same_served (after e c h) s0 -> st_server s0 = st_server (after e c h))).
  { intros s0 E. unfold served, get_current_sds. rewrite E. split; [auto|]. split; [tauto|reflexivity]. }
  inversion HT as [? s1 sds v b ? ? Hnew|s1 sds v b ? ? EH HU HWs HIn _ HP HC|? HNU|]; subst.
  - exfalso. cbn [orb] in Hnew. destruct h; [now elim Hh|discriminate Hnew].
  - apply prepare_keeps in HP as (_ & HQ & _). destruct HC as [(_ & HA)|(_ & -> & _)].
    2:{ apply HB. now rewrite HQ. }
    assert (Hi1 : inv (st_server s1)) by (rewrite HQ; apply HI).
    destruct (applied_served _ _ _ _ _ _ _ Hi1 HWs HA) as (HX & HD). clear HA.
    assert (HSy : synced e c (i_now i) (after e c h)).
    { destruct h as [|j h _] using rev_ind; [now elim Hh|].
      apply (synced_mono _ _ (i_proc j)); [|apply after_synced; [exact HE|now apply (ordered_app _ i)]].
      now apply (ordered_next h). }
    pose proof (proj2 (proj1 (ordered_last _ _ HO))) as HLE.
    rewrite F3 in HU. destruct (synced_usable _ _ _ _ HSy HU) as (t0 & L0 & H0). assert (L : (t0 <= i_proc i)%Z) by lia.
    rewrite F3, F4 in HIn. split; [|split].
    + intros x Hx. apply H0. apply HX, HIn in Hx. now apply (content_mono t0) in Hx.
    + intros x Hx Hnx. split; [exists t0; split; [exact L|now apply H0]|]. intros HC. apply Hnx, HX, HIn, HC.
    + intros HSS. destruct HD as [(HD & _)|(HD & _)]; [now rewrite HD, HQ|]. exfalso. apply HD.
      intros x. rewrite <- (HSS x). unfold served, get_current_sds. now rewrite HQ, F1.
  - apply HB, F1.
Qed.

(** * C46 *)
Lemma after_nodup e c h : wf_env e ->
  (forall h1 h2, h = h1 ++ h2 -> no_dup_keys (st_slurm (after e c h1)) (st_data (after e c h1))) ->
  NoDup (ids (get_current_sds (st_server (after e c h)))).
Proof.
  intros HE. induction h as [|i h IH] using rev_ind; intros HN; [constructor|].
  assert (HNh : NoDup (ids (get_current_sds (st_server (after e c h))))).
  { apply IH. intros h1 h2 ->. apply (HN h1 (h2 ++ [i])). now rewrite app_assoc. }
  specialize (HN (h ++ [i]) []). rewrite app_nil_r in HN. specialize (HN eq_refl). rewrite after_snoc in *.
  pose proof (turn_outcome e c h i HE (after_inv e c h HE)) as HT.
  pose proof (fetch_spec e (slurm_on c h) i (after e c h)) as HF.
  destruct (fetch _ _ _ _) as [s2 new]. destruct (turn e c h i) as [s' ns]. cbn [fst] in *. destruct HT as [HI HT].
  destruct HF as (F1 & _). unfold get_current_sds in *. rewrite <- F1 in HNh.
  pose proof (outcome_keeps _ _ _ _ _ _ _ _ HT) as (K1 & K2 & _). rewrite K1, K2 in HN.
  destruct HT as [? s1 sds v b ? ? _ _ HWs _ HNs HP (_ & _ & _ & HS & _)|s1 sds v b ? ? _ _ HWs _ HNs HP [(_ & _ & _ & _ & HS & _)|(_ & -> & _)]|?|? t _ _ _ _ _ _ HS _ _ _ _].
  - apply prepare_keeps in HP as (_ & HQ & _). rewrite HS, HQ. apply step_nodup; auto. apply HI.
  - apply prepare_keeps in HP as (_ & HQ & _). rewrite HS, HQ. apply step_nodup; auto. apply HI.
  - apply prepare_keeps in HP as (_ & HQ & _). now rewrite HQ.
  - exact HNh.
  - rewrite HS. apply step_nodup; auto; [apply HI|constructor].
Qed.
Lemma current_exact e c h i : wf_env e -> ordered_h (h ++ [i]) ->
  (forall h1 h2, h ++ [i] = h1 ++ h2 -> no_dup_keys (st_slurm (after e c h1)) (st_data (after e c h1))) ->
  let s' := after e c (h ++ [i]) in
  usable e c (i_now i) (st_data s') ->
  forall x, served s' x <-> content (i_proc i) (st_slurm s') (st_data s') x.
Proof.
  intros HE HO HN. cbv zeta. rewrite after_snoc. intros HU x.
  assert (HNh : NoDup (ids (get_current_sds (st_server (after e c h))))).
  { apply after_nodup; [exact HE|]. intros h1 h2 ->. apply (HN h1 (h2 ++ [i])). now rewrite app_assoc. }
  specialize (HN (h ++ [i]) []). rewrite app_nil_r in HN. specialize (HN eq_refl). rewrite after_snoc in HN.
  pose proof (turn_outcome e c h i HE (after_inv e c h HE)) as HT.
  pose proof (fetch_spec e (slurm_on c h) i (after e c h)) as HF.
  destruct (fetch _ _ _ _) as [s2 new]. destruct (turn e c h i) as [s' ns]. cbn [fst] in *. destruct HT as [HI HT].
  destruct HF as (F1 & _ & _ & _ & F2 & _). unfold get_current_sds in HNh. rewrite <- F1 in HNh.
  pose proof (outcome_keeps _ _ _ _ _ _ _ _ HT) as (K1 & K2 & _). rewrite K1, K2 in *.
  inversion HT as [? s1 sds v b ? ? _ _ HWs HIn HNs HP HA|s1 sds v b ? ? EH _ HWs HIn HNs HP HC|? HNU|? t ? HNU]; subst.
  - apply prepare_keeps in HP as (_ & HQ & _). assert (Hi1 : inv (st_server s1)) by (rewrite HQ; apply HI).
    destruct (applied_served _ _ _ _ _ _ _ Hi1 HWs HA) as (HX & _). now rewrite HX, HIn.
  - apply prepare_keeps in HP as (_ & HQ & _). assert (Hi1 : inv (st_server s1)) by (rewrite HQ; apply HI).
    destruct HC as [(_ & HA)|(HLen & -> & _)].
    { destruct (applied_served _ _ _ _ _ _ _ Hi1 HWs HA) as (HX & _). now rewrite HX, HIn. }
    destruct (F2 eq_refl) as (F3 & F4 & _).
    assert (HSy : synced e c (i_now i) s2).
    { destruct h as [|j h _] using rev_ind; [discriminate EH|].
      assert (HY : synced e c (i_now i) (after e c (h ++ [j]))).
      { apply (synced_mono _ _ (i_proc j)); [|apply after_synced; [exact HE|now apply (ordered_app _ i)]].
        now apply (ordered_next h). }
      unfold synced, served in *. rewrite F1, F3, F4. exact HY. }
    destruct (synced_usable _ _ _ _ HSy HU) as (t0 & L0 & H0). assert (L : (t0 <= i_proc i)%Z) by (pose proof (ordered_last _ _ HO); lia).
    unfold served, get_current_sds. rewrite HQ. rewrite <- HIn. split.
    + assert (HINC : incl (ids (sdCurrent (st_server s2))) (ids sds)); [|apply HINC].
      apply NoDup_length_incl; [now apply HNs| |].
      * unfold ids. rewrite !map_length. unfold nlen in HLen. lia.
      * intros y Hy. apply H0. apply HIn in Hy. now apply (content_mono t0) in Hy.
    + intros Hx. apply H0. apply HIn in Hx. now apply (content_mono t0) in Hx.
  - now elim HNU.
  - now elim HNU.
Qed.

(** * C47, C48, C45 *)
Lemma silent e c h i : wf_env e -> let s' := fst (turn e c h i) in
  usable e c (i_now i) (st_data s') ->
  (forall x, served (after e c h) x <-> content (i_proc i) (st_slurm s') (st_data s') x) ->
  st_server s' = st_server (after e c h) /\ snd (turn e c h i) = [].
Proof.
  intros HE. cbv zeta. pose proof (turn_outcome e c h i HE (after_inv e c h HE)) as HT.
  pose proof (fetch_spec e (slurm_on c h) i (after e c h)) as HF.
  destruct (fetch _ _ _ _) as [s2 new]. destruct (turn e c h i) as [s' ns]. cbn [fst snd] in *. destruct HT as [HI HT].
  destruct HF as (F1 & _). pose proof (outcome_keeps _ _ _ _ _ _ _ _ HT) as (K1 & K2 & _). rewrite K1, K2. intros HU HX.
  assert (HC : forall s1 sds v b, Forall wf_sd sds ->
    (forall x, In x (ids sds) <-> content (i_proc i) (st_slurm s2) (st_data s2) x) ->
    prepare e s2 (i_proc i) (roa_of (st_data s2)) = (s1, sds, v, b) -> applied c s1 sds v b s' ns ->
    st_server s' = st_server (after e c h) /\ ns = []).
  { intros s1 sds v b HWs HIn HP HA. apply prepare_keeps in HP as (_ & HQ & _).
    assert (Hi1 : inv (st_server s1)) by (rewrite HQ; apply HI).
    destruct (applied_served _ _ _ _ _ _ _ Hi1 HWs HA) as (HY & [(E1 & _ & E2 & _)|(HNS & _)]).
    - split; [congruence|exact E2].
    - exfalso. apply HNS. intros x. rewrite HY, HIn, <- HX. unfold served, get_current_sds. now rewrite HQ, F1. }
  inversion HT as [? s1 sds v b ? ? _ _ HWs HIn HNs HP HA|s1 sds v b ? ? EH _ HWs HIn HNs HP HCC|? HNU|? t ? HNU]; subst.
  - now apply (HC s1 sds v b).
  - destruct HCC as [(_ & HA)|(HLen & -> & ->)]; [now apply (HC s1 sds v b)|].
    apply prepare_keeps in HP as (_ & HQ & _). split; [congruence|reflexivity].
  - now elim HNU.
  - now elim HNU.
Qed.
Lemma notices e c h i : wf_env e -> let s' := fst (turn e c h i) in
  recent e c (i_now i) (st_data s') ->
  (same_served (after e c h) s' -> snd (turn e c h i) = [] /\ st_server s' = st_server (after e c h)) /\
  (~ same_served (after e c h) s' -> snd (turn e c h i) = if sc_notify c then [serial_of s'] else []).
Proof.
  intros HE. cbv zeta. pose proof (turn_outcome e c h i HE (after_inv e c h HE)) as HT.
  pose proof (fetch_spec e (slurm_on c h) i (after e c h)) as HF.
  destruct (fetch _ _ _ _) as [s2 new]. destruct (turn e c h i) as [s' ns]. cbn [fst snd] in *. destruct HT as [HI HT].
  destruct HF as (F1 & _). pose proof (outcome_keeps _ _ _ _ _ _ _ _ HT) as (K1 & K2 & _). rewrite K1. intros HR.
  assert (HB : forall s0, st_server s0 = st_server (after e c h) -> same_served (after e c h) s0).
  { intros s0 E x. unfold served. now rewrite E. }
  assert (HC : forall s1 sds v b, Forall wf_sd sds ->
    prepare e s2 (i_proc i) (roa_of (st_data s2)) = (s1, sds, v, b) -> applied c s1 sds v b s' ns ->
    (same_served (after e c h) s' -> ns = [] /\ st_server s' = st_server (after e c h)) /\
    (~ same_served (after e c h) s' -> ns = if sc_notify c then [serial_of s'] else [])).
  { intros s1 sds v b HWs HP HA. apply prepare_keeps in HP as (_ & HQ & _).
    assert (Hi1 : inv (st_server s1)) by (rewrite HQ; apply HI).
    assert (HSS : same_served s1 s' <-> same_served (after e c h) s').
    { unfold same_served, served. rewrite HQ, F1. reflexivity. }
    destruct (applied_served _ _ _ _ _ _ _ Hi1 HWs HA) as (HY & [(E1 & E2 & E3 & _)|(HNS & E3 & _)]).
    - split; [split; [exact E3|congruence]|]. intros H. elim H. now apply HSS.
    - split; [|intros _; exact E3]. intros H. elim HNS. now apply HSS. }
  inversion HT as [? s1 sds v b ? ? _ _ HWs HIn HNs HP HA|s1 sds v b ? ? EH _ HWs HIn HNs HP HCC|? HNU|? t ? HNU HTC]; subst.
  - now apply (HC s1 sds v b).
  - destruct HCC as [(_ & HA)|(HLen & -> & ->)]; [now apply (HC s1 sds v b)|].
    apply prepare_keeps in HP as (_ & HQ & _). split; [split; [reflexivity|congruence]|]. intros H. elim H. apply HB. congruence.
  - split; [split; [reflexivity|congruence]|]. intros H. elim H. apply HB. congruence.
  - apply recent_check in HR. congruence.
Qed.
Lemma step_nil sv : inv sv -> sdCurrent (step sv []) = [].
Proof. intros Hi. apply same_set_nil. now apply step_set. Qed.
(** Without a recent file nothing is announced. *)
Lemma not_recent_quiet e c h i : wf_env e -> let s' := fst (turn e c h i) in
  ~ recent e c (i_now i) (st_data s') -> snd (turn e c h i) = [].
Proof.
  intros HE. cbv zeta. pose proof (turn_outcome e c h i HE (after_inv e c h HE)) as HT.
  destruct (fetch _ _ _ _) as [s2 new]. destruct (turn e c h i) as [s' ns]. cbn [fst snd] in *. destruct HT as [HI HT].
  pose proof (outcome_keeps _ _ _ _ _ _ _ _ HT) as (K1 & K2 & _). rewrite K1. intros HR.
  inversion HT as [? s1 sds v b ? ? _ [_ HU] _ _ _ _ _|s1 sds v b ? ? EH [_ HU] _ _ _ _ _|? HNU|? t ? HNU HTC ? ? ? HS]; subst; try reflexivity.
  all: elim HR; now apply recent_check.
Qed.
(** What a refresh removes is not in the current file, unless everything is dropped. *)
Lemma kept e c h i x : wf_env e -> let s' := fst (turn e c h i) in
  (forall t, exported_build e (after e c h) = Some t -> (i_late i <= t + hours24)%Z) \/ sc_check c = false ->
  served (after e c h) x -> ~ served s' x ->
  recent e c (i_now i) (st_data s') /\ ~ content (i_proc i) (st_slurm s') (st_data s') x.
Proof.
  intros HE. cbv zeta. pose proof (turn_outcome e c h i HE (after_inv e c h HE)) as HT.
  pose proof (fetch_spec e (slurm_on c h) i (after e c h)) as HF.
  destruct (fetch _ _ _ _) as [s2 new]. destruct (turn e c h i) as [s' ns]. cbn [fst snd] in *. destruct HT as [HI HT].
  destruct HF as (F1 & _ & _ & F3 & _). pose proof (outcome_keeps _ _ _ _ _ _ _ _ HT) as (K1 & K2 & _). rewrite K1, K2. intros HX HS HN.
  assert (HB : forall s0, st_server s0 = st_server (after e c h) -> served s0 x).
  { intros s0 E. unfold served. now rewrite E. }
  assert (HC : forall s1 sds v b, Forall wf_sd sds ->
    (forall x, In x (ids sds) <-> content (i_proc i) (st_slurm s2) (st_data s2) x) ->
    prepare e s2 (i_proc i) (roa_of (st_data s2)) = (s1, sds, v, b) -> applied c s1 sds v b s' ns ->
    ~ content (i_proc i) (st_slurm s2) (st_data s2) x).
  { intros s1 sds v b HWs HIn HP HA HQ. apply prepare_keeps in HP as (_ & HR & _).
    assert (Hi1 : inv (st_server s1)) by (rewrite HR; apply HI).
    destruct (applied_served _ _ _ _ _ _ _ Hi1 HWs HA) as (HY & _). apply HN, HY. now apply HIn. }
  inversion HT as [? s1 sds v b ? ? _ [_ HU] HWs HIn HNs HP HA|s1 sds v b ? ? EH [_ HU] HWs HIn HNs HP HCC|? HNU|? t ? HNU HTC HR HEX HLT]; subst.
  - split; [now apply recent_check|now apply (HC s1 sds v b)].
  - destruct HCC as [(_ & HA)|(HLen & -> & ->)]; [split; [now apply recent_check|now apply (HC s1 sds v b)]|].
    elim HN. apply HB. apply prepare_keeps in HP as (_ & HQ & _). congruence.
  - elim HN. apply HB. exact F1.
  - exfalso. destruct HX as [HX|HX].
    + unfold exported_build in HEX, HX. rewrite F3 in HEX. specialize (HX t HEX). lia.
    + unfold time_check in HTC. rewrite HX in HTC. discriminate HTC.
Qed.
Lemma changed_recent e c h i : wf_env e -> let s' := fst (turn e c h i) in
  ~ same_served (after e c h) s' -> (exists x, served s' x) -> recent e c (i_now i) (st_data s').
Proof.
  intros HE. cbv zeta. pose proof (turn_outcome e c h i HE (after_inv e c h HE)) as HT.
  pose proof (fetch_spec e (slurm_on c h) i (after e c h)) as HF.
  destruct (fetch _ _ _ _) as [s2 new]. destruct (turn e c h i) as [s' ns]. cbn [fst snd] in *. destruct HT as [HI HT].
  destruct HF as (F1 & _). pose proof (outcome_keeps _ _ _ _ _ _ _ _ HT) as (K1 & K2 & _). rewrite K1. intros HC (x & Hx).
  apply recent_check.
  inversion HT as [? s1 sds v b ? ? _ [_ HU] _ _ _ _ _|s1 sds v b ? ? EH [_ HU] _ _ _ _ _|? HNU|? t ? HNU HTC ? ? ? HS]; subst; try exact HU.
  - elim HC. intros y. unfold served. now rewrite F1.
  - unfold served, get_current_sds in Hx. rewrite HS, step_nil in Hx by apply HI. destruct Hx.
Qed.
Lemma too_old_dropped e c h i t : wf_env e -> h <> [] ->
  snd (fetch e (slurm_on c h) i (after e c h)) = true ->
  let s' := fst (turn e c h i) in
  rl_roa (st_data s') <> None -> time_check e c (i_now i) (st_data s') = Some ETooOld ->
  exported_build e (after e c h) = Some t -> (t + hours24 < i_late i)%Z ->
  get_current_sds (st_server s') = [] /\ snd (turn e c h i) = [].
Proof.
  intros HE Hh HN. cbv zeta. rewrite turn_eq. pose proof (after_inv e c h HE) as HI.
  pose proof (fetch_spec e (slurm_on c h) i (after e c h)) as HF.
  destruct (fetch _ _ _ _) as [s2 new]. cbn [snd] in HN. subst new. cbn [orb].
  destruct HF as (F1 & _ & _ & F2 & _ & HW & _).
  unfold update_from_new_state.
  destruct (rl_roa (st_data s2)) as [roa|] eqn:ER; [|cbn; congruence].
  destruct (time_check e c (i_now i) (st_data s2)) as [[]|] eqn:ET.
  - cbn. intros _ E. congruence.
  - destruct (is_nil h) eqn:EH; [destruct h; [now elim Hh|discriminate EH]|]. cbn [fst snd]. intros _ _ HB HL.
    unfold drop_stale. replace (exported_build e s2) with (Some t).
    2:{ unfold exported_build in *. rewrite F2. now rewrite HB. }
    destruct (hours24 <? i_late i - t)%Z eqn:E; [|lia]. split; [|reflexivity].
    unfold get_current_sds. cbn [set_server st_server]. apply step_nil. rewrite F1. apply HI.
  - pose proof (prepare_keeps e s2 (i_proc i) roa) as HP.
    destruct (prepare e s2 (i_proc i) roa) as [[[s1 sds] v] b]. destruct (HP s1 sds v b eq_refl) as ((K & _) & _).
    destruct (apply_update c s1 sds v b) as [s3 ns] eqn:EA. cbn [fst]. intros _ E.
    assert (K3 : st_data s3 = st_data s1).
    { unfold apply_update in EA. destruct (add_data (st_server s1) sds) as [sv []]; injection EA as <- _; reflexivity. }
    congruence.
Qed.

(** * C49: the exported slices *)
Definition shared_ok {A} (sl : slice A) (tail : list A) : Prop :=
  match sl with Own _ => True | Shared k => (k <= length tail)%nat end.
Definition cur_av (s : state) : list vrpjson := match st_slurm s with Some sl => assert_vrps (s_passerts sl) | None => [] end.
Definition cur_ab (s : state) : list brkjson := match st_slurm s with Some sl => assert_brks (s_basserts sl) | None => [] end.
Definition tail_ok (s : state) : Prop :=
  shared_ok (ex_roa (st_exported s)) (st_vtail s) /\ shared_ok (ex_brk (st_exported s)) (st_btail s) /\
  (st_vtail s = [] \/ st_vtail s = cur_av s) /\ (st_btail s = [] \/ st_btail s = cur_ab s).
Definition bare (s : state) : Prop :=
  rl_spare (st_data s) = 0%nat /\ rl_bspare (st_data s) = 0%nat /\ st_vtail s = [] /\ st_btail s = [].

Lemma append_tail {A} spare (base tail a : list A) : (tail = [] \/ tail = a) ->
  let (v, t) := append_shared spare base tail a in
  (t = tail \/ t = a) /\ shared_ok v t /\ (forall sl, shared_ok sl tail -> shared_ok sl t /\ read base t sl = read base tail sl) /\
  (spare = 0%nat -> tail = [] -> t = []).
Proof.
  intros HT. unfold append_shared. destruct (length a <=? spare)%nat eqn:E.
  2:{ split; [now left|]. split; [exact I|]. split; [auto|auto]. }
  assert (ET : a ++ skipn (length a) tail = a).
  { destruct HT as [->| ->]; [rewrite skipn_nil|rewrite skipn_all]; apply app_nil_r. }
  rewrite ET. split; [now right|]. split; [cbn [shared_ok]; lia|]. split.
  - intros [l|k] Hk; [split; [exact I|reflexivity]|]. cbn [shared_ok read] in *. destruct HT as [->| ->]; [|auto].
    cbn [length] in Hk. assert (k = 0%nat) as -> by lia. split; [lia|reflexivity].
  - intros -> _. apply Nat.leb_le in E. destruct a; [reflexivity|cbn [length] in E; lia].
Qed.
Lemma same_tail {A} (tail a : list A) : (tail = [] \/ tail = a) ->
  (tail = tail \/ tail = a) /\ (forall base sl, shared_ok sl tail -> shared_ok sl tail /\ read base tail sl = read base tail sl).
Proof. intros _. split; [now left|]. intros base sl H. split; [exact H|reflexivity]. Qed.

Lemma slurm_step_tails s : rl_roa (st_data s) <> None -> tail_ok s ->
  let '(v, vt, b, bt) := slurm_step s (roa_of (st_data s)) in
  tail_ok (set_tails s vt bt) /\ shared_ok v vt /\ shared_ok b bt /\
  exported_roa (set_tails s vt bt) = exported_roa s /\ exported_brk (set_tails s vt bt) = exported_brk s /\
  (bare s -> bare (set_tails s vt bt)).
Proof.
  intros HR (T1 & T2 & T3 & T4). unfold slurm_step. unfold tail_ok, exported_roa, exported_brk, bare.
  unfold cur_av, cur_ab in *. cbn [set_tails st_data st_vtail st_btail st_exported st_slurm].
  destruct (st_slurm s) as [sl|].
  2:{ cbn [shared_ok]. repeat split; auto; try lia; tauto. }
  set (av := assert_vrps (s_passerts sl)) in *. set (ab := assert_brks (s_basserts sl)) in *.
  pose proof (append_tail (rl_spare (st_data s)) (roa_of (st_data s)) (st_vtail s) av T3) as HA.
  pose proof (append_tail (rl_bspare (st_data s)) (rl_brk (st_data s)) (st_btail s) ab T4) as HB.
  assert (HV : let '(v, vt) := match s_pfilters sl with
                 | [] => append_shared (rl_spare (st_data s)) (roa_of (st_data s)) (st_vtail s) av
                 | _ :: _ => (Own (fst (filter_on_vrps (s_pfilters sl) (roa_of (st_data s))) ++ av), st_vtail s)
                 end in
               (vt = [] \/ vt = av) /\ shared_ok v vt /\ (forall z, shared_ok z (st_vtail s) -> shared_ok z vt /\ read (roa_of (st_data s)) vt z = read (roa_of (st_data s)) (st_vtail s) z) /\
               (rl_spare (st_data s) = 0%nat -> st_vtail s = [] -> vt = [])).
  { destruct (s_pfilters sl).
    - destruct (append_shared _ _ _ _) as [v vt]. destruct HA as (A1 & A2 & A3 & A4).
      split; [destruct A1 as [->| ->]; auto|]. auto.
    - split; [exact T3|]. split; [exact I|]. split; auto. }
  assert (HW : let '(v, vt) := match s_bfilters sl with
                 | [] => append_shared (rl_bspare (st_data s)) (rl_brk (st_data s)) (st_btail s) ab
                 | _ :: _ => (Own (fst (filter_on_brks (s_bfilters sl) (rl_brk (st_data s))) ++ ab), st_btail s)
                 end in
               (vt = [] \/ vt = ab) /\ shared_ok v vt /\ (forall z, shared_ok z (st_btail s) -> shared_ok z vt /\ read (rl_brk (st_data s)) vt z = read (rl_brk (st_data s)) (st_btail s) z) /\
               (rl_bspare (st_data s) = 0%nat -> st_btail s = [] -> vt = [])).
  { destruct (s_bfilters sl).
    - destruct (append_shared (rl_bspare _) _ _ _) as [v vt]. destruct HB as (A1 & A2 & A3 & A4).
      split; [destruct A1 as [->| ->]; auto|]. auto.
    - split; [exact T4|]. split; [exact I|]. split; auto. }
  cbv zeta. clear HA HB.
  destruct (s_pfilters sl) as [|pf pfs]; destruct (s_bfilters sl) as [|bf bfs];
    repeat match goal with |- context [append_shared ?a ?b ?c ?d] => destruct (append_shared a b c d) as [? ?] end;
    destruct HV as (V1 & V2 & V3 & V4); destruct HW as (W1 & W2 & W3 & W4);
    (split; [split; [now apply V3|split; [now apply W3|split; assumption]]|]);
    (split; [assumption|split; [assumption|split; [now apply V3|split; [now apply W3|]]]]);
    intros (B1 & B2 & B3 & B4); auto.
Qed.

Lemma prepare_export e s now s1 sds v b : rl_roa (st_data s) <> None -> tail_ok s ->
  prepare e s now (roa_of (st_data s)) = (s1, sds, v, b) ->
  tail_ok s1 /\ exported_roa s1 = exported_roa s /\ exported_brk s1 = exported_brk s /\ (bare s -> bare s1) /\
  shared_ok v (st_vtail s1) /\ shared_ok b (st_btail s1) /\
  (read (roa_of (st_data s1)) (st_vtail s1) v, read (rl_brk (st_data s1)) (st_btail s1) b) = processed (st_slurm s) (st_data s).
Proof.
  intros HR HT HP. unfold prepare in HP. pose proof (slurm_step_tails s HR HT) as HS.
  assert (HV : let '(v, vt, b, bt) := slurm_step s (roa_of (st_data s)) in
    (read (roa_of (st_data s)) vt v, read (rl_brk (st_data s)) bt b) = processed (st_slurm s) (st_data s)).
  { apply slurm_step_values. unfold roa_of. destruct (rl_roa (st_data s)); [reflexivity|now elim HR]. }
  destruct (slurm_step s (roa_of (st_data s))) as [[[v0 vt] b0] bt]. destruct (process_data _ _ _ _) as [[[vrps brks] c4] c6].
  injection HP as <- _ <- <-. destruct HS as (S1 & S2 & S3 & S4 & S5 & S6).
  repeat (split; [assumption|]). exact HV.
Qed.

Definition stable (e : env) (c : scfg) : Prop := sc_slurm_refresh c = false \/ no_spare e.
Definition texp (e : env) (s : state) : Prop := tail_ok s /\ (no_spare e -> bare s).
Lemma fetch_texp e c h i : stable e c -> texp e (after e c h) -> (h = [] -> st_vtail (after e c h) = [] /\ st_btail (after e c h) = []) ->
  texp e (fst (fetch e (slurm_on c h) i (after e c h))).
Proof.
  intros HS ((T1 & T2 & T3 & T4) & HB) H0. pose proof (fetch_spec e (slurm_on c h) i (after e c h)) as HF.
  destruct (fetch _ _ _ _) as [s2 new]. cbn [fst].
  destruct HF as (_ & _ & _ & _ & _ & _ & HON & [(F1 & F2 & F3 & F4)|(F1 & F2 & F3 & x & _ & F4)] & _).
  - assert (HSL : (st_vtail s2 = [] \/ st_vtail s2 = cur_av s2) /\ (st_btail s2 = [] \/ st_btail s2 = cur_ab s2)).
    { destruct HS as [HS|HS].
      - destruct h as [|j h].
        + destruct (H0 eq_refl) as [Z1 Z2]. rewrite F3, F4. auto.
        + assert (E : st_slurm s2 = st_slurm (after e c (j :: h))).
          { apply HON. unfold slurm_on. cbn [is_nil orb]. rewrite HS. apply andb_false_r. }
          unfold cur_av, cur_ab in *. rewrite F3, F4, E. auto.
      - destruct (HB HS) as (_ & _ & Z1 & Z2). rewrite F3, F4. auto. }
    split.
    + unfold tail_ok. rewrite F2. rewrite F3, F4 in *. tauto.
    + intros HN. specialize (HB HN). unfold bare in *. rewrite F1, F3, F4. exact HB.
  - split.
    + unfold tail_ok. rewrite F3. cbn [ex_roa ex_brk shared_ok]. tauto.
    + intros HN. unfold bare. destruct (HN _ _ F4) as [N1 N2]. tauto.
Qed.
Lemma applied_texp e c s1 sds v b s' ns : tail_ok s1 -> (no_spare e -> bare s1) ->
  shared_ok v (st_vtail s1) -> shared_ok b (st_btail s1) -> applied c s1 sds v b s' ns -> texp e s'.
Proof.
  intros (T1 & T2 & T3 & T4) HB V1 V2 ((K1 & K2 & _) & A1 & A2 & _ & HC). split.
  - unfold tail_ok, cur_av, cur_ab in *. rewrite A1, A2, K2. destruct HC as [(-> & _)|(_ & -> & _)]; cbn [ex_roa ex_brk]; tauto.
  - unfold bare in *. rewrite A1, A2, K1. exact HB.
Qed.
Lemma outcome_texp e c h i s2 new s' ns : texp e s2 -> outcome e c h i s2 new s' ns -> texp e s'.
Proof.
  intros (HT & HB) HO.
  destruct HO as [? s1 sds v b ? ? _ HU HWs _ HNs HP HA|s1 sds v b ? ? _ HU HWs _ HNs HP [(_ & HA)|(_ & -> & _)]|?|? t _ _ _ _ _ _ _ (K1 & K2 & _) K3 K4 K5].
  - destruct HU as [HU _]. destruct (prepare_export _ _ _ _ _ _ _ HU HT HP) as (P1 & _ & _ & P4 & P5 & P6 & _).
    refine (applied_texp e c s1 sds v b _ _ P1 _ P5 P6 HA). auto.
  - destruct HU as [HU _]. destruct (prepare_export _ _ _ _ _ _ _ HU HT HP) as (P1 & _ & _ & P4 & P5 & P6 & _).
    refine (applied_texp e c s1 sds v b _ _ P1 _ P5 P6 HA). auto.
  - destruct HU as [HU _]. destruct (prepare_export _ _ _ _ _ _ _ HU HT HP) as (P1 & _ & _ & P4 & _). split; auto.
  - split; auto.
  - split.
    + unfold tail_ok, cur_av, cur_ab in *. rewrite K2, K3, K4, K5. exact HT.
    + unfold bare in *. rewrite K1, K4, K5. exact HB.
Qed.
Lemma after_texp e c h : wf_env e -> stable e c -> texp e (after e c h).
Proof.
  intros HE HS. induction h as [|i h IH] using rev_ind.
  { split; [repeat split; auto|]. intros _. repeat split. }
  rewrite after_snoc. assert (H0 : h = [] -> st_vtail (after e c h) = [] /\ st_btail (after e c h) = []).
  { intros ->. split; reflexivity. }
  pose proof (fetch_texp e c h i HS IH H0) as HX. pose proof (turn_outcome e c h i HE (after_inv e c h HE)) as HT.
  destruct (fetch _ _ _ _) as [s2 new]. destruct (turn e c h i) as [s' ns]. cbn [fst] in *. destruct HT as [_ HO].
  exact (outcome_texp _ _ _ _ _ _ _ _ HX HO).
Qed.

Definition exp_at (t : Z) (s : state) : Prop :=
  forall x, served s x <-> listed (t / second) (exported_roa s) (exported_brk s) x.
(** Either the refresh keeps what is served and what is exported, or it makes them agree, or
    it drops everything. *)
Lemma turn_export e c h i : wf_env e -> stable e c ->
  let s := after e c h in let s' := fst (turn e c h i) in
  (same_served s s' /\ exported_roa s' = exported_roa s /\ exported_brk s' = exported_brk s) \/
  (~ same_served s s' /\ exp_at (i_proc i) s') \/
  (sc_check c = true /\ forall x, ~ served s' x).
Proof.
  intros HE HS. cbv zeta. assert (H0 : h = [] -> st_vtail (after e c h) = [] /\ st_btail (after e c h) = []).
  { intros ->. split; reflexivity. }
  pose proof (fetch_texp e c h i HS (after_texp e c h HE HS) H0) as HX.
  pose proof (turn_outcome e c h i HE (after_inv e c h HE)) as HT.
  pose proof (fetch_spec e (slurm_on c h) i (after e c h)) as HF.
  destruct (fetch _ _ _ _) as [s2 new]. destruct (turn e c h i) as [s' ns]. cbn [fst] in *.
  destruct HF as (F1 & F2 & F3 & _). destruct HX as [HX _]. destruct HT as [HI HO].
  assert (HC : forall s1 sds v b, rl_roa (st_data s2) <> None -> Forall wf_sd sds ->
    (forall x, In x (ids sds) <-> content (i_proc i) (st_slurm s2) (st_data s2) x) ->
    prepare e s2 (i_proc i) (roa_of (st_data s2)) = (s1, sds, v, b) -> applied c s1 sds v b s' ns ->
    (same_served (after e c h) s' /\ exported_roa s' = exported_roa (after e c h) /\ exported_brk s' = exported_brk (after e c h)) \/
    (~ same_served (after e c h) s' /\ exp_at (i_proc i) s')).
  { intros s1 sds v b HU HWs HIn HP HA. pose proof (prepare_keeps _ _ _ _ _ _ _ _ HP) as (_ & HQ & _).
    destruct (prepare_export _ _ _ _ _ _ _ HU HX HP) as (_ & P2 & P3 & _ & _ & _ & P7).
    assert (Hi1 : inv (st_server s1)) by (rewrite HQ; apply HI).
    assert (HSS : same_served s1 s' <-> same_served (after e c h) s').
    { unfold same_served, served. rewrite HQ, F1. reflexivity. }
    destruct (applied_served _ _ _ _ _ _ _ Hi1 HWs HA) as (HY & [(E1 & E2 & E3 & ->)|(HNS & E3 & E4)]).
    - left. split; [now apply HSS|]. split; congruence.
    - right. split; [now rewrite <- HSS|]. intros x. rewrite HY, HIn, content_processed.
      destruct HA as ((K1 & _) & K4 & K5 & _).
      unfold exported_roa, exported_brk. rewrite K4, K5, E4, K1. cbn [ex_roa ex_brk]. rewrite <- P7. reflexivity. }
  assert (HB : forall s0, st_server s0 = st_server (after e c h) -> same_served (after e c h) s0).
  { intros s0 E x. unfold served. now rewrite E. }
  inversion HO as [? s1 sds v b ? ? _ [HU _] HWs HIn HNs HP HA|s1 sds v b ? ? EH [HU _] HWs HIn HNs HP HCC|? HNU|? t ? HNU HTC ? ? ? HSv]; subst.
  - destruct (HC s1 sds v b HU HWs HIn HP HA); auto.
  - destruct HCC as [(_ & HA)|(HLen & -> & ->)]; [destruct (HC s1 sds v b HU HWs HIn HP HA); auto|].
    left. pose proof (prepare_keeps _ _ _ _ _ _ _ _ HP) as (_ & HQ & _).
    destruct (prepare_export _ _ _ _ _ _ _ HU HX HP) as (_ & P2 & P3 & _).
    split; [apply HB; congruence|]. split; congruence.
  - left. split; [now apply HB|]. split; assumption.
  - right. right. split.
    + unfold time_check in HTC. destruct (sc_check c); [reflexivity|discriminate HTC].
    + intros x Hx. unfold served, get_current_sds in Hx. rewrite HSv, step_nil in Hx by apply HI. destruct Hx.
Qed.
Lemma same_served_trans a b c : same_served a b -> same_served b c -> same_served a c.
Proof. intros H1 H2 x. rewrite (H1 x). apply H2. Qed.
Lemma export_history e c h : wf_env e -> stable e c ->
  ((forall x, ~ served (after e c h) x) /\ exported_roa (after e c h) = [] /\ exported_brk (after e c h) = []) \/
  (exists h1 i h2, last_change e c h h1 i h2 /\ exp_at (i_proc i) (after e c h)) \/
  (sc_check c = true /\ forall x, ~ served (after e c h) x).
Proof.
  intros HE HS. induction h as [|i h IH] using rev_ind.
  { left. split; [intros x H; exact H|]. split; reflexivity. }
  pose proof (turn_export e c h i HE HS) as HT. cbv zeta in HT. rewrite <- after_snoc in HT.
  destruct HT as [(HSS & E1 & E2)|[(HNS & HX)|HD]].
  - destruct IH as [(A1 & A2 & A3)|[(h1 & j & h2 & (L1 & L2 & L3) & HX)|(A1 & A2)]].
    + left. split; [intros x Hx; apply (A1 x), HSS, Hx|]. split; congruence.
    + right. left. exists h1, j, (h2 ++ [i]). split.
      * split; [rewrite L1, <- app_assoc; reflexivity|]. split; [exact L2|]. intros a k b E.
        destruct b as [|z b] using rev_ind.
        -- apply app_inj_tail in E as [-> ->]. subst h. rewrite <- app_assoc in HSS. exact HSS.
        -- clear IHb. apply (L3 a k b). change (h2 ++ [i] = a ++ (k :: b) ++ [z]) in E. rewrite app_assoc in E.
           apply app_inj_tail in E as [-> _]. reflexivity.
      * intros x. rewrite E1, E2, <- (HSS x). apply HX.
    + right. right. split; [exact A1|]. intros x Hx. apply (A2 x), HSS, Hx.
  - right. left. exists h, i, []. split; [|exact HX]. split; [reflexivity|]. split; [exact HNS|].
    intros a j b E. destruct a; discriminate E.
  - right. right. exact HD.
Qed.
