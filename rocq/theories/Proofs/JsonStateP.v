From Coq Require Import ZifyBool ZifyNat ZifyN.
From Verif Require Import Model.JsonFile Model.Chain Spec.Rfc8259 Spec.Refresh Proofs.JsonTextP Proofs.JsonTextP2 Proofs.JsonStrP Proofs.JsonNumP Proofs.JsonFileP Proofs.JsonReadP Proofs.SlurmP Proofs.StateP.
Local Open Scope string_scope.
Local Open Scope list_scope.
Local Open Scope N_scope.

(** ** All a daemon holds was read from files *)

Definition reads_text (room : nat -> nat) (e : env) : Prop :=
  (forall t, e_decode e t = reader room t) /\ (forall t, e_dslurm e t = decode_slurm t).
Definition sl_ok {A} (P : A -> Prop) (s : slice A) : Prop := match s with Own l => Forall P l | Shared _ => True end.
Definition held (s : state) : Prop :=
  list_read (st_data s) /\ Forall vrp_read (st_vtail s) /\ Forall brk_fit (st_btail s) /\
  is_text (ex_build (st_exported s)) /\ sl_ok vrp_read (ex_roa (st_exported s)) /\ sl_ok brk_fit (ex_brk (st_exported s)) /\
  match st_slurm s with Some sl => slurm_read sl | None => True end.
Lemma held_init : held init_state.
Proof.
  unfold held, list_read, roa_of. cbn. repeat split; constructor.
Qed.
Lemma Forall_firstn {A} (P : A -> Prop) n l : Forall P l -> Forall P (firstn n l).
Proof. intros H. revert n. induction H; intros [|n]; cbn; constructor; auto. Qed.
Lemma Forall_skipn {A} (P : A -> Prop) n l : Forall P l -> Forall P (skipn n l).
Proof. intros H. revert n. induction H; intros [|n]; cbn; try constructor; auto. Qed.
Lemma read_ok {A} (P : A -> Prop) base tail s : Forall P base -> Forall P tail -> sl_ok P s -> Forall P (read base tail s).
Proof. intros H1 H2 H3. destruct s; cbn in *; [exact H3|]. apply Forall_app. split; [exact H1|now apply Forall_firstn]. Qed.
Lemma held_exported s : held s -> Forall vrp_read (exported_roa s) /\ Forall brk_fit (exported_brk s).
Proof. intros ((_ & _ & H1 & H2) & H3 & H4 & _ & H5 & H6 & _). split; now apply read_ok. Qed.
Lemma asserts_read l : Forall pa_read l -> Forall vrp_read (assert_vrps l).
Proof.
  intros H. rewrite Forall_forall in H. unfold assert_vrps. apply Forall_forall. intros v Hv. apply in_flat_map in Hv as (a & Ha & Hv).
  destruct (cidr_size (pa_prefix a)); [|destruct Hv]. destruct Hv as [<-|[]]. destruct (H a Ha) as (A & B & _ & D).
  split; [exact A|]. split; [apply to_u8_lt|]. split; [exact B|]. split; [exact D|exact I].
Qed.
Lemma hexc_lt d : d < 16 -> hexc d < 128.
Proof. intros H. unfold hexc. destruct (d <? 10) eqn:C; lia. Qed.
Lemma hex_text l : bytes_ok l -> is_text (hex_encode l).
Proof.
  intros H. apply text_ascii. induction H as [|b l Hb Hl IH]; [constructor|]. unfold u8 in Hb. cbn [hex_encode flat_map app].
  constructor; [apply hexc_lt; apply N.div_lt_upper_bound; lia|]. constructor; [apply hexc_lt; apply N.mod_lt; lia|exact IH].
Qed.
Lemma asserts_keys l : Forall (fun a => bytes_ok (ba_ski a) /\ u32 (ba_asn a) /\ bytes_ok (ba_key a)) l -> Forall brk_fit (assert_brks l).
Proof.
  intros H. unfold assert_brks. apply Forall_map. eapply Forall_impl; [|exact H]. cbn beta. intros a (A & B & C).
  split; [exact B|]. split; [exact I|]. split; [constructor|]. split; [exact C|now apply hex_text].
Qed.
Lemma append_ok {A} (P : A -> Prop) spare base tail app s tl' : Forall P base -> Forall P tail -> Forall P app ->
  append_shared spare base tail app = (s, tl') -> sl_ok P s /\ Forall P tl'.
Proof.
  intros H1 H2 H3. unfold append_shared. destruct (length app <=? spare)%nat; intros [= <- <-].
  - split; [exact I|]. apply Forall_app. split; [exact H3|now apply Forall_skipn].
  - split; [apply Forall_app; now split|exact H2].
Qed.
Lemma sub_vrps fs l : Forall vrp_read l -> Forall vrp_read (fst (filter_on_vrps fs l)).
Proof.
  intros H. rewrite filter_on_vrps_eq. cbn [fst]. apply Forall_forall. intros x Hx. apply filter_In in Hx as [Hx _].
  now apply (proj1 (Forall_forall _ _) H).
Qed.
Lemma sub_brks fs l : Forall brk_fit l -> Forall brk_fit (fst (filter_on_brks fs l)).
Proof.
  intros H. rewrite filter_on_brks_eq. cbn [fst]. apply Forall_forall. intros x Hx. apply filter_In in Hx as [Hx _].
  now apply (proj1 (Forall_forall _ _) H).
Qed.
Lemma slurm_step_ok s v vt b bt : held s -> slurm_step s (roa_of (st_data s)) = (v, vt, b, bt) ->
  sl_ok vrp_read v /\ Forall vrp_read vt /\ sl_ok brk_fit b /\ Forall brk_fit bt.
Proof.
  intros ((_ & _ & H1 & H2) & H3 & H4 & _ & _ & _ & H7). unfold slurm_step.
  destruct (st_slurm s) as [sl|]; [|intros [= <- <- <- <-]; repeat split; auto].
  destruct H7 as [S1 S2]. apply asserts_read in S1. apply asserts_keys in S2.
  assert (G1 : forall v vt, match s_pfilters sl with
      | [] => append_shared (rl_spare (st_data s)) (roa_of (st_data s)) (st_vtail s) (assert_vrps (s_passerts sl))
      | fs => (Own (fst (filter_on_vrps fs (roa_of (st_data s))) ++ assert_vrps (s_passerts sl)), st_vtail s) end = (v, vt) ->
      sl_ok vrp_read v /\ Forall vrp_read vt).
  { intros v0 vt0. destruct (s_pfilters sl) as [|f fs]; [now apply append_ok|]. intros [= <- <-].
    split; [|exact H3]. apply Forall_app. split; [exact (sub_vrps (f :: fs) _ H1)|exact S1]. }
  assert (G2 : forall b bt, match s_bfilters sl with
      | [] => append_shared (rl_bspare (st_data s)) (rl_brk (st_data s)) (st_btail s) (assert_brks (s_basserts sl))
      | fs => (Own (fst (filter_on_brks fs (rl_brk (st_data s))) ++ assert_brks (s_basserts sl)), st_btail s) end = (b, bt) ->
      sl_ok brk_fit b /\ Forall brk_fit bt).
  { intros v0 vt0. destruct (s_bfilters sl) as [|f fs]; [now apply append_ok|]. intros [= <- <-].
    split; [|exact H4]. apply Forall_app. split; [exact (sub_brks (f :: fs) _ H2)|exact S2]. }
  destruct (match s_pfilters sl with [] => _ | _ :: _ => _ end) as [v0 vt0]. destruct (match s_bfilters sl with [] => _ | _ :: _ => _ end) as [b0 bt0].
  destruct (G1 _ _ eq_refl), (G2 _ _ eq_refl). intros [= <- <- <- <-]. auto.
Qed.
Lemma prepare_ok e s now s1 sds v b : held s -> prepare e s now (roa_of (st_data s)) = (s1, sds, v, b) ->
  held s1 /\ sl_ok vrp_read v /\ sl_ok brk_fit b.
Proof.
  intros H. unfold prepare. destruct (slurm_step s (roa_of (st_data s))) as [[[v0 vt0] b0] bt0] eqn:E.
  apply slurm_step_ok in E as (E1 & E2 & E3 & E4); [|exact H]. destruct (process_data _ _ _ _) as [[[? ?] ?] ?]. intros [= <- <- <- <-].
  split; [|split; assumption]. destruct H as (H1 & H2 & H3 & H4). exact (conj H1 (conj E2 (conj E4 H4))).
Qed.
Lemma apply_ok c s sds v b : held s -> sl_ok vrp_read v -> sl_ok brk_fit b -> held (fst (apply_update c s sds v b)).
Proof.
  intros H Hv Hb. unfold apply_update. destruct (add_data (st_server s) sds) as [sv ch]. destruct ch; [|exact H].
  destruct H as (H1 & H2 & H3 & _ & _ & _ & H7). cbn [fst].
  exact (conj H1 (conj H2 (conj H3 (conj (proj1 H1) (conj Hv (conj Hb H7)))))).
Qed.
Lemma new_ok e c now proc s : held s -> held (fst (fst (update_from_new_state e c now proc s))).
Proof.
  intros H. unfold update_from_new_state. destruct (rl_roa (st_data s)) as [roa|] eqn:ER; [|exact H].
  destruct (time_check e c now (st_data s)); [exact H|].
  assert (roa = roa_of (st_data s)) as -> by (unfold roa_of; now rewrite ER).
  destruct (prepare e s proc (roa_of (st_data s))) as [[[s1 sds] v] b] eqn:EP. apply prepare_ok in EP as (P1 & P2 & P3); [|exact H].
  pose proof (apply_ok c s1 sds v b P1 P2 P3) as A. destruct (apply_update c s1 sds v b). exact A.
Qed.
Lemma reload_ok e c now proc s : held s -> held (fst (reload_from_current_state e c now proc s)).
Proof.
  intros H. unfold reload_from_current_state. destruct (rl_roa (st_data s)) as [roa|] eqn:ER; [|exact H].
  destruct (time_check e c now (st_data s)); [exact H|].
  assert (roa = roa_of (st_data s)) as -> by (unfold roa_of; now rewrite ER).
  destruct (prepare e s proc (roa_of (st_data s))) as [[[s1 sds] v] b] eqn:EP. apply prepare_ok in EP as (P1 & P2 & P3); [|exact H].
  destruct (negb _); [now apply apply_ok|exact P1].
Qed.
Lemma file_ok room e f s : reads_text room e -> held s -> held (fst (update_file e f s)).
Proof.
  intros [R _] H. unfold update_file. destruct f as [t|]; [|exact H].
  destruct (match st_hcache s with Some h0 => beqb h0 (e_sha e t) | None => false end); [exact H|].
  destruct (e_decode e t) as [d|] eqn:E; [|exact H]. rewrite R in E. apply reader_read in E.
  destruct (held_exported s H) as [X1 X2]. destruct H as (_ & _ & _ & H4 & _ & _ & H7). cbn [fst].
  exact (conj E (conj (Forall_nil _) (conj (Forall_nil _) (conj H4 (conj X1 (conj X2 H7)))))).
Qed.
Lemma slurm_ok room e f s : reads_text room e -> held s -> held (fst (update_slurm e f s)).
Proof.
  intros [_ R] H. unfold update_slurm. destruct f as [t|]; [|exact H].
  destruct (match st_hslurm s with Some h0 => beqb h0 (e_sha e t) | None => false end); [exact H|].
  destruct (e_dslurm e t) as [d|] eqn:E; [|exact H]. rewrite R in E. apply slurm_dec_read in E.
  destruct H as (H1 & H2 & H3 & H4 & H5 & H6 & _). cbn [fst].
  exact (conj H1 (conj H2 (conj H3 (conj H4 (conj H5 (conj H6 E)))))).
Qed.
Lemma fetch_ok room e on i s : reads_text room e -> held s -> held (fst (fetch e on i s)).
Proof.
  intros R H. unfold fetch. assert (H1 : held (fst (if on then update_slurm e (i_slurm i) s else (s, false)))).
  { destruct on; [now apply (slurm_ok room)|exact H]. }
  destruct (if on then _ else _) as [s1 su]. cbn [fst] in H1. pose proof (file_ok room e (i_file i) s1 R H1) as H2.
  destruct (update_file e (i_file i) s1). exact H2.
Qed.
Lemma refresh_ok room e c s i : reads_text room e -> held s -> held (fst (refresh e c s i)).
Proof.
  intros R H. unfold refresh. pose proof (fetch_ok room e (sc_slurm c && sc_slurm_refresh c) i s R H) as H1.
  destruct (fetch e _ i s) as [s2 new]. cbn [fst] in H1. destruct new; [|now apply reload_ok].
  pose proof (new_ok e c (i_now i) (i_proc i) s2 H1) as H2. destruct (update_from_new_state e c (i_now i) (i_proc i) s2) as [[s3 ns] err]. cbn [fst] in H2.
  destruct err as [[|]|]; try exact H2. cbn [fst]. unfold drop_stale. destruct (exported_build e s3); [|exact H2].
  destruct (hours24 <? i_late i - z)%Z; exact H2.
Qed.
Theorem after_held room e c h : reads_text room e -> held (after e c h).
Proof.
  intros R. destruct h as [|i h]; [apply held_init|]. cbn [after].
  assert (H : held (fst (first_refresh e c i))).
  { unfold first_refresh. pose proof (fetch_ok room e (sc_slurm c) i init_state R held_init) as H1.
    destruct (fetch e _ i init_state) as [s2 new]. cbn [fst] in H1. pose proof (new_ok e c (i_now i) (i_proc i) s2 H1) as H2.
    destruct (update_from_new_state e c (i_now i) (i_proc i) s2) as [[s3 ns] err]. exact H2. }
  revert H. generalize (fst (first_refresh e c i)). induction h as [|j h IH]; intros s H; [exact H|]. cbn [fold_left]. apply IH.
  now apply (refresh_ok room).
Qed.
Theorem reads_wf room e : sorts (e_sort e) -> reads_text room e -> wf_env e.
Proof.
  intros S0 [R1 R2]. split; [exact S0|]. split.
  - intros x d. rewrite R1. apply reader_wf.
  - intros x s. rewrite R2. apply slurm_reader_wf.
Qed.

(** ** The exported document read again *)
Definition float_fmt (fmt : Z -> Z -> bytes) : Prop :=
  forall lit m e, lit_float lit = Some (m, e) -> jnumber (fmt m e) /\ lit_float (fmt m e) = Some (m, e).
Lemma read_fit fmt v : float_fmt fmt -> vrp_read v -> vrp_fit fmt v.
Proof.
  intros HF (H1 & H2 & H3 & H4 & H5). do 2 (split; [assumption|]). split; [|split; assumption].
  destruct (vj_asn v) as [s|n|m e|]; cbn [asn_read asn_fit] in *; auto. destruct H3 as [lit H3]. now apply (HF lit).
Qed.
Lemma brk_slice_list l : sl_list (brk_slice l) = l.
Proof. destruct l; reflexivity. Qed.
Theorem export_back fmt room s : float_fmt fmt -> held s -> (Z.of_nat (length (exported_roa s)) < 2 ^ 63)%Z ->
  reader room (export_text fmt true s) = Some (export_list (room (length (exported_roa s))) (room (length (exported_brk s))) s).
Proof.
  intros HF H HL. unfold reader, export_text. destruct (held_exported s H) as [X1 X2].
  rewrite text_back.
  - cbn [option_map]. unfold kept_list, export_list. cbn [fi_meta fi_roa fi_brk md_build md_gen]. unfold sl_list at 1.
    rewrite map_length, !brk_slice_list. reflexivity.
  - unfold meta_fit, int64. cbn [md_vrps md_keys md_build md_gen md_session md_serial]. destruct H as (_ & _ & _ & H4 & _).
    repeat split; try lia; assumption || exact I.
  - eapply Forall_impl; [|exact X1]. intros v. now apply read_fit.
  - exact X2.
Qed.
