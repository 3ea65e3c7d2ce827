(** Lemmas about chained servers. *)
From Coq Require Import ZifyBool ZifyNat ZifyN.
From Verif Require Import Model.Chain Spec.Refresh Spec.Collect Spec.Response Proofs.DataP Proofs.CacheP Proofs.JsonP Proofs.ProcessP Proofs.SlurmP Proofs.DumpP
  Proofs.StateP Proofs.SessionP.
Local Open Scope list_scope.
Local Open Scope N_scope.
Ltac Zify.zify_post_hook ::= Z.div_mod_to_equations.

(** The cache of stayrtr is one that was fed lists of records. *)
Lemma after_run e c h : wf_env e -> exists H, Forall (Forall wf_sd) H /\ st_server (after e c h) = run (new_server 3) H.
Proof.
  intros HE. induction h as [|i h IH] using rev_ind; [exists []; split; [constructor|reflexivity]|].
  destruct IH as (H & HW & HR). rewrite after_snoc.
  pose proof (turn_outcome e c h i HE (after_inv e c h HE)) as HT.
  pose proof (fetch_spec e (slurm_on c h) i (after e c h)) as HF.
  destruct (fetch _ _ _ _) as [s2 new]. destruct (turn e c h i) as [s' ns]. cbn [fst].
  destruct HF as (F1 & _). destruct HT as [HI HO].
  assert (G : forall l, Forall wf_sd l -> exists H', Forall (Forall wf_sd) H' /\ step (st_server s2) l = run (new_server 3) H').
  { intros l Hl. exists (H ++ [l]). split; [apply Forall_app; auto|]. unfold run. rewrite fold_left_app. cbn [fold_left].
    fold (run (new_server 3) H). now rewrite F1, HR. }
  inversion HO as [? s1 sds v b ? ? _ _ HWs _ _ HP HA|s1 sds v b ? ? _ _ HWs _ _ HP HCC|? _|? t _ _ _ _ _ _ HSv]; subst.
  - destruct HA as (_ & _ & _ & HS & _). apply prepare_keeps in HP as (_ & HQ & _). rewrite HS, HQ. now apply G.
  - apply prepare_keeps in HP as (_ & HQ & _). destruct HCC as [(_ & (_ & _ & _ & HS & _))|(_ & -> & _)].
    + rewrite HS, HQ. now apply G.
    + exists H. rewrite HQ, F1. auto.
  - exists H. rewrite F1. auto.
  - rewrite HSv. now apply G.
Qed.

(** What is served was once listed. *)
Definition sane (x : rid) : Prop :=
  match x with
  | RV p a m => exists b, p_bits p = Some b /\ 0 < b /\ b <= m /\ m <= bitlen (p_addr p)
  | _ => True
  end.
Lemma listed_sane now vs bs x : listed now vs bs x -> sane x.
Proof. intros [(v & p & asn & _ & (_ & _ & HB & _) & ->)|(b & ski & _ & _ & _ & ->)]; [exact HB|exact I]. Qed.
Lemma content_sane now sl d x : content now sl d x -> sane x.
Proof. unfold content. destruct sl; apply listed_sane. Qed.
Lemma after_sane e c h x : wf_env e -> served (after e c h) x -> sane x.
Proof.
  intros HE. revert x. induction h as [|i h IH] using rev_ind; [intros x []|]. intros x Hx. rewrite after_snoc in Hx.
  pose proof (turn_outcome e c h i HE (after_inv e c h HE)) as HT.
  pose proof (fetch_spec e (slurm_on c h) i (after e c h)) as HF.
  destruct (fetch _ _ _ _) as [s2 new]. destruct (turn e c h i) as [s' ns]. cbn [fst] in Hx.
  destruct HF as (F1 & _). destruct HT as [HI HO].
  assert (G : forall l, Forall wf_sd l -> (forall y, In y (ids l) -> sane y) -> In x (ids (sdCurrent (step (st_server s2) l))) -> sane x).
  { intros l Hl HS H. apply HS. apply (step_served _ _ (proj1 HI) Hl). exact H. }
  unfold served, get_current_sds in *.
  inversion HO as [? s1 sds v b ? ? _ _ HWs HIn _ HP HA|s1 sds v b ? ? _ _ HWs HIn _ HP HCC|? _|? t _ _ _ _ _ _ HSv]; subst.
  - destruct HA as (_ & _ & _ & HS & _). apply prepare_keeps in HP as (_ & HQ & _). rewrite HS, HQ in Hx. apply (G sds); auto.
    intros y Hy. apply HIn in Hy. now apply content_sane in Hy.
  - apply prepare_keeps in HP as (_ & HQ & _). destruct HCC as [(_ & (_ & _ & _ & HS & _))|(_ & -> & _)].
    + rewrite HS, HQ in Hx. apply (G sds); auto. intros y Hy. apply HIn in Hy. now apply content_sane in Hy.
    + rewrite HQ, F1 in Hx. now apply IH.
  - rewrite F1 in Hx. now apply IH.
  - rewrite HSv in Hx. apply (G []); auto. intros y [].
Qed.

(** Entries of a dump never expire. *)
Lemma dump_no_expiry v b d : bytes_ok b -> dump_main v b = Some d ->
  (forall x, In x (fst (reread d)) -> vj_expires x = None) /\ (forall x, In x (snd (reread d)) -> bj_expires x = None).
Proof.
  intros HB. unfold dump_main. pose proof (session_shape dump_handle (S (length b)) v empty_dump b HB ltac:(lia)) as HS.
  cbv zeta in HS. destruct HS as (rest & _ & _ & _ & _ & HR & _). set (r := start_rw dump_handle v empty_dump b) in *.
  destruct (o_end r); try discriminate. intros [= <-]. rewrite HR. clear.
  assert (G : forall ps h, (forall x, In x (d_roas h) -> vj_expires x = None) /\ (forall x, In x (d_keys h) -> bj_expires x = None) ->
    (forall x, In x (d_roas (run_handler dump_handle h ps)) -> vj_expires x = None) /\
    (forall x, In x (d_keys (run_handler dump_handle h ps)) -> bj_expires x = None)).
  { intros ps. induction ps as [|p ps IH]; intros h [H1 H2]; [split; assumption|].
    cbn [run_handler fold_left]. apply IH. destruct p; cbn [dump_handle fst d_roas d_keys]; split; try assumption;
      intros x Hx; apply in_app_iff in Hx as [Hx|[<-|[]]]; auto. }
  destruct (G (map snd (o_trace r)) empty_dump) as [G1 G2]; [split; intros x []|]. split.
  - intros x Hx. cbn [reread fst] in Hx. apply in_map_iff in Hx as (y & <- & Hy). cbn [vj_expires]. now apply G1.
  - exact G2.
Qed.

(** A list of entries without expiry that can all be read. *)
Lemma map_some_in {A B} (f : A -> option B) l m x : map f l = map Some m -> In x m -> exists a, In a l /\ f a = Some x.
Proof.
  intros E Hx. apply (in_map Some) in Hx. rewrite <- E in Hx. apply in_map_iff in Hx as (a & E1 & Ha). exists a. auto.
Qed.
Lemma map_some_out {A B} (f : A -> option B) l m a : map f l = map Some m -> In a l -> exists x, In x m /\ f a = Some x.
Proof.
  intros E Ha. apply (in_map f) in Ha. rewrite E in Ha. apply in_map_iff in Ha as (x & E1 & Hx). exists x. auto.
Qed.
Lemma listed_clean now vs bs ms ks :
  map file_vrp vs = map Some ms -> map file_key bs = map Some ks -> (forall x, In x ms -> sane x) ->
  (forall x, In x vs -> vj_expires x = None) -> (forall x, In x bs -> bj_expires x = None) ->
  forall x, listed now vs bs x <-> In x ms \/ In x ks.
Proof.
  intros HV HK HS E1 E2 x. split.
  - intros [(v & p & asn & Hv & (H1 & H2 & H3 & _) & ->)|(b & ski & Hb & _ & HH & ->)].
    + left. destruct (map_some_out _ _ _ _ HV Hv) as (y & Hy & E). unfold file_vrp in E. rewrite H1, H2 in E. injection E as <-. exact Hy.
    + right. destruct (map_some_out _ _ _ _ HK Hb) as (y & Hy & E). unfold file_key in E.
      apply hex_decode_spec in HH. rewrite HH in E. injection E as <-. exact Hy.
  - intros [Hx|Hx].
    + left. destruct (map_some_in _ _ _ _ HV Hx) as (v & Hv & E). unfold file_vrp in E.
      destruct (parse_prefix (vj_prefix v)) as [p|] eqn:EP; [|discriminate E]. destruct (get_asn2 (vj_asn v)) as [a|] eqn:EA; [|discriminate E].
      injection E as <-. exists v, p, a. split; [exact Hv|]. split; [|reflexivity].
      split; [exact EP|]. split; [exact EA|]. split; [exact (HS _ Hx)|]. rewrite (E1 _ Hv). exact I.
    + right. destruct (map_some_in _ _ _ _ HK Hx) as (b & Hb & E). unfold file_key in E.
      destruct (hex_decode (bj_ski b)) as [ski ok] eqn:EH. destruct ok; [|discriminate E]. injection E as <-.
      exists b, ski. split; [exact Hb|]. split; [rewrite (E2 _ Hb); exact I|]. split; [now apply hex_decode_spec|reflexivity].
Qed.

(** Writing and reading again does not change what an entry stands for. *)
Lemma again_asn v : wf_vj v -> get_asn2 (vj_asn (again v)) = get_asn2 (vj_asn v).
Proof.
  intros [_ H]. unfold again. destruct (vj_asn v) as [s|n|m k|] eqn:E; cbn [vj_asn]; try reflexivity. exact (asn_float n H).
Qed.
Lemma listed_again now vs bs x : Forall wf_vj vs -> listed now (map again vs) bs x <-> listed now vs bs x.
Proof.
  intros HW. rewrite Forall_forall in HW. split; intros [(v & p & asn & Hv & (H1 & H2 & H3 & H4) & ->)|H]; [left|right; exact H|left|right; exact H].
  - apply in_map_iff in Hv as (u & <- & Hu). exists u, p, asn. split; [exact Hu|]. split; [|reflexivity].
    rewrite again_asn in H2 by auto. repeat split; assumption.
  - exists (again v), p, asn. split; [now apply in_map|]. split; [|reflexivity].
    unfold entry_ok. rewrite again_asn by auto. repeat split; assumption.
Qed.
(** The exported entries are well-formed. *)
Definition wfx (s : state) : Prop :=
  Forall wf_vj (st_vtail s) /\ match ex_roa (st_exported s) with Own l => Forall wf_vj l | Shared _ => True end.
Lemma wfx_roa s : wf_list (st_data s) -> wfx s -> Forall wf_vj (exported_roa s).
Proof.
  intros [H _] [H1 H2]. unfold exported_roa. destruct (ex_roa (st_exported s)) as [l|k]; cbn [read]; [exact H2|].
  apply Forall_app. split; [exact H|]. apply (Forall_incl _ (st_vtail s)); [|exact H1]. intros x Hx.
  rewrite <- (firstn_skipn k (st_vtail s)). apply in_or_app. now left.
Qed.
Lemma fetch_wfx e on i s : wf_list (st_data s) -> wfx s -> wfx (fst (fetch e on i s)).
Proof.
  intros HL HX. unfold fetch.
  assert (G : forall s1 u, (if on then update_slurm e (i_slurm i) s else (s, false)) = (s1, u) ->
    wf_list (st_data s1) /\ wfx s1).
  { intros s1 u. destruct on; [|intros [= <- <-]; auto]. unfold update_slurm.
    destruct (i_slurm i) as [x|]; [|intros [= <- <-]; auto].
    destruct (match st_hslurm s with Some h0 => beqb h0 (e_sha e x) | None => false end); [intros [= <- <-]; auto|].
    destruct (e_dslurm e x); intros [= <- <-]; split; assumption. }
  destruct (if on then _ else _) as [s1 u]. destruct (G s1 u eq_refl) as [L1 X1]. clear G. unfold update_file.
  destruct (i_file i) as [x|]; [|exact X1].
  destruct (match st_hcache s1 with Some h0 => beqb h0 (e_sha e x) | None => false end); [exact X1|].
  destruct (e_decode e x); [|exact X1]. split; [constructor|]. cbn [fst st_exported ex_roa]. now apply wfx_roa.
Qed.
Lemma asserts_wf l : Forall (fun a => u32 (pa_asn a)) l -> Forall wf_vj (assert_vrps l).
Proof.
  intros H. rewrite Forall_forall in H. unfold assert_vrps. apply Forall_forall. intros v Hv. apply in_flat_map in Hv as (a & Ha & Hv).
  destruct (cidr_size (pa_prefix a)); [|destruct Hv]. destruct Hv as [<-|[]]. split; [apply to_u8_lt|exact (H a Ha)].
Qed.
Lemma prepare_wfx e s now s1 sds v b : sinv s -> wfx s -> prepare e s now (roa_of (st_data s)) = (s1, sds, v, b) ->
  Forall wf_vj (st_vtail s1) /\ st_exported s1 = st_exported s /\ match v with Own l => Forall wf_vj l | Shared _ => True end.
Proof.
  intros (_ & [HL _] & HO) [HX _]. unfold prepare.
  assert (G : forall v' vt b' bt, slurm_step s (roa_of (st_data s)) = (v', vt, b', bt) ->
    Forall wf_vj vt /\ match v' with Own l => Forall wf_vj l | Shared _ => True end).
  { intros v' vt b' bt. unfold slurm_step. destruct (st_slurm s) as [sl|]; [|intros [= <- <- <- <-]; auto].
    destruct HO as [S1 _]. pose proof (asserts_wf _ S1) as HA.
    assert (HF : forall fs, Forall wf_vj (fst (filter_on_vrps fs (roa_of (st_data s))))).
    { intros fs. rewrite filter_on_vrps_eq. cbn [fst]. apply (Forall_incl _ (roa_of (st_data s))); [|exact HL].
      intros x Hx. now apply filter_In in Hx. }
    destruct (s_pfilters sl) as [|f fs]; [|destruct (s_bfilters sl); [destruct (append_shared (rl_bspare _) _ _ _)|];
      intros [= <- <- <- <-]; (split; [exact HX|]); apply Forall_app; (split; [exact (HF (f :: fs))|exact HA])].
    unfold append_shared at 1. destruct (length (assert_vrps (s_passerts sl)) <=? rl_spare (st_data s))%nat.
    - destruct (s_bfilters sl); [destruct (append_shared (rl_bspare _) _ _ _)|]; intros [= <- <- <- <-]; (split; [|exact I]);
        apply Forall_app; (split; [exact HA|]); apply (Forall_incl _ (st_vtail s)); try exact HX; intros x Hx;
        rewrite <- (firstn_skipn (length (assert_vrps (s_passerts sl))) (st_vtail s)); apply in_or_app; now right.
    - destruct (s_bfilters sl); [destruct (append_shared (rl_bspare _) _ _ _)|]; intros [= <- <- <- <-]; (split; [exact HX|]);
        apply Forall_app; auto. }
  destruct (slurm_step s (roa_of (st_data s))) as [[[v' vt] b'] bt]. destruct (G v' vt b' bt eq_refl) as [G1 G2].
  destruct (process_data _ _ _ _) as [[[vrps brks] ?] ?]. intros [= <- <- <- <-]. auto.
Qed.
Lemma applied_wfx c s1 sds v b s' ns : Forall wf_vj (st_vtail s1) ->
  match v with Own l => Forall wf_vj l | Shared _ => True end -> 
  match ex_roa (st_exported s1) with Own l => Forall wf_vj l | Shared _ => True end -> applied c s1 sds v b s' ns -> wfx s'.
Proof.
  intros H1 H2 H3 (_ & HV & _ & _ & [(-> & _)|(_ & HE & _)]); [split; assumption|]. split; [now rewrite HV|]. now rewrite HE.
Qed.
Lemma after_wfx e c h : wf_env e -> wfx (after e c h).
Proof.
  intros HE. induction h as [|i h IH] using rev_ind; [split; constructor|]. rewrite after_snoc.
  pose proof (turn_outcome e c h i HE (after_inv e c h HE)) as HT.
  pose proof (fetch_wfx e (slurm_on c h) i (after e c h) (proj1 (proj2 (after_inv e c h HE))) IH) as HX.
  destruct (fetch _ _ _ _) as [s2 new]. destruct (turn e c h i) as [s' ns]. cbn [fst] in *. destruct HT as [HI HO].
  inversion HO as [? s1 sds v b ? ? _ _ _ _ _ HP HA|s1 sds v b ? ? _ _ _ _ _ HP HCC|? _|? t _ _ _ _ _ _ _ _ E1 E2 E3]; subst.
  - apply prepare_wfx in HP as (P1 & P2 & P3); try assumption. apply (applied_wfx c s1 sds v b s' ns); auto. rewrite P2. apply HX.
  - apply prepare_wfx in HP as (P1 & P2 & P3); try assumption. destruct HCC as [(_ & HA)|(_ & -> & _)].
    + apply (applied_wfx c s1 sds v b s' ns); auto. rewrite P2. apply HX.
    + split; [exact P1|]. rewrite P2. apply HX.
  - exact HX.
  - split; [rewrite E2; apply HX|rewrite E1; apply HX].
Qed.
Lemma exported_wf e c h : wf_env e -> Forall wf_vj (exported_roa (after e c h)).
Proof. intros HE. apply wfx_roa; [apply (after_inv e c h HE)|now apply after_wfx]. Qed.
