(** Property C109: the same addresses written with different bits behind the prefix length. *)
From Coq Require Import String ZArith ZifyBool ZifyNat ZifyN.
From Verif Require Import Lib.Str Model.JsonFile Model.Cache Spec.AddrText Spec.Input Spec.Sets Spec.Refresh Spec.Chain
  Proofs.JsonP Proofs.JsonStateP Proofs.SlurmP Proofs.StateP Proofs.AddrTextP Proofs.JsonCutP Props.CacheProps Props.InputProps Props.StateProps Props.JsonProps.
From Coq Require Import List.
Import ListNotations.
Local Open Scope string_scope.
Local Open Scope list_scope.
Local Open Scope N_scope.

(** The same addresses. *)
Definition same_range (p r : prefix) : Prop := covers p r /\ covers r p.
(** No bit is set behind the length. *)
Definition cleared (p : prefix) : Prop :=
  match p_addr p, p_bits p with
  | A4 x, Some b => forall i, i < 32 - b -> N.testbit x i = false
  | A6 x, Some b => forall i, i < 128 - b -> N.testbit x i = false
  | _, _ => False
  end.
Lemma range_one w b x y : x < 2 ^ w -> y < 2 ^ w -> bits_agree w b x y ->
  (forall i, i < w - b -> N.testbit x i = false) -> (forall i, i < w - b -> N.testbit y i = false) -> x = y.
Proof.
  intros Hx Hy HA H1 H2. apply N.bits_inj. intros i. destruct (N.lt_ge_cases i (w - b)) as [H|H]; [now rewrite H1, H2|].
  destruct (N.lt_ge_cases i w) as [H'|H']; [apply HA; lia|]. now rewrite (testbit_above w x i Hx H'), (testbit_above w y i Hy H').
Qed.
Lemma same_range_eq p r : wf_prefix p -> is_valid p = true -> wf_prefix r -> is_valid r = true -> cleared p -> cleared r -> same_range p r -> p = r.
Proof.
  intros Wp Vp Wr Vr Cp Cr [H1 H2].
  assert (HB : (bits p <= bits r)%Z /\ (bits r <= bits p)%Z).
  { split; [apply (covers_spec p r) in H1|apply (covers_spec r p) in H2]; auto; [apply andb_true_iff in H1|apply andb_true_iff in H2]; lia. }
  destruct Wp as [Wp _], Wr as [Wr _]. destruct p as [[|x|x] [b|]]; try contradiction; destruct r as [[|y|y] [c|]]; try contradiction;
    unfold bits in HB; cbn [p_addr p_bits cleared wf_addr] in *; assert (b = c) by lia; subst c.
  - f_equal. f_equal. apply (range_one 32 b x y); auto. exact (H1 (A4 y) Wr (fun i _ => eq_refl)).
  - exfalso. exact (H1 (A6 y) Wr (fun i _ => eq_refl)).
  - exfalso. exact (H1 (A4 y) Wr (fun i _ => eq_refl)).
  - f_equal. f_equal. apply (range_one 128 b x y); auto. exact (H1 (A6 y) Wr (fun i _ => eq_refl)).
Qed.

(** C109 If no entry has bits set behind the length, no authorisation is there twice.  (Missing:
    that entries with such bits are refused or the bits cleared, see below.) *)
Theorem C109_once_partial : forall sort now vs bs, sorts sort -> Forall wf_vj vs ->
  (forall v p, In v vs -> prefix_text (vj_prefix v) p -> cleared p) ->
  let '(vrps, _, _, _) := process_data sort now vs bs in
  forall p r asn m f g, In (VRP p asn m f) vrps -> In (VRP r asn m g) vrps -> same_range p r -> VRP p asn m f = VRP r asn m g.
Proof.
  intros sort now vs bs HS HW HC. pose proof (C34_vrps sort now vs bs HS HW) as H.
  destruct (process_data sort now vs bs) as [[[vrps brks] c4] c6]. destruct H as (H & _). intros p r asn m f g Hp Hr HR.
  apply H in Hp, Hr. destruct Hp as (v & p' & a & Iv & (P1 & _) & E). injection E; intros; subst.
  destruct Hr as (w & r' & a' & Iw & (R1 & _) & E'). injection E'; intros; subst.
  destruct (parse_prefix_wf _ _ P1) as [W1 V1]. destruct (parse_prefix_wf _ _ R1) as [W2 V2].
  assert (p' = r'); [|congruence]. apply same_range_eq; auto; [apply (HC v)|apply (HC w)]; auto; now apply parse_prefix_spec.
Qed.
Lemma low_zero k z i : i < k -> N.testbit (z * 2 ^ k) i = false.
Proof. intros H. rewrite <- N.shiftl_mul_pow2. now apply N.shiftl_spec_low. Qed.
Example C109_once_case : Forall wf_vj sample /\ (forall v p, In v sample -> prefix_text (vj_prefix v) p -> cleared p).
Proof.
  split; [repeat constructor|]. intros v p HI HP. apply parse_prefix_spec in HP.
  repeat (destruct HI as [<-|HI]; [vm_compute in HP; try discriminate HP; injection HP as <-; cbn [cleared p_addr p_bits]|]); [..|contradiction].
  - intros i Hi. exact (low_zero 24 10 i Hi).
  - intros i Hi. exact (low_zero 16 2561 i Hi).
  - intros i Hi. exact (low_zero 16 2561 i Hi).
  - intros i Hi. exact (low_zero 16 2562 i Hi).
  - intros i Hi. exact (low_zero 96 536939960 i Hi).
  - intros i Hi. exact (low_zero 96 536939960 i Hi).
  - intros i Hi. apply N.bits_0.
  - intros i Hi. exact (low_zero 24 10 i Hi).
  - intros i Hi. exact (low_zero 24 10 i Hi).
Qed.

(** But the bits are taken as they come: the same authorisation is then served twice, and when
    one of the two entries goes a router that looks at the addresses is told to drop what the
    other entry still lists. *)
Definition twofold : bytes := q "{'roas':[{'prefix':'10.0.0.0/8','maxLength':8,'asn':1},{'prefix':'10.1.2.3/8','maxLength':8,'asn':1}]}".
Definition onefold : bytes := q "{'roas':[{'prefix':'10.0.0.0/8','maxLength':8,'asn':1}]}".
Definition p123 : prefix := pfx4 167838211 8.
Lemma p123_range : same_range (pfx4 167772160 8) p123.
Proof.
  split; [apply (covers_spec (pfx4 167772160 8) p123)|apply (covers_spec p123 (pfx4 167772160 8))]; try reflexivity;
    (split; [vm_compute; reflexivity|split; [discriminate|vm_compute; discriminate]]).
Qed.
Theorem C109_twice_refuted : exists e c h p r asn m,
  wf_env e /\ served (State.after e c h) (RV p asn m) /\ served (State.after e c h) (RV r asn m) /\ same_range p r /\ p <> r.
Proof.
  exists text_env, cfgN, [at_h 1 twofold], (pfx4 167772160 8), p123, 1, 8.
  split; [exact (reads_wf _ _ (proj1 text_env_reads) (proj2 text_env_reads))|]. split; [apply servedb_ok; vm_compute; reflexivity|]. split; [apply servedb_ok; vm_compute; reflexivity|].
  split; [exact p123_range|discriminate].
Qed.
Theorem C109_withdrawn_refuted : exists e c h i p r asn m d,
  wf_env e /\ get_sds_serial_diff (st_server (State.after e c (h ++ [i]))) (serial_of (State.after e c h)) = Ok d /\
  d = [VRP r asn m FLAG_REMOVED] /\ served (State.after e c (h ++ [i])) (RV p asn m) /\ same_range p r.
Proof.
  exists text_env, cfgN, [at_h 1 twofold], (at_h 2 onefold), (pfx4 167772160 8), p123, 1, 8. eexists.
  split; [exact (reads_wf _ _ (proj1 text_env_reads) (proj2 text_env_reads))|]. split; [vm_compute; reflexivity|]. split; [reflexivity|].
  split; [apply servedb_ok; vm_compute; reflexivity|exact p123_range].
Qed.

(** The same for a daemon, over any history of files and SLURM files: if no prefix in them has bits
    set behind the length, no authorisation is served twice at any time, and one that is withdrawn
    by a refresh is not among what is served afterwards, in whatever way it is written. *)
Definition all_cleared (e : env) (h : list input) : Prop :=
  (forall i y d v p, In i h -> i_file i = Some y -> e_decode e y = Some d -> In v (roa_of d) -> prefix_text (vj_prefix v) p -> cleared p) /\
  (forall i y s a p, In i h -> i_slurm i = Some y -> e_dslurm e y = Some s -> In a (s_passerts s) -> prefix_text (pa_prefix a) p -> cleared p).
Lemma served_cleared e c h p asn m : wf_env e -> all_cleared e h -> served (State.after e c h) (RV p asn m) -> wf_prefix p /\ is_valid p = true /\ cleared p.
Proof.
  intros HE [HF HS] H. destruct (after_origin e c h HE) as (_ & _ & [N|(i & d & sl & Hi & (j & y & J1 & J2 & J3) & HL & HX)]); [contradiction (N _ H)|].
  apply HX in H. assert (G : exists v a, (In v (roa_of d) \/ exists s, sl = Some s /\ In v (assert_vrps (s_passerts s))) /\ entry_ok (i_proc i / 1000000000) v p a).
  { unfold content in H. destruct sl as [s|]; destruct H as [(v & q & a & Iv & E & X)|(b & k & _ & _ & _ & X)]; try discriminate X; injection X as -> _ _; exists v, a; (split; [|exact E]); [|now left].
    unfold filter_assert in Iv. cbn [fst] in Iv. apply in_app_or in Iv as [Iv|Iv]; [left|right; eauto]. rewrite filter_on_vrps_eq in Iv. cbn [fst] in Iv. now apply filter_In in Iv. }
  destruct G as (v & a & Iv & (P & _)). destruct (parse_prefix_wf _ _ P) as [W V]. split; [exact W|]. split; [exact V|]. apply parse_prefix_spec in P.
  destruct Iv as [Iv|(s & -> & Iv)]; [exact (HF j y d v p J1 J2 J3 Iv P)|]. cbn [from_slurm] in HL. destruct HL as (j2 & y2 & K1 & K2 & K3).
  unfold assert_vrps in Iv. apply in_flat_map in Iv as (b & B1 & B2). destruct (cidr_size (pa_prefix b)); [|destruct B2]. destruct B2 as [<-|[]]. exact (HS j2 y2 s b p K1 K2 K3 B1 P).
Qed.
Theorem C109_daemon_partial : forall e c h, wf_env e -> all_cleared e h ->
  (forall p r asn m, served (State.after e c h) (RV p asn m) -> served (State.after e c h) (RV r asn m) -> same_range p r -> p = r) /\
  (forall h1 h2 p r asn m, h = h1 ++ h2 -> served (State.after e c h1) (RV p asn m) -> ~ served (State.after e c h) (RV p asn m) ->
    same_range p r -> ~ served (State.after e c h) (RV r asn m)).
Proof.
  intros e c h HE HC. split.
  - intros p r asn m H1 H2 HR. destruct (served_cleared _ _ _ _ _ _ HE HC H1) as (A & B & C). destruct (served_cleared _ _ _ _ _ _ HE HC H2) as (A' & B' & C'). now apply same_range_eq.
  - intros h1 h2 p r asn m E H1 H2 HR H3.
    assert (HC1 : all_cleared e h1) by (destruct HC as [X Y]; subst h; split; intros; [eapply X|eapply Y]; eauto; apply in_or_app; now left).
    destruct (served_cleared _ _ _ _ _ _ HE HC1 H1) as (A & B & C). destruct (served_cleared _ _ _ _ _ _ HE HC H3) as (A' & B' & C').
    apply H2. now rewrite (same_range_eq p r).
Qed.
Example C109_daemon_case : let h := [at_h 1 onefold; at_h 2 onefold] in all_cleared text_env h /\ servedb (State.after text_env cfgN h) (RV (pfx4 167772160 8) 1 8) = true.
Proof.
  cbv zeta. split; [|vm_compute; reflexivity]. split.
  - intros i y d v p [<-|[<-|[]]] [= <-] E HV HP; vm_compute in E; injection E as <-; (destruct HV as [<-|[]]); apply parse_prefix_spec in HP; vm_compute in HP; injection HP as <-; intros i Hi; exact (low_zero 24 10 i Hi).
  - intros i y s a p [<-|[<-|[]]] E; discriminate E.
Qed.

Print Assumptions C109_once_partial.
Print Assumptions C109_daemon_partial.
Print Assumptions C109_twice_refuted.
Print Assumptions C109_withdrawn_refuted.
