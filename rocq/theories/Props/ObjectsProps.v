(** Property C80: the gauge rpki_objects. *)
From Coq Require Import ZArith ZifyBool ZifyNat ZifyN String.
From Verif Require Import Lib.Str Model.Metrics Spec.Gauges Proofs.CacheP Proofs.StateP Proofs.GaugeP
  Props.CacheProps Props.InputProps Props.StateProps Props.GaugeProps.
From Coq Require Import List.
Import ListNotations.
Local Open Scope N_scope.

Lemma number_or {A} (P Q : A -> Prop) n m : number_of P n -> number_of Q m -> (forall x, P x -> Q x -> False) ->
  number_of (fun x => P x \/ Q x) (n + m).
Proof.
  intros (l & N1 & H1 & ->) (k & N2 & H2 & ->) D. exists (l ++ k). split; [|split].
  - assert (X : forall x, In x l -> In x k -> False) by (intros x X Y; apply H1 in X; apply H2 in Y; exact (D x X Y)).
    clear - N1 N2 X. induction N1 as [|a l HA N1 IH]; [exact N2|]. cbn [app]. constructor.
    + intros HI. apply in_app_or in HI as [HI|HI]; [now apply HA|]. exact (X a (or_introl eq_refl) HI).
    + apply IH. intros x Y. apply X. now right.
  - intros x. rewrite in_app_iff, H1, H2. reflexivity.
  - unfold nlen. rewrite app_length. lia.
Qed.
Lemma counts_or {A} (P Q : A -> Prop) l : (forall x, P x -> Q x -> False) -> forall n m, counts P l n -> counts Q l m ->
  counts (fun x => P x \/ Q x) l (n + m).
Proof.
  intros D. induction l as [|x l IH]; intros n m H1 H2.
  - inversion H1. inversion H2. constructor.
  - inversion H1 as [|? ? n' HP HL|? ? n' HP HL]; inversion H2 as [|? ? m' HQ HM|? ? m' HQ HM]; subst.
    + destruct (D x HP HQ).
    + replace (n' + 1 + m) with ((n' + m) + 1) by lia. apply Co_yes; [now left|now apply IH].
    + replace (n + (m' + 1)) with ((n + m') + 1) by lia. apply Co_yes; [now right|now apply IH].
    + apply Co_no; [tauto|now apply IH].
Qed.
Lemma counts_same {A} (P Q : A -> Prop) l n : (forall x, P x <-> Q x) -> counts P l n -> counts Q l n.
Proof. intros E. induction 1; [constructor|apply Co_yes; [now apply E|assumption]|apply Co_no; [now rewrite <- E|assumption]]. Qed.

(** C80 The gauges show what is served, rpki_objects: while anything is served, effective_vrps is
    the number of VRPs served, and vrps the number of usable entries of the refresh that last changed what
    is served.  (Missing: when nothing is served, see [C80_drop_refuted].) *)
Theorem C80_objects_partial : forall e c h, wf_env e -> get_current_sds (st_server (after e c h)) <> [] ->
  exists g, metrics_after e c h = Some g /\
    number_of (fun x => served (after e c h) x /\ (is_v4 x \/ is_v6 x)) (g_effective g) /\
    exists h1 i h2, last_change e c h h1 i h2 /\
      let s1 := after e c (h1 ++ [i]) in
      counts (fun v => exists p asn, entry_ok (i_proc i / 1000000000) v p asn) (entries (st_slurm s1) (st_data s1)) (g_vrps g).
Proof.
  intros e c h HE HN. destruct (C80_gauges_partial e c h HE HN) as (g & HG & _ & H4 & H6 & h1 & i & h2 & HL & K4 & K6 & _).
  exists g. split; [exact HG|]. split.
  - unfold g_effective. destruct (number_or _ _ _ _ H4 H6) as (l & N & HI & E).
    + intros x [_ A] [_ B]. destruct x as [[[]] ? ?|]; cbn in A, B; contradiction.
    + exists l. split; [exact N|]. split; [|exact E]. intros x. rewrite HI. tauto.
  - exists h1, i, h2. split; [exact HL|]. cbn zeta. unfold g_vrps.
    eapply counts_same; [|apply counts_or; [|exact K4|exact K6]]; cbn beta.
    + intros v. split.
      * intros [(p & asn & H & _)|(p & asn & H & _)]; eauto.
      * intros (p & asn & H). destruct (is4 (p_addr p)) eqn:E; [left|right]; eauto.
    + intros v (p & a & (P1 & _) & E1) (q & b & (P2 & _) & E2). congruence.
Qed.
(** Three usable entries of IPv4, two of them the same, and one of IPv6. *)
Example C80_objects_case : exists g, metrics_after env80c cfgN [at_h 1 [1]] = Some g /\ g_effective g = 3 /\ g_vrps g = 4.
Proof. eexists. split; [vm_compute; reflexivity|]. split; reflexivity. Qed.

Print Assumptions C80_objects_partial.
