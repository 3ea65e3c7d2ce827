(** Properties C39, C40, C41: what the SLURM file does to any input at all. *)
From Coq Require Import String ZArith ZifyBool ZifyNat ZifyN.
From Verif Require Import Lib.Str Model.Slurm Spec.Input Spec.SlurmExact Proofs.FormatP Proofs.DataP Proofs.JsonP Proofs.SlurmP Proofs.SlurmExactP Props.InputProps.
From Coq Require Import List.
Local Open Scope string_scope.
Local Open Scope list_scope.
Local Open Scope N_scope.

(** C39 for every list of filters and entries: the removed ones are exactly those that some
    filter hits, where a prefix that cannot be read restricts nothing and an AS number that
    cannot be read is 0.
    Missing: the property wants no filter or entry that cannot be read to hit
    (C39_unparsable_refuted, C39_as0_refuted). *)
Theorem C39_exact_partial : forall fs vs,
  splits (fun v => exists f, In f fs /\ pf_hits f v) vs (fst (filter_on_vrps fs vs)) (snd (filter_on_vrps fs vs)).
Proof.
  intros fs vs. rewrite filter_on_vrps_eq. cbn [fst snd]. apply splits_filter. intros v _. rewrite existsb_exists.
  split; intros (f & Hf & H); exists f; (split; [exact Hf|]); now apply pf_match_exact.
Qed.
Example C39_exact_case :
  let f1 := mkPF (str "10.0.0.0/33") (Some 1) in let f2 := mkPF (str "192.0.2.0/24") (Some 0) in
  let v1 := ej "10.1.0.0/16" 24 "1" None in let v2 := ej "10.1.0.0/16" 24 "2" None in
  let v3 := ej "192.0.2.0/25" 25 "x" None in let v4 := ej "192.0.0.0/16" 24 "x" None in let v5 := ej "192.0.2.0" 24 "" None in
  filter_on_vrps [f1; f2] [v1; v2; v3; v4; v5] = ([v2; v4], [v1; v3; v5]) /\ pf_hits f1 v1 /\ ~ pf_hits f1 v2 /\ pf_hits f2 v3 /\ ~ pf_hits f2 v4 /\ pf_hits f2 v5.
Proof.
  cbv zeta. repeat rewrite <- pf_match_exact. vm_compute. repeat split; try reflexivity; discriminate.
Qed.

(** C40 for every list of filters and keys.
    Missing: the property wants keys with a SKI that is not hexadecimal to be left alone by
    filters that ask for a SKI (C40_nonhex_refuted). *)
Theorem C40_exact_partial : forall fs bs,
  splits (brk_hits fs) bs (fst (filter_on_brks fs bs)) (snd (filter_on_brks fs bs)).
Proof.
  intros fs bs. rewrite filter_on_brks_eq. cbn [fst snd]. apply splits_filter. intros b _. unfold brk_hits.
  destruct (hex_decode (bj_ski b)) as [k [|]] eqn:EH.
  - rewrite (brk_match_hex b k EH) by now left. rewrite existsb_exists. split.
    + intros (f & Hf & Hm). left. exists f. split; [exact Hf|]. now apply (bf_matchb_spec f b k EH).
    + intros [(f & Hf & Hm)|[N _]]; [|exfalso; apply (N k); now apply hex_decode_spec]. exists f. split; [exact Hf|]. now apply (bf_matchb_spec f b k EH).
  - assert (N : forall k', ~ is_hex_of (bj_ski b) k') by (intros k' H; apply hex_decode_spec in H; congruence).
    rewrite (proj2 (brk_exact b k fs EH)).
    assert (HK : forall f, hex_part (bj_ski b) (bf_ski f) <-> bf_ski f = k) by (intros f; rewrite hex_part_is, EH; cbn [fst]; split; congruence).
    assert (HA : (exists f, In f fs /\ bf_asn f = Some (bj_asn b) /\ bf_ski f = []) <-> (exists f, In f fs /\ bf_agrees f b)).
    { split; intros (f & Hf & H); exists f; (split; [exact Hf|]).
      - destruct H as [H1 H2]. unfold bf_agrees. rewrite H1, H2. split; [left; discriminate|auto].
      - destruct H as (H1 & H2 & [H3|H3]); [|now apply N in H3]. destruct H1 as [H1|H1]; [|congruence]. destruct H2 as [H2|H2]; [congruence|auto]. }
    rewrite HA. split; (intros [H|H]; [now left|right]).
    + destruct H as (l1 & g & l2 & f & l3 & E & G & F & K). split; [exact N|]. exists l1, g, l2, f, l3. rewrite HK. auto.
    + destruct H as [_ (l1 & g & l2 & f & l3 & E & G & F & K)]. rewrite HK in K. exists l1, g, l2, f, l3. auto.
Qed.
Example C40_exact_case :
  let fs := [mkBF (Some 9) []; mkBF None [1]; mkBF (Some 1) [10]] in
  let b1 := bj 1 "0Azz" None in let b2 := bj 2 "0a0" None in let b3 := bj 3 "01z" None in let b4 := bj 3 "01" None in let b5 := bj 9 "x" None in
  filter_on_brks fs [b1; b2; b3; b4; b5] = ([b2; b3], [b1; b4; b5]) /\ brk_hits fs b1 /\ ~ brk_hits fs b3 /\ hex_part (bj_ski b1) [10].
Proof.
  cbv zeta. split; [vm_compute; reflexivity|]. split; [|split].
  - right. split; [intros k H; apply hex_decode_spec in H; vm_compute in H; discriminate H|].
    exists [mkBF (Some 9) []], (mkBF None [1]), [], (mkBF (Some 1) [10]), []. split; [reflexivity|].
    split; [split; [discriminate|now left]|]. split; [split; [discriminate|now right]|]. now apply hex_part_is.
  - intros [(f & Hf & H)|[_ (l1 & g & l2 & f & l3 & E & G & F & K)]].
    + destruct H as (_ & H2 & H3). destruct Hf as [<-|[<-|[<-|[]]]]; cbn [bf_asn bf_ski bj_asn bj] in H2, H3.
      * destruct H2 as [H2|H2]; discriminate H2.
      * destruct H3 as [H3|H3]; [discriminate H3|]. apply hex_decode_spec in H3. vm_compute in H3. discriminate H3.
      * destruct H2 as [H2|H2]; discriminate H2.
    + destruct F as [_ F]. destruct G as [_ G]. destruct l1 as [|y l1]; [injection E as <- E; destruct G as [G|G]; discriminate G|]. injection E as _ E.
      destruct l1 as [|y' l1]; [|injection E as _ E; destruct l1 as [|? [|? ?]]; try discriminate E; injection E as _ E; destruct l2; discriminate E].
      injection E as _ E. destruct l2 as [|? [|? ?]]; [|discriminate E|discriminate E]. injection E as <- _. destruct F as [F|F]; discriminate F.
  - now apply hex_part_is.
Qed.

(** C41 for every SLURM file: what was kept, then the assertions that can be read, in their
    order, each with its max length cut to eight bits.
    Missing: the property wants the max length that was given (C41_maxlen_refuted). *)
Theorem C41_exact_partial : forall s vs bs, exists r,
  fst (filter_assert s vs bs) = fst (filter_on_vrps (s_pfilters s) vs) ++ r /\ asserted (s_passerts s) r.
Proof. intros s vs bs. exists (assert_vrps (s_passerts s)). split; [reflexivity|apply assert_exact]. Qed.
Example C41_exact_case :
  filter_assert (mkSlurm [mkPF (str "10.0.0.0/8") None] [] [mkPA (str "10.0.0.0/25") 1 280 []; mkPA (str "10.0.0.0/33") 1 0 []; mkPA (str "10.0.0.0/024") 2 (-1) []; mkPA (str "10.0.0.0/8") 3 255 []] [])
    [ej "10.1.0.0/16" 24 "1" None; ej "192.0.2.0/24" 24 "1" None] [] =
  ([ej "192.0.2.0/24" 24 "1" None; mkVJ (str "10.0.0.0/25") 24 (AsnU32 1) [] None; mkVJ (str "10.0.0.0/024") 24 (AsnU32 2) [] None; mkVJ (str "10.0.0.0/8") 255 (AsnU32 3) [] None], []).
Proof. vm_compute. reflexivity. Qed.

Print Assumptions C39_exact_partial.
Print Assumptions C40_exact_partial.
Print Assumptions C41_exact_partial.
