(** C91: members of filters that are null. *)
From Coq Require Import String ZifyBool ZifyNat ZifyN Permutation.
From Verif Require Import Lib.Str Model.JsonFile Spec.Rfc8259 Spec.JsonSame Spec.Rfc8416 Spec.SlurmNull Spec.Auth Proofs.JsonNumP Proofs.JsonStrP Proofs.JsonPrintP
  Proofs.DataP Proofs.JsonFileP Proofs.JsonReadP Proofs.JsonDocP Proofs.JsonSlurmP Proofs.JsonOrderP Props.JsonProps.
From Coq Require Import List.
Import ListNotations.
Local Open Scope string_scope.
Local Open Scope list_scope.
Local Open Scope N_scope.

Lemma pfilter_null_back x : pfilter_ok (snd x) -> dec_pfilter (mkPF [] None, []) (pfilter_null x) = Some (snd x).
Proof.
  destruct x as [[n1 n2 n3] [[p a] c]]. unfold pfilter_ok, pfilter_null, dec_pfilter, dec_struct.
  cbn [fst snd pf_prefix pf_asn nl_first nl_second nl_comment]. intros H.
  destruct n1, n2, n3; destruct p as [|p0 p]; destruct a as [a|]; destruct c as [|c0 c];
    cbn [put or_null maybe_str maybe_num app fold_left fst snd]; fields;
    cbn [dec_string fst snd pf_prefix pf_asn]; rewrite ?(puint_back a H); reflexivity.
Qed.
Lemma bfilter_null_back b64 x : (forall k, bytes_ok k -> base64 k (b64 k)) -> bfilter_ok (snd x) ->
  dec_bfilter (mkBF None [], []) (bfilter_null b64 x) = Some (snd x).
Proof.
  intros HB. destruct x as [[n1 n2 n3] [[a s] c]]. unfold bfilter_ok, bfilter_null, dec_bfilter, dec_struct.
  cbn [fst snd bf_asn bf_ski nl_first nl_second nl_comment]. intros [H1 H2].
  pose proof (std_read s _ H2 (HB s H2)) as E.
  destruct n1, n2, n3; destruct a as [a|]; destruct s as [|s0 s]; destruct c as [|c0 c];
    cbn [put or_null maybe_str maybe_b64 maybe_num app fold_left fst snd]; fields;
    cbn [dec_string dec_bytes fst snd bf_asn bf_ski]; rewrite ?(puint_back a H1), ?E; reflexivity.
Qed.
Lemma slurm_null_back b64 pf bf pa ba : (forall k, bytes_ok k -> base64 k (b64 k)) ->
  Forall pfilter_ok (map snd pf) -> Forall bfilter_ok (map snd bf) -> Forall passert_ok pa -> Forall bassert_ok ba ->
  exists v, dec_config (mkSF 0 (None, None) (None, None)) (slurm_null_doc b64 pf bf pa ba) =
            Some (mkSF v (Some (map snd pf, []), Some (map snd bf, [])) (Some (pa, []), Some (ba, []))).
Proof.
  intros HB H1 H2 H3 H4. exists 1%Z. rewrite Forall_map in H1, H2.
  assert (E1 : dec_slice dec_pfilter (mkPF [] None, []) None (JArr (map pfilter_null pf)) = Some (Some (map snd pf, []))).
  { apply (slice_back _ _ pfilter_null snd). eapply Forall_impl; [|exact H1]. apply pfilter_null_back. }
  assert (E2 : dec_slice dec_bfilter (mkBF None [], []) None (JArr (map (bfilter_null b64) bf)) = Some (Some (map snd bf, []))).
  { apply (slice_back _ _ (bfilter_null b64) snd). eapply Forall_impl; [|exact H2]. intros f. now apply bfilter_null_back. }
  assert (E3 : dec_slice dec_passert (mkPA [] 0 0 []) None (JArr (map passert_doc pa)) = Some (Some (pa, []))).
  { rewrite (slice_back _ _ passert_doc (fun x => x)); [now rewrite map_id|]. eapply Forall_impl; [|exact H3]. apply passert_back. }
  assert (E4 : dec_slice dec_bassert (mkBA [] 0 [], []) None (JArr (map (bassert_doc b64) ba)) = Some (Some (ba, []))).
  { rewrite (slice_back _ _ (bassert_doc b64) (fun x => x)); [now rewrite map_id|]. eapply Forall_impl; [|exact H4]. intros f. now apply bassert_back. }
  unfold slurm_null_doc, dec_config, dec_struct. cbn [fold_left fst snd]. fields. cbn [sf_version sf_filters sf_asserts].
  change (dec_int64 0 (JNum (str "1"))) with (Some 1%Z). cbn iota. cbn [sf_version sf_filters sf_asserts].
  assert (F1 : dec_filters (None, None) (JObj [(str "prefixFilters", JArr (map pfilter_null pf)); (str "bgpsecFilters", JArr (map (bfilter_null b64) bf))])
               = Some (Some (map snd pf, []), Some (map snd bf, []))).
  { unfold dec_filters, dec_struct. cbn [fold_left fst snd]. fields. cbn [fst snd]. rewrite E1. cbn [fst snd]. rewrite E2. reflexivity. }
  assert (F2 : dec_asserts (None, None) (JObj [(str "prefixAssertions", JArr (map passert_doc pa)); (str "bgpsecAssertions", JArr (map (bassert_doc b64) ba))])
               = Some (Some (pa, []), Some (ba, []))).
  { unfold dec_asserts, dec_struct. cbn [fold_left fst snd]. fields. cbn [fst snd]. rewrite E3. cbn [fst snd]. rewrite E4. reflexivity. }
  rewrite F1. cbn [sf_version sf_filters sf_asserts]. rewrite F2. reflexivity.
Qed.

(** A filter with null for its prefix, AS number, SKI or comment is the filter without that
    member: null is not AS 0. *)
Theorem C91_null_partial : forall n t l l' b64 pf bf pa ba,
  (n <= N.to_nat 10000)%nat -> json_doc n (JObj l) t -> JObj l' = slurm_null_doc b64 pf bf pa ba -> same (JObj l) (JObj l') ->
  (forall k, bytes_ok k -> base64 k (b64 k)) ->
  Forall pfilter_ok (map snd pf) -> Forall bfilter_ok (map snd bf) -> Forall passert_ok pa -> Forall bassert_ok ba ->
  decode_slurm t = Some (mkSlurm (map fst (map snd pf)) (map fst (map snd bf)) pa (map fst ba)).
Proof.
  intros n t l l' b64 pf bf pa ba HN HD HE HS HB H1 H2 H3 H4. unfold decode_slurm. rewrite (C89_accepts n (JObj l) t HN HD ltac:(discriminate)).
  rewrite (config_same _ _ HS), HE. destruct (slurm_null_back b64 pf bf pa ba HB H1 H2 H3 H4) as [v ->]. reflexivity.
Qed.

(** A file with two such filters. *)
Definition pf_null : list (nulls * (pfilter * bytes)) := [(mkNulls true true false, (mkPF (str "10.1.0.0/16") None, []))].
Definition bf_null : list (nulls * (bfilter * bytes)) := [(mkNulls false true true, (mkBF (Some 64496) [], []))].
Definition null_file : bytes := q "{'slurmVersion':1,'validationOutputFilters':{'prefixFilters':[{'prefix':'10.1.0.0/16','asn':null}],'bgpsecFilters':[{'asn':64496,'SKI':null,'comment':null}]},'locallyAddedAssertions':{'prefixAssertions':[],'bgpsecAssertions':[]}}".
Example C91_null_case :
  parse null_file = Some (slurm_null_doc b64std pf_null bf_null [] []) /\
  Forall pfilter_ok (map snd pf_null) /\ Forall bfilter_ok (map snd bf_null) /\
  decode_slurm null_file = Some (mkSlurm [mkPF (str "10.1.0.0/16") None] [mkBF (Some 64496) []] [] []).
Proof.
  split; [vm_compute; reflexivity|]. split; [constructor; [exact I|constructor]|].
  split; [constructor; [split; [vm_compute; reflexivity|constructor]|constructor]|]. vm_compute. reflexivity.
Qed.

Print Assumptions C91_null_partial.
Print Assumptions C91_null_case.
