(** Lemmas for C123. *)
From Coq Require Import ZArith ZifyBool ZifyNat ZifyN.
From Verif Require Import Spec.Refresh Spec.Monitor Spec.Agree Proofs.DataP Proofs.JsonP Proofs.StateP Proofs.MonitorP Proofs.MonitorP2.
From Coq Require Import List.
Import ListNotations.
Local Open Scope N_scope.

Lemma shows_rounds o h vs bs : shows h = Some (vs, bs) -> (present (rounds o h) = true <-> In o (file_objs vs bs)).
Proof.
  revert vs bs. induction h as [|[t r] h IH]; intros vs bs H; [discriminate H|]. destruct r as [| | |vs' bs']; cbn [shows rounds] in *.
  - cbn [present]. exact (IH _ _ H).
  - exact (IH _ _ H).
  - exact (IH _ _ H).
  - injection H as -> ->. cbn [present]. destruct (in_dec obj_dec o (file_objs vs bs)); split; auto; discriminate.
Qed.
Lemma shows_plain h vs bs : Forall (fun x => plain_file (snd x)) h -> shows h = Some (vs, bs) -> plain_file (Listing vs bs).
Proof.
  induction h as [|[t r] h IH]; intros HP H; [discriminate H|]. destruct r; cbn [shows] in H; try (apply IH; [exact (Forall_inv_tail HP)|exact H]).
  injection H as -> ->. exact (Forall_inv HP).
Qed.
Lemma shows_map grace h vs bs : Forall (fun x => plain_file (snd x)) h -> shows h = Some (vs, bs) ->
  forall o, shown (Spec.Monitor.after grace h) o <-> In o (file_objs vs bs).
Proof.
  intros HP HS o. destruct (MonitorP.history grace h HP) as [HM HC].
  assert (X : proper o -> (shown (Spec.Monitor.after grace h) o <-> In o (file_objs vs bs))).
  { intros HO. rewrite shown_gget by assumption. rewrite <- (shows_rounds o h vs bs HS). specialize (HC o HO).
    destruct (gget (okey o) (Spec.Monitor.after grace h)) as [e|]; cbn [MonitorP.content] in HC.
    - destruct (expected_vis _ _ _ _ _ (eq_sym HC)) as (-> & _). reflexivity.
    - split; [contradiction|]. intros HP'. destruct (expected_present grace _ HP') as (f & l & _ & _ & E). congruence. }
  split; intros H; apply X; auto.
  - destruct H as (e & HH & _). eapply has_proper; eassumption.
  - eapply file_objs_proper; [|exact H]. exact (shows_plain h vs bs HP HS).
Qed.
Lemma fed_listed sort now vs bs : sorts sort -> Forall wf_vj vs -> Forall wf_bj bs ->
  Forall wf_sd (fed sort now vs bs) /\ forall x, In x (ids (fed sort now vs bs)) <-> Spec.Refresh.listed now vs bs x.
Proof.
  intros H1 H2 H3. pose proof (process_listed sort now vs bs H1 H2 H3) as H. unfold fed.
  destruct (process_data sort now vs bs) as [[[vrps brks] c4] c6]. destruct H as (A & B & _). auto.
Qed.
Lemma number_none P : number 0 P <-> forall o, ~ P o.
Proof.
  split.
  - intros (l & _ & H & E) o Ho. apply H in Ho. destruct l; [contradiction|discriminate E].
  - intros H. exists []. split; [constructor|]. split; [|reflexivity]. intros o. split; [contradiction|]. intros Ho. exact (H o Ho).
Qed.
Lemma common_offered now vs bs w nokeys : Forall (common_vrp now) vs -> Forall (common_key now) bs -> bs = [] \/ (w <> 0 /\ nokeys = false) ->
  forall o, In o (file_objs vs bs) <-> offered now vs bs w nokeys o.
Proof.
  intros HV HB HK o. unfold file_objs, offered, Spec.Refresh.listed. rewrite in_app_iff, in_flat_map, in_map_iff. rewrite Forall_forall in HV, HB. split.
  - intros [(v & Iv & Ho)|(b & <- & Ib)].
    + destruct (HV v Iv) as (p & a & E). pose proof E as (E1 & E2 & _). rewrite E1, E2 in Ho. destruct Ho as [<-|[]].
      exists (RV p a (vj_length v)). split; [left; eauto 10|]. split; [exact I|reflexivity].
    + destruct (HB b Ib) as (F & k & K1 & K2). exists (RK (bj_asn b) k (bj_pubkey b)). split; [right; exists b, k; repeat split; auto|].
      * rewrite K2. apply hex_decode_spec. exact (hex_decode_encode k K1).
      * split; [destruct HK as [->|HK]; [contradiction|exact HK]|]. cbn [rid_obj]. now rewrite K2.
  - intros (x & [(v & p & a & Iv & E & ->)|(b & k & Ib & F & K & ->)] & _ & <-); cbn [rid_obj].
    + left. exists v. split; [exact Iv|]. destruct E as (E1 & E2 & _). rewrite E1, E2. now left.
    + right. exists b. split; [|exact Ib]. destruct (HB b Ib) as (_ & k' & K1 & K2). f_equal.
      apply hex_decode_spec in K. rewrite K2, hex_decode_encode in K by exact K1. injection K as ->. exact K2.
Qed.
