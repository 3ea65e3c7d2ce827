(** Property C27: reads that begin with a PDU. *)
From Coq Require Import ZArith ZifyBool ZifyNat ZifyN.
From Verif Require Import Lib.Str Model.Conn Spec.Sets Spec.History Spec.Response Spec.Wire
  Proofs.DataP Proofs.CacheP Proofs.ConnP Props.CacheProps Props.ConnProps.
From Coq Require Import List.
Import ListNotations.
Local Open Scope N_scope.

(** The read begins with the whole of the PDU [p], whatever follows. *)
Definition begins_with (p : pdu) (chunk : bytes) : Prop :=
  exists b rest, encode p = Ok b /\ chunk = b ++ rest /\ bytes_ok rest.
(** The read is the beginning of a PDU and not the whole of it. *)
Definition cut_short (chunk : bytes) : Prop :=
  exists p b k, wf_pdu p /\ sendable p /\ encode p = Ok b /\ (k < length b)%nat /\ chunk = firstn k b.

Lemma session_firsts srv l : forall c reads,
  Forall2 (fun r cp => fst r = fst cp /\ begins_with (snd cp) (snd r) /\ wf_pdu (snd cp) /\ sendable (snd cp)) reads l ->
  session srv c reads = session_pdus srv c l.
Proof.
  induction l as [|[cache p] l IH]; intros c reads H; inversion H as [|[ca ch] x reads' l' (H1 & (b & rest & H2 & HX & HR) & H3 & H4) HF]; subst.
  - reflexivity.
  - cbn [fst snd] in *. subst ca ch. cbn [session session_pdus].
    destruct (negb (c_connected c)); [reflexivity|]. rewrite (on_read_trailing srv cache c p b rest H3 H4 H2 HR).
    destruct (process srv cache c p) as [[c' a]|e|]; cbn [bind fst snd]; try reflexivity.
    rewrite (IH c' reads' HF). reflexivity.
Qed.
Lemma session_then_cut srv l cache chunk more : cut_short chunk -> forall c reads,
  Forall2 (fun r cp => fst r = fst cp /\ begins_with (snd cp) (snd r) /\ wf_pdu (snd cp) /\ sendable (snd cp)) reads l ->
  forall c' a, session_pdus srv c l = Ok (c', a) ->
  session srv c (reads ++ (cache, chunk) :: more) =
    if c_connected c' then Ok (c_set_disconnected c', a ++ [Disc]) else Ok (c', a).
Proof.
  intros (p & b & k & HW & HS & HE & HK & ->).
  induction l as [|[ca q] l IH]; intros c reads HF c' a H;
    inversion HF as [|[ca' ch] ? reads' ? (E & (bq & rest & EQ & HX & HR) & HW' & HS') HF']; subst.
  - cbn [app session session_pdus] in *. destruct (c_connected c) eqn:EC; cbn [negb] in *; injection H as <- <-; rewrite EC; [|reflexivity].
    destruct (C27_fragment srv cache c p b k HW HS HE HK) as (stop & ->). cbn.
    destruct stop; [reflexivity|]. destruct more; cbn; reflexivity.
  - cbn [app fst snd] in *. subst ca' ch. cbn [session session_pdus] in *. destruct (c_connected c) eqn:EC; cbn [negb] in *.
    + rewrite (on_read_trailing srv ca c q bq rest HW' HS' EQ HR).
      destruct (process srv ca c q) as [[c1 a1]|e|]; cbn [bind fst snd] in *; try discriminate H.
      destruct (session_pdus srv c1 l) as [[c2 a2]|e|] eqn:E2; cbn [bind fst snd] in *; try discriminate H.
      injection H as <- <-. rewrite (IH c1 reads' HF' c2 a2 E2). destruct (c_connected c2); cbn [bind fst snd]; [now rewrite <- app_assoc|reflexivity].
    + injection H as <- <-. rewrite EC. reflexivity.
Qed.

(** C27 TCP segmentation does not matter: it does.  When every read begins with a whole PDU, the
    answers are those to these first PDUs, whatever else the reads contain; and when a read is then the
    beginning of a PDU only, the client is disconnected there, whatever comes later.  (Missing: reads that
    begin inside a PDU, and that the rest of a read counts.) *)
Theorem C27_firsts_partial : forall srv l c reads,
  Forall2 (fun r cp => fst r = fst cp /\ begins_with (snd cp) (snd r) /\ wf_pdu (snd cp) /\ sendable (snd cp)) reads l ->
  session srv c reads = session_pdus srv c l /\
  forall cache chunk more c' a, cut_short chunk -> session_pdus srv c l = Ok (c', a) ->
    session srv c (reads ++ (cache, chunk) :: more) =
      if c_connected c' then Ok (c_set_disconnected c', a ++ [Disc]) else Ok (c', a).
Proof.
  intros srv l c reads H. split; [now apply session_firsts|]. intros cache chunk more c' a HC HP. eapply session_then_cut; eassumption.
Qed.
(** A Reset Query with a Serial Query behind it in one read, then a Serial Query on its own, then
    half of a Reset Query, then a whole one: two answers, and the client is disconnected. *)
Example C27_firsts_case :
  let reset := [1; 2; 0; 0; 0; 0; 0; 8] in let serial := [1; 1; 0; 107; 0; 0; 0; 12; 0; 0; 0; 9] in
  begins_with (ResetQuery 1) (reset ++ serial) /\ cut_short [1; 2; 0; 0] /\
  exists c', session (new_rtr_server cfg1 7) est1 [(new_server 3, reset ++ serial); (cacheA, serial); (cacheA, [1; 2; 0; 0]); (cacheA, reset)] =
    Ok (c', [Queue (no_data 1); Queue (CacheReset 1); Disc]).
Proof.
  cbn zeta. split; [|split].
  - exists [1; 2; 0; 0; 0; 0; 0; 8], [1; 1; 0; 107; 0; 0; 0; 12; 0; 0; 0; 9]. split; [reflexivity|]. split; [reflexivity|].
    unfold bytes_ok, u8. repeat constructor; lia.
  - exists (ResetQuery 1), [1; 2; 0; 0; 0; 0; 0; 8], 4%nat. split; [cbn; unfold u8; lia|]. split; [cbn; auto|]. split; [reflexivity|]. split; [cbn; lia|reflexivity].
  - eexists. vm_compute. reflexivity.
Qed.

Print Assumptions C27_firsts_partial.
