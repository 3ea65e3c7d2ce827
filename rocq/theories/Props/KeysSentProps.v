(** Property C21, exactly: which router keys are sent. *)
From Coq Require Import ZArith ZifyBool ZifyNat ZifyN.
From Verif Require Import Model.Conn Spec.Sets Spec.History Spec.Response Proofs.DataP Proofs.CacheP Proofs.ConnP Props.CacheProps Props.ConnProps.
From Coq Require Import List Lia.
Import ListNotations.
Local Open Scope list_scope.
Local Open Scope N_scope.

(** The answer to a Reset Query has a Router Key for exactly the keys served, unless the version agreed on
    is 0 or router keys are switched off and the connection is not SSH.  (Missing: or it is.) *)
Theorem C21_exact_partial : forall cfg s tr keep h c v, u16 s -> cfg_version cfg < 256 -> Forall (Forall wf_sd) h ->
  reach (new_rtr_server cfg s) tr c -> c_connected c = true -> acceptable c v ->
  let cache := run (new_server keep) h in let w := negotiated (new_rtr_server cfg s) v in
  exists c' a, process (new_rtr_server cfg s) cache c (ResetQuery v) = Ok (c', a) /\
    forall q, In (Queue q) a /\ get_type q = PDU_ID_ROUTER_KEY <->
      w <> 0 /\ (tr = SSH \/ cfg_disableBGPSec cfg = false) /\
      exists asn ski key f, In (BgpsecKey asn ski key f) (get_current_sds cache) /\ q = RouterKey w f ski asn key.
Proof.
  intros cfg s tr keep h c v Hs Hb Hh Hr Hc HA cache w.
  destruct (C19_reset cfg s tr keep h c v Hs Hb Hh Hr Hc HA) as (c' & P & _). fold cache w in P. eexists c', _. split; [exact P|]. intros q.
  assert (QI : forall l, In (Queue q) (map Queue l) <-> In q l).
  { intros l. rewrite in_map_iff. split; [intros (x & E & H); now injection E as <-|eauto]. }
  rewrite QI. assert (KO : keys_off tr cfg = false <-> tr = SSH \/ cfg_disableBGPSec cfg = false).
  { unfold keys_off. destruct tr, (cfg_disableBGPSec cfg); intuition congruence. }
  rewrite <- KO. destruct (get_current_sds cache) as [|d0 l0] eqn:EC; cbn [is_nil].
  - split; [intros ([<-|[]] & T); discriminate T|]. intros (_ & _ & a & k & y & f & [] & _).
  - remember (d0 :: l0) as l. unfold response. rewrite !in_app_iff. split.
    + intros [[[<-|[]]|[H|[<-|[]]]] T]; try discriminate T. apply in_map_iff in H as (d & <- & H). apply filter_In in H as [H1 H2].
      destruct d as [p a m f|a k y f]; [unfold data_pdu in T; destruct p as [[] b]; discriminate T|].
      cbn in H2. apply Bool.andb_true_iff in H2 as [H2 H3]. apply Bool.negb_true_iff in H2, H3. apply N.eqb_neq in H2.
      split; [exact H2|]. split; [exact H3|]. exists a, k, y, f. auto.
    + intros (W & K & a & k & y & f & H & ->). split; [|reflexivity]. right. left. apply in_map_iff. exists (BgpsecKey a k y f). split; [reflexivity|].
      apply filter_In. split; [exact H|]. cbn. apply N.eqb_neq in W. now rewrite W, K.
Qed.
(** One key served: not in version 0, not over TLS when switched off, over SSH all the same. *)
Example C21_exact_case : let keys (cfg : config) (tr : transport) (v : N) :=
    match process (new_rtr_server cfg 7) cacheA (accept tr (new_rtr_server cfg 7)) (ResetQuery v) with
    | Ok (_, a) => Some (length (filter (fun x => match x with Queue q => get_type q =? PDU_ID_ROUTER_KEY | Disc => false end) a)) | _ => None end in
  keys cfg1 TCP 1 = Some 1%nat /\ keys cfg1 TCP 0 = Some 0%nat /\ keys cfgNoKeys TLS 1 = Some 0%nat /\ keys cfgNoKeys SSH 1 = Some 1%nat /\ keys cfgNoKeys SSH 0 = Some 0%nat.
Proof. vm_compute. repeat split; reflexivity. Qed.

Print Assumptions C21_exact_partial.
