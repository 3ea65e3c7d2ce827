(** Property C35 after any number of updates: the order in which a router is sent the records. *)
From Coq Require Import String ZifyBool ZifyNat ZifyN Permutation.
From Verif Require Import Lib.Str Model.Process Model.Slurm Model.Conn Spec.Input Spec.Sets Spec.History Spec.Response Spec.Arrival
  Proofs.DataP Proofs.CacheP Proofs.JsonP Proofs.ProcessP Proofs.ArrivalP Props.CacheProps Props.ConnProps Props.InputProps.
From Coq Require Import List.
Import ListNotations.
Local Open Scope string_scope.
Local Open Scope list_scope.
Local Open Scope N_scope.

Definition wf_file (f : Z * list vrpjson * list brkjson) : Prop := let '(_, vs, bs) := f in Forall wf_vj vs /\ Forall wf_bj bs.

(** C35 Sub-prefixes are announced first. Not so after an update (C35_update_refuted); what a router
    is sent after any files is, exactly: one stretch per file, in the order of the files, with what came
    with that file and has been in every file since. Within a stretch the longer prefixes are first. *)
Theorem C35_arrival_partial : forall sort files keep cfg s tr c v,
  sorts sort -> Forall wf_file files ->
  u16 s -> cfg_version cfg < 256 -> reach (new_rtr_server cfg s) tr c -> c_connected c = true -> acceptable c v ->
  let sets := map (loaded sort) files in
  let cache := run (new_server keep) sets in
  let w := negotiated (new_rtr_server cfg s) v in
  get_current_sds cache <> [] ->
  exists c' arrivals, by_arrival [] sets arrivals /\
    let stretches := map (flat_map (announcing w (keys_off tr cfg))) arrivals in
    process (new_rtr_server cfg s) cache c (ResetQuery v) =
      Ok (c', map Queue ([CacheResponse w (session_of s w)] ++ concat stretches ++
        [EndOfData w (session_of s w) (sdCurrentSerial cache)
           (timer (cfg_refresh cfg) 3600) (timer (cfg_retry cfg) 600) (timer (cfg_expire cfg) 7200)])) /\
    Forall longest_first stretches.
Proof.
  intros sort files keep cfg s tr c v HS HF Hs Hb Hr Hc HA. cbv zeta. intros HN.
  assert (HL : Forall (fun f => Forall wf_sd (loaded sort f) /\ ForallOrdPairs ahead_of (ids (loaded sort f))) files).
  { eapply Forall_impl; [|exact HF]. intros [[now vs] bs] [A B]. now apply loaded_ok. }
  assert (HW : Forall (Forall wf_sd) (map (loaded sort) files)).
  { apply Forall_map. eapply Forall_impl; [|exact HL]. intros f [A _]. exact A. }
  destruct (C19_reset cfg s tr keep (map (loaded sort) files) c v Hs Hb HW Hr Hc HA) as (c2 & E & _).
  destruct (run_order keep (map (loaded sort) files) HW) as (gs & B & EG).
  exists c2, gs. split; [exact B|]. split.
  - rewrite E. destruct (is_nil (get_current_sds (run (new_server keep) (map (loaded sort) files)))) eqn:EN.
    { destruct (get_current_sds _); [congruence|discriminate EN]. }
    unfold response. do 3 f_equal. cbn [app]. f_equal. f_equal. rewrite <- flat_concat. unfold get_current_sds. rewrite <- EG. apply data_pdus.
    destruct (run_inv (new_server keep) (map (loaded sort) files) (inv_new keep) HW) as (_ & I2 & _). exact I2.
  - apply Forall_map. eapply Forall_impl; [|eapply arrival_ord; [exact B|]].
    + intros g. apply announcing_ord.
    + eapply Forall_impl; [|exact HL]. intros f [_ A]. exact A.
Qed.

(** Three files: the /8 and a /24, then the /16 joins, then the /24 leaves and a /20 joins. The router
    is sent the /8, the /16 and the /20, in this order: three stretches of one record each. *)
Definition files3 : list (Z * list vrpjson * list brkjson) :=
  [(9%Z, [ej "10.0.0.0/8" 8 "1" None; ej "10.1.1.0/24" 24 "2" None], []);
   (9%Z, [ej "10.0.0.0/8" 8 "1" None; ej "10.1.0.0/16" 16 "2" None; ej "10.1.1.0/24" 24 "2" None], [bj 5 "0a" None]);
   (9%Z, [ej "10.1.16.0/20" 20 "2" None; ej "10.0.0.0/8" 8 "1" None; ej "10.1.0.0/16" 16 "2" None], [bj 5 "0a" None])].
Example C35_arrival_case :
  let cache := run (new_server 3) (map (loaded isort) files3) in
  Forall wf_file files3 /\ get_current_sds cache <> [] /\
  process (new_rtr_server cfg1 7) cache est1 (ResetQuery 1) =
  Ok (est1, map Queue
    [CacheResponse 1 107; IPv4Prefix 1 1 8 1 (pfx4 167772160 8);
     IPv4Prefix 1 1 16 2 (pfx4 167837696 16); RouterKey 1 1 [10] 5 [1; 2];
     IPv4Prefix 1 1 20 2 (pfx4 167841792 20); EndOfData 1 107 2 3600 900 7200]).
Proof.
  cbv zeta. split; [repeat (constructor; [split; repeat constructor; discriminate|]); constructor|].
  split; [vm_compute; discriminate|vm_compute; reflexivity].
Qed.

Print Assumptions C35_arrival_partial.
