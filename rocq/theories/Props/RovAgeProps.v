(** Property C98 after any number of files. *)
From Coq Require Import String ZArith ZifyBool ZifyNat ZifyN.
From Verif Require Import Lib.Str Model.Conn Model.Process Spec.Sets Spec.History Spec.Response Spec.Input Spec.Router Spec.Rov Spec.Arrival Spec.RovAge
  Proofs.DataP Proofs.CacheP Proofs.ConnP Proofs.ProcessP Proofs.RouterP Proofs.RovP Proofs.ArrivalP Proofs.RovAgeP
  Props.CacheProps Props.ConnProps Props.InputProps Props.RouterProps Props.RovProps Props.ArrivalProps.
From Coq Require Import List Lia.
Import ListNotations.
Local Open Scope string_scope.
Local Open Scope list_scope.
Local Open Scope N_scope.

(** C98 Loading does not make routes invalid: while a router loads what the server has after any files, it is
    the age of the VRPs that counts, that is in how many files on end they have been, and the length of
    the prefix among those of the same age.  A route is never invalid if the senior of the VRPs
    that cover it authorises it, and is invalid for a while if the senior does not. *)
Theorem C98_history_partial : forall sort files keep cfg s tr c v c' ps t, sorts sort -> Forall wf_file files ->
  u16 s -> cfg_version cfg < 256 -> v <= cfg_version cfg -> reach (new_rtr_server cfg s) tr c -> c_connected c = true -> acceptable c v ->
  let sets := map (loaded sort) files in
  process (new_rtr_server cfg s) (run (new_server keep) sets) c (ResetQuery v) = Ok (c', map Queue ps) ->
  (long_standing sets (after_all (fun _ => False) v ps) t -> forall k, ~ invalid (after_some (fun _ => False) v ps k) t) /\
  (overtaken sets (after_all (fun _ => False) v ps) t -> exists k, invalid (after_some (fun _ => False) v ps k) t).
Proof.
  intros sort files keep cfg s tr c v c' ps t HS HF Hs Hb Hv Hr Hc HA. cbv zeta. intros HP.
  assert (HL : Forall (fun f => Forall wf_sd (loaded sort f) /\ ForallOrdPairs ahead_of (ids (loaded sort f))) files).
  { eapply Forall_impl; [|exact HF]. intros [[now vs] bs] [A B]. now apply loaded_ok. }
  assert (HW : Forall (Forall wf_sd) (map (loaded sort) files)).
  { apply Forall_map. eapply Forall_impl; [|exact HL]. intros f [A _]. exact A. }
  destruct (C19_reset cfg s tr keep (map (loaded sort) files) c v Hs Hb HW Hr Hc HA) as (c2 & E & _). rewrite HP in E. injection E as _ E.
  rewrite negotiated_v in E by assumption.
  assert (HI : forall x y : list pdu, map Queue x = map Queue y -> x = y).
  { clear. induction x as [|p x IH]; intros [|q y] E; try discriminate E; [reflexivity|]. cbn [map] in E. injection E as -> E. f_equal. now apply IH. }
  apply HI in E.
  destruct (run_order keep (map (loaded sort) files) HW) as (gs & B & EG).
  assert (HO : Forall (ForallOrdPairs ahead_of) gs).
  { eapply arrival_ord; [exact B|]. eapply Forall_impl; [|exact HL]. intros f [_ A]. exact A. }
  unfold after_all, after_some. destruct (is_nil (get_current_sds (run (new_server keep) (map (loaded sort) files)))) eqn:EN.
  - assert (ER : records v ps = []) by (rewrite E; reflexivity). rewrite ER. split.
    + intros (p & a & m & [] & _).
    + intros (p & a & m & [] & _).
  - rewrite E, records_response. apply (load_exact _ gs); [exact B|exact HO|now symmetry|].
    assert (IV : inv (run (new_server keep) (map (loaded sort) files))) by (apply run_inv; auto using inv_new).
    apply Forall_forall. intros d HD. apply filter_In in HD as [HD _]. destruct IV as (_ & F & _). now apply F.
Qed.
(** The /16 of AS 2 is in the first file, the /8 of AS 1 and another /16 join with the second: routes of AS 2
    within the /16 stay valid, those of AS 1 (authorised by the newcomer) are invalid for a while. *)
Definition files98 : list (Z * list vrpjson * list brkjson) :=
  [(0%Z, [ej "10.1.0.0/16" 24 "2" None], []);
   (0%Z, [ej "10.0.0.0/8" 8 "1" None; ej "10.1.0.0/16" 24 "2" None; ej "10.1.0.0/16" 16 "1" None], [])].
Example C98_history_case : exists ps,
  Forall wf_file files98 /\
  process (new_rtr_server cfg1 7) (run (new_server 3) (map (loaded isort) files98)) est1 (ResetQuery 1) = Ok (est1, map Queue ps) /\
  long_standing (map (loaded isort) files98) (after_all (fun _ => False) 1 ps) route16 /\
  overtaken (map (loaded isort) files98) (after_all (fun _ => False) 1 ps) (mkRt (rt_prefix route16) 1).
Proof.
  exists [CacheResponse 1 107; IPv4Prefix 1 1 24 2 (pfx4 167837696 16); IPv4Prefix 1 1 16 1 (pfx4 167837696 16); IPv4Prefix 1 1 8 1 (pfx4 167772160 8); EndOfData 1 107 1 3600 900 7200].
  split; [constructor; [|constructor; [|constructor]]; (split; repeat constructor)|]. split; [vm_compute; reflexivity|].
  assert (A2 : age (RV (pfx4 167837696 16) 2 24) (map (loaded isort) files98) = 2%nat) by (vm_compute; reflexivity).
  assert (A1 : age (RV (pfx4 167837696 16) 1 16) (map (loaded isort) files98) = 1%nat) by (vm_compute; reflexivity).
  assert (A8 : age (RV (pfx4 167772160 8) 1 8) (map (loaded isort) files98) = 1%nat) by (vm_compute; reflexivity).
  split.
  - exists (pfx4 167837696 16), 2, 24. split; [vm_compute; tauto|]. split; [apply (own_route _ _ _ 16); [reflexivity|lia|lia]|].
    intros p a m HX HC. vm_compute in HX. destruct HX as [HX|[HX|[HX|[]]]]; injection HX as -> -> ->.
    all: change {| p_addr := A4 167837696; p_bits := Some 16 |} with (pfx4 167837696 16) in *; change {| p_addr := A4 167772160; p_bits := Some 8 |} with (pfx4 167772160 8) in *.
    all: try (right; left; rewrite ?A1, ?A2, ?A8; lia).
    left. apply (own_route _ _ _ 16); [reflexivity|lia|lia].
  - exists (pfx4 167837696 16), 2, 24. split; [vm_compute; tauto|]. split; [intros x _ HX; exact HX|]. split; [intros (_ & H & _); discriminate H|].
    intros p a m HX HC. vm_compute in HX. destruct HX as [HX|[HX|[HX|[]]]]; injection HX as -> -> ->.
    all: change {| p_addr := A4 167837696; p_bits := Some 16 |} with (pfx4 167837696 16) in *; change {| p_addr := A4 167772160; p_bits := Some 8 |} with (pfx4 167772160 8) in *.
    all: try (left; rewrite ?A1, ?A2, ?A8; lia).
    destruct HC as (_ & H & _). discriminate H.
Qed.
Print Assumptions C98_history_partial.
