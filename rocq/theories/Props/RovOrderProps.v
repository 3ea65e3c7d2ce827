(** Property C97, for routers any number of changes behind: in which order they are told the
    records, and which routes that leaves alone. *)
From Coq Require Import ZArith ZifyBool ZifyNat ZifyN.
From Verif Require Import Lib.Str Model.Conn Spec.Sets Spec.History Spec.Response Spec.Input Spec.Router Spec.Rov
  Proofs.DataP Proofs.CacheP Proofs.ConnP Proofs.RouterP Proofs.RovP Proofs.RovOrderP Spec.Behind Proofs.BehindP Props.CacheProps Props.ConnProps Props.RovProps.
From Coq Require Import List.
Import ListNotations.
Local Open Scope list_scope.
Local Open Scope N_scope.

(** C97, what holds however far the router is behind.  The records of the answer are in the order
    of the changes in which they last came or went, of the changes that are covered by it, and
    within one change the announcements are first. *)
Theorem C97_order_partial : forall cfg s v tr keep h ns c sess c' ps, u16 s -> cfg_version cfg < 256 -> v <= cfg_version cfg ->
  reach (new_rtr_server cfg s) tr c -> c_connected c = true -> acceptable c v ->
  Forall (Forall wf_sd) (h ++ ns) -> last h [] <> [] -> Forall (fun n => n <> []) ns -> changing (last h [] :: ns) ->
  let s1 := run (new_server keep) h in sdCurrentSerial s1 + nlen ns < 4294967296 ->
  process (new_rtr_server cfg s) (run s1 ns) c (SerialQuery v sess (sdCurrentSerial s1)) = Ok (c', map Queue ps) ->
  let sets := recent (length ns) (last h [] :: ns) in let new := last ns (last h []) in
  by_change sets (records v ps) /\ forall e, In e (records v ps) ->
    get_flag e = 1 /\ (0 < flips (rid_of e) sets)%nat /\ In (rid_of e) (ids new) \/ get_flag e = 0 /\ flips (rid_of e) sets = 1%nat /\ ~ In (rid_of e) (ids new).
Proof.
  intros cfg s v tr keep h ns c sess c' ps Hs Hb Hv G1 G2 G3 HW HN HF HC s1 HM HQ sets new.
  pose proof (behind_all keep h ns HW HN HF HC HM) as B. cbv zeta in B. fold s1 in B. fold sets new in B.
  unfold s1 in HQ. rewrite <- run_app in HQ. fold s1 in HQ.
  destruct (C20_serial cfg s tr keep (h ++ ns) c v sess (sdCurrentSerial s1) Hs Hb HW G1 G2 G3) as (c2 & a & E & _ & H). rewrite HQ in E. injection E as _ <-.
  rewrite negotiated_v in H by assumption.
  assert (HI : forall x y : list pdu, map Queue x = map Queue y -> x = y).
  { clear. induction x as [|p x IH]; intros [|q y] E; try discriminate E; [reflexivity|]. cbn [map] in E. injection E as -> E. f_equal. now apply IH. }
  destruct H as [(_ & H & _)|(_ & _ & [(_ & H)|[(_ & _ & H)|(d & _ & HD & H)]])].
  - destruct ps as [|p1 [|p2 [|p3 ps]]]; discriminate H.
  - change [Queue (no_data v)] with (map Queue [no_data v]) in H. apply HI in H as ->. split; [constructor|intros e []].
  - change [Queue (CacheReset v)] with (map Queue [CacheReset v]) in H. apply HI in H as ->. split; [constructor|intros e []].
  - apply HI in H as ->. rewrite records_response. rewrite run_app in HD. fold s1 in HD. destruct (_ && _)%Z; [rewrite HD in B; discriminate B|].
    destruct B as (d' & E & O & F & _ & G). rewrite HD in E. injection E as <-. split; [now apply ordp_filter|].
    intros e HE. apply filter_In in HE as [HE _]. destruct (G (rid_of e)) as [[K1 _] [K0 _]].
    destruct (F e HE) as [X|X]; [left; split; [exact X|]; apply K1; exists e; auto|right; split; [exact X|]; apply K0; exists e; auto].
Qed.

(** So a route is left alone unless of the VRPs that cover it one that is withdrawn went in an
    earlier change than one that is announced last came in, whatever the router has. *)
Theorem C97_route_partial : forall cfg s v tr keep h ns c sess c' ps R t, u16 s -> cfg_version cfg < 256 -> v <= cfg_version cfg ->
  reach (new_rtr_server cfg s) tr c -> c_connected c = true -> acceptable c v ->
  Forall (Forall wf_sd) (h ++ ns) -> last h [] <> [] -> Forall (fun n => n <> []) ns -> changing (last h [] :: ns) ->
  let s1 := run (new_server keep) h in sdCurrentSerial s1 + nlen ns < 4294967296 ->
  process (new_rtr_server cfg s) (run s1 ns) c (SerialQuery v sess (sdCurrentSerial s1)) = Ok (c', map Queue ps) ->
  let sets := recent (length ns) (last h [] :: ns) in let new := last ns (last h []) in
  (forall x y, covering x t -> covering y t -> flips x sets = 1%nat -> ~ In x (ids new) -> (0 < flips y sets)%nat -> In y (ids new) ->
    (last_flip y sets <= last_flip x sets)%nat) -> undisturbed R v ps t.
Proof.
  intros cfg s v tr keep h ns c sess c' ps R t Hs Hb Hv G1 G2 G3 HW HN HF HC s1 HM HQ sets new H k.
  destruct (C97_order_partial cfg s v tr keep h ns c sess c' ps Hs Hb Hv G1 G2 G3 HW HN HF HC HM HQ) as [O K]. fold sets new in O, K.
  assert (F : forall e f, In e (records v ps) -> In f (records v ps) -> rid_of e = rid_of f -> get_flag e = get_flag f).
  { intros e f HE HF' E. apply K in HE. apply K in HF'. rewrite E in HE. destruct HE as [(X1 & X2 & X3)|(X1 & X2 & X3)], HF' as [(Y1 & Y2 & Y3)|(Y1 & Y2 & Y3)]; congruence || contradiction. }
  assert (Q : forall P : rid -> Prop, (forall x, P x -> covering x t) ->
    forall a b e f, records v ps = a ++ b -> In e a -> In f b -> P (rid_of e) -> P (rid_of f) -> get_flag f = 1 -> get_flag e = 1).
  { intros P HP a b e f E HE HF' PE PF F1. unfold by_change in O. rewrite E in O. pose proof (ord_cross _ _ _ O e f HE HF') as C. cbv beta zeta in C.
    destruct (K e) as [(X1 & _)|(X1 & X2 & X3)]; [rewrite E; apply in_or_app; now left|exact X1|]. exfalso.
    destruct (K f) as [(Y1 & Y2 & Y3)|(Y1 & _)]; [rewrite E; apply in_or_app; now right| |congruence].
    specialize (H _ _ (HP _ PE) (HP _ PF) X2 X3 Y2 Y3). destruct C as [C|[_ C]]; [lia|]. specialize (C F1). congruence. }
  destruct (one_flag (records v ps) (fun x => authorises x t) F (Q (fun x => authorises x t) ltac:(intros [p a m|] X; [destruct X as [X _]; exact X|destruct X])) R k) as [V V'].
  destruct (one_flag (records v ps) (fun x => covering x t) F (Q (fun x => covering x t) ltac:(auto)) R k) as [C C'].
  clear - V V' C C'. unfold after_all, after_some. unfold invalid, not_found.
  change (exists x, R x /\ authorises x t) with (valid R t) in *. change (exists x, R x /\ covering x t) with (Rov.covered R t) in *.
  change (exists x, r_apply R (records v ps) x /\ authorises x t) with (valid (r_apply R (records v ps)) t) in *.
  change (exists x, r_apply R (firstn k (records v ps)) x /\ authorises x t) with (valid (r_apply R (firstn k (records v ps))) t) in *.
  change (exists x, r_apply R (records v ps) x /\ covering x t) with (Rov.covered (r_apply R (records v ps)) t) in *.
  change (exists x, r_apply R (firstn k (records v ps)) x /\ covering x t) with (Rov.covered (r_apply R (firstn k (records v ps))) t) in *. tauto.
Qed.
(** The ROA is changed in two steps, but in the order that keeps its route: three changes behind
    the router is told first of the VRP that came, then of the one that went. *)
Definition sets97 : list (list sd) := [[y16; x1; x2]; [y16; x1; x2; y24]; [x1; x2; y24]].
Example C97_route_case : let s1 := run (new_server 9) [[y16; x1]] in
  changing ([y16; x1] :: sets97) /\ recent 3 ([y16; x1] :: sets97) = sets97 /\
  last_flip (rid_of y24) sets97 = 1%nat /\ last_flip (rid_of y16) sets97 = 2%nat /\ flips (rid_of y24) sets97 = 1%nat /\ flips (rid_of y16) sets97 = 1%nat /\
  flips (rid_of x1) sets97 = 0%nat /\ flips (rid_of x2) sets97 = 0%nat /\
  get_sds_serial_diff (run s1 sets97) (sdCurrentSerial s1) = Ok [set_flag 1 y24; set_flag 0 y16].
Proof.
  cbv zeta. split; [|repeat split; vm_compute; reflexivity].
  assert (N : forall a b x, In x (ids a) -> ~ In x (ids b) -> ~ same_set a b) by (intros a b x H1 H2 H; apply H2, H, H1).
  assert (N' : forall a b x, In x (ids b) -> ~ In x (ids a) -> ~ same_set a b) by (intros a b x H1 H2 H; apply H2, H, H1).
  cbn [changing sets97]. split; [apply (N' _ _ (rid_of x2))|split; [apply (N' _ _ (rid_of y24))|split; [apply (N _ _ (rid_of y16))|exact I]]];
    try (vm_compute; tauto); vm_compute; intros H; repeat destruct H as [H|H]; try discriminate H; exact H.
Qed.
(** In the other order, the one of [C97_order_refuted], the condition fails. *)
Example C97_route_case_no : let sets := [[y16; x1; x2]; [x1; x2]; [x1; x2; y24]] in
  last_flip (rid_of y16) sets = 1%nat /\ last_flip (rid_of y24) sets = 2%nat /\ flips (rid_of y16) sets = 1%nat /\ covering (rid_of y16) route16 /\ covering (rid_of y24) route16.
Proof. cbv zeta. do 3 (split; [vm_compute; reflexivity|]). split; intros a _ H; exact H. Qed.

Print Assumptions C97_order_partial.
Print Assumptions C97_route_partial.
