(** Lemmas for C125. *)
From Coq Require Import ZArith ZifyBool ZifyNat ZifyN.
From Verif Require Import Model.Conn Spec.Sets Spec.History Spec.Response Spec.Router Spec.Restart
  Proofs.DataP Proofs.CacheP Proofs.ConnP Proofs.RouterP Props.ConnProps.
From Coq Require Import List Lia.
Import ListNotations.
Local Open Scope list_scope.
Local Open Scope N_scope.
Ltac Zify.zify_post_hook ::= Z.div_mod_to_equations.

Lemma sessions_apart s s' v : u16 s -> u16 s' -> (session_of s v = session_of s' v <-> s = s').
Proof. unfold u16, session_of. intros H1 H2. split; [|congruence]. intros E. lia. Qed.
Lemma accept_good cfg s v tr : acceptable (accept tr (new_rtr_server cfg s)) v -> good (new_rtr_server cfg s) tr v (accept tr (new_rtr_server cfg s)).
Proof.
  intros HA. split; [constructor|]. split; [|exact HA]. unfold accept. destruct (s_enforce _), tr; try reflexivity; destruct (s_disableBGPSec _); reflexivity.
Qed.

Section rejoins.
Context (cfg : config) (s v : N) (tr : transport) (keep : Z).
Context (Hs : u16 s) (Hb : cfg_version cfg < 256) (Hv : v <= cfg_version cfg).
Let srv := new_rtr_server cfg s.
Let nk := keys_off tr cfg.
Context (HA : acceptable (accept tr srv) v).

Lemma asked h r sess n : Forall (Forall wf_sd) h -> ro_at r = Some (sess, n) ->
  let cache := run (new_server keep) h in
  exists c' a, process srv cache (accept tr srv) (question v r) = Ok (c', a) /\ c_version c' = v /\
  ((sess <> session_of s v /\ a = [Queue (corrupt_data v); Disc] /\ c_connected c' = false) \/
   (sess = session_of s v /\ c_connected c' = true /\ refusal v a = false /\
     (get_current_sds cache <> [] -> sdCurrentSerial cache < n \/ n + nlen (sdListDiff cache) < sdCurrentSerial cache -> a = [Queue (CacheReset v)]))).
Proof.
  intros HW HR cache. pose proof (accept_good cfg s v tr HA) as (G1 & G2 & G3). fold srv in G1, G2, G3.
  destruct (C20_serial cfg s tr keep h (accept tr srv) v sess n Hs Hb HW G1 G2 G3) as (c' & a & P & V & D).
  fold srv cache in P, V, D. assert (NV : negotiated srv v = v) by (unfold negotiated, srv; cbn; lia). rewrite NV in *.
  exists c', a. unfold question. rewrite HR. split; [exact P|]. split; [exact V|].
  destruct D as [(D1 & D2 & D3)|(D1 & D2 & D3)]; [left; auto|right].
  split; [exact D1|]. split; [exact D2|]. destruct D3 as [(E & ->)|[(E1 & E2 & ->)|(d & E1 & E2 & ->)]].
  - split; [reflexivity|]. intros NE. contradiction.
  - split; [reflexivity|auto].
  - split; [reflexivity|]. intros _ HO. exfalso. unfold get_sds_serial_diff in E2. fold cache in E2.
    destruct (get_current_sds cache) eqn:EC; [contradiction|]. clear - E2 HO. unfold nlen in *.
    repeat match goal with H : context [if ?b then _ else _] |- _ => destruct b eqn:? end; try discriminate; lia.
Qed.
Lemma refused_afresh h r sess n : Forall (Forall wf_sd) h -> Forall (fun l => NoDup (ids l)) h -> ro_at r = Some (sess, n) -> sess <> session_of s v ->
  let cache := run (new_server keep) h in
  exists c' r', rejoin srv tr v cache r = Some (c', r') /\ good srv tr v c' /\
    (sdCurrent cache = [] -> r' = mkRo None (ro_set r)) /\
    (sdCurrent cache <> [] -> ro_at r' = Some (session_of s v, sdCurrentSerial cache) /\
       forall x, In x (ro_set r') <-> okr v nk x = true /\ In x (ids (sdCurrent cache))).
Proof.
  intros HW HD HR HS cache. destruct (asked h r sess n HW HR) as (c1 & a & P & _ & [(_ & -> & _)|(E & _)]); [|contradiction].
  fold cache in P. unfold rejoin. rewrite P. cbn [refusal corrupt_data]. rewrite N.eqb_refl. cbn [andb N.eqb].
  apply (ask_reset cfg s v tr keep Hs Hb Hv h); auto. now apply accept_good.
Qed.
Lemma reset_afresh h r n : Forall (Forall wf_sd) h -> Forall (fun l => NoDup (ids l)) h -> ro_at r = Some (session_of s v, n) ->
  let cache := run (new_server keep) h in
  sdCurrent cache <> [] -> sdCurrentSerial cache < n \/ n + nlen (sdListDiff cache) < sdCurrentSerial cache ->
  exists c' r', rejoin srv tr v cache r = Some (c', r') /\ good srv tr v c' /\
    ro_at r' = Some (session_of s v, sdCurrentSerial cache) /\
    forall x, In x (ro_set r') <-> okr v nk x = true /\ In x (ids (sdCurrent cache)).
Proof.
  intros HW HD HR cache NE HO. destruct (asked h r _ n HW HR) as (c1 & a & P & V & [(E & _)|(_ & C1 & RF & HX)]); [contradiction|].
  fold cache in P, HX. specialize (HX NE HO). subst a.
  assert (G : good srv tr v c1) by exact (good_next _ _ _ _ _ _ _ _ (accept_good cfg s v tr HA) P V C1).
  unfold rejoin. rewrite P, RF. unfold poll at 1. unfold ask at 1. rewrite P. cbn [sent option_map hear]. rewrite N.eqb_refl, HR. cbn [ro_at].
  destruct (ask_reset cfg s v tr keep Hs Hb Hv h c1 (mkRo None (ro_set r)) HW HD G eq_refl) as (c' & r' & A1 & A2 & _ & A3).
  fold srv cache in A1, A3. destruct (A3 NE) as [B1 B2]. exists c', r'. auto.
Qed.
End rejoins.
