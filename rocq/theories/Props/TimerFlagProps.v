(** Property C66, the intervals: what End of Data carries, for all values of the flags. *)
From Coq Require Import ZArith ZifyBool ZifyNat ZifyN Lia.
From Verif Require Import Lib.Str Model.Main Spec.Wire Spec.Sets Spec.History Spec.Response Spec.Net Spec.Refresh Spec.Flags Spec.Download
  Proofs.ConnP Proofs.NetP Proofs.FetchP Proofs.StateP Props.CacheProps Props.ConnProps Props.ConcProps Props.StateProps Props.FlagProps.
From Coq Require Import List.
Import ListNotations.
Local Open Scope N_scope.

(** What a router is told for a flag with the value [z]: its last 32 bits, or the default where
    they are all zero. *)
Definition told_interval (z default shown : Z) : Prop :=
  (0 <= shown < 4294967296)%Z /\
  exists k : Z, (z = shown + k * 4294967296 /\ shown <> 0 \/ z = k * 4294967296 /\ shown = default)%Z.

Lemma timer_told z d : (0 < Z.of_N d < 4294967296)%Z -> told_interval z (Z.of_N d) (Z.of_N (timer (to_u32 z) d)).
Proof.
  intros Hd. unfold told_interval, timer, to_u32. change (2 ^ 32)%Z with 4294967296%Z.
  pose proof (Z.mod_pos_bound z 4294967296 ltac:(lia)) as B.
  pose proof (Z.div_mod z 4294967296 ltac:(lia)) as Q. set (m := (z mod 4294967296)%Z) in *.
  set (k := (z / 4294967296)%Z) in *. clearbody m k.
  destruct (Z.to_N m =? 0) eqn:E.
  - split; [lia|]. exists k. right. lia.
  - split; [lia|]. exists k. left. lia.
Qed.
Lemma told_right z d w : (0 < d < 4294967296)%Z -> told_interval z d w -> (w = z <-> interval z).
Proof.
  unfold told_interval, interval. intros Hd (B & k & [[E N]|[E N]]).
  - split; [lia|]. intros H. assert (k = 0)%Z by lia. lia.
  - split; [|intros H; assert (0 < k < 1)%Z by lia; lia]. intros X. assert (0 < k < 1)%Z by lia. lia.
Qed.

(** C66 The flags reach the server: the intervals in every End of Data, whatever the flags; each
    is the one of its flag exactly when that is an interval.  (Missing: that the daemon refuses
    other values, see [C66_timers_refuted].) *)
Theorem C66_timers_exact_partial : forall f cfg sc fc s tr cache c p c' a v sess n r t e,
  stayrtr_main f = Runs cfg sc fc ->
  u16 s -> reach (new_rtr_server cfg s) tr c -> c_connected c = true ->
  process (new_rtr_server cfg s) cache c p = Ok (c', a) -> In (Queue (EndOfData v sess n r t e)) a ->
  (told_interval (f_rtr_refresh f) 3600 (Z.of_N r) /\ told_interval (f_rtr_retry f) 600 (Z.of_N t) /\
   told_interval (f_rtr_expire f) 7200 (Z.of_N e)) /\
  (Z.of_N r = f_rtr_refresh f <-> interval (f_rtr_refresh f)) /\
  (Z.of_N t = f_rtr_retry f <-> interval (f_rtr_retry f)) /\
  (Z.of_N e = f_rtr_expire f <-> interval (f_rtr_expire f)).
Proof.
  intros f cfg sc fc s tr cache c p c' a v sess n r t e HR Hs Hr Hc HP Hq.
  destruct (runs_config _ _ _ _ HR) as (-> & _ & _).
  destruct (C28_timers _ s tr cache c p c' a v sess n r t e Hs (protover_lt f) Hr Hc HP Hq) as (-> & -> & ->).
  cbn [cfg_refresh cfg_retry cfg_expire server_config].
  pose proof (timer_told (f_rtr_refresh f) 3600 ltac:(lia)) as H1.
  pose proof (timer_told (f_rtr_retry f) 600 ltac:(lia)) as H2.
  pose proof (timer_told (f_rtr_expire f) 7200 ltac:(lia)) as H3.
  change (Z.of_N 3600) with 3600%Z in H1. change (Z.of_N 600) with 600%Z in H2. change (Z.of_N 7200) with 7200%Z in H3.
  split; [auto|]. split; [|split]; eapply told_right; eauto; lia.
Qed.

(** Flags 0, -1 and 2^32 + 1, and what a router is told: the default, 2^32 - 1 and 1. *)
Example C66_timers_exact_case :
  told_interval 0 3600 3600 /\ told_interval (-1) 600 4294967295 /\ told_interval 4294967297 7200 1 /\
  (exists cfg sc fc, stayrtr_main (mkFlags 1 0 (-1) 4294967297 true false false true false false true true true 600 0 false true) = Runs cfg sc fc) /\
  ~ interval (-1).
Proof.
  split; [split; [lia|exists 0%Z; lia]|]. split; [split; [lia|exists (-1)%Z; lia]|]. split; [split; [lia|exists 1%Z; lia]|].
  split; [eexists _, _, _; vm_compute; reflexivity|]. unfold interval. lia.
Qed.

Print Assumptions C66_timers_exact_partial.
