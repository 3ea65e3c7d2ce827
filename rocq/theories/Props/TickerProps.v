(** C77: how often the daemon refreshes.

    A claim in its full form is: a refresh begins -refresh seconds after the previous one began, at
    once if that one took longer; earlier only when asked to.  It holds when the first reading of the
    file succeeded and no refresh takes as long as the interval. *)
From Verif Require Import Model.Ticker Spec.Cadence Proofs.TickerP.
Local Open Scope Z_scope.

Definition in_range (interval : Z) : Prop := 0 < interval /\ interval * 1000000000 < 2 ^ 63.
Lemma in_range_dur i : in_range i -> duration i = i * 1000000000.
Proof. intros [H1 H2]. unfold in_range in *. rewrite duration_exact by (unfold second; lia). reflexivity. Qed.
Lemma duration_pause i zero pre s : in_range i -> reached i zero pre s -> (if r_zero s then half_minute else duration i) = pause i zero pre.
Proof. intros H HR. unfold pause. rewrite (in_range_dur i H), (reached_unread _ _ _ _ HR). reflexivity. Qed.

(** Once a refresh has ended the next begins within the interval, 30 seconds as long as no file has
    been read: no more time can go by than that without one beginning. *)
Theorem C77_late_partial : forall interval zero pre s0 ws s,
  in_range interval -> reached interval zero pre s0 -> r_pc s0 = RHead ->
  rrun interval s0 (RLoop :: map RPass ws) = Some s ->
  r_now s <= r_now s0 + pause interval zero pre /\
  exists ws' s', rrun interval s (map RPass ws') = Some s' /\ ready interval s' /\
                 r_now s' <= r_now s0 + pause interval zero pre.
Proof.
  intros i zero pre s0 ws s HI HR HP H. destruct (reached_inv _ _ _ _ HR) as [HD HT]. cbn [rrun] in H.
  destruct (rstep i s0 RLoop) as [s1|] eqn:E; [|discriminate]. pose proof (tinv_step _ _ _ _ HD HT E) as HT1.
  assert (V : r_now s1 = r_now s0 /\ r_pc s1 = RSelect /\ r_zero s1 = r_zero s0).
  { unfold rstep in E. rewrite HP in E. injection E as <-. unfold loop_head. destruct (r_zero s0) eqn:EZ; [|destruct (r_flag s0)]; cbn; auto. }
  destruct V as (V1 & V2 & V3). destruct HT1 as (T1 & T2 & T3 & T4). specialize (T4 V2). rewrite V3, (duration_pause i zero pre s0 HI HR) in T4.
  assert (W : waiting (r_now s0 + pause i zero pre) s1) by (split; [exact V2|]; split; [lia|]; intros _; lia).
  destruct (waiting_run i _ ws s1 s T1 W H) as (W' & _). split; [exact (proj1 (proj2 W'))|]. now apply waiting_ready.
Qed.

(** Two refreshes are the interval apart, whatever began the first. *)
Theorem C77_every_partial : forall interval pre s1 l ds ok ws s3,
  in_range interval -> reached interval false pre s1 -> begins l ->
  rrun interval s1 (refresh_then l ds ok ws) = Some s3 -> ready interval s3 ->
  brisk (interval * 1000000000) None (pre ++ refresh_then l ds ok ws) ->
  r_now s3 = r_now s1 + interval * 1000000000.
Proof.
  intros i pre s1 l ds ok ws s3 HI HR HB H HY HK. rewrite <- (in_range_dur i HI) in HK.
  destruct (refresh_pause _ _ _ _ _ _ _ _ _ HR HB H HY HK) as (_ & G & _). rewrite <- (in_range_dur i HI). specialize (G eq_refl). lia.
Qed.

(** Also when the first reading failed, they are no closer. *)
Theorem C77_apart_partial : forall interval zero pre s1 l ds ok ws s3,
  in_range interval -> reached interval zero pre s1 -> begins l ->
  rrun interval s1 (refresh_then l ds ok ws) = Some s3 -> ready interval s3 ->
  brisk (interval * 1000000000) None (pre ++ refresh_then l ds ok ws) ->
  r_now s1 + pause interval zero (pre ++ refresh_then l ds ok ws) <= r_now s3.
Proof.
  intros i zero pre s1 l ds ok ws s3 HI HR HB H HY HK. rewrite <- (in_range_dur i HI) in HK.
  destruct (refresh_pause _ _ _ _ _ _ _ _ _ HR HB H HY HK) as (G1 & G2 & G3 & G4). 
  rewrite <- (duration_pause i zero _ s3 HI (reached_app _ _ _ _ _ _ HR H)).
  destruct zero.
  - specialize (G1 eq_refl). lia.
  - rewrite (G4 eq_refl). specialize (G2 eq_refl). lia.
Qed.

(** After a failed first reading the refreshes are for ever the interval and their own duration
    apart, instead of the interval. *)
Theorem C77_drift_refuted : forall interval pre s1 l ds ok ws s3,
  in_range interval -> reached interval true pre s1 -> begins l ->
  rrun interval s1 (refresh_then l ds ok ws) = Some s3 -> ready interval s3 ->
  brisk (interval * 1000000000) None (pre ++ refresh_then l ds ok ws) ->
  unread true (pre ++ refresh_then l ds ok ws) = false ->
  r_now s3 = r_now s1 + interval * 1000000000 + total ds.
Proof.
  intros i pre s1 l ds ok ws s3 HI HR HB H HY HK HZ. rewrite <- (in_range_dur i HI) in HK.
  destruct (refresh_pause _ _ _ _ _ _ _ _ _ HR HB H HY HK) as (G & _). specialize (G eq_refl). rewrite (reached_unread _ _ _ _ (reached_app _ _ _ _ _ _ HR H)), HZ, (in_range_dur i HI) in G. lia.
Qed.

Definition sec (n : Z) : Z := n * 1000000000.

(** With -refresh 10 and nothing read, 30 seconds go by until the next attempt. *)
Theorem C77_thirty_refuted : exists interval zero pre s0 s,
  in_range interval /\ reached interval zero pre s0 /\ r_pc s0 = RHead /\
  rrun interval s0 [RLoop; RPass (sec 29)] = Some s /\ ~ ready interval s /\
  interval * 1000000000 < r_now s - r_now s0.
Proof.
  exists 10, true, []. do 2 eexists. split; [split; vm_compute; reflexivity|]. split; [exists 0; eexists; split; vm_compute; reflexivity|].
  split; [vm_compute; reflexivity|]. split; [vm_compute; reflexivity|]. split; [|vm_compute; reflexivity].
  intros (s' & H). vm_compute in H. discriminate.
Qed.

(** -refresh 10, a refresh of 19 seconds: the next begins at its end, and a second later, nobody
    having asked, another. *)
Theorem C77_close_refuted : exists interval pre s1 ds ok ws s3,
  in_range interval /\ reached interval false pre s1 /\
  rrun interval s1 (refresh_then RTick ds ok ws) = Some s3 /\ ready interval s3 /\
  r_now s3 - r_now s1 < interval * 1000000000 / 5.
Proof.
  exists 10, [RLoop; RPass (sec 10); RTick; RPass (sec 19); RDone true; RLoop].
  eexists. exists [500000000], true, [500000000]. eexists. split; [split; vm_compute; reflexivity|].
  split; [exists 0; eexists; split; vm_compute; reflexivity|]. split; [vm_compute; reflexivity|].
  split; [unfold ready; eexists; vm_compute; reflexivity|]. vm_compute. reflexivity.
Qed.

(** A larger interval does not mean more time between refreshes: beyond 2^63 nanoseconds it wraps
    round, here to less than a third of a second. *)
Theorem C77_overflow_refuted : exists interval s1 ds ok ws s3,
  18446744073 < interval < 2 ^ 63 /\ reached interval false [RLoop; RPass 290448384] s1 /\
  rrun interval s1 (refresh_then RTick ds ok ws) = Some s3 /\ ready interval s3 /\
  r_now s3 - r_now s1 < 1000000000.
Proof.
  exists 18446744074. eexists. exists [1000], true, [290447384]. eexists. split; [vm_compute; split; reflexivity|].
  split; [exists 0; eexists; split; vm_compute; reflexivity|]. split; [vm_compute; reflexivity|].
  split; [unfold ready; eexists; vm_compute; reflexivity|]. vm_compute. reflexivity.
Qed.

(** -refresh 600: a trigger after 100 seconds, a refresh of 3 seconds, and the next 600 seconds after
    the trigger. *)
Example C77_every_case : exists s1 s3,
  in_range 600 /\ reached 600 false [RLoop; RPass (sec 100)] s1 /\
  rrun 600 s1 (refresh_then RTrig [sec 1; sec 2] true [sec 597]) = Some s3 /\ ready 600 s3 /\
  brisk (600 * 1000000000) None ([RLoop; RPass (sec 100)] ++ refresh_then RTrig [sec 1; sec 2] true [sec 597]) /\
  r_now s3 - r_now s1 = sec 600.
Proof.
  do 2 eexists. split; [split; vm_compute; reflexivity|]. split; [exists 0; eexists; split; vm_compute; reflexivity|]. split; [vm_compute; reflexivity|].
  split; [unfold ready; eexists; vm_compute; reflexivity|]. split; [vm_compute; repeat split; reflexivity|]. vm_compute. reflexivity.
Qed.
(** The first reading failed, the second succeeds: the third is 603 seconds after it. *)
Example C77_drift_case : exists s1 s3,
  reached 600 true [RLoop; RPass (sec 30)] s1 /\
  rrun 600 s1 (refresh_then RTick [sec 3] true [sec 600]) = Some s3 /\ ready 600 s3 /\
  brisk (600 * 1000000000) None ([RLoop; RPass (sec 30)] ++ refresh_then RTick [sec 3] true [sec 600]) /\
  unread true ([RLoop; RPass (sec 30)] ++ refresh_then RTick [sec 3] true [sec 600]) = false /\ r_now s3 - r_now s1 = sec 603.
Proof.
  do 2 eexists. split; [exists 0; eexists; split; vm_compute; reflexivity|]. split; [vm_compute; reflexivity|].
  split; [unfold ready; eexists; vm_compute; reflexivity|]. split; [vm_compute; repeat split; reflexivity|]. split; [vm_compute; reflexivity|]. vm_compute. reflexivity.
Qed.
(** Waiting for the next refresh, with one tick waiting already and without. *)
Example C77_late_case : exists s0 s0' s,
  reached 600 false [RLoop; RPass (sec 600); RTick; RPass (sec 700); RDone true] s0 /\ r_pc s0 = RHead /\ r_full s0 = true /\
  reached 600 false [RLoop; RPass (sec 600); RTick; RPass (sec 5); RDone false] s0' /\ r_pc s0' = RHead /\
  rrun 600 s0' (RLoop :: map RPass [sec 100; sec 300]) = Some s /\ r_now s - r_now s0' = sec 400.
Proof.
  do 3 eexists. split; [exists 0; eexists; split; vm_compute; reflexivity|]. split; [vm_compute; reflexivity|]. split; [vm_compute; reflexivity|].
  split; [exists 0; eexists; split; vm_compute; reflexivity|]. split; [vm_compute; reflexivity|]. split; [vm_compute; reflexivity|]. vm_compute. reflexivity.
Qed.

Print Assumptions C77_late_partial.
Print Assumptions C77_every_partial.
Print Assumptions C77_apart_partial.
Print Assumptions C77_drift_refuted.
Print Assumptions C77_thirty_refuted.
Print Assumptions C77_close_refuted.
Print Assumptions C77_overflow_refuted.
