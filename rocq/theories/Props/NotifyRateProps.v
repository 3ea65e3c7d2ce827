(** Property C112: how often routers are notified. *)
From Coq Require Import String ZArith ZifyBool ZifyNat ZifyN.
From Verif Require Import Lib.Str Model.Ticker Model.State Spec.Refresh Spec.NotifyRate Spec.Cadence
  Proofs.TickerP Proofs.StateP Proofs.JsonStateP Proofs.NotifyRateP Props.CacheProps Props.StateProps Props.JsonProps Props.TickerProps Props.EndToEndProps.
From Coq Require Import List.
Local Open Scope string_scope.
Local Open Scope list_scope.
Local Open Scope Z_scope.

(** C112 At most one Serial Notify per minute (RFC 8210 section 5.2).  The full statement: *)
Definition C112_statement : Prop := forall interval e c i now evs w, in_range interval -> wf_env e ->
  played interval e c i now evs w -> limited (dy_log w).

(** What holds: nobody asks for a refresh, and -refresh is a minute more than the longest refresh. *)
Theorem C112_rate_partial : forall interval D e c i now evs w, in_range interval -> 0 <= D -> D + minute <= interval * 1000000000 ->
  played interval e c i now evs w -> Forall unasked evs -> (forall b t ns, In (b, t, ns) (dy_log w) -> t - b < D) ->
  limited (dy_log w).
Proof. intros interval D e c i now evs w HR HD HI HP HU HB. eapply (rate_limited interval D); eauto. now apply in_range_dur. Qed.

(** [n] seconds after the start; a refresh that takes [d] seconds from then on. *)
Definition clk (n : Z) : Z := hour 1 + sec n.
Definition began_at (l : rlabel) (n d : Z) (f : bytes) : list event :=
  [Clock l; Clock (RPass (sec d)); Finish (mkIn (clk (n + d)) (Some f) None); Clock RLoop].
(** Ten minutes, two refreshes of one second with a notification each. *)
Definition evs112 : list event := Clock RLoop :: Clock (RPass (sec 600)) :: began_at RTick 600 1 file2
  ++ Clock (RPass (sec 599)) :: began_at RTick 1200 1 fileW.
Definition today (interval : Z) (evs : list event) : list (Z * Z * list N) :=
  match dawn interval text_env cfgN (at_h 1 fileV) (hour 1) with
  | Some w => match dplays interval text_env cfgN w evs with Some w' => dy_log w' | None => [] end
  | None => []
  end.
Lemma today_played interval evs : today interval evs <> [] ->
  exists w, played interval text_env cfgN (at_h 1 fileV) (hour 1) evs w /\ dy_log w = today interval evs.
Proof.
  unfold today, played. destruct (dawn _ _ _ _ _) as [w0|]; [|congruence]. destruct (dplays _ _ _ w0 evs) as [w|] eqn:E; [|congruence].
  intros _. exists w. split; [exists w0; auto|reflexivity].
Qed.
Lemma text_wf : wf_env text_env.
Proof. apply (reads_wf (fun _ => 0%nat)); apply text_env_reads. Qed.
Example C112_case : exists w, played 600 text_env cfgN (at_h 1 fileV) (hour 1) evs112 w /\ Forall unasked evs112 /\
  dy_log w = [(clk 600, clk 601, [1%N]); (clk 1200, clk 1201, [2%N])] /\ (forall b t ns, In (b, t, ns) (dy_log w) -> t - b < sec 2) /\ limited (dy_log w).
Proof.
  assert (E : today 600 evs112 = [(clk 600, clk 601, [1%N]); (clk 1200, clk 1201, [2%N])]) by (vm_compute; reflexivity).
  destruct (today_played 600 evs112) as (w & W1 & W2); [rewrite E; discriminate|]. exists w. rewrite E in W2.
  assert (U : Forall unasked evs112) by (unfold evs112, began_at; cbn [app]; repeat (constructor; [split; discriminate|]); constructor).
  assert (B : forall b t ns, In (b, t, ns) (dy_log w) -> t - b < sec 2).
  { rewrite W2. intros b t ns [X|[X|[]]]; injection X as <- <- <-; reflexivity. }
  split; [exact W1|]. split; [exact U|]. split; [exact W2|]. split; [exact B|].
  apply (C112_rate_partial 600 (sec 2) text_env cfgN (at_h 1 fileV) (hour 1) evs112); auto; vm_compute; try split; try reflexivity; discriminate.
Qed.

Lemma two_close log b1 t1 n1 b2 t2 n2 : nth_error log 0 = Some (b1, t1, [n1]) -> nth_error log 1 = Some (b2, t2, [n2]) -> b2 < t1 + minute -> ~ limited log.
Proof. intros H1 H2 H [_ L]. specialize (L 0%nat 1%nat _ _ _ _ _ _ ltac:(auto) H1 H2 ltac:(discriminate) ltac:(discriminate)). lia. Qed.
Ltac close w interval evs :=
  let W1 := fresh in let W2 := fresh in
  destruct (today_played interval evs) as (w & W1 & W2); [vm_compute; discriminate|];
  exists w; split; [exact text_wf|]; split; [exact W1|]; rewrite W2.

(** It is false: nothing limits the rate.  With -refresh 10 there is a notification every ten
    seconds if the file changes as often. *)
Definition evs_ten : list event := Clock RLoop :: Clock (RPass (sec 10)) :: began_at RTick 10 1 file2
  ++ Clock (RPass (sec 9)) :: began_at RTick 20 1 fileW.
Theorem C112_short_refuted : exists e c i now evs w, wf_env e /\ played 10 e c i now evs w /\ Forall unasked evs /\
  dy_log w = [(clk 10, clk 11, [1%N]); (clk 20, clk 21, [2%N])] /\ ~ limited (dy_log w).
Proof.
  exists text_env, cfgN, (at_h 1 fileV), (hour 1), evs_ten. close w 10 evs_ten.
  split; [unfold evs_ten, began_at; cbn [app]; repeat (constructor; [split; discriminate|]); constructor|].
  split; [vm_compute; reflexivity|]. eapply two_close; vm_compute; reflexivity.
Qed.
(** With the default interval: two SIGHUPs (or calls of the update handler) suffice. *)
Definition evs_hup (l : rlabel) : list event := Clock RLoop :: Clock (RPass (sec 100)) :: began_at l 100 1 file2
  ++ Clock (RPass (sec 1)) :: began_at l 102 1 fileW.
Theorem C112_asked_refuted : forall l, l = RHup \/ l = RTrig -> exists e c i now evs w, wf_env e /\ played 600 e c i now evs w /\
  evs = evs_hup l /\ dy_log w = [(clk 100, clk 101, [1%N]); (clk 102, clk 103, [2%N])] /\ ~ limited (dy_log w).
Proof.
  intros l [->| ->].
  - exists text_env, cfgN, (at_h 1 fileV), (hour 1), (evs_hup RHup). close w 600 (evs_hup RHup). split; [reflexivity|].
    split; [vm_compute; reflexivity|]. eapply two_close; vm_compute; reflexivity.
  - exists text_env, cfgN, (at_h 1 fileV), (hour 1), (evs_hup RTrig). close w 600 (evs_hup RTrig). split; [reflexivity|].
    split; [vm_compute; reflexivity|]. eapply two_close; vm_compute; reflexivity.
Qed.
(** The margin for the duration is needed: -refresh 60, a refresh of 20 s and one of 1 s. *)
Definition evs_slow : list event := Clock RLoop :: Clock (RPass (sec 60)) :: began_at RTick 60 20 file2
  ++ Clock (RPass (sec 40)) :: began_at RTick 120 1 fileW.
Theorem C112_slow_refuted : exists e c i now evs w, wf_env e /\ played 60 e c i now evs w /\ Forall unasked evs /\
  dy_log w = [(clk 60, clk 80, [1%N]); (clk 120, clk 121, [2%N])] /\ ~ limited (dy_log w).
Proof.
  exists text_env, cfgN, (at_h 1 fileV), (hour 1), evs_slow. close w 60 evs_slow.
  split; [unfold evs_slow, began_at; cbn [app]; repeat (constructor; [split; discriminate|]); constructor|].
  split; [vm_compute; reflexivity|]. eapply two_close; vm_compute; reflexivity.
Qed.

Print Assumptions C112_rate_partial.
Print Assumptions C112_short_refuted.
Print Assumptions C112_asked_refuted.
Print Assumptions C112_slow_refuted.
