(** Updates that do not overlap are done one after the other. *)
From Coq Require Import ZArith ZifyBool ZifyNat ZifyN.
From Verif Require Import Model.ConcCache Spec.Sets Spec.History Spec.Snapshot Spec.Apart Proofs.ConcCacheP.
From Coq Require Import List Arith Lia.
Import ListNotations.
Local Open Scope list_scope.

Lemma by_snoc j l k new : made_by j (l ++ [(k, new)]) = made_by j l ++ (if Nat.eqb k j then [new] else []).
Proof. unfold made_by. rewrite filter_app, map_app. cbn [filter fst]. destruct (Nat.eqb k j); reflexivity. Qed.
(** Where an updater stands. *)
Definition stands (s : server) (t : thread) (rest : list (list sd)) : Prop :=
  match t with
  | TUpd todo => rest = todo
  | TUpd1 d todo => exists new, rest = new :: todo /\ d = diff_of s new /\ d <> []
  | TUpd2 d m c todo => exists new, rest = new :: todo /\ d = diff_of s new /\ d <> [] /\ (m, c) = sds_diff_read s d
  | _ => False
  end.
Definition at_rest (s0 : server) (ts : list thread) (w : world) (l : list (nat * list sd)) : Prop :=
  fst w = run s0 (map snd l) /\
  (forall j t, nth_error ts j = Some t -> exists t', nth_error (snd w) j = Some t' /\
     match t with TUpd h => exists rest, h = made_by j l ++ rest /\ stands (fst w) t' rest | _ => is_upd t' = false end) /\
  (forall j, nth_error ts j = None -> nth_error (snd w) j = None) /\
  Forall (fun x => exists h, nth_error ts (fst x) = Some (TUpd h)) l.
Lemma stands_free s s' t rest : ~ busy t -> stands s t rest -> stands s' t rest.
Proof. destruct t; cbn; tauto. Qed.

Lemma apart_step s0 ts w l k : (forall i j ti tj, nth_error (snd w) i = Some ti -> nth_error (snd w) j = Some tj -> busy ti -> busy tj -> i = j) ->
  (forall t, In t ts -> ~ busy t) -> at_rest s0 ts w l -> exists l', at_rest s0 ts (wstep w k) l'.
Proof.
  intros HA HB (H1 & H2 & H3 & H4).
  destruct (nth_error (snd w) k) as [t|] eqn:EK.
  2:{ exists l. unfold wstep. rewrite EK. split; [exact H1|]. split; [exact H2|]. split; [exact H3|exact H4]. }
  pose proof (wstep_self w k t EK) as SS.
  destruct (tstep (fst w) t) as [[s' t']|] eqn:ET; [|exists l; rewrite SS; split; [exact H1|]; split; [exact H2|]; split; [exact H3|exact H4]].
  destruct SS as [S1 S2].
  destruct (nth_error ts k) as [t0|] eqn:E0; [|rewrite (H3 k E0) in EK; discriminate EK].
  assert (H3' : forall j, nth_error ts j = None -> nth_error (snd (wstep w k)) j = None).
  { intros j EJ. rewrite wstep_other; [now apply H3|]. intros ->. congruence. }
  destruct (H2 k t0 E0) as (tk & EK' & HK). rewrite EK in EK'. injection EK' as <-.
  assert (QUIET : s' = fst w -> (match t0 with TUpd h => exists rest, h = made_by k l ++ rest /\ stands (fst w) t' rest | _ => is_upd t' = false end) -> at_rest s0 ts (wstep w k) l).
  { intros -> HT. split; [now rewrite S1|]. split; [|split; [exact H3'|exact H4]].
    intros j tj EJ. destruct (Nat.eq_dec k j) as [<-|N].
    - exists t'. split; [exact S2|]. rewrite E0 in EJ. injection EJ as <-. rewrite S1. exact HT.
    - rewrite wstep_other by exact N. rewrite S1. now apply H2. }
  destruct (is_upd t) eqn:EU.
  2:{ exists l. destruct (tstep_reader _ _ _ _ EU ET) as [E1 E2]. apply QUIET; [exact E1|].
      destruct t0; try exact E2. destruct HK as (rest & _ & HS). destruct t; discriminate EU || destruct HS. }
  assert (EH : exists h, t0 = TUpd h).
  { destruct t0; try (exfalso; congruence). eexists. reflexivity. }
  destruct EH as (h & ->). destruct HK as (rest & EH & HS).
  assert (DONE : forall new todo, rest = new :: todo -> s' = step (fst w) new -> t' = TUpd todo ->
      s' = fst w \/ (forall j tj, nth_error (snd w) j = Some tj -> j <> k -> ~ busy tj) -> at_rest s0 ts (wstep w k) (l ++ [(k, new)])).
  { intros new todo ER ES ET' HF. split; [rewrite S1, ES, map_app; cbn [map snd]; now rewrite run_snoc, <- H1|]. split; [|split; [exact H3'|]].
    - intros j tj EJ. destruct (Nat.eq_dec k j) as [<-|N].
      + exists (TUpd todo). split; [now rewrite <- ET'|]. rewrite E0 in EJ. injection EJ as <-. exists todo. split; [|reflexivity].
        rewrite by_snoc, Nat.eqb_refl, <- app_assoc. cbn [app]. now rewrite EH, ER.
      + rewrite wstep_other by exact N. destruct (H2 j tj EJ) as (tj' & E' & HJ). exists tj'. split; [exact E'|].
        destruct tj; try exact HJ. destruct HJ as (r & ERr & HS'). exists r. rewrite by_snoc. destruct (Nat.eqb_spec k j); [contradiction|]. rewrite app_nil_r. split; [exact ERr|].
        rewrite S1. destruct HF as [->|HF]; [exact HS'|]. apply (stands_free (fst w)); [apply (HF j); auto|exact HS'].
    - apply Forall_app. split; [exact H4|]. constructor; [exists h; exact E0|constructor]. }
  destruct t; try discriminate EU; cbn [stands tstep] in HS, ET.
  - destruct todo as [|new todo]; [discriminate ET|].
    assert (D : diff_of (fst w) new = diff_of (fst w) new) by reflexivity. unfold diff_of in D at 1.
    destruct (compute_diff new (sdCurrent (fst w)) false) as [[a r] u].
    destruct (a ++ r) as [|d0 d] eqn:Ed; injection ET as <- <-.
    + exists (l ++ [(k, new)]). apply (DONE new todo); auto. rewrite step_diff, <- D. reflexivity.
    + exists l. apply QUIET; [reflexivity|]. exists rest. split; [exact EH|]. exists new. split; [exact HS|]. split; [exact D|discriminate].
  - destruct HS as (new & E & Ed & Hn). destruct (sds_diff_read (fst w) diff) as [m c] eqn:EM. injection ET as <- <-. exists l. apply QUIET; [reflexivity|].
    exists rest. split; [exact EH|]. exists new. auto.
  - destruct HS as (new & E & Ed & Hn & Em). injection ET as <- <-. exists (l ++ [(k, new)]). apply (DONE new todo); auto.
    + rewrite step_diff, <- Ed. destruct diff as [|d0 d]; [contradiction|]. inversion Em; subst merged cur. reflexivity.
    + right. intros j tj EJ N Y. apply N. apply (HA j k tj _ EJ EK Y). exact I.
Qed.
Lemma apart_run s0 ts sched : (forall t, In t ts -> ~ busy t) -> apart (s0, ts) sched -> exists l, at_rest s0 ts (wrun (s0, ts) sched) l.
Proof.
  intros HB HA. assert (G : forall n, (n <= length sched)%nat -> exists l, at_rest s0 ts (wrun (s0, ts) (firstn n sched)) l).
  { induction n as [|n IH]; intros HN.
    - exists []. cbn [firstn]. split; [reflexivity|]. split; [|split; [auto|constructor]].
      intros j t EJ. exists t. split; [exact EJ|]. destruct t; try reflexivity; [exists todo; split; reflexivity| |]; elim (HB _ (nth_error_In _ _ EJ)); exact I.
    - destruct IH as (l & IH); [lia|]. destruct (nth_error sched n) as [k|] eqn:EK; [|apply nth_error_None in EK; lia].
      assert (EF : firstn (S n) sched = firstn n sched ++ [k]).
      { clear - EK. revert sched EK. induction n as [|n IH]; intros [|x r] E; try discriminate E; cbn in *; [now injection E as ->|]. now rewrite (IH r E). }
      rewrite EF, wrun_app. apply (apart_step s0 ts _ l k); [apply (HA n)|exact HB|exact IH]. }
  specialize (G (length sched) (le_n _)). now rewrite firstn_all in G.
Qed.
