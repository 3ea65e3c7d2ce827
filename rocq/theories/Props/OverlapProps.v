(** Property C101: updates that fall in the middle of an answer. *)
From Coq Require Import ZifyBool ZifyNat ZifyN.
From Verif Require Import Model.ConcCache Spec.Sets Spec.History Spec.Overlap Proofs.DataP Proofs.CacheP Proofs.RouterP Proofs.OverlapP
  Props.CacheProps.
From Coq Require Import List.
Local Open Scope list_scope.
Local Open Scope N_scope.

(** C101 An update in the middle of an answer does no harm.  The full statement: a router whose
    every query is taken up at most one change after the last is never sent what it must refuse,
    and after each answer other than a Cache Reset holds the newest records. *)
Definition C101_statement : Prop := forall keep l, Forall (fun n => Forall wf_sd n /\ n <> []) (published_sets l) ->
  each_arrive (fun k => k <= 1) (idle_link keep) 0 0 l ->
  let w := elapse (idle_link keep) l in let w' := elapse (idle_link keep) (l ++ [Finish]) in
  ~ offends w /\ (lk_query w <> None -> lk_at w' <> None -> holds w' (newest l)).

(** False, first: a change between the two reads of a full response; the response carries the old
    serial, so the next answer announces again what the router has. *)
Theorem C101_duplicate_refuted : exists l, Forall (fun n => Forall wf_sd n /\ n <> []) (published_sets l) /\
  each_arrive (fun k => k <= 1) (idle_link 3) 0 0 l /\ offends (elapse (idle_link 3) l).
Proof.
  exists [Publish [x1]; Arrive; Publish [x1; x2]; Finish; Arrive]. split; [|split].
  - constructor; [split; [apply wf_sds_ok; vm_compute; reflexivity|discriminate]|].
    constructor; [split; [apply wf_sds_ok; vm_compute; reflexivity|discriminate]|constructor].
  - vm_compute. intuition discriminate.
  - eexists. split; [vm_compute; reflexivity|]. split; [vm_compute; discriminate|].
    intros (_ & H & _). refine (H _ (or_introl eq_refl) eq_refl _). vm_compute. auto.
Qed.
(** False, second: a change between the two reads of an answer to a router that is one change
    behind.  It is told nothing under the serial of the first, and polls for ever without learning
    of it. *)
Definition lost : list happening :=
  [Publish [x1]; Arrive; Finish; Publish [x1; x2]; Arrive; Publish [x1; x2; x3]; Finish].
Theorem C101_lost_refuted : Forall (fun n => Forall wf_sd n /\ n <> []) (published_sets lost) /\
  each_arrive (fun k => k <= 1) (idle_link 3) 0 0 lost /\
  forall n, each_arrive (fun k => k <= 1) (idle_link 3) 0 0 (lost ++ polls n) /\
    let w := elapse (idle_link 3) (lost ++ polls n) in
    lk_query w = None /\ lk_at w <> None /\ ~ In (rid_of x2) (lk_set w) /\ In (rid_of x2) (ids (newest lost)).
Proof.
  split; [|split].
  - do 3 (constructor; [split; [apply wf_sds_ok; vm_compute; reflexivity|discriminate]|]). constructor.
  - vm_compute. intuition discriminate.
  - intros n.
    assert (HN : In (rid_of x2) (ids (newest lost))) by (vm_compute; auto).
    destruct n as [|n].
    { rewrite app_nil_r. split; [vm_compute; intuition discriminate|]. vm_compute. intuition discriminate. }
    (* after one more poll nothing moves *)
    set (w1 := elapse (idle_link 3) (lost ++ [Arrive; Finish])).
    assert (F1 : lk_query w1 = None) by (vm_compute; reflexivity).
    assert (F2 : lk_at w1 = Some (sdCurrentSerial (lk_cache w1))) by (vm_compute; reflexivity).
    assert (F3 : sdCurrent (lk_cache w1) <> []) by (vm_compute; discriminate).
    assert (F4 : ~ In (rid_of x2) (lk_set w1)) by (vm_compute; intuition discriminate).
    assert (ST : forall w, lk_query w = None -> lk_at w = Some (sdCurrentSerial (lk_cache w)) -> sdCurrent (lk_cache w) <> [] ->
      forall m, elapse w (polls m) = w /\ each_arrive (fun k => k <= 1) w 0 0 (polls m)).
    { intros w Q A N m. destruct w as [c q a R]. cbn [lk_query lk_at lk_cache] in *. subst q a.
      assert (E1 : occur (mkLk c None (Some (sdCurrentSerial c)) R) Arrive = mkLk c (Some (TSerial1 (sdCurrentSerial c) (sdCurrentSerial c))) (Some (sdCurrentSerial c)) R).
      { cbn [occur lk_query lk_at lk_cache lk_set tstep]. unfold get_current_serial. destruct (sdCurrent c); [contradiction|reflexivity]. }
      assert (E2 : occur (mkLk c (Some (TSerial1 (sdCurrentSerial c) (sdCurrentSerial c))) (Some (sdCurrentSerial c)) R) Finish = mkLk c None (Some (sdCurrentSerial c)) R).
      { cbn [occur lk_query lk_at lk_cache lk_set tstep]. rewrite serial_diff_cur. reflexivity. }
      induction m as [|m [IH1 IH2]]; [split; [reflexivity|exact I]|]. cbn [polls elapse fold_left each_arrive]. rewrite E1, E2.
      split; [exact IH1|]. split; [cbn; lia|]. split; [exact I|]. exact IH2. }
    destruct (ST w1 F1 F2 F3 n) as [S1 S2].
    assert (EW : elapse (idle_link 3) (lost ++ polls (S n)) = w1).
    { rewrite <- S1. unfold w1. rewrite <- elapse_app, <- app_assoc. reflexivity. }
    split.
    + assert (G : each_arrive (fun k => k <= 1) (idle_link 3) 0 0 ((lost ++ [Arrive; Finish]) ++ polls n)).
      { unfold lost. cbn [app each_arrive].
        repeat (split; [vm_compute; intuition discriminate|]).
        match goal with |- each_arrive _ ?w ?a ?b _ => change w with w1; let x := eval vm_compute in a in change a with x; let y := eval vm_compute in b in change b with y end.
        exact S2. }
      rewrite <- app_assoc in G. exact G.
    + cbv zeta. rewrite EW. split; [exact F1|]. split; [rewrite F2; discriminate|]. split; [exact F4|exact HN].
Qed.
Theorem C101_refuted : ~ C101_statement.
Proof.
  intros H. destruct C101_duplicate_refuted as (l & A & B & C). destruct (H 3%Z l A B) as [D _]. contradiction.
Qed.

(** What holds: a router that takes announcements and withdrawals as they come has the newest
    records after every answer other than a Cache Reset, if there is at most one change (or more
    than the history holds) from reading the serial of its last answer to reading the data of this
    one - wherever between the reads the updates fall.  Missing: that a strict router does, and
    that one change before the query and one during it are harmless. *)
Theorem C101_lenient_partial : forall keep l, Forall (fun n => Forall wf_sd n /\ n <> []) (published_sets l) ->
  each_finish (served keep) (idle_link keep) 0 0 (l ++ [Finish]) ->
  let w := elapse (idle_link keep) l in let w' := elapse (idle_link keep) (l ++ [Finish]) in
  lk_query w <> None -> holds w' (newest l) \/ (lk_at w' = None /\ lk_at w <> None).
Proof. exact answered. Qed.
(** And two polls with nothing in between always get there. *)
Theorem C101_two_polls_partial : forall keep l, Forall (fun n => Forall wf_sd n /\ n <> []) (published_sets l) ->
  published_sets l <> [] -> each_finish (served keep) (idle_link keep) 0 0 (l ++ [Arrive; Finish; Arrive; Finish]) ->
  holds (elapse (idle_link keep) (l ++ [Arrive; Finish; Arrive; Finish])) (newest l).
Proof. exact two_polls. Qed.
(** Updates in the middle of a full response and of a difference, and more changes than the history
    holds. *)
Definition busy : list happening :=
  [Arrive; Publish [x1]; Arrive; Publish [x1; x2]; Finish; Arrive; Finish; Arrive; Publish [x2; x3]; Finish; Arrive; Finish;
   Publish [x1]; Publish [x2]; Arrive; Publish [x1]; Publish [x4]].
Example C101_case : each_finish (served 3) (idle_link 3) 0 0 (busy ++ [Finish; Arrive; Publish [x4; x1]]) /\
  lk_at (elapse (idle_link 3) (busy ++ [Finish])) = None /\
  (let w := elapse (idle_link 3) (busy ++ [Finish; Arrive; Publish [x4; x1]; Finish]) in lk_at w = Some 6 /\ lk_set w = ids [x1; x4]) /\
  (let w := elapse (idle_link 3) [Publish [x1]; Arrive; Publish [x1; x2]; Finish; Arrive; Finish] in lk_at w = Some 1 /\ lk_set w = ids [x2; x2; x1]).
Proof.
  split; [vm_compute; repeat split; try (left; discriminate); right; split; [split|]; reflexivity|].
  split; [vm_compute; reflexivity|]. split; split; vm_compute; reflexivity.
Qed.

Print Assumptions C101_duplicate_refuted.
Print Assumptions C101_lost_refuted.
Print Assumptions C101_refuted.
Print Assumptions C101_lenient_partial.
Print Assumptions C101_two_polls_partial.
