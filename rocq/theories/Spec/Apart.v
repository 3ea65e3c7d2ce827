(** Updates by several goroutines that do not overlap. *)
From Verif Require Import Model.ConcCache Spec.History Spec.Snapshot.
From Coq Require Import List Arith.
Import ListNotations.
Local Open Scope list_scope.

(** In the middle of a call of AddData. *)
Definition busy (t : thread) : Prop := match t with TUpd1 _ _ | TUpd2 _ _ _ _ => True | _ => False end.
(** At no moment are two of them. *)
Definition apart (w : world) (sched : list nat) : Prop := forall n i j ti tj,
  nth_error (snd (wrun w (firstn n sched))) i = Some ti -> nth_error (snd (wrun w (firstn n sched))) j = Some tj ->
  busy ti -> busy tj -> i = j.
(** The updates of one of the goroutines, out of a list of updates with who made them. *)
Definition made_by (j : nat) (l : list (nat * list sd)) : list (list sd) := map snd (filter (fun x => Nat.eqb (fst x) j) l).
(** [l] is what the goroutines [ts] have done when they have become [ts']: each of them its updates in order, from
    the first, all of them when it has finished; and nobody else has done anything. *)
Definition in_turn (ts ts' : list thread) (l : list (nat * list sd)) : Prop :=
  (forall j h, nth_error ts j = Some (TUpd h) -> exists rest, h = made_by j l ++ rest /\ (nth_error ts' j = Some (TUpd []) -> rest = [])) /\
  Forall (fun x => exists h, nth_error ts (fst x) = Some (TUpd h)) l.
