(** What a router that is some changes behind is told. *)
From Verif Require Import Model.Cache Spec.Sets Spec.History.
From Coq Require Import List.
Local Open Scope list_scope.

(** How often the record comes or goes in a sequence of sets. *)
Fixpoint flips (x : rid) (sets : list (list sd)) : nat :=
  match sets with
  | a :: r => match r with b :: _ => (if xorb (mem x (ids a)) (mem x (ids b)) then 1 else 0) + flips x r | [] => 0 end
  | [] => 0
  end.
(** Each set differs from the one before. *)
Fixpoint changing (sets : list (list sd)) : Prop :=
  match sets with
  | a :: r => match r with b :: _ => ~ same_set a b /\ changing r | [] => True end
  | [] => True
  end.
(** Of the [k] changes that a router has missed it is told the last [covered k]: 0, 1, 0, 2, 1, 3,
    2, 4, ... *)
Definition covered (k : nat) : nat := if Nat.odd k then S (Nat.div2 k) else Nat.div2 k - 1.
(** The sets before, between and after these. *)
Definition recent (k : nat) (sets : list (list sd)) : list (list sd) := lastn (S (covered k)) sets.
(** What a router over a connection of version [v], with router keys switched off or not, may hold. *)
Definition carried (v : N) (nokeys : bool) (x : rid) : bool :=
  match x with RV _ _ _ => true | RK _ _ _ => negb (v =? 0)%N && negb nokeys end.
(** Coming and going [t] times in what the router is told, a record that it had ([was]) or not, and
    should have ([is]) or not, is set right without error. *)
Definition set_right (was is : bool) (t : nat) : Prop :=
  match was, is with
  | true, true => t = 0%nat
  | false, true => t <> 0%nat
  | true, false => t = 1%nat
  | false, false => t <> 1%nat
  end.
(** The last of these changes in which the record comes or goes, counting from 1; 0 if there is
    none. *)
Fixpoint last_flip (x : rid) (sets : list (list sd)) : nat :=
  match sets with
  | a :: r => match r with
    | b :: _ => match last_flip x r with O => if xorb (mem x (ids a)) (mem x (ids b)) then 1 else 0 | m => S m end
    | [] => 0 end
  | [] => 0
  end.
(** Records in the order of the changes they last came or went in, and of those of the same change
    the announcements first. *)
Definition by_change (sets : list (list sd)) (d : list sd) : Prop :=
  ForallOrdPairs (fun e f => let t := fun z => last_flip (rid_of z) sets in
    (t e < t f)%nat \/ t e = t f /\ (get_flag f = 1%N -> get_flag e = 1%N)) d.
