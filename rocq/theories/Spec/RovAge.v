(** Routes while a router loads everything, after any number of files. *)
From Verif Require Import Model.Data Spec.Sets Spec.Input Spec.Router Spec.Rov.
From Coq Require Import List ZArith.
Import ListNotations.
Local Open Scope list_scope.
Local Open Scope N_scope.

(** In how many of the sets, the newest ones without a gap, the record is (oldest set first). *)
Fixpoint age (x : rid) (sets : list (list sd)) : nat :=
  match sets with
  | [] => 0
  | L :: r => if forallb (fun M => if in_dec rid_dec x (ids M) then true else false) (L :: r) then length (L :: r) else age x r
  end.
(** It has been there longer, or as long and is for a longer prefix. *)
Definition senior (sets : list (list sd)) (p : prefix) (a m : N) (p' : prefix) (a' m' : N) : Prop :=
  (age (RV p' a' m') sets < age (RV p a m) sets)%nat \/
  (age (RV p' a' m') sets = age (RV p a m) sets /\ (bits p' < bits p)%Z).
(** Some VRP that authorises the route is senior to all that cover it and do not. *)
Definition long_standing (sets : list (list sd)) (R : rset) (t : route) : Prop :=
  exists p a m, R (RV p a m) /\ authorises (RV p a m) t /\
  forall p' a' m', R (RV p' a' m') -> covering (RV p' a' m') t -> authorises (RV p' a' m') t \/ senior sets p a m p' a' m'.
(** Some VRP that covers the route without authorising it is senior to all that do. *)
Definition overtaken (sets : list (list sd)) (R : rset) (t : route) : Prop :=
  exists p' a' m', R (RV p' a' m') /\ covering (RV p' a' m') t /\ ~ authorises (RV p' a' m') t /\
  forall p a m, R (RV p a m) -> authorises (RV p a m) t -> senior sets p' a' m' p a m.
