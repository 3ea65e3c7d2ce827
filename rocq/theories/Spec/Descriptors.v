(** Descriptors counted from what has happened.  Of the model only the events are used. *)
From Verif Require Import Model.Descriptors.
From Coq Require Import List.
Import ListNotations.

(** Clients being served after these events. *)
Fixpoint clients (n : nat) (l : list devent) : nat :=
  match l with
  | [] => n
  | Taken :: l' => clients (S n) l'
  | Leaves :: l' => clients (n - 1) l'
  | _ :: l' => clients n l'
  end.
(** Files opened since the last collection. *)
Fixpoint opened (n : nat) (l : list devent) : nat :=
  match l with
  | [] => n
  | Opens :: l' => opened (S n) l'
  | Collects :: l' => opened 0 l'
  | _ :: l' => opened n l'
  end.
(** Descriptors in use, where [base] are in use anyway and the data comes from a local file or not. *)
Definition in_use (base : nat) (local : bool) (l : list devent) : nat :=
  base + clients 0 l + (if local then opened 0 l else 0).
(** Something could not be done for want of a descriptor. *)
Definition starved (e : devent) : Prop := e = AcceptFails \/ e = CannotOpen.
