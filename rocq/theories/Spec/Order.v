(** What a sorted list is, and which comparisons sort.Slice is given. *)
From Coq Require Import List NArith ZArith.
From Verif Require Import Model.Process Model.PdqSort.
Import ListNotations.

Section Order.
Context {A : Type}.
(** Every element is in the given relation to every later one. *)
Definition in_order (le : A -> A -> Prop) (l : list A) : Prop := ForallOrdPairs le l.
Definition preorder (le : A -> A -> Prop) : Prop := (forall x, le x x) /\ (forall x y z, le x y -> le y z -> le x z).
(** A comparison that says yes for x < y and no for y < x; for equivalent elements it
    may say either, even differently from pair to pair. *)
Definition compares (D : A -> Prop) (less : A -> A -> bool) (le : A -> A -> Prop) : Prop :=
  forall x y, D x -> D y -> (less x y = true -> le x y) /\ (less x y = false -> le y x).
(** Pivots and pseudo-random swaps stay within the part of the slice being sorted. *)
Definition within (choose : (nat -> A) -> nat -> nat -> nat * hint) (shuffle : nat -> nat -> list (nat * nat)) : Prop :=
  (forall f a b, a + 12 < b -> a <= fst (choose f a b) < b)%nat /\
  (forall a b, (a + 12 < b)%nat -> Forall (fun ij => (a <= fst ij < b /\ a <= snd ij < b)%nat) (shuffle a b)).
End Order.

(** The order of the VRPs of a file: longer prefixes first, then the greater maximal
    length, then the lower address, IPv4 before IPv6. *)
Definition width (a : addr) : N := match a with A0 => 0 | A4 _ => 32 | A6 _ => 128 end.
Definition number (a : addr) : N := match a with A0 => 0 | A4 x => x | A6 x => x end.
Definition ahead (d e : sd) : Prop :=
  match d, e with
  | VRP p _ m _, VRP q _ n _ =>
      (bits q < bits p)%Z \/
      (bits p = bits q /\ (n < m \/
        (n = m /\ (width (p_addr p) < width (p_addr q) \/
          (width (p_addr p) = width (p_addr q) /\ number (p_addr p) <= number (p_addr q))))))
  | _, _ => False
  end%N.
