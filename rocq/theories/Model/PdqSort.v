(** sort.Slice, as called at cmd/stayrtr/stayrtr.go:269-298 (the VRPs of a file) and
    cmd/rtrmon/rtrmon.go:195 (the thresholds). The function itself is the standard
    library's (go.mod:3-5: Go 1.23; sort/slice.go:22-27 and sort/zsortfunc.go there). It is
    modelled here function by function because stayrtr.go passes it a comparison that is
    not the strict order its documentation asks for.

    A slice is a function from indices; its length is a parameter. Indices are naturals:
    that none of them leaves the slice is part of what is proved. Two things are left
    open, as parameters: which pivot and hint choosePivot_func returns, and which swaps
    breakPatterns_func makes (a pseudo-random choice). *)
From Coq Require Import List Arith Bool.
Import ListNotations.

(** sortedHint, zsortfunc.go. *)
Inductive hint := Unknown | Increasing | Decreasing.

Section Pdq.
Context {A : Type} (less : A -> A -> bool).

Local Notation arr := (nat -> A).
(** reflectlite.Swapper of the slice, as used at stayrtr.go:269. *)
Definition swap (f : arr) (i j : nat) : arr :=
  fun k => if k =? i then f j else if k =? j then f i else f k.

(** The inner loop of insertionSort_func: the element at j moves left while it is less
    than its neighbour, not beyond lo (called for stayrtr.go:269). *)
Fixpoint sink (lo j : nat) (f : arr) : arr :=
  match j with
  | O => f
  | S i => if (lo <? j) && less (f j) (f i) then sink lo i (swap f j i) else f
  end.
(** insertionSort_func (called for stayrtr.go:269). *)
Definition insertion_sort (a b : nat) (f : arr) : arr :=
  fold_left (fun f i => sink a i f) (seq (a + 1) (b - (a + 1))) f.

(** siftDown_func (called for stayrtr.go:269). The fuel replaces the endless loop. *)
Fixpoint sift_down (fuel root hi first : nat) (f : arr) : arr :=
  match fuel with
  | O => f
  | S k =>
      let child := 2 * root + 1 in
      if hi <=? child then f
      else
        let child := if (child + 1 <? hi) && less (f (first + child)) (f (first + child + 1)) then child + 1 else child in
        if negb (less (f (first + root)) (f (first + child))) then f
        else sift_down k child hi first (swap f (first + root) (first + child))
  end.
(** heapSort_func (called for stayrtr.go:269). *)
Definition heap_sort (a b : nat) (f : arr) : arr :=
  let hi := b - a in
  let f := fold_left (fun f i => sift_down hi i hi a f) (rev (seq 0 ((hi - 1) / 2 + 1))) f in
  fold_left (fun f i => sift_down i 0 i a (swap f a (a + i))) (rev (seq 0 hi)) f.

(** The loops "for i <= j && p" of partition_func and partitionEqual_func (called for
    stayrtr.go:269). *)
Fixpoint up (fuel : nat) (p : A -> bool) (i j : nat) (f : arr) : nat :=
  match fuel with
  | O => i
  | S k => if (i <=? j) && p (f i) then up k p (i + 1) j f else i
  end.
(** The loop of the other direction (called for stayrtr.go:269). *)
Fixpoint down (fuel : nat) (p : A -> bool) (i j : nat) (f : arr) : nat :=
  match fuel with
  | O => j
  | S k => if (i <=? j) && p (f j) then down k p i (j - 1) f else j
  end.
(** The outer loop of both (called for stayrtr.go:269): what is left of i satisfies p,
    what is right of j satisfies q. *)
Fixpoint part_loop (fuel : nat) (p q : A -> bool) (i j : nat) (f : arr) : arr * nat * nat :=
  match fuel with
  | O => (f, i, j)
  | S k =>
      let i := up (j + 1 - i) p i j f in
      let j := down (j + 1 - i) q i j f in
      if j <? i then (f, i, j) else part_loop k p q (i + 1) (j - 1) (swap f i j)
  end.
(** partition_func (called for stayrtr.go:269). *)
Definition partition_at (a b pivot : nat) (f : arr) : arr * nat * bool :=
  let f := swap f a pivot in
  let p := fun x => less x (f a) in
  let q := fun x => negb (less x (f a)) in
  let i := a + 1 in let j := b - 1 in
  let i := up (j + 1 - i) p i j f in
  let j := down (j + 1 - i) q i j f in
  if j <? i then (swap f j a, j, true)
  else
    let '(g, _, j) := part_loop (b - a) p q (i + 1) (j - 1) (swap f i j) in
    (swap g j a, j, false).
(** partitionEqual_func (called for stayrtr.go:269). *)
Definition partition_equal (a b pivot : nat) (f : arr) : arr * nat :=
  let f := swap f a pivot in
  let '(g, i, _) := part_loop (b - a) (fun x => negb (less (f a) x)) (fun x => less (f a) x) (a + 1) (b - 1) f in
  (g, i).

(** "for i < b && !data.Less(i, i-1)" of partialInsertionSort_func (called for
    stayrtr.go:269). *)
Fixpoint ascend (fuel : nat) (i b : nat) (f : arr) : nat :=
  match fuel with
  | O => i
  | S k => if (i <? b) && negb (less (f i) (f (i - 1))) then ascend k (i + 1) b f else i
  end.
(** "Shift the greater one to the right", partialInsertionSort_func (called for
    stayrtr.go:269). *)
Fixpoint rise (fuel : nat) (j b : nat) (f : arr) : arr :=
  match fuel with
  | O => f
  | S k => if (j <? b) && less (f j) (f (j - 1)) then rise k (j + 1) b (swap f j (j - 1)) else f
  end.
(** partialInsertionSort_func (called for stayrtr.go:269): maxSteps is 5, shortestShifting
    50. "Shift the smaller one to the left" goes down to index 1 of the whole slice, not
    of the part that is sorted: sink 0. *)
Fixpoint partial_steps (steps a b i : nat) (f : arr) : arr * bool :=
  match steps with
  | O => (f, false)
  | S k =>
      let i := ascend (b - i) i b f in
      if i =? b then (f, true)
      else if b - a <? 50 then (f, false)
      else
        let f := swap f i (i - 1) in
        let f := if 2 <=? i - a then sink 0 (i - 1) f else f in
        let f := if 2 <=? b - i then rise (b - i) (i + 1) b f else f in
        partial_steps k a b i f
  end.
(** All steps of partialInsertionSort_func (called for stayrtr.go:269). *)
Definition partial_insertion (a b : nat) (f : arr) : arr * bool := partial_steps 5 a b (a + 1) f.

(** reverseRange_func (called for stayrtr.go:269). *)
Fixpoint reverse_range (fuel i j : nat) (f : arr) : arr :=
  match fuel with
  | O => f
  | S k => if i <? j then reverse_range k (i + 1) (j - 1) (swap f i j) else f
  end.
(** breakPatterns_func (called for stayrtr.go:269), as any swaps. *)
Definition swaps (l : list (nat * nat)) (f : arr) : arr :=
  fold_left (fun f ij => swap f (fst ij) (snd ij)) l f.

Context (choose : arr -> nat -> nat -> nat * hint) (shuffle : nat -> nat -> list (nat * nat)).

(** pdqsort_func (called for stayrtr.go:269): maxInsertion is 12; bal and part are
    wasBalanced and wasPartitioned. The recursive call starts with both true. The fuel
    replaces the endless loop and bounds the recursion. *)
Fixpoint pdqsort (fuel a b limit : nat) (bal part : bool) (f : arr) : arr :=
  match fuel with
  | O => f
  | S k =>
      let len := b - a in
      if len <=? 12 then insertion_sort a b f
      else if limit =? 0 then heap_sort a b f
      else
        let '(f, limit) := if bal then (f, limit) else (swaps (shuffle a b) f, limit - 1) in
        let (pivot, h) := choose f a b in
        let '(f, pivot, h) :=
          match h with
          | Decreasing => (reverse_range len a (b - 1) f, (b - 1) - (pivot - a), Increasing)
          | _ => (f, pivot, h)
          end in
        let (f, done) :=
          match h with
          | Increasing => if bal && part then partial_insertion a b f else (f, false)
          | _ => (f, false)
          end in
        if done then f
        else if (0 <? a) && negb (less (f (a - 1)) (f pivot)) then
          let (f, mid) := partition_equal a b pivot f in
          pdqsort k mid b limit bal part f
        else
          let '(f, mid, part) := partition_at a b pivot f in
          let left := mid - a in let right := b - mid in
          if left <? right then
            pdqsort k (mid + 1) b limit (len / 8 <=? left) part (pdqsort k a mid limit true true f)
          else
            pdqsort k a mid limit (len / 8 <=? right) part (pdqsort k (mid + 1) b limit true true f)
  end.

(** Slice of package sort, sort/slice.go, as called at stayrtr.go:269 and rtrmon.go:195: the
    limit is bits.Len of the length. *)
Definition sort_slice (l : list A) : list A :=
  match l with
  | [] => []
  | d :: _ =>
      let n := length l in
      map (pdqsort (n + 1) 0 n (S (Nat.log2 n)) true true (fun i => nth i l d)) (seq 0 n)
  end.
End Pdq.
