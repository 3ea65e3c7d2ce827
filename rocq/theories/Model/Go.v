(** Outcomes and primitive operations of Go used by several model files.
    These model the Go language, not a file of /repo. *)
From Verif Require Export Lib.Bytes.

(** Result of a Go function returning (value, error) that may also panic. *)
Inductive res (A E : Type) : Type :=
| Ok (a : A)      (* normal return, nil error *)
| Err (e : E)     (* non-nil error *)
| Panic.          (* run-time panic: index or slice out of range *)
Arguments Ok {A E} a.
Arguments Err {A E} e.
Arguments Panic {A E}.

(** Sequencing: the rest is not executed after an error or a panic (Go language, no
    counterpart in /repo). *)
Definition bind {A B E} (m : res A E) (f : A -> res B E) : res B E :=
  match m with Ok a => f a | Err e => Err e | Panic => Panic end.
(** Sequencing, as [bind] (Go language, no counterpart in /repo). *)
Notation "'do' x <- m ; f" := (bind m (fun x => f))
  (at level 200, x name, m at level 100, f at level 200).

(** len of a slice (Go language, no counterpart in /repo). *)
Definition nlen {A} (l : list A) : N := N.of_nat (length l).

(** Go slice expression l[a:b] on a slice whose capacity is its length. *)
Definition slice {E} (l : bytes) (a b : N) : res bytes E :=
  if (a <=? b) && (b <=? nlen l)
  then Ok (firstn (N.to_nat (b - a)) (skipn (N.to_nat a) l))
  else Panic.

(** Go index expression l[i]. *)
Definition index {E} (l : bytes) (i : N) : res N E :=
  match nth_error l (N.to_nat i) with Some x => Ok x | None => Panic end.

(** binary.BigEndian.Uint32: panics on fewer than 4 bytes, reads the first 4.
    Standard library; called at lib/structs.go:523-706. *)
Definition getU32 {E} (l : bytes) : res N E :=
  if nlen l <? 4 then Panic else Ok (unbe (firstn 4 l)).

(** uint32 arithmetic and conversions. Go language, used at lib/server.go:371-392. *)
Definition u32add (a b : N) : N := (a + b) mod 4294967296.
(** uint8(x) (Go language; lib/structs.go:100-520). *)
Definition to_u8 (z : Z) : N := Z.to_N (z mod 256).
(** uint16(x) (Go language; lib/structs.go:100-520). *)
Definition to_u16 (z : Z) : N := Z.to_N (z mod 65536).
(** uint32(x) (Go language; lib/structs.go:100-520). *)
Definition to_u32 (z : Z) : N := Z.to_N (z mod 4294967296).

(** int arithmetic of width [w] (32 or 64 bits, two's complement).
    Go language; used for lib/structs.go:523-706. *)
Definition iwrap (w : Z) (z : Z) : Z := ((z + 2 ^ (w - 1)) mod 2 ^ w - 2 ^ (w - 1))%Z.
(** int(x) of a uint32 (Go language; lib/structs.go:523-706). *)
Definition int_of_u32 (w : Z) (x : N) : Z := iwrap w (Z.of_N x).
(** x + y of int (Go language; lib/structs.go:523-706). *)
Definition iadd (w : Z) (a b : Z) : Z := iwrap w (a + b)%Z.

(** Comparison of strings or bytes (Go language; bytes.Equal and bytes.Compare of the
    standard library, stayrtr.go:478). *)
Definition beqb (a b : bytes) : bool := if list_eq_dec N.eq_dec a b then true else false.
Lemma beqb_eq a b : beqb a b = true <-> a = b.
Proof. unfold beqb. destruct (list_eq_dec N.eq_dec a b); split; congruence. Qed.
