(** What a history of updates should publish, independent of diffs and keys. *)
From Verif Require Import Model.Cache Spec.Sets.

Definition same_setb (a b : list sd) : bool :=
  forallb (fun x => mem x (ids b)) (ids a) && forallb (fun x => mem x (ids a)) (ids b).
Definition is_nil {A} (l : list A) : bool := match l with [] => true | _ => false end.

(** Does the update from set [cur] to set [new] advance the serial: it must change a
    non-empty set. *)
Definition advances (cur new : list sd) : bool := negb (same_setb cur new) && negb (is_nil cur).

(** Number of advancing updates in a history starting from set [cur]. *)
Fixpoint count_advances (cur : list sd) (h : list (list sd)) : N :=
  match h with
  | [] => 0
  | new :: h' => (if advances cur new then 1 else 0) + count_advances new h'
  end.

(** The set published after a history. *)
Definition last_set (cur : list sd) (h : list (list sd)) : list sd := last h cur.

(** A server fed one set after the other with AddData, resp. one diff after the other
    with AddSDsDiff. *)
Definition step (s : server) (new : list sd) : server := fst (add_data s new).
Definition run (s : server) (h : list (list sd)) : server := fold_left step h s.
Definition publish (s : server) (ds : list (list sd)) : server := fold_left add_sds_diff ds s.

(** The diffs [ds] merged in order. *)
Definition merge (ds : list (list sd)) : list sd := fold_left (fun acc d => apply_diff d acc) ds [].
(** For each diff, oldest first: everything after it merged, then it and everything
    after it merged. *)
Fixpoint kept (ds : list (list sd)) : list (list sd) :=
  match ds with [] => [] | d :: ds' => merge ds' :: merge ds :: kept ds' end.
Definition lastn {A} (k : nat) (l : list A) : list A := skipn (length l - k) l.
