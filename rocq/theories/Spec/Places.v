(** What it means that records are handed over by value although they are pointers. *)
From Verif Require Import Model.Heap.

(** The cache as values: what its pointers point to. *)
Definition values (h : heap) (l : list nat) : list sd := map (deref h) l.
Definition as_values (st : heap * hserver) : server :=
  let '(h, s) := st in mkServer (map (values h) (hs_list s)) (values h (hs_current s)) (hs_serial s) (hs_keep s).

(** The updates of a run, each with the values that its records have when it is made. *)
Fixpoint updates (st : heap * hserver) (ops : list hop) : list (list sd) :=
  match ops with
  | [] => []
  | o :: r =>
      match h_step st o with
      | Some st' => match o with HAddData l => [values (fst st) l] | _ => [] end ++ updates st' r
      | None => []
      end
  end.
Definition cache_after (keep : Z) (us : list (list sd)) : server := fold_left (fun s u => fst (add_data s u)) us (new_server keep).

(** A place that a reader of the cache has got: one of the records kept, current or in a difference. *)
Definition handed_out (s : hserver) (p : nat) : Prop := In p (hs_current s) \/ exists d, In d (hs_list s) /\ In p d.
