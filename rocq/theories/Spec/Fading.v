(** Entries of diff.json between two comparisons. *)
From Verif Require Export Spec.MonRun.

(** The first reading of a source that is a file which gave something. *)
Fixpoint next_reading (i : side) (ls : list mlabel) : option (Z * fetched) :=
  match ls with
  | [] => None
  | LFetch j t r :: ls' =>
      if side_eqb i j then match r with NotModified | Listing _ _ => Some (t, r) | _ => next_reading i ls' end
      else next_reading i ls'
  | _ :: ls' => next_reading i ls'
  end.
(** The reading no longer lists the object of the entry, and it was last listed no longer ago than the
    grace period. *)
Definition fades (grace : Z) (rd : option (Z * fetched)) (e : mentry) : bool :=
  match rd, entry_obj e with
  | Some (t, Listing vs bs), Some o =>
      (if in_dec obj_dec o (file_objs vs bs) then false else true) && (t - grace <=? m_last e)%Z
  | _, _ => false
  end.
Definition faded (grace : Z) (rd : option (Z * fetched)) (x : bytes * mentry) : bytes * mentry :=
  (fst x, if fades grace rd (snd x) then set_visible false (snd x) else snd x).
