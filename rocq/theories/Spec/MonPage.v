(** What an operator takes rtrmon's metrics page to say. *)
From Verif Require Export Spec.MonRun Model.MonPage.

Definition opposite (i : side) : side := match i with Pri => Sec | Sec => Pri end.
(** What happened, without the connections. *)
Definition steps_of (ls : list plabel) : list mlabel := flat_map (fun l => match l with PStep l => [l] | _ => [] end) ls.
(** The connection to a source: the last that was heard of it. *)
Definition link (i : side) (ls : list plabel) : option Z :=
  fold_left (fun o l => match l with
    | PUp j => if side_eqb i j then Some 1%Z else o
    | PDown j => if side_eqb i j then Some 0%Z else o
    | PStep _ => o end) ls None.
(** The page shows [n] for the series, and [n] is the number of the objects with [P]. *)
Definition shows_number (p : page) (k : series) (P : obj -> Prop) : Prop :=
  exists n, pget k p = Some (Z.of_N n) /\ number n P.
(** The series there can be. *)
Inductive known (cfg : mcfg) (u : urls) : series -> Prop :=
| known_vrps i d : known cfg u (SVrps i (u i) d)
| known_diff i t : In t (k_thresholds cfg) -> known cfg u (SDiff (u i) (u (opposite i)) (dec_int t))
| known_grace i : k_file cfg i = true -> known cfg u (SGrace (u i))
| known_state i : known cfg u (SState i (u i))
| known_serial i : known cfg u (SSerial i (u i))
| known_session i : known cfg u (SSession i (u i))
| known_update i : known cfg u (SUpdate i (u i)).
