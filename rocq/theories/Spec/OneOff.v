(** What -oneoff is to do, independent of the code. *)
From Verif Require Export Model.OneOff.

(** A result of source [i] was announced and a comparison ended afterwards. *)
Definition compared (i : side) (ls : list mlabel) : Prop :=
  exists a b clk, ls = a ++ b /\ In (LSend i) a /\ In (LPublish clk) b.
(** How often a source replaced its map. *)
Definition is_assign (i : side) (l : mlabel) : bool := match l, i with LAssign Pri _, Pri | LAssign Sec _, Sec => true | _, _ => false end.
Definition replaced (i : side) (ls : list mlabel) : nat := length (filter (is_assign i) ls).
