(** Chained servers. *)
From Verif Require Export Spec.Refresh Spec.Collect.

(** Records that reach the other side of an RTR session of version [w]. *)
Definition carried (w : N) (nokeys : bool) (x : rid) : Prop :=
  match x with RV _ _ _ => True | RK _ s _ => w <> 0 /\ nokeys = false /\ nlen s = 20 end.
(** A second server that starts at time [now] and is given the file [y]. *)
Definition second_server (e : env) (c : scfg) (now : Z) (y : bytes) : state := State.after e c [mkIn now (Some y) None].
(** No entry expires between the times [t] and [now]. *)
Definition none_expires (t now : Z) (vs : list vrpjson) (bs : list brkjson) : Prop :=
  (forall v, In v vs -> fresh (t / 1000000000) (vj_expires v) -> fresh (now / 1000000000) (vj_expires v)) /\
  (forall b, In b bs -> fresh (t / 1000000000) (bj_expires b) -> fresh (now / 1000000000) (bj_expires b)).
