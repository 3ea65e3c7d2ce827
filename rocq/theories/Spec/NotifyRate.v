(** When the server calls for Serial Notifies: the refreshes of routineUpdate with the clock. *)
From Verif Require Import Model.Ticker Model.State Spec.Refresh.
Local Open Scope Z_scope.

(** The clock, the refreshes so far, when the last one began, and for each refresh after the start:
    when it began, when it ended, the notifications (their serials) in between. *)
Record day := mkDay { dy_clock : rstate; dy_hist : list input; dy_began : Z; dy_log : list (Z * Z * list N) }.
(** Anything but the end of a refresh; the end of one, with what it has read. *)
Inductive event := Clock (l : rlabel) | Finish (i : input).
Definition dstep (interval : Z) (e : env) (c : scfg) (w : day) (ev : event) : option day :=
  match ev with
  | Clock (RDone _) => None
  | Clock l =>
      match rstep interval (dy_clock w) l with
      | Some s => Some (mkDay s (dy_hist w) (match r_pc s with RBusy => match r_pc (dy_clock w) with RBusy => dy_began w | _ => r_now s end | _ => dy_began w end) (dy_log w))
      | None => None
      end
  | Finish i =>
      let '(s', ns) := turn e c (dy_hist w) i in
      match rstep interval (dy_clock w) (RDone (st_changed s')) with
      | Some r => Some (mkDay r (dy_hist w ++ [i]) (dy_began w) (dy_log w ++ [(dy_began w, r_now r, ns)]))
      | None => None
      end
  end.
Fixpoint dplays (interval : Z) (e : env) (c : scfg) (w : day) (evs : list event) : option day :=
  match evs with
  | [] => Some w
  | ev :: r => match dstep interval e c w ev with Some w' => dplays interval e c w' r | None => None end
  end.
(** After the first load, [i], at [now]. *)
Definition dawn (interval : Z) (e : env) (c : scfg) (i : input) (now : Z) : option day :=
  match rinit interval now (negb (st_changed (State.after e c [i]))) with
  | Some s => Some (mkDay s [i] now [])
  | None => None
  end.
Definition played (interval : Z) (e : env) (c : scfg) (i : input) (now : Z) (evs : list event) (w : day) : Prop :=
  exists w0, dawn interval e c i now = Some w0 /\ dplays interval e c w0 evs = Some w.

Definition minute : Z := 60 * 1000000000.
(** RFC 8210 section 5.2: at least a minute between two notifications: between the end of a refresh
    with one and the beginning of a later refresh with one, and not two in one refresh. *)
Definition limited (log : list (Z * Z * list N)) : Prop :=
  (forall b t ns, In (b, t, ns) log -> (length ns <= 1)%nat) /\
  forall m n b1 t1 ns1 b2 t2 ns2, (m < n)%nat -> nth_error log m = Some (b1, t1, ns1) -> nth_error log n = Some (b2, t2, ns2) ->
    ns1 <> [] -> ns2 <> [] -> t1 + minute <= b2.
(** Nobody asks for a refresh. *)
Definition unasked (ev : event) : Prop := ev <> Clock RHup /\ ev <> Clock RTrig.
