(** Vocabulary for the timing of refreshes. *)
From Verif Require Import Model.Ticker.
Local Open Scope Z_scope.

Definition reached (interval : Z) (zero : bool) (pre : list rlabel) (s : rstate) : Prop :=
  exists now s0, rinit interval now zero = Some s0 /\ rrun interval s0 pre = Some s.
Definition begins (l : rlabel) : Prop := l = RTick \/ l = RHup \/ l = RTrig.
Definition ready (interval : Z) (s : rstate) : Prop := exists s', rstep interval s RTick = Some s'.
Definition total (ds : list Z) : Z := fold_right Z.add 0 ds.
(** No file has been read: neither at first ([zero]) nor by a refresh since. *)
Definition unread (zero : bool) (pre : list rlabel) : bool :=
  zero && negb (existsb (fun l => match l with RDone true => true | _ => false end) pre).
(** The next refresh is to come after this: 30 seconds until a file has been read. *)
Definition pause (interval : Z) (zero : bool) (pre : list rlabel) : Z :=
  if unread zero pre then 30 * 1000000000 else interval * 1000000000.
(** A refresh taking [ds] in pieces, and a pause likewise. *)
Definition refresh_then (l : rlabel) (ds : list Z) (ok : bool) (ws : list Z) : list rlabel :=
  l :: map RPass ds ++ RDone ok :: RLoop :: map RPass ws.
(** Every refresh takes less than [D]; [b]: how long the present one has taken. *)
Fixpoint brisk (D : Z) (b : option Z) (sched : list rlabel) : Prop :=
  match sched with
  | [] => True
  | RPass d :: r => match b with Some acc => acc + d < D /\ brisk D (Some (acc + d)) r | None => brisk D None r end
  | RTick :: r | RHup :: r | RTrig :: r => brisk D (Some 0) r
  | RDone _ :: r => brisk D None r
  | RLoop :: r => brisk D b r
  end.
