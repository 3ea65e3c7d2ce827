(** Consistency of concurrent readers with the published states. *)
From Verif Require Import Model.ConcCache Spec.History.

(** Cache states that were current at some moment of a schedule, oldest first. *)
Fixpoint published (w : world) (sched : list nat) : list server :=
  fst w :: match sched with [] => [] | i :: r => published (wstep w i) r end.

(** A response is consistent with one of the states [l]: the state has that serial and,
    for a Reset Query, that data; for a Serial Query, that diff. *)
Definition snapshot_reset (l : list server) (serial : N) (data : list sd) : Prop :=
  exists s, In s l /\ sdCurrentSerial s = serial /\ sdCurrent s = data.
Definition snapshot_serial (l : list server) (q serial : N) (data : list sd) : Prop :=
  exists s, In s l /\ sdCurrentSerial s = serial /\ get_sds_serial_diff s q = Ok data.

Definition is_upd (t : thread) : bool :=
  match t with TUpd _ | TUpd1 _ _ | TUpd2 _ _ _ _ => true | _ => false end.
