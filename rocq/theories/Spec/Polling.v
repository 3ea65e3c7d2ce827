(** Vocabulary for the Serial Queries of rtrmon. *)
From Verif Require Import Model.Poller.
Local Open Scope nat_scope.

(** The PDUs received, in all sessions and in the present one; the number of sessions. *)
Definition pdus (sched : list ylabel) : list pdu :=
  flat_map (fun l => match l with YPdu p => [p] | _ => [] end) sched.
Definition heard (sched : list ylabel) : list pdu :=
  fold_left (fun acc l => match l with YNew => [] | YPdu p => acc ++ [p] | _ => acc end) sched [].
Definition sessions (sched : list ylabel) : nat :=
  length (filter (fun l => match l with YNew => true | _ => false end) sched).
(** Of the last Cache Response, of the last End of Data; 0 if there is none. *)
Definition last_session (l : list pdu) : N :=
  fold_left (fun acc p => match p with CacheResponse _ s => s | _ => acc end) l 0%N.
Definition last_serial (l : list pdu) : N :=
  fold_left (fun acc p => match p with EndOfData _ _ n _ _ _ => n | _ => acc end) l 0%N.
(** The last response is complete and was about [serial] of session [sess]. *)
Definition frames (p : pdu) : Prop :=
  match p with CacheResponse _ _ | EndOfData _ _ _ _ _ _ => True | _ => False end.
Definition complete (l : list pdu) (sess serial : N) : Prop :=
  exists l1 v l2 v' x y z l3, l = l1 ++ CacheResponse v sess :: l2 ++ EndOfData v' sess serial x y z :: l3 /\
    (forall p, In p l2 \/ In p l3 -> ~ frames p).
(** Nothing that the next query depends on. *)
Definition calm (i : nat) (l : ylabel) : Prop :=
  match l with YNew => False | YPdu p => ~ frames p | YPoll j _ => j <> i | _ => True end.
(** When a session is made the pollers of the earlier ones have returned: they have the whole
    refresh interval for it. *)
Definition on_time (brk : bool) (sched : list ylabel) : Prop :=
  forall a c s qs p, sched = a ++ YNew :: c -> yrun brk yinit a = Some (s, qs) -> In p (y_polls s) -> pl_pc p = PEnd.
