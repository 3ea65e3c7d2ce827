(** Model of the triggering of refreshes, /repo/cmd/stayrtr/stayrtr.go: TriggerUpdate
    (656-665), updateNow (639-654), the channel of capacity one (791), the select of
    routineUpdate (555-563).

    What a refresh does is modelled in State.v; here it has a beginning and an end. *)
From Verif Require Export Model.Go.

(** The goroutine of routineUpdate: not there yet (run, stayrtr.go:812-973), in the select,
    in a refresh. *)
Inductive lp := LBefore | LSelect | LBusy.
(** [t_queued]: there is an element in triggerUpdate. stayrtr.go:666-692. *)
Record tstate := mkT { t_queued : bool; t_loop : lp }.
(** Before routineUpdate has come to its select, stayrtr.go:539-553. *)
Definition tinit : tstate := mkT false LBefore.
(** Steps: a call of TriggerUpdate (by any handler) and its result; the loop arriving at its
    select for the first time; a refresh started by the ticker, a signal or the channel; a
    refresh ending. stayrtr.go:553-629, 656-665. *)
Inductive tlabel := TCall (ok : bool) | TBegin | TTick | THup | TTake | TDone.
(** stayrtr.go:553-629, 656-665. *)
Inductive tstep : tstate -> tlabel -> tstate -> Prop :=
| T_call_ok l : tstep (mkT false l) (TCall true) (mkT true l)
| T_call_full l : tstep (mkT true l) (TCall false) (mkT true l)
| T_begin q : tstep (mkT q LBefore) TBegin (mkT q LSelect)
| T_tick q : tstep (mkT q LSelect) TTick (mkT q LBusy)
| T_hup q : tstep (mkT q LSelect) THup (mkT q LBusy)
| T_take : tstep (mkT true LSelect) TTake (mkT false LBusy)
| T_done q : tstep (mkT q LBusy) TDone (mkT q LSelect).
(** Any interleaving, stayrtr.go:553-629, 656-665. *)
Inductive truns : tstate -> list tlabel -> tstate -> Prop :=
| TR_nil s : truns s [] s
| TR_cons s l s1 ls s2 : tstep s l s1 -> truns s1 ls s2 -> truns s (l :: ls) s2.
