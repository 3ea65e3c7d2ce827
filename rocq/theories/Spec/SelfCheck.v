(** rtrmon watches a daemon that refreshes its files. *)
From Verif Require Import Model.State Model.Conn Model.Rtrmon Spec.Response Spec.Monitor.
From Coq Require Import List ZArith.
Import ListNotations.
Local Open Scope list_scope.
Local Open Scope N_scope.

(** The client of the daemon's RTR server after the refreshes [h]: its first query at a time when
    something is served; then refreshes that leave something to serve, and polls when the
    daemon is at most one serial ahead. *)
Inductive on_watch (e : env) (c : scfg) (cfg : config) (s : N) (tr : transport) : list input -> client -> mon -> Prop :=
| ow_start h now cl a : get_current_sds (st_server (State.after e c h)) <> [] ->
    process (new_rtr_server cfg s) (st_server (State.after e c h)) (accept tr (new_rtr_server cfg s)) mon_first_query = Ok (cl, a) ->
    on_watch e c cfg s tr h cl (mon_pdus false new_mon (map (pair now) (queued a)))
| ow_refresh h i cl m : on_watch e c cfg s tr h cl m -> get_current_sds (st_server (State.after e c (h ++ [i]))) <> [] ->
    on_watch e c cfg s tr (h ++ [i]) cl m
| ow_poll h cl m now cl' a : on_watch e c cfg s tr h cl m ->
    (let n := sdCurrentSerial (st_server (State.after e c h)) in n = mo_serial m \/ n = mo_serial m + 1) ->
    process (new_rtr_server cfg s) (st_server (State.after e c h)) cl (mon_poll (negotiated (new_rtr_server cfg s) 1) m) = Ok (cl', a) ->
    on_watch e c cfg s tr h cl' (mon_pdus false m (map (pair now) (queued a))).
