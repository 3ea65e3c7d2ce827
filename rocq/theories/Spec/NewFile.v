(** Vocabulary of property C119: routers that follow a daemon which refreshes. *)
From Verif Require Import Model.Concurrent Spec.Refresh Spec.Response Spec.Router Spec.EndToEnd Spec.Net Spec.Answered Spec.Reached Spec.Isolated Spec.Follow Spec.Converge.
From Coq Require Import List.
Local Open Scope list_scope.
Local Open Scope N_scope.

(** As [asking] of [Spec/Follow.v], with the server that the refreshes have left. *)
Inductive dasking (e : env) (c : scfg) (srv : rtrserver) (tr : transport) (v : N) : dworld -> list devent -> list (server * bytes) -> list (list (server * bytes)) -> Prop :=
| Da_nil w : dasking e c srv tr v w [] [] []
| Da_turn w i l here later : dasking e c srv tr v (mkDa (da_turns w ++ [i]) (da_conn w) (da_router w)) l here later ->
    dasking e c srv tr v w (Turn i :: l) here later
| Da_once w chunk cl r l here later : let cache := st_server (State.after e c (da_turns w)) in bytes_for chunk (question v (da_router w)) ->
    ask srv v cache (da_conn w) (da_router w) = Some (cl, r) -> ro_at (da_router w) = None \/ ro_at r <> None ->
    dasking e c srv tr v (mkDa (da_turns w) cl r) l here later -> dasking e c srv tr v w (Ask :: l) ((cache, chunk) :: here) later
| Da_twice w chunk cl r chunk2 cl2 r2 l here later : let cache := st_server (State.after e c (da_turns w)) in bytes_for chunk (question v (da_router w)) ->
    ask srv v cache (da_conn w) (da_router w) = Some (cl, r) -> ro_at (da_router w) <> None -> ro_at r = None ->
    bytes_for chunk2 (question v r) -> ask srv v cache cl r = Some (cl2, r2) ->
    dasking e c srv tr v (mkDa (da_turns w) cl2 r2) l here later ->
    dasking e c srv tr v w (Ask :: l) ((cache, chunk) :: (cache, chunk2) :: here) later
| Da_new w l here later : dasking e c srv tr v (mkDa (da_turns w) (accept tr srv) (da_router w)) l here later ->
    dasking e c srv tr v w (Again :: l) [] (here :: later).
(** On connection [j] of a daemon that has refreshed with the inputs [h] there is a router of version
    [v] that has polled after every refresh, also after the last, and has been answered. *)
Definition keeps_up (e : env) (c : scfg) (srv : rtrserver) (h : list input) (sched : list label) (w : net) (j : nat) (v : N) (tr : transport) : Prop :=
  exists k l, nth_error (n_conns w) j = Some k /\ k_tr k = tr /\ written k /\ v <= baseVersion srv /\ acceptable (accept tr srv) v /\
    turns l = h /\ prompt None (l ++ [Ask]) /\ dasking e c srv tr v (dstart srv tr) (l ++ [Ask]) (arrives srv j empty_net sched) [].
