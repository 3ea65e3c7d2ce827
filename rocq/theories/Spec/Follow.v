(** A router on the other side of the concurrent server. *)
From Verif Require Import Model.Concurrent Spec.Sets Spec.History Spec.Response Spec.Router Spec.Net Spec.Conversation Spec.Answered Spec.Isolated.
Local Open Scope list_scope.
Local Open Scope N_scope.

(** The last PDU of an answer. *)
Definition completes (p : pdu) : bool := match p with EndOfData _ _ _ _ _ _ | CacheReset _ | ErrorReport _ _ _ _ => true | _ => false end.
(** A router reading PDUs one by one: it collects the PDUs of an answer and follows it when it is
    complete; [None]: it cannot follow, or an answer is cut off. *)
Fixpoint listen (v : N) (r : router) (part ps : list pdu) : option router :=
  match ps with
  | [] => match part with [] => Some r | _ => None end
  | p :: ps' =>
      if completes p
      then match hear v r (part ++ [p]) with Some r' => listen v r' [] ps' | None => None end
      else listen v r (part ++ [p]) ps'
  end.

(** The bytes of a PDU. *)
Definition bytes_for (chunk : bytes) (p : pdu) : Prop := chunk <> [] /\ decode_bytes 64 chunk = Ok p.
(** What such a router sends, and what the cache is at that time, on the connection it has and on
    later ones: at a poll the question; after a Cache Reset another one. *)
Inductive asking (srv : rtrserver) (tr : transport) (v : N) : world -> list event -> list (server * bytes) -> list (list (server * bytes)) -> Prop :=
| As_nil w : asking srv tr v w [] [] []
| As_update w new l here later : asking srv tr v (mkWo (step (wo_cache w) new) (wo_conn w) (wo_router w)) l here later ->
    asking srv tr v w (Update new :: l) here later
| As_once w chunk c r l here later : bytes_for chunk (question v (wo_router w)) ->
    ask srv v (wo_cache w) (wo_conn w) (wo_router w) = Some (c, r) -> ro_at (wo_router w) = None \/ ro_at r <> None ->
    asking srv tr v (mkWo (wo_cache w) c r) l here later -> asking srv tr v w (Poll :: l) ((wo_cache w, chunk) :: here) later
| As_twice w chunk c r chunk2 c2 r2 l here later : bytes_for chunk (question v (wo_router w)) ->
    ask srv v (wo_cache w) (wo_conn w) (wo_router w) = Some (c, r) -> ro_at (wo_router w) <> None -> ro_at r = None ->
    bytes_for chunk2 (question v r) -> ask srv v (wo_cache w) c r = Some (c2, r2) ->
    asking srv tr v (mkWo (wo_cache w) c2 r2) l here later ->
    asking srv tr v w (Poll :: l) ((wo_cache w, chunk) :: (wo_cache w, chunk2) :: here) later
| As_new w l here later : asking srv tr v (mkWo (wo_cache w) (accept tr srv) (wo_router w)) l here later ->
    asking srv tr v w (Reconnect :: l) [] (here :: later).

(** The schedule of a server with many connections, of which [conns] are those of the router, one
    after the other: it has sent on each what [asking] says, and may then have closed it, and has been
    sent all that was queued. *)
Definition served_on (srv : rtrserver) (tr : transport) (sched : list label) (w : net) (i : nat) (reads : list (server * bytes)) : Prop :=
  exists k, nth_error (n_conns w) i = Some k /\ k_tr k = tr /\ written k /\
    (arrives srv i empty_net sched = reads \/ exists cache, arrives srv i empty_net sched = reads ++ [(cache, [])]).
(** What it has been sent, without the Serial Notifies. *)
Definition sent_on (w : net) (i : nat) : list pdu := match nth_error (n_conns w) i with Some k => answers (k_queued k) | None => [] end.
