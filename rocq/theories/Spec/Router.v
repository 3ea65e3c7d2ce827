(** A router after RFC 8210, and its conversation with the server of the model. *)
From Verif Require Import Model.Conn Spec.Sets Spec.History Spec.Response.
Local Open Scope list_scope.
Local Open Scope N_scope.

(** The session and serial of the last End of Data, and the records held. *)
Record router := mkRo { ro_at : option (N * N); ro_set : list rid }.
Definition fresh_router : router := mkRo None [].
(** Serial Query once there is a serial, Reset Query before. *)
Definition question (v : N) (r : router) : pdu :=
  match ro_at r with Some (sess, n) => SerialQuery v sess n | None => ResetQuery v end.
(** The records of a response applied in order; [None]: error 7 (announced twice) or 6
    (withdrawal of something unknown). *)
Fixpoint digest (R : list rid) (l : list sd) : option (list rid) :=
  match l with
  | [] => Some R
  | d :: l' =>
      if get_flag d =? 1
      then if mem (rid_of d) R then None else digest (rid_of d :: R) l'
      else if mem (rid_of d) R then digest (remove rid_dec (rid_of d) R) l' else None
  end.
(** The data PDUs in version [v] and the End of Data of session [sess], nothing after it. *)
Definition data_of (v : N) (p : pdu) : option sd :=
  match p with
  | IPv4Prefix w f m a x | IPv6Prefix w f m a x => if w =? v then Some (VRP x a m f) else None
  | RouterKey w f s a k => if w =? v then Some (BgpsecKey a s k f) else None
  | _ => None
  end.
Fixpoint payload (v sess : N) (ps : list pdu) : option (list sd * N) :=
  match ps with
  | [] => None
  | [EndOfData w sess' n _ _ _] => if (w =? v) && (sess' =? sess) then Some ([], n) else None
  | p :: ps' =>
      match data_of v p, payload v sess ps' with
      | Some d, Some (l, n) => Some (d :: l, n)
      | _, _ => None
      end
  end.
(** What a router makes of the answer; [None]: it is not one. *)
Definition hear (v : N) (r : router) (ps : list pdu) : option router :=
  match ps with
  | [CacheReset w] => if w =? v then Some (mkRo None (ro_set r)) else None
  | [ErrorReport w code _ _] => if (w =? v) && (code =? 2) then Some r else None
  | CacheResponse w sess :: ps' =>
      if (w =? v) && match ro_at r with Some (old, _) => sess =? old | None => true end
      then match payload v sess ps' with
           | Some (l, n) =>
               match digest (match ro_at r with Some _ => ro_set r | None => [] end) l with
               | Some R => Some (mkRo (Some (sess, n)) R)
               | None => None
               end
           | None => None
           end
      else None
  | _ => None
  end.

(** What goes out, if the connection stays up. *)
Fixpoint sent (a : list act) : option (list pdu) :=
  match a with
  | [] => Some []
  | Queue p :: a' => option_map (cons p) (sent a')
  | Disc :: _ => None
  end.
(** A query, its answer, and what the router makes of it. *)
Definition ask (srv : rtrserver) (v : N) (cache : server) (c : client) (r : router) : option (client * router) :=
  match process srv cache c (question v r) with
  | Ok (c', a) =>
      match sent a with
      | Some ps => match hear v r ps with Some r' => Some (c', r') | None => None end
      | None => None
      end
  | _ => None
  end.
(** A poll: after a Cache Reset a Reset Query follows. *)
Definition poll (srv : rtrserver) (v : N) (cache : server) (c : client) (r : router) : option (client * router) :=
  match ask srv v cache c r with
  | Some (c', r') => match ro_at r, ro_at r' with Some _, None => ask srv v cache c' r' | _, _ => Some (c', r') end
  | None => None
  end.

(** The server gets new data, the router polls, the connection is replaced by a new one. *)
Inductive event := Update (new : list sd) | Poll | Reconnect.
Record world := mkWo { wo_cache : server; wo_conn : client; wo_router : router }.
Definition happens (srv : rtrserver) (tr : transport) (v : N) (w : world) (e : event) : option world :=
  match e with
  | Update new => Some (mkWo (step (wo_cache w) new) (wo_conn w) (wo_router w))
  | Poll =>
      match poll srv v (wo_cache w) (wo_conn w) (wo_router w) with
      | Some (c, r) => Some (mkWo (wo_cache w) c r)
      | None => None
      end
  | Reconnect => Some (mkWo (wo_cache w) (accept tr srv) (wo_router w))
  end.
Fixpoint play (srv : rtrserver) (tr : transport) (v : N) (w : world) (l : list event) : option world :=
  match l with [] => Some w | e :: l' => match happens srv tr v w e with Some w' => play srv tr v w' l' | None => None end end.
Definition start (srv : rtrserver) (tr : transport) (keep : Z) : world :=
  mkWo (new_server keep) (accept tr srv) fresh_router.

Definition updates (l : list event) : list (list sd) :=
  flat_map (fun e => match e with Update new => [new] | _ => [] end) l.
(** The set fed in last. *)
Definition latest (l : list event) : list sd := last (updates l) [].
(** The router polls in time: at most one change since its last poll, or more than the history
    holds.  [lag]: the number of changes since then. *)
Fixpoint timely (keep : Z) (cur : list sd) (lag : option N) (l : list event) : Prop :=
  match l with
  | [] => True
  | Update new :: l' => timely keep new (option_map (fun k => k + if advances cur new then 1 else 0) lag) l'
  | Poll :: l' =>
      match lag with
      | Some k => k <= 1 \/ ((0 < keep < Z.of_N k)%Z /\ k < 4294967296)
      | None => True
      end /\ timely keep cur (if is_nil cur then lag else Some 0) l'
  | Reconnect :: l' => timely keep cur lag l'
  end.
(** What it should have: the records of [l] that may be sent to it. *)
Definition in_sync (v : N) (nokeys : bool) (r : router) (l : list sd) : Prop :=
  forall x, In x (ro_set r) <-> exists d, In d l /\ may_send v nokeys d = true /\ rid_of d = x.
(** New data, and a poll each time. *)
Definition rounds (us : list (list sd)) : list event := flat_map (fun n => [Update n; Poll]) us.
