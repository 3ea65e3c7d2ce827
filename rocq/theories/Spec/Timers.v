(** The router of Router.v with a clock: RFC 8210, section 6.  Data is kept no longer than the
    Expire Interval after the last End of Data; what has expired is forgotten, session and serial
    with it.  Times are in nanoseconds. *)
From Verif Require Import Model.Conn Spec.Sets Spec.History Spec.Refresh Spec.Response Spec.Router Spec.EndToEnd.
From Coq Require Import List.
Local Open Scope list_scope.
Local Open Scope N_scope.

Definition seconds (n : N) : Z := (Z.of_N n * 1000000000)%Z.
(** The router, and when its data expires. *)
Record timed := mkTi { ti_router : router; ti_end : option Z }.
Definition aged (t : Z) (k : timed) : timed :=
  match ti_end k with
  | Some u => if (u <? t)%Z then mkTi fresh_router None else k
  | None => k
  end.
(** The Expire Interval at the end of a response; version 0 has none on the wire, there it is the
    default of RFC 8210, two hours (and one hour for the Refresh Interval). *)
Definition told_expire (ps : list pdu) : option N :=
  match last ps (ResetQuery 0) with EndOfData w _ _ _ _ x => Some (if w =? 0 then 7200 else x) | _ => None end.
(** How long data lasts with the intervals of [cfg], and how often to poll. *)
Definition life (cfg : config) (v : N) : Z := seconds (if v =? 0 then 7200 else timer (cfg_expire cfg) 7200).
Definition pace (cfg : config) (v : N) : Z := seconds (if v =? 0 then 3600 else timer (cfg_refresh cfg) 3600).
Definition task (srv : rtrserver) (v : N) (cache : server) (t : Z) (c : client) (k : timed) : option (client * timed) :=
  match process srv cache c (question v (ti_router k)) with
  | Ok (c', a) =>
      match sent a with
      | Some ps =>
          match hear v (ti_router k) ps with
          | Some r' => Some (c', mkTi r' (match told_expire ps with Some x => Some (t + seconds x)%Z | None => ti_end k end))
          | None => None
          end
      | None => None
      end
  | _ => None
  end.
Definition tpoll (srv : rtrserver) (v : N) (cache : server) (t : Z) (c : client) (k : timed) : option (client * timed) :=
  match task srv v cache t c k with
  | Some (c', k') => match ro_at (ti_router k), ro_at (ti_router k') with Some _, None => task srv v cache t c' k' | _, _ => Some (c', k') end
  | None => None
  end.

(** Updates, polls and connections, each at a time. *)
Record tworld := mkTw { tw_cache : server; tw_conn : client; tw_timed : timed }.
Definition thappens (srv : rtrserver) (tr : transport) (v : N) (w : tworld) (te : Z * event) : option tworld :=
  let (t, e) := te in
  match e with
  | Update new => Some (mkTw (step (tw_cache w) new) (tw_conn w) (tw_timed w))
  | Poll =>
      match tpoll srv v (tw_cache w) t (tw_conn w) (aged t (tw_timed w)) with
      | Some (c, k) => Some (mkTw (tw_cache w) c k)
      | None => None
      end
  | Reconnect => Some (mkTw (tw_cache w) (accept tr srv) (tw_timed w))
  end.
Fixpoint tplay (srv : rtrserver) (tr : transport) (v : N) (w : tworld) (l : list (Z * event)) : option tworld :=
  match l with [] => Some w | e :: l' => match thappens srv tr v w e with Some w' => tplay srv tr v w' l' | None => None end end.
Definition tstart (srv : rtrserver) (tr : transport) (keep : Z) : tworld :=
  mkTw (new_server keep) (accept tr srv) (mkTi fresh_router None).
(** The router at time [t]: what it goes by is its [ro_set]. *)
Definition at_time (t : Z) (k : timed) : router := ti_router (aged t k).

Definition tupdates (l : list (Z * event)) : list (list sd) := updates (map snd l).
Definition tlatest (l : list (Z * event)) : list sd := latest (map snd l).
Fixpoint ascending (t0 : Z) {A} (l : list (Z * A)) : Prop :=
  match l with [] => True | (t, _) :: l' => (t0 <= t)%Z /\ ascending t l' end.
Definition no_poll (l : list (Z * event)) : Prop := Forall (fun te => snd te <> Poll) l.
(** Polls in time as in [timely], where a router whose data has expired starts over.
    [lag]: the changes since the last End of Data, and when that expires after [life]. *)
Fixpoint in_time (keep life : Z) (cur : list sd) (lag : option (N * Z)) (l : list (Z * event)) : Prop :=
  match l with
  | [] => True
  | (t, Update new) :: l' => in_time keep life new (option_map (fun '(k, u) => (k + (if advances cur new then 1 else 0), u)) lag) l'
  | (t, Poll) :: l' =>
      let lag' := match lag with Some (_, u) => if (u <? t)%Z then None else lag | None => None end in
      match lag' with
      | Some (k, _) => k <= 1 \/ ((0 < keep < Z.of_N k)%Z /\ k < 4294967296)
      | None => True
      end /\ in_time keep life cur (if is_nil cur then lag' else Some (0, (t + life)%Z)) l'
  | (t, Reconnect) :: l' => in_time keep life cur lag l'
  end.
(** No more than [gap] between one poll and the next, from [t0] on. *)
Fixpoint spaced (gap t0 : Z) (l : list (Z * event)) : Prop :=
  match l with
  | [] => True
  | (t, Poll) :: l' => (t <= t0 + gap)%Z /\ spaced gap t l'
  | _ :: l' => spaced gap t0 l'
  end.
(** When the last poll was, [t0] if there is none. *)
Fixpoint last_poll (t0 : Z) (l : list (Z * event)) : Z :=
  match l with [] => t0 | (t, Poll) :: l' => last_poll t l' | _ :: l' => last_poll t0 l' end.

(** The same with the daemon. *)
Record tdworld := mkTd { td_turns : list input; td_conn : client; td_timed : timed }.
Definition tdhappens (e : env) (c : scfg) (srv : rtrserver) (tr : transport) (v : N) (w : tdworld) (tx : Z * devent) : option tdworld :=
  let (t, x) := tx in
  match x with
  | Turn i => Some (mkTd (td_turns w ++ [i]) (td_conn w) (td_timed w))
  | Ask =>
      match tpoll srv v (st_server (State.after e c (td_turns w))) t (td_conn w) (aged t (td_timed w)) with
      | Some (cl, k) => Some (mkTd (td_turns w) cl k)
      | None => None
      end
  | Again => Some (mkTd (td_turns w) (accept tr srv) (td_timed w))
  end.
Fixpoint tdplay (e : env) (c : scfg) (srv : rtrserver) (tr : transport) (v : N) (w : tdworld) (l : list (Z * devent)) : option tdworld :=
  match l with [] => Some w | x :: l' => match tdhappens e c srv tr v w x with Some w' => tdplay e c srv tr v w' l' | None => None end end.
Definition tdstart (srv : rtrserver) (tr : transport) : tdworld := mkTd [] (accept tr srv) (mkTi fresh_router None).
Definition tturns (l : list (Z * devent)) : list input := turns (map snd l).
