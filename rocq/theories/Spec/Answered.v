(** A query gets its answer: schedules that go on for long enough. *)
From Verif Require Import Model.Concurrent Spec.Response Spec.Net Spec.Conversation.
Local Open Scope nat_scope.

(** The reader and the sender of connection [i] get a turn each, the router takes what is written
    and sends nothing else; anything may happen on other connections. *)
Definition turn_each (i : nat) (r : list label) : Prop :=
  In (LReader i) r /\ In (LSender i WAll) r /\
  Forall (fun l => match l with LRead j _ _ => j <> i | LSender j o => j = i -> o = WAll | _ => True end) r.
(** Steps of the notifier. *)
Definition notifier_steps (r : list label) : nat :=
  length (filter (fun l => match l with LNotifier => true | _ => false end) r).
(** An upper bound for the turns needed: PDUs still to be queued and to be written. *)
Definition outstanding (k : conn) (more : nat) : nat := 4 * (length (k_prog k) + more) + 3 * length (k_queue k) + 3.

(** All that was queued on the connection has been written. *)
Definition written (k : conn) : Prop := k_prog k = [] /\ k_up k = true /\ k_wire k = wire_of (k_queued k).

(** The answer to a query in version [v], by a cache configured by [cfg] whose random number was
    [seed]: with no data an Error Report; to a Reset Query everything; to a Serial Query with the
    current session a Cache Reset if the serial number is not known any more, otherwise what has
    changed since. *)
Inductive expected (cfg : config) (seed : N) (tr : transport) (cache : server) (v : N) : pdu -> list pdu -> Prop :=
| E_none q : get_current_sds cache = [] -> expected cfg seed tr cache v q [no_data v]
| E_all u : get_current_sds cache <> [] -> expected cfg seed tr cache v (ResetQuery u)
    (response v (session_of seed v) (sdCurrentSerial cache) (timer (cfg_refresh cfg) 3600) (timer (cfg_retry cfg) 600)
      (timer (cfg_expire cfg) 7200) (keys_off tr cfg) (get_current_sds cache))
| E_gone u sess n : get_current_sds cache <> [] ->
    (sdCurrentSerial cache < n \/ n + nlen (sdListDiff cache) < sdCurrentSerial cache)%N ->
    expected cfg seed tr cache v (SerialQuery u sess n) [CacheReset v]
| E_since u sess n d : get_current_sds cache <> [] -> get_sds_serial_diff cache n = Ok d -> expected cfg seed tr cache v (SerialQuery u sess n)
    (response v (session_of seed v) (sdCurrentSerial cache) (timer (cfg_refresh cfg) 3600) (timer (cfg_retry cfg) 600)
      (timer (cfg_expire cfg) 7200) (keys_off tr cfg) d).
(** A query a cache has to answer with data: in version [u], used as version [v]. *)
Definition query (seed v u : N) (q : pdu) : Prop :=
  q = ResetQuery u \/ exists n, q = SerialQuery u (session_of seed v) n.
