(** Origin validation of routes, RFC 6811 (and RFC 7607 for AS 0), by a router that applies the
    records of a response one after the other. *)
From Verif Require Import Model.Conn Spec.Sets Spec.Input Spec.Router.
Local Open Scope list_scope.
Local Open Scope N_scope.

Record route := mkRt { rt_prefix : prefix; rt_origin : N }.
(** The VRP covers the route. *)
Definition covering (x : rid) (t : route) : Prop :=
  match x with RV p _ _ => covers p (rt_prefix t) | RK _ _ _ => False end.
(** The VRP matches the route: it covers it, is for its origin, which is not AS 0, and allows its
    length. *)
Definition authorises (x : rid) (t : route) : Prop :=
  match x with
  | RV p asn maxlen => covers p (rt_prefix t) /\ asn = rt_origin t /\ asn <> 0 /\ exists b, p_bits (rt_prefix t) = Some b /\ b <= maxlen
  | RK _ _ _ => False
  end.
Definition covered (R : rset) (t : route) : Prop := exists x, R x /\ covering x t.
Definition valid (R : rset) (t : route) : Prop := exists x, R x /\ authorises x t.
Definition invalid (R : rset) (t : route) : Prop := covered R t /\ ~ valid R t.
Definition not_found (R : rset) (t : route) : Prop := ~ covered R t.

(** The records in a response, in order. *)
Definition records (v : N) (ps : list pdu) : list sd :=
  flat_map (fun p => match data_of v p with Some d => [d] | None => [] end) ps.
(** What the router has after [k] of the records. *)
Definition after_some (R : rset) (v : N) (ps : list pdu) (k : nat) : rset := r_apply R (firstn k (records v ps)).
Definition after_all (R : rset) (v : N) (ps : list pdu) : rset := r_apply R (records v ps).

(** A route in the same state before and after a response is in that state all the way. *)
Definition steady (R : rset) (v : N) (ps : list pdu) : Prop := forall t k,
  (valid R t -> valid (after_all R v ps) t -> valid (after_some R v ps k) t) /\
  (invalid R t -> invalid (after_all R v ps) t -> invalid (after_some R v ps k) t) /\
  (not_found R t -> not_found (after_all R v ps) t -> not_found (after_some R v ps k) t).

(** Some VRP authorises the route, and so do all others that cover it, unless they are for a
    shorter prefix. *)
Definition firmly (R : rset) (t : route) : Prop :=
  exists p a m, R (RV p a m) /\ authorises (RV p a m) t /\
  forall p' a' m', R (RV p' a' m') -> covering (RV p' a' m') t -> authorises (RV p' a' m') t \/ (bits p' < bits p)%Z.

(** The same for one route. *)
Definition undisturbed (R : rset) (v : N) (ps : list pdu) (t : route) : Prop := forall k,
  (valid R t -> valid (after_all R v ps) t -> valid (after_some R v ps k) t) /\
  (invalid R t -> invalid (after_all R v ps) t -> invalid (after_some R v ps k) t) /\
  (not_found R t -> not_found (after_all R v ps) t -> not_found (after_some R v ps k) t).
