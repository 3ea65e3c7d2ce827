(** A router and a server that has been restarted. *)
From Verif Require Import Model.Conn Spec.Sets Spec.History Spec.Response Spec.Router.
From Coq Require Import List ZArith.
Import ListNotations.
Local Open Scope list_scope.
Local Open Scope N_scope.

(** The server refuses the session: an Error Report "Corrupt Data" in the router's version, and the
    connection is closed. *)
Definition refusal (v : N) (a : list act) : bool :=
  match a with [Queue (ErrorReport w code _ _); Disc] => (w =? v) && (code =? 0) | _ => false end.
(** The router connects and asks as it is used to.  When it is refused it forgets its session, connects
    again and begins with a Reset Query; what it holds it keeps until it is replaced. *)
Definition rejoin (srv : rtrserver) (tr : transport) (v : N) (cache : server) (r : router) : option (client * router) :=
  match process srv cache (accept tr srv) (question v r) with
  | Ok (_, a) =>
      if refusal v a then ask srv v cache (accept tr srv) (mkRo None (ro_set r))
      else poll srv v cache (accept tr srv) r
  | _ => None
  end.
