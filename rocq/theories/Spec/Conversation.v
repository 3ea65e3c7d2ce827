(** The order of the PDUs a cache sends on one connection (RFC 8210 section 8). *)
From Verif Require Import Model.Concurrent.
Local Open Scope list_scope.
Local Open Scope N_scope.

Definition is_notify (p : pdu) : bool := match p with SerialNotify _ _ _ => true | _ => false end.
Definition is_data (p : pdu) : bool :=
  match p with IPv4Prefix _ _ _ _ _ | IPv6Prefix _ _ _ _ _ | RouterKey _ _ _ _ _ => true | _ => false end.

(** One answer: an Error Report; a Cache Reset; or a Cache Response, data, an End of Data with the
    same session, all in one version. *)
Inductive answer : list pdu -> Prop :=
| A_error v code copy msg : answer [ErrorReport v code copy msg]
| A_reset v : answer [CacheReset v]
| A_data v sess serial r t e data : Forall (fun p => is_data p = true /\ get_version p = v) data ->
    answer (CacheResponse v sess :: data ++ [EndOfData v sess serial r t e]).

(** Everything but the Serial Notifies, which may come at any time. *)
Definition answers (l : list pdu) : list pdu := filter (fun p => negb (is_notify p)) l.
