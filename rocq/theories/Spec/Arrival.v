(** The order in which the records of a server come, after any number of updates. *)
From Verif Require Import Model.Pdu Model.Data Spec.Sets Spec.Response Spec.Input.
Local Open Scope list_scope.
Local Open Scope N_scope.

(** The sets fed to the server after [prev], oldest first, and for each the records that came with
    it (they were not in the set before it) and are in all the later ones, in the order of that set. *)
Inductive by_arrival : list sd -> list (list sd) -> list (list rid) -> Prop :=
| arrive_nil prev : by_arrival prev [] []
| arrive_set prev L Ls g o gs : splits (fun x => ~ In x (ids prev) /\ Forall (fun M => In x (ids M)) Ls) (ids L) o g ->
    by_arrival L Ls gs -> by_arrival prev (L :: Ls) (g :: gs).

(** The PDUs that announce records. *)
Definition announcing (v : N) (nokeys : bool) (x : rid) : list pdu :=
  match x with
  | RV (mkPrefix (A6 n) b) a m => [IPv6Prefix v 1 m a (mkPrefix (A6 n) b)]
  | RV p a m => [IPv4Prefix v 1 m a p]
  | RK a s k => if (v =? 0) || nokeys then [] else [RouterKey v 1 s a k]
  end.
