(** A server and the file it serves, compared by rtrmon. *)
From Verif Require Import Model.Process Spec.Refresh Spec.Monitor.
Local Open Scope N_scope.

(** The file a source showed last. *)
Fixpoint shows (h : list (Z * fetched)) : option (list vrpjson * list brkjson) :=
  match h with
  | [] => None
  | (_, Listing vs bs) :: _ => Some (vs, bs)
  | _ :: h' => shows h'
  end.
(** The set the server is fed from a file at second [now]. *)
Definition fed (sort : list sd -> list sd) (now : Z) (vs : list vrpjson) (bs : list brkjson) : list sd :=
  let '(vrps, brks, _, _) := process_data sort now vs bs in vrps ++ brks.
(** As an object of an RTR server, the file offers [o] at second [now] to a client of version [w]. *)
Definition offered (now : Z) (vs : list vrpjson) (bs : list brkjson) (w : N) (nokeys : bool) (o : obj) : Prop :=
  exists x, Spec.Refresh.listed now vs bs x /\ may_hold w nokeys x /\ rid_obj x = o.
(** Entries that every reader understands alike: acceptable and not expired; identifiers of
    keys in small letters. *)
Definition common_vrp (now : Z) (v : vrpjson) : Prop := exists p a, entry_ok now v p a.
Definition common_key (now : Z) (b : brkjson) : Prop := fresh now (bj_expires b) /\ exists k, bytes_ok k /\ bj_ski b = hex_encode k.
