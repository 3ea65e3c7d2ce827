(** What is expected of a daemon that starts. *)
From Verif Require Import Model.Boot.
From Coq Require Import List.
Import ListNotations.
Local Open Scope N_scope.

(** Everything the flags ask for can be had, and they ask for a listener. *)
Definition in_order (su : setup) : Prop :=
  (exists t, su_asked su t = true) /\
  (forall t, su_asked su t = true -> su_addr su t = true /\ (t <> TCP -> su_files su t = true)) /\
  (su_http su = true -> su_http_ok su = true) /\ su_interval su = true.
(** Nobody but routers does anything any more. *)
Definition settled (su : setup) (s : bstate) : Prop := forall l, (forall t, l <> BTake t) -> bstep su s l = None.
(** Steps that are not connections of routers. *)
Definition own (l : blabel) : bool := match l with BTake _ => false | _ => true end.
(** The first load comes after both downloads. *)
Definition loaded_in (ls : list blabel) : Prop := exists a b, ls = a ++ BLoad :: b /\ In BFile a /\ In BSlurm a.
(** The flags in the order in which they are looked at. *)
Definition not_after (u t : transport) : Prop :=
  match u, t with TCP, _ => True | TLS, TLS => True | TLS, SSH => True | SSH, SSH => True | _, _ => False end.
