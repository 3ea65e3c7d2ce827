(** Which objects of a file rtrmon takes for one another. *)
From Verif Require Export Spec.Monitor.
From Coq Require Import List.
Import ListNotations.
Local Open Scope list_scope.
Local Open Scope N_scope.

(** A router key whose identifier is that of another one, its AS and perhaps more, with - in between. *)
Definition extends (s : bytes) (x : N) (k : bytes) (t : bytes) (y : N) (l : bytes) : Prop :=
  (t = s ++ 45 :: dec x /\ k = dec y ++ 45 :: l) \/
  exists u, t = s ++ 45 :: dec x ++ 45 :: u /\ k = u ++ 45 :: dec y ++ 45 :: l.
(** A router key whose identifier is the text of the prefix of a VRP, with its maximum length as AS and
    its AS as the key. *)
Definition poses (s : bytes) (x : N) (k : bytes) (p : prefix) (a m : N) : Prop :=
  s = prefix_string p /\ x = m /\ k = dec a.
Definition clash (a b : obj) : Prop :=
  match a, b with
  | OV _ _ _, OV _ _ _ => a = b
  | OV p v m, OK s x k | OK s x k, OV p v m => poses s x k p v m
  | OK s x k, OK t y l => a = b \/ extends s x k t y l \/ extends t y l s x k
  end.
