(** What the steps taken so far say.  Of the model only the steps are used. *)
From Verif Require Import Model.Silent.
From Coq Require Import List.
Import ListNotations.

(** Seconds since the last refresh began ([None]: none has). *)
Definition since (tr : list hstep) : option nat :=
  fold_left (fun o l => match l with HBegin => Some 0 | HSecond => option_map S o | _ => o end) tr None.
(** A refresh has been asked for that has not begun. *)
Definition asked (tr : list hstep) : bool :=
  fold_left (fun b l => match l with HAsk => true | HBegin => false | _ => b end) tr false.
(** The server has accepted the connection (and done the handshake) and its response has neither
    ended nor been broken off. *)
Definition answering (https : bool) (tr : list hstep) : bool :=
  fold_left (fun b l =>
    match l with
    | HConnected => if https then b else true
    | HShaken => true
    | HStatus false | HEnd | HLimit | HBreaks | HBegin => false
    | _ => b
    end) tr false.
