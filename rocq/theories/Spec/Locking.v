(** What goroutines that share data owe each other. *)
From Coq Require Import ZArith List Bool.
From Verif Require Import Model.Mutex.
Import ListNotations.

(** The next step of goroutine [i] is an access to [x]; a write if [w]. *)
Definition about_to (s : mstate) (i : nat) (x : fld) (w : bool) : Prop :=
  exists t r, nth_error (ms_threads s) i = Some t /\
    if w then exists d, mt_ops t = MWrite x d :: r else mt_ops t = MRead x :: r.
(** A data race on [x]: two goroutines are about to access it at the same time, one of them to write. *)
Definition data_race (s : mstate) (x : fld) : Prop :=
  exists i j w, i <> j /\ about_to s i x true /\ about_to s j x w.

(** All goroutines have ended. *)
Definition all_done (s : mstate) : Prop := Forall (fun t => mt_ops t = []) (ms_threads s).
(** Goroutine [i] waits for a lock. *)
Definition waits (s : mstate) (i : nat) : Prop :=
  exists t r l, nth_error (ms_threads s) i = Some t /\ (mt_ops t = MRLock l :: r \/ mt_ops t = MLock l :: r).

(** The fields that the locks are there for. *)
Definition protected (x : fld) : Prop :=
  match x with
  | SdCurrent | SdListDiff | SdSerial | Clients | Exported | OnlyIn | Metas => True
  | MVrps _ | MVrpsRtr _ | MTimers _ | MLast _ => True
  | _ => False
  end.

(** Connections that a call begins or ends: a client, or an SSH connection (counted once more). *)
Definition begun (c : scall) : Z :=
  match c with
  | CClientConnected | CStart _ | CSshBegin => 1
  | CClientDisconnected | CDisconnect _ | CSshEnd => -1
  | CSetMaxConn cs => - Z.of_nat (length cs)
  | _ => 0
  end.
Definition open_at_the_end (pss : list (list scall)) : Z := fold_right Z.add 0%Z (map begun (concat pss)).
Definition over_ssh (c : scall) : Prop := c = CSshBegin \/ c = CSshEnd.
(** Every goroutine makes only calls it may make. *)
Definition allowed (may : nat -> scall -> bool) (pss : list (list scall)) : Prop :=
  forall i cs c, nth_error pss i = Some cs -> In c cs -> may i c = true.
(** The goroutines of stayrtr, or those of rtrmon. *)
Definition a_program (pss : list (list scall)) : Prop :=
  allowed stayrtr_may pss \/ exists files, allowed (rtrmon_may files) pss.
