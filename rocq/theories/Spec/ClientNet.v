(** Vocabulary for a client session with its goroutines. *)
From Verif Require Import Model.ClientConc Spec.Net.

(** The PDU being written. *)
Definition in_chand {H} (x : cc H) : list pdu := match cc_spc x with CSWrite p => [p] | _ => [] end.

(** A handler that only ever disconnects, as those of rtrdump and rtrmon. *)
Definition quiet {H} (handle : H -> pdu -> H * bool) (h : H) (p : pdu) : H * list hact :=
  (fst (handle h p), if snd (handle h p) then [HDisc] else []).

(** [P] holds of every state a schedule passes through. *)
Fixpoint calong {H} (handle : H -> pdu -> H * list hact) (hello : list hact) (P : cc H -> Prop) (x : cc H) (sched : list clabel) : Prop :=
  match sched with
  | [] => P x
  | l :: r => P x /\ forall x', cstep1 handle hello x l = Ok x' -> calong handle hello P x' r
  end.

(** The numbers of steps of StartRW and of the sender in a schedule. *)
Definition read_steps (sched : list clabel) : nat :=
  length (filter (fun l => match l with CRead => true | _ => false end) sched).
Definition send_steps (sched : list clabel) : nat :=
  length (filter (fun l => match l with CSend _ => true | _ => false end) sched).
Definition polls (sched : list clabel) : nat :=
  length (filter (fun l => match l with CPoll _ => true | _ => false end) sched).

(** Along a list of PDUs the version never goes up. *)
Definition descending (l : list pdu) : Prop := forall i j a b, (i <= j)%nat ->
  nth_error l i = Some a -> nth_error l j = Some b -> get_version b <= get_version a.
