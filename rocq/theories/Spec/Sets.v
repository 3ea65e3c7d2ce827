(** Record identity, sets of records and what a router does with a diff.
    Independent of the hash keys and maps of the model. *)
From Verif Require Import Model.Data.

(** What makes two records the same record: everything but the flag. *)
Inductive rid :=
| RV (p : prefix) (asn maxlen : N)
| RK (asn : N) (ski pubkey : bytes).
Definition rid_of (d : sd) : rid :=
  match d with VRP p a m _ => RV p a m | BgpsecKey a s k _ => RK a s k end.
Definition ids (l : list sd) : list rid := map rid_of l.

Definition addr_dec (a b : addr) : {a = b} + {a <> b}.
Proof. decide equality; apply N.eq_dec. Defined.
Definition prefix_dec (a b : prefix) : {a = b} + {a <> b}.
Proof. decide equality; [decide equality; apply N.eq_dec | apply addr_dec]. Defined.
Definition rid_dec (a b : rid) : {a = b} + {a <> b}.
Proof.
  decide equality; try apply N.eq_dec; try apply prefix_dec; apply (list_eq_dec N.eq_dec).
Defined.
Definition mem (x : rid) (l : list rid) : bool := if in_dec rid_dec x l then true else false.

(** Two lists hold the same set of records. *)
Definition same_set (a b : list sd) : Prop := forall x, In x (ids a) <-> In x (ids b).

(** A router's set of records, and the effect of the records of a diff. *)
Definition rset := rid -> Prop.
Definition as_set (l : list sd) : rset := fun x => In x (ids l).
Definition r_apply1 (R : rset) (d : sd) : rset :=
  if get_flag d =? 1 then fun x => x = rid_of d \/ R x
  else fun x => x <> rid_of d /\ R x.
Definition r_apply (R : rset) (l : list sd) : rset := fold_left r_apply1 l R.
Definition r_eq (A B : rset) : Prop := forall x, A x <-> B x.

(** RFC 8210: announcing a record the router has (error 7) or withdrawing one it
    does not have (error 6) is an error. *)
Definition announces_clean (R : rset) (l : list sd) : Prop :=
  forall d, In d l -> get_flag d = 1 -> ~ R (rid_of d).
Definition withdraws_clean (R : rset) (l : list sd) : Prop :=
  forall d, In d l -> get_flag d = 0 -> R (rid_of d).
Definition flags01 (l : list sd) : Prop :=
  forall d, In d l -> get_flag d = 1 \/ get_flag d = 0.
(** [l] is a difference for a router holding [R]. *)
Definition diff_for (R : rset) (l : list sd) : Prop :=
  flags01 l /\ announces_clean R l /\ withdraws_clean R l.
