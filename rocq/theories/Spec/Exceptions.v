(** Local exceptions (RFC 8416) seen on the records themselves, and routes judged by them. *)
From Verif Require Import Model.Conn Spec.Input Spec.Sets Spec.Refresh Spec.Rov.
Local Open Scope list_scope.
Local Open Scope N_scope.

(** Some filter matches the record. *)
Definition excluded (s : slurm) (x : rid) : Prop :=
  match x with
  | RV p asn _ => exists f, In f (s_pfilters s) /\ pf_covers f p asn
  | RK asn ski _ => exists f, In f (s_bfilters s) /\ (bf_asn f <> None \/ bf_ski f <> []) /\
      (bf_asn f = None \/ bf_asn f = Some asn) /\ (bf_ski f = [] \/ bf_ski f = ski)
  end.
(** Some assertion is the record; without a maximum length the length of the prefix is meant. *)
Definition included (s : slurm) (x : rid) : Prop :=
  match x with
  | RV p asn m => exists a b, In a (s_passerts s) /\ parse_prefix (pa_prefix a) = Some p /\ p_bits p = Some b /\ 0 < b /\
      pa_asn a = asn /\ m = N.max b (Z.to_N (pa_maxlen a)) /\ m <= bitlen (p_addr p)
  | RK asn ski key => exists a, In a (s_basserts s) /\ ba_asn a = asn /\ ba_ski a = ski /\ ba_key a = key
  end.
(** What is to be served at second [now]. *)
Definition due (now : Z) (sl : option slurm) (roa : list vrpjson) (brk : list brkjson) (x : rid) : Prop :=
  match sl with
  | None => listed now roa brk x
  | Some s => listed now roa brk x /\ ~ excluded s x \/ included s x
  end.
(** The prefixes of its filters can be read and its maximum lengths are below 256. *)
Definition readable (s : slurm) : Prop :=
  (forall f, In f (s_pfilters s) -> pf_prefix f = [] \/ parse_prefix (pf_prefix f) <> None) /\
  (forall a, In a (s_passerts s) -> (pa_maxlen a < 256)%Z).

(** Two sets of records judge every route alike. *)
Definition alike (R S : rset) : Prop := forall t,
  (valid R t <-> valid S t) /\ (invalid R t <-> invalid S t) /\ (not_found R t <-> not_found S t).
