(** Filters of a SLURM file in which a member that says nothing is written as null in place of
    being left out.  Of the model only the types of JSON values and of SLURM entries and the
    decimal digits are used. *)
From Verif Require Import Lib.Str Model.JsonText Model.Slurm Spec.Rfc8416.
Local Open Scope string_scope.
Local Open Scope list_scope.
Local Open Scope N_scope.

Definition or_null (k : string) (l : list (bytes * json)) : list (bytes * json) :=
  match l with [] => [(str k, JNull)] | _ => l end.
(** Each member left out or null. *)
Record nulls := mkNulls { nl_first : bool; nl_second : bool; nl_comment : bool }.
Definition put (b : bool) (k : string) (l : list (bytes * json)) : list (bytes * json) := if b then or_null k l else l.
Definition pfilter_null (x : nulls * (pfilter * bytes)) : json :=
  let (n, f) := x in
  JObj (put (nl_first n) "prefix" (maybe_str "prefix" (pf_prefix (fst f))) ++
        put (nl_second n) "asn" (maybe_num "asn" (pf_asn (fst f))) ++
        put (nl_comment n) "comment" (maybe_str "comment" (snd f))).
Definition bfilter_null (b64 : bytes -> bytes) (x : nulls * (bfilter * bytes)) : json :=
  let (n, f) := x in
  JObj (put (nl_first n) "asn" (maybe_num "asn" (bf_asn (fst f))) ++
        put (nl_second n) "SKI" (maybe_b64 b64 "SKI" (bf_ski (fst f))) ++
        put (nl_comment n) "comment" (maybe_str "comment" (snd f))).
(** A file with such filters, its assertions written as RFC 8416 has them. *)
Definition slurm_null_doc (b64 : bytes -> bytes) (pf : list (nulls * (pfilter * bytes))) (bf : list (nulls * (bfilter * bytes)))
                          (pa : list passert) (ba : list (bassert * bytes)) : json :=
  JObj [(str "slurmVersion", JNum (str "1"));
        (str "validationOutputFilters",
         JObj [(str "prefixFilters", JArr (map pfilter_null pf)); (str "bgpsecFilters", JArr (map (bfilter_null b64) bf))]);
        (str "locallyAddedAssertions",
         JObj [(str "prefixAssertions", JArr (map passert_doc pa)); (str "bgpsecAssertions", JArr (map (bassert_doc b64) ba))])].
