(** SLURM files after RFC 8416, sections 3.2 to 3.4, as JSON values.  Of the model only the
    types of JSON values and of SLURM entries and the decimal digits are used. *)
From Verif Require Import Lib.Str Model.JsonText Model.Slurm.
Local Open Scope string_scope.
Local Open Scope list_scope.
Local Open Scope N_scope.

(** Base64 as RFC 8416 asks for (sections 3.3.2 and 3.4.2): the alphabet of RFC 4648, section 5,
    and no '=' at the end. *)
Definition url_alphabet : bytes := str "ABCDEFGHIJKLMNOPQRSTUVWXYZabcdefghijklmnopqrstuvwxyz0123456789-_".
Definition url_digit (d c : N) : Prop := nth_error url_alphabet (N.to_nat d) = Some c.
Inductive base64url : bytes -> bytes -> Prop :=
| U_0 : base64url [] []
| U_1 a d1 d2 c1 c2 : url_digit d1 c1 -> url_digit d2 c2 -> a * 16 = d1 * 64 + d2 -> base64url [a] [c1; c2]
| U_2 a b d1 d2 d3 c1 c2 c3 : url_digit d1 c1 -> url_digit d2 c2 -> url_digit d3 c3 ->
    (a * 256 + b) * 4 = d1 * 4096 + d2 * 64 + d3 -> base64url [a; b] [c1; c2; c3]
| U_3 a b c d1 d2 d3 d4 c1 c2 c3 c4 k t : url_digit d1 c1 -> url_digit d2 c2 -> url_digit d3 c3 -> url_digit d4 c4 ->
    a * 65536 + b * 256 + c = d1 * 262144 + d2 * 4096 + d3 * 64 + d4 -> base64url k t ->
    base64url (a :: b :: c :: k) (c1 :: c2 :: c3 :: c4 :: t).

(** A member that is left out when it has nothing to say. *)
Definition maybe_str (k : string) (s : bytes) : list (bytes * json) :=
  match s with [] => [] | _ => [(str k, JStr s)] end.
Definition maybe_num (k : string) (n : option N) : list (bytes * json) :=
  match n with None => [] | Some x => [(str k, JNum (dec x))] end.
(** [b64] writes octets. *)
Definition maybe_b64 (b64 : bytes -> bytes) (k : string) (s : bytes) : list (bytes * json) :=
  match s with [] => [] | _ => [(str k, JStr (b64 s))] end.
(** Section 3.3.1, a filter with its comment. *)
Definition pfilter_doc (f : pfilter * bytes) : json :=
  JObj (maybe_str "prefix" (pf_prefix (fst f)) ++ maybe_num "asn" (pf_asn (fst f)) ++ maybe_str "comment" (snd f)).
(** Section 3.3.2. *)
Definition bfilter_doc (b64 : bytes -> bytes) (f : bfilter * bytes) : json :=
  JObj (maybe_num "asn" (bf_asn (fst f)) ++ maybe_b64 b64 "SKI" (bf_ski (fst f)) ++ maybe_str "comment" (snd f)).
(** Section 3.4.1. *)
Definition passert_doc (a : passert) : json :=
  JObj ([(str "asn", JNum (dec (pa_asn a))); (str "prefix", JStr (pa_prefix a))] ++
        (if (pa_maxlen a =? 0)%Z then [] else [(str "maxPrefixLength", JNum (zdec (pa_maxlen a)))]) ++
        maybe_str "comment" (pa_comment a)).
(** Section 3.4.2. *)
Definition bassert_doc (b64 : bytes -> bytes) (a : bassert * bytes) : json :=
  JObj ([(str "asn", JNum (dec (ba_asn (fst a)))); (str "SKI", JStr (b64 (ba_ski (fst a))));
         (str "routerPublicKey", JStr (b64 (ba_key (fst a))))] ++ maybe_str "comment" (snd a)).
(** Section 3.2. *)
Definition slurm_doc (b64 : bytes -> bytes) (pf : list (pfilter * bytes)) (bf : list (bfilter * bytes))
                     (pa : list passert) (ba : list (bassert * bytes)) : json :=
  JObj [(str "slurmVersion", JNum (str "1"));
        (str "validationOutputFilters",
         JObj [(str "prefixFilters", JArr (map pfilter_doc pf)); (str "bgpsecFilters", JArr (map (bfilter_doc b64) bf))]);
        (str "locallyAddedAssertions",
         JObj [(str "prefixAssertions", JArr (map passert_doc pa)); (str "bgpsecAssertions", JArr (map (bassert_doc b64) ba))])].
(** Numbers in range and octets. *)
Definition fits32 (n : option N) : Prop := match n with Some x => x < 2 ^ 32 | None => True end.
Definition pfilter_ok (f : pfilter * bytes) : Prop := fits32 (pf_asn (fst f)).
Definition bfilter_ok (f : bfilter * bytes) : Prop := fits32 (bf_asn (fst f)) /\ Forall (fun c => c < 256) (bf_ski (fst f)).
Definition passert_ok (a : passert) : Prop := pa_asn a < 2 ^ 32 /\ (- 2 ^ 63 <= pa_maxlen a < 2 ^ 63)%Z.
Definition bassert_ok (a : bassert * bytes) : Prop :=
  ba_asn (fst a) < 2 ^ 32 /\ Forall (fun c => c < 256) (ba_ski (fst a)) /\ Forall (fun c => c < 256) (ba_key (fst a)).
(** The file as a JSON value with the entry [j] somewhere in the list [l] of part [p]. *)
Definition with_entry (p l : string) (a a' b b' : list (bytes * json)) (c c' : list json) (j : json) : json :=
  JObj (a ++ (str p, JObj (b ++ (str l, JArr (c ++ j :: c')) :: b')) :: a').
