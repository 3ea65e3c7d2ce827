(** What the filters of a SLURM file do to entries that cannot be read. *)
From Verif Require Import Model.Slurm Spec.Input.
Local Open Scope list_scope.
Local Open Scope N_scope.

(** The AS number of an entry; 0 if it cannot be read. *)
Definition asn_or_0 (v : vrpjson) : N := match get_asn2 (vj_asn v) with Some n => n | None => 0 end.
(** A prefix that cannot be read, on either side, is no restriction. *)
Definition pf_hits (f : pfilter) (v : vrpjson) : Prop :=
  (parse_prefix (pf_prefix f) = None \/ parse_prefix (vj_prefix v) = None \/
   exists p r, parse_prefix (pf_prefix f) = Some p /\ parse_prefix (vj_prefix v) = Some r /\ covers p r) /\
  (pf_asn f = None \/ pf_asn f = Some (asn_or_0 v)).
(** The bytes that a text begins with in hexadecimal, as far as it does. *)
Definition hex_part (s k : bytes) : Prop :=
  (exists a b, s = a ++ b /\ is_hex_of a k) /\ forall a b k', s = a ++ b -> is_hex_of a k' -> (length k' <= length k)%nat.
(** The filter asks for a SKI of this key. *)
Definition asks_ski (f : bfilter) (b : brkjson) : Prop := bf_ski f <> [] /\ (bf_asn f = None \/ bf_asn f = Some (bj_asn b)).
(** The text is an address, a slash and a decimal length within the address. *)
Definition cidr_text (s : bytes) (n : N) : Prop :=
  exists addr len ip, s = addr ++ c_slash :: len /\ ~ In c_slash addr /\ parse_addr addr = Some ip /\ len <> [] /\ undec 0 len = Some n /\ n <= bitlen ip.
(** The entries of the prefix assertions, in their order: the max length is the length of the
    prefix if none or a smaller one is given, and always cut to eight bits. *)
Inductive asserted : list passert -> list vrpjson -> Prop :=
| asserted_nil : asserted [] []
| asserted_skip a l r : (forall n, ~ cidr_text (pa_prefix a) n) -> asserted l r -> asserted (a :: l) r
| asserted_one a l r n m : cidr_text (pa_prefix a) n -> asserted l r ->
    m < 256 -> (exists q : Z, Z.max (Z.of_N n) (pa_maxlen a) = 256 * q + Z.of_N m)%Z ->
    asserted (a :: l) (mkVJ (pa_prefix a) m (AsnU32 (pa_asn a)) (pa_comment a) None :: r).
(** A key is removed: by a filter that agrees; if its SKI is not hexadecimal, also by the second
    or a later filter asking for a SKI, whose SKI is the part that is. *)
Definition brk_hits (fs : list bfilter) (b : brkjson) : Prop :=
  (exists f, In f fs /\ bf_agrees f b) \/
  ((forall k, ~ is_hex_of (bj_ski b) k) /\
   exists l1 g l2 f l3, fs = l1 ++ g :: l2 ++ f :: l3 /\ asks_ski g b /\ asks_ski f b /\ hex_part (bj_ski b) (bf_ski f)).
