(** What the input files mean: prefixes as sets of addresses, entries, AS
    numbers, SLURM filters (RFC 8416).  No model helper except the library function
    netip.ParsePrefix. *)
From Coq Require Import Permutation.
From Verif Require Import Model.Process Model.Slurm.

(** The address [a] is in the prefix [p]: same family and equal leading bits. *)
Definition bits_agree (w b x y : N) : Prop := forall i, w - b <= i < w -> N.testbit x i = N.testbit y i.
Definition in_prefix (p : prefix) (a : addr) : Prop :=
  match p_addr p, p_bits p, a with
  | A4 x, Some b, A4 y => bits_agree 32 b x y
  | A6 x, Some b, A6 y => bits_agree 128 b x y
  | _, _, _ => False
  end.
(** Every address of [r] is in [f]. *)
Definition covers (f r : prefix) : Prop := forall a, wf_addr a -> in_prefix r a -> in_prefix f a.

(** A decimal number. *)
Definition digits_of (ds : bytes) (n : N) : Prop :=
  ds <> [] /\ Forall (fun c => 48 <= c <= 57) ds /\ n = fold_left (fun a c => 10 * a + (c - 48)) ds 0.
(** The text "12" or "AS12". *)
Definition asn_text (s : bytes) (n : N) : Prop :=
  exists pre ds, s = pre ++ ds /\ (pre = [] \/ exists a b, pre = [a; b] /\ (a = 65 \/ a = 97) /\ (b = 83 \/ b = 115)) /\
  digits_of ds n.
(** The text accepted by the code: any of the letters a, A, s, S, in any number and order. *)
Definition asn_text_loose (s : bytes) (n : N) : Prop :=
  exists pre ds, s = pre ++ ds /\ Forall (fun c => In c [65; 97; 83; 115]) pre /\ digits_of ds n.

(** The number m * 2^e is the natural number n. *)
Definition float_is (m e : Z) (n : N) : Prop :=
  ((0 <= e /\ m * 2 ^ e = Z.of_N n) \/ (e < 0 /\ m = Z.of_N n * 2 ^ (- e)))%Z.

(** Unexpired at [now]. *)
Definition fresh (now : Z) (e : option Z) : Prop := match e with Some t => (now <= t)%Z | None => True end.

(** The entry [v] is acceptable at [now] and stands for [p], [asn]. *)
Definition entry_ok (now : Z) (v : vrpjson) (p : prefix) (asn : N) : Prop :=
  parse_prefix (vj_prefix v) = Some p /\ get_asn2 (vj_asn v) = Some asn /\
  (exists b, p_bits p = Some b /\ 0 < b /\ b <= vj_length v /\ vj_length v <= bitlen (p_addr p)) /\
  fresh now (vj_expires v).

(** Hexadecimal text, either case, of the bytes [k]. *)
Definition lower (c : N) : N := if (65 <=? c) && (c <=? 70) then c + 32 else c.
Definition is_hex_of (s k : bytes) : Prop := bytes_ok k /\ map lower s = hex_encode k.

(** RFC 8416 section 3.3.1: the filter [f] matches a VRP for [r], [asn]. *)
Definition pf_covers (f : pfilter) (r : prefix) (asn : N) : Prop :=
  (pf_prefix f = [] \/ exists fp, parse_prefix (pf_prefix f) = Some fp /\ covers fp r) /\
  (pf_asn f = None \/ pf_asn f = Some asn).
(** Section 3.3.2: a filter on router keys; at least one criterion. *)
Definition bf_agrees (f : bfilter) (b : brkjson) : Prop :=
  (bf_asn f <> None \/ bf_ski f <> []) /\
  (bf_asn f = None \/ bf_asn f = Some (bj_asn b)) /\
  (bf_ski f = [] \/ is_hex_of (bj_ski b) (bf_ski f)).

(** [kept], [gone] split [l] in order by the predicate [P]. *)
Inductive splits {A} (P : A -> Prop) : list A -> list A -> list A -> Prop :=
| Sp_nil : splits P [] [] []
| Sp_keep x l k g : ~ P x -> splits P l k g -> splits P (x :: l) (x :: k) g
| Sp_gone x l k g : P x -> splits P l k g -> splits P (x :: l) k (x :: g).

(** [n] elements of the list satisfy [P]. *)
Inductive counts {A} (P : A -> Prop) : list A -> N -> Prop :=
| Co_nil : counts P [] 0
| Co_yes x l n : P x -> counts P l n -> counts P (x :: l) (n + 1)
| Co_no x l n : ~ P x -> counts P l n -> counts P (x :: l) n.

(** The prefix announced or withdrawn by a PDU. *)
Definition pdu_prefix (q : pdu) : option prefix :=
  match q with IPv4Prefix _ _ _ _ p => Some p | IPv6Prefix _ _ _ _ p => Some p | _ => None end.
(** Longer prefixes first, for every pair in the order sent. *)
Definition longest_first (l : list pdu) : Prop :=
  ForallOrdPairs (fun x y => forall p q, pdu_prefix x = Some p -> pdu_prefix y = Some q -> (bits q <= bits p)%Z) l.

(** What the theorems ask of sort.Slice: it returns a sorted permutation of a list of VRPs
    (proved of its model in C100). *)
Definition is_vrp (d : sd) : Prop := match d with VRP _ _ _ _ => True | _ => False end.
Definition sorts (sort : list sd -> list sd) : Prop :=
  forall l, Forall is_vrp l -> Permutation (sort l) l /\ sorted_vrps (sort l).

(** Field widths of a decoded SLURM file. *)
Definition wf_slurm (s : slurm) : Prop :=
  Forall (fun a => u32 (pa_asn a)) (s_passerts s) /\
  Forall (fun a => u32 (ba_asn a) /\ bytes_ok (ba_ski a) /\ bytes_ok (ba_key a)) (s_basserts s).
