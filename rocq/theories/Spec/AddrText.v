(** Prefixes as texts: RFC 4632 (IPv4), RFC 4291 sections 2.2 and 2.3 (IPv6), with the numbers
    of an IPv4 address as in RFC 3986 (dec-octet).  Of the model only the types of addresses and
    prefixes are used. *)
From Verif Require Import Model.Netip.

(** The number n in decimal, without zeros in front. *)
Definition decimal (t : bytes) (n : N) : Prop :=
  t <> [] /\ Forall (fun c => 48 <= c <= 57) t /\ (t = [48] \/ hd 48 t <> 48) /\
  n = fold_left (fun a c => 10 * a + (c - 48)) t 0.
(** d.d.d.d *)
Definition dotted (t : bytes) (a b c d : N) : Prop :=
  exists ta tb tc td, t = ta ++ [46] ++ tb ++ [46] ++ tc ++ [46] ++ td /\
  decimal ta a /\ decimal tb b /\ decimal tc c /\ decimal td d /\ a < 256 /\ b < 256 /\ c < 256 /\ d < 256.

(** The value of a hexadecimal digit, either case. *)
Definition hexdigit (c v : N) : Prop :=
  (48 <= c <= 57 /\ v = c - 48) \/ (97 <= c <= 102 /\ v = c - 97 + 10) \/ (65 <= c <= 70 /\ v = c - 65 + 10).
(** One to four hexadecimal digits. *)
Definition group (t : bytes) (n : N) : Prop :=
  (1 <= length t <= 4)%nat /\ exists vs, Forall2 hexdigit t vs /\ n = fold_left (fun a v => 16 * a + v) vs 0.
(** Groups with colons between them. *)
Inductive hexes : bytes -> list N -> Prop :=
| hx_one t n : group t n -> hexes t [n]
| hx_more t n u l : group t n -> hexes u l -> hexes (t ++ [58] ++ u) (n :: l).
(** The same, where the last two may be written as d.d.d.d. *)
Inductive pieces : bytes -> list N -> Prop :=
| pc_one t n : group t n -> pieces t [n]
| pc_dotted t a b c d : dotted t a b c d -> pieces t [256 * a + b; 256 * c + d]
| pc_more t n u l : group t n -> pieces u l -> pieces (t ++ [58] ++ u) (n :: l).
(** Eight groups, or fewer with :: for one or more groups of zeros. *)
Definition grouped (t : bytes) (gs : list N) : Prop :=
  (pieces t gs /\ length gs = 8%nat) \/
  exists t1 l1 t2 l2 k, t = t1 ++ [58; 58] ++ t2 /\ gs = l1 ++ repeat 0 k ++ l2 /\ length gs = 8%nat /\ (1 <= k)%nat /\
    ((t1 = [] /\ l1 = []) \/ hexes t1 l1) /\ ((t2 = [] /\ l2 = []) \/ pieces t2 l2).

Inductive addr_text : bytes -> addr -> Prop :=
| at_v4 t a b c d : dotted t a b c d -> addr_text t (A4 (256 * (256 * (256 * a + b) + c) + d))
| at_v6 t gs : grouped t gs -> addr_text t (A6 (fold_left (fun x g => 65536 * x + g) gs 0)).
(** address/length *)
Definition prefix_text (s : bytes) (p : prefix) : Prop :=
  exists t u n, s = t ++ [47] ++ u /\ addr_text t (p_addr p) /\ decimal u n /\
  match p_addr p with A4 _ => n <= 32 | A6 _ => n <= 128 | A0 => False end /\ p_bits p = Some n.
