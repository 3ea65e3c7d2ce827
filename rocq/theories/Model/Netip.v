(** The part of Go's net/netip used by the code (standard library, not in
    /repo; Go 1.23).  Zones are not modelled: netip.ParsePrefix rejects them and
    PrefixFrom and AddrFromSlice never produce them. *)
From Verif Require Export Model.Go.

(** netip.Addr: the zero Addr, an IPv4 or an IPv6 address (IPv4-mapped IPv6
    addresses are IPv6: netip does not unmap them). *)
Inductive addr := A0 | A4 (x : N) | A6 (x : N).

(** netip.Prefix: [None] is bitsPlusOne = 0, i.e. an invalid Prefix. *)
Record prefix := mkPrefix { p_addr : addr; p_bits : option N }.

(** Addr.BitLen. Standard library, net/netip; used by lib/structs.go:255-340 and others. *)
Definition bitlen (a : addr) : N := match a with A0 => 0 | A4 _ => 32 | A6 _ => 128 end.
(** Addr.Is4, net/netip (used at lib/structs.go:255-340, stayrtr.go:449). *)
Definition is4 (a : addr) : bool := match a with A4 _ => true | _ => false end.
(** Addr.Is6, net/netip (used at stayrtr.go:451). *)
Definition is6 (a : addr) : bool := match a with A6 _ => true | _ => false end.
(** Addr.Is4In6: ::ffff:0:0/96. Standard library, net/netip. *)
Definition is4in6 (a : addr) : bool := match a with A6 x => x / 2 ^ 32 =? 65535 | _ => false end.

(** Prefix.Bits: -1 on an invalid prefix. Standard library, net/netip. *)
Definition bits (p : prefix) : Z := match p_bits p with Some b => Z.of_N b | None => (-1)%Z end.
(** Prefix.IsValid. Standard library, net/netip. *)
Definition is_valid (p : prefix) : bool := match p_bits p with Some _ => true | None => false end.

(** netip.PrefixFrom: out of range lengths give an invalid prefix that keeps the address. *)
Definition prefix_from (a : addr) (b : Z) : prefix :=
  match a with
  | A0 => mkPrefix A0 None
  | _ => if ((0 <=? b) && (b <=? Z.of_N (bitlen a)))%Z
         then mkPrefix a (Some (Z.to_N b)) else mkPrefix a None
  end.

(** netip.AddrFromSlice *)
Definition addr_from_slice (l : bytes) : option addr :=
  if nlen l =? 4 then Some (A4 (unbe l))
  else if nlen l =? 16 then Some (A6 (unbe l)) else None.

(** Addr.As4: panics on the zero Addr and on IPv6 addresses that are not IPv4-mapped.
    Standard library, net/netip (used at lib/structs.go:255-298). *)
Definition as4 {E} (a : addr) : res bytes E :=
  match a with
  | A4 x => Ok (be 4 x)
  | A6 x => if is4in6 a then Ok (be 4 (x mod 2 ^ 32)) else Panic
  | A0 => Panic
  end.
(** Addr.As16: never panics; IPv4 addresses are mapped, the zero Addr is all zeroes.
    Standard library, net/netip (used at lib/structs.go:298-340). *)
Definition as16 (a : addr) : bytes :=
  match a with
  | A0 => be 16 0
  | A4 x => be 16 (65535 * 2 ^ 32 + x)
  | A6 x => be 16 x
  end.

(** Values Go's representation can hold. Netip.Addr of the standard library. *)
Definition wf_addr (a : addr) : Prop :=
  match a with A0 => True | A4 x => x < 2 ^ 32 | A6 x => x < 2 ^ 128 end.
(** Values netip.Prefix can hold. *)
Definition wf_prefix (p : prefix) : Prop :=
  wf_addr (p_addr p) /\
  match p_bits p with Some b => p_addr p <> A0 /\ b <= bitlen (p_addr p) | None => True end.

(** Comparison of netip.Addr with == (standard library). *)
Definition addr_eqb (a b : addr) : bool :=
  match a, b with
  | A0, A0 => true | A4 x, A4 y => x =? y | A6 x, A6 y => x =? y | _, _ => false
  end.
(** Comparison of an optional number, for the bit length in netip.Prefix. *)
Definition optN_eqb (a b : option N) : bool :=
  match a, b with Some x, Some y => x =? y | None, None => true | _, _ => false end.
(** Go's == on netip.Prefix. *)
Definition prefix_eqb (p q : prefix) : bool :=
  addr_eqb (p_addr p) (p_addr q) && optN_eqb (p_bits p) (p_bits q).

Lemma addr_eqb_eq a b : addr_eqb a b = true <-> a = b.
Proof.
  destruct a, b; cbn; split; intros H; try congruence; try discriminate;
    try (apply N.eqb_eq in H; congruence); inversion H; apply N.eqb_refl.
Qed.
Lemma optN_eqb_eq a b : optN_eqb a b = true <-> a = b.
Proof.
  destruct a, b; cbn; split; intros H; try congruence; try discriminate.
  - apply N.eqb_eq in H. congruence.
  - inversion H. apply N.eqb_refl.
Qed.
Lemma prefix_eqb_eq p q : prefix_eqb p q = true <-> p = q.
Proof.
  unfold prefix_eqb. rewrite andb_true_iff, addr_eqb_eq, optN_eqb_eq.
  destruct p, q; cbn; split; [intros [-> ->]; reflexivity | intros H; inversion H; auto].
Qed.
