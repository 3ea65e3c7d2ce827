(** What rtrmon has to report, in terms of the objects listed in files and announced by
    servers; independent of the keys of its maps. *)
From Coq Require Import Permutation Sorted.
From Verif Require Export Model.Rtrmon Spec.Sets Spec.Collect.
From Verif Require Export Spec.History Spec.Response Model.Conn.
From Verif Require Import Spec.Input.

(** Objects: a VRP, or a router key with its identifier as text. *)
Inductive obj := OV (p : prefix) (asn maxlen : N) | OK (ski : bytes) (asn : N) (pubkey : bytes).
Definition obj_dec (a b : obj) : {a = b} + {a <> b}.
Proof.
  decide equality; try apply N.eq_dec; try apply prefix_dec; apply (list_eq_dec N.eq_dec).
Defined.

(** The objects a file lists; entries that cannot be read list nothing. *)
Definition file_objs (vs : list vrpjson) (bs : list brkjson) : list obj :=
  flat_map (fun v => match parse_prefix (vj_prefix v), get_asn2 (vj_asn v) with
                     | Some p, Some a => [OV p a (vj_length v)] | _, _ => [] end) vs ++
  map (fun b => OK (bj_ski b) (bj_asn b) (bj_pubkey b)) bs.
(** The object an entry of diff.json shows. *)
Definition entry_obj (e : mentry) : option obj :=
  match m_key e with
  | Some b => Some (OK (bj_ski b) (bj_asn b) (bj_pubkey b))
  | None => match parse_prefix (m_prefix e) with
            | Some p => Some (OV p (m_asn e) (m_length e))
            | None => None
            end
  end.
(** [has m o e]: the map [m] has the entry [e] for the object [o]. *)
Definition has (m : vmap) (o : obj) (e : mentry) : Prop :=
  exists k, In (k, e) m /\ entry_obj e = Some o.
Definition shown (m : vmap) (o : obj) : Prop := exists e, has m o e /\ m_visible e = true.

(** Identifiers that do not contain the characters - and / (hexadecimal ones do not). *)
Definition plain_ski (s : bytes) : Prop := ~ In 45 s /\ ~ In 47 s.
Definition plain_file (r : fetched) : Prop :=
  match r with Listing _ bs => Forall (fun b => plain_ski (bj_ski b)) bs | _ => True end.
Definition proper (o : obj) : Prop :=
  match o with OV p _ _ => wf_prefix p /\ is_valid p = true | OK s _ _ => plain_ski s end.

(** A source polled at some times, newest round first: at which of them did the object exist
    (as far as is known; failed rounds tell nothing). *)
Definition present (rs : list (Z * bool)) : bool := match rs with (_, b) :: _ => b | [] => false end.
Fixpoint rounds (o : obj) (h : list (Z * fetched)) : list (Z * bool) :=
  match h with
  | [] => []
  | (t, r) :: h' =>
      let rs := rounds o h' in
      match r with
      | Listing vs bs => (t, if in_dec obj_dec o (file_objs vs bs) then true else false) :: rs
      | NotModified => (t, present rs) :: rs
      | FetchError | BadJson => rs
      end
  end.
(** Start of the newest run of rounds at which it existed, and its last round. *)
Fixpoint since (rs : list (Z * bool)) : option Z :=
  match rs with
  | [] => None
  | (t, true) :: rs' => if present rs' then since rs' else Some t
  | (_, false) :: rs' => since rs'
  end.
Fixpoint last_listed (rs : list (Z * bool)) : option Z :=
  match rs with
  | [] => None
  | (t, true) :: _ => Some t
  | (_, false) :: rs' => last_listed rs'
  end.
(** The rounds since then. *)
Fixpoint absent (rs : list (Z * bool)) : list Z :=
  match rs with (t, false) :: rs' => t :: absent rs' | _ => [] end.

(** What the monitor should know about an object: first and last seen, and whether it is
    visible; a vanished object is kept while every round since is within the grace period. *)
Definition expected (grace : Z) (rs : list (Z * bool)) : option (Z * Z * bool) :=
  match since rs, last_listed rs with
  | Some f, Some l =>
      if present rs then Some (f, l, true)
      else if forallb (fun t => t <=? l + grace)%Z (absent rs) then Some (f, l, false)
      else None
  | _, _ => None
  end.
(** The map of a monitor after the rounds [h] (newest first). *)
Definition after (grace : Z) (h : list (Z * fetched)) : vmap :=
  fold_right (fun x m => mon_step grace m x) [] h.

(** [n] is the number of objects with property [P]. *)
Definition number (n : N) (P : obj -> Prop) : Prop :=
  exists l, NoDup l /\ (forall o, In o l <-> P o) /\ n = nlen l.

(** * RTR sources *)
(** The record a data PDU announces or withdraws. *)
Definition pdu_sd (p : pdu) : list sd :=
  match p with
  | IPv4Prefix _ f m a x | IPv6Prefix _ f m a x => [VRP x a m f]
  | RouterKey _ f s a k => [BgpsecKey a s k f]
  | _ => []
  end.
(** How an object of an RTR server looks like. *)
Definition rid_obj (x : rid) : obj :=
  match x with RV p a m => OV p a m | RK a s k => OK (hex_encode s) a k end.
(** The records of a file as the server would understand them. *)
Definition obj_rid (o : obj) : option rid :=
  match o with
  | OV p a m => Some (RV p a m)
  | OK s a k => let (d, ok) := hex_decode s in if ok : bool then Some (RK a d k) else None
  end.
(** The map shows exactly the records of a set. *)
Definition mirrors (m : vmap) (R : rset) : Prop :=
  forall o, shown m o <-> exists x, R x /\ rid_obj x = o.
(** Records that can be sent to a client of version [w]. *)
Definition may_hold (w : N) (nokeys : bool) (x : rid) : Prop :=
  match x with RV _ _ _ => True | RK _ _ _ => w <> 0 /\ nokeys = false end.
Definition told (w : N) (nokeys : bool) (l : list sd) : rset := fun x => as_set l x /\ may_hold w nokeys x.

(** rtrmon watching a server over one session: the server is fed one non-empty set after the
    other and the monitor polls it, in version [w], before it is more than one serial
    behind.  The PDUs put on the transmit channel are handled by the monitor one by one. *)
Inductive watched (cfg : config) (s : N) (tr : transport) (keep : Z) : list (list sd) -> client -> mon -> Prop :=
| watch_start h now c a :
    Forall (Forall wf_sd) h -> get_current_sds (run (new_server keep) h) <> [] ->
    process (new_rtr_server cfg s) (run (new_server keep) h) (accept tr (new_rtr_server cfg s)) mon_first_query = Ok (c, a) ->
    watched cfg s tr keep h c (mon_pdus false new_mon (map (pair now) (queued a)))
| watch_update h c m new : watched cfg s tr keep h c m -> Forall wf_sd new -> new <> [] ->
    watched cfg s tr keep (h ++ [new]) c m
| watch_poll h c m now c' a : watched cfg s tr keep h c m ->
    (let n := sdCurrentSerial (run (new_server keep) h) in n = mo_serial m \/ n = mo_serial m + 1) ->
    process (new_rtr_server cfg s) (run (new_server keep) h) c (mon_poll (negotiated (new_rtr_server cfg s) 1) m) = Ok (c', a) ->
    watched cfg s tr keep h c' (mon_pdus false m (map (pair now) (queued a))).

(** * Thresholds *)
(** An optional sign and decimal digits, for a number of 32 bits. *)
Definition int_text (s : bytes) (z : Z) : Prop :=
  (-2147483648 <= z < 2147483648)%Z /\
  exists ds n, digits_of ds n /\
    ((s = ds /\ z = Z.of_N n) \/ (s = 43 :: ds /\ z = Z.of_N n) \/ (s = 45 :: ds /\ z = (- Z.of_N n)%Z)).
Fixpoint join_comma (l : list bytes) : bytes :=
  match l with [] => [] | [x] => x | x :: l' => x ++ [44] ++ join_comma l' end.
Definition sorts_int (sort : list Z -> list Z) : Prop :=
  forall l, Permutation (sort l) l /\ Sorted Z.le (sort l).

(** Maps that occur: of a file source after any rounds, or of an RTR source after any PDUs. *)
Definition good_pdu (p : pdu) : Prop := Forall wf_sd (pdu_sd p).
Inductive source : vmap -> Prop :=
| src_file grace h : Forall (fun x => plain_file (snd x)) h -> source (after grace h)
| src_rtr break l : Forall good_pdu (map snd l) -> source (mo_vrps (mon_pdus break new_mon l)).
