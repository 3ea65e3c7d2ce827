(** What a client of an RTR server must make of a stream of PDUs, and what a reader of a
    JSON file makes of its entries.  Independent of the handlers of the model. *)
From Verif Require Export Spec.Sets Spec.Wire.
From Verif Require Import Model.Json Model.Conn Spec.Response.

(** The version of a session opened with version [v0], after the PDUs [seen]. *)
Definition version_after (v0 : N) (seen : list pdu) : N :=
  if (v0 =? 1) && existsb (fun p => get_version p =? 0) seen then 0 else v0.

(** Data PDUs, their record and their flag. *)
Definition is_data (p : pdu) : bool :=
  match p with IPv4Prefix _ _ _ _ _ | IPv6Prefix _ _ _ _ _ | RouterKey _ _ _ _ _ => true | _ => false end.
Definition flag_of (p : pdu) : N :=
  match p with IPv4Prefix _ f _ _ _ | IPv6Prefix _ f _ _ _ | RouterKey _ f _ _ _ => f | _ => 0 end.
Definition vrp_of (p : pdu) : list rid :=
  match p with IPv4Prefix _ _ m a x | IPv6Prefix _ _ m a x => [RV x a m] | _ => [] end.
Definition key_of (p : pdu) : list rid :=
  match p with RouterKey _ _ s a k => [RK a s k] | _ => [] end.
(** The PDUs that announce a record. *)
Definition announced (l : list pdu) : list pdu := filter (fun p => flag_of p =? 1) l.

(** A response: Cache Response, data, End of Data. *)
Definition answer (v sess serial refresh retry expire : N) (data : list pdu) : list pdu :=
  [CacheResponse v sess] ++ data ++ [EndOfData v sess serial refresh retry expire].

(** The records a JSON file lists; [None] is an entry that cannot be read. *)
Definition file_vrp (v : vrpjson) : option rid :=
  match parse_prefix (vj_prefix v), get_asn2 (vj_asn v) with
  | Some p, Some a => Some (RV p a (vj_length v))
  | _, _ => None
  end.
Definition file_key (b : brkjson) : option rid :=
  let (ski, ok) := hex_decode (bj_ski b) in
  if ok : bool then Some (RK (bj_asn b) ski (bj_pubkey b)) else None.

(** Running the handler over the PDUs delivered. *)
Definition run_handler {H} (handle : H -> pdu -> H * bool) (h : H) (ps : list pdu) : H :=
  fold_left (fun h p => fst (handle h p)) ps h.
(** No call of Disconnect while the PDUs are handled. *)
Fixpoint keeps {H} (handle : H -> pdu -> H * bool) (h : H) (ps : list pdu) : Prop :=
  match ps with [] => True | p :: l => snd (handle h p) = false /\ keeps handle (fst (handle h p)) l end.

(** What the sender goroutine writes for the PDUs queued. *)
Definition queued (a : list act) : list pdu :=
  flat_map (fun x => match x with Queue p => [p] | Disc => [] end) a.
(** Records of a cache, and those a client of version [w] can be told. *)
Definition vrp_ids (l : list sd) : list rid :=
  flat_map (fun d => match d with VRP p a m _ => [RV p a m] | _ => [] end) l.
Definition key_ids (w : N) (nokeys : bool) (l : list sd) : list rid :=
  flat_map (fun d => match d with
    | BgpsecKey a s k _ => if may_send w nokeys d && (nlen s =? 20) then [RK a s k] else []
    | _ => [] end) l.
(** Router keys that fit the wire format. *)
Definition key_fits (d : sd) : Prop :=
  match d with BgpsecKey _ s k _ => nlen s = 20 -> 4 <= nlen k /\ 32 + nlen k <= 262168 | _ => True end.
