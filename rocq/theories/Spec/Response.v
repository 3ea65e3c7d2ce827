(** What a router must be answered (RFC 8210 sections 5, 7 and 8), independent of the
    client record and of the send functions of the model. *)
From Coq Require Import String.
From Verif Require Import Lib.Str Model.Conn.
Local Open Scope string_scope.
Local Open Scope list_scope.
Local Open Scope N_scope.

(** The data PDU for a record, in version [v]. *)
Definition data_pdu (v : N) (d : sd) : pdu :=
  match d with
  | VRP (mkPrefix (A6 x) b) a m f => IPv6Prefix v f m a (mkPrefix (A6 x) b)
  | VRP p a m f => IPv4Prefix v f m a p
  | BgpsecKey a s k f => RouterKey v f s a k
  end.
(** Router keys only exist in version 1, and may be disabled. *)
Definition may_send (v : N) (nokeys : bool) (d : sd) : bool :=
  match d with VRP _ _ _ _ => true | BgpsecKey _ _ _ _ => negb (v =? 0) && negb nokeys end.

(** A complete response: Cache Response, data, End of Data. *)
Definition response (v sess serial refresh retry expire : N) (nokeys : bool) (data : list sd) : list pdu :=
  [CacheResponse v sess] ++
  map (data_pdu v) (filter (may_send v nokeys) data) ++
  [EndOfData v sess serial refresh retry expire].

(** Session identifier of version [v] for a server whose random number was [seed]. *)
Definition session_of (seed v : N) : N := (seed + 100 * v) mod 65536.

(** A configured interval or its default. *)
Definition timer (configured default : N) : N := if configured =? 0 then default else configured.

(** Error reports. *)
Definition no_data (v : N) : pdu := ErrorReport v 2 [] (str "No data available").
Definition corrupt_data (v : N) : pdu :=
  ErrorReport v 0 [] (str "Session ID mismatch: client is desynchronized").
Definition bad_version (v : N) : pdu := ErrorReport v 4 [] (str "Bad protocol version").

(** Client states that occur: any sequence of PDUs on a connection that is still up,
    with arbitrary cache contents at each of them. *)
Inductive reach (srv : rtrserver) (tr : transport) : client -> Prop :=
| reach_accept : reach srv tr (accept tr srv)
| reach_pdu c cache p c' a : reach srv tr c -> c_connected c = true ->
    process srv cache c p = Ok (c', a) -> reach srv tr c'.

(** Is a PDU of version [v] acceptable for the client, and which version is then used. *)
Definition acceptable (c : client) (v : N) : Prop :=
  (v = 0 \/ v = 1) /\ (c_versionset c = true -> v = c_version c).
Definition negotiated (srv : rtrserver) (v : N) : N := N.min v (baseVersion srv).

(** Connections on which router keys are switched off in the configuration. *)
Definition keys_off (tr : transport) (cfg : config) : bool :=
  match tr with SSH => false | _ => cfg_disableBGPSec cfg end.

(** Error reports after which the connection must be dropped: corrupt data (0) and
    unsupported protocol version (4). *)
Definition fatal (q : pdu) : Prop :=
  match q with ErrorReport _ code _ _ => code = 0 \/ code = 4 | _ => False end.

(** Handling one PDU after the other, without any notion of reads. *)
Fixpoint session_pdus (srv : rtrserver) (c : client) (l : list (server * pdu)) : hres :=
  if negb (c_connected c) then Ok (c, [])
  else match l with
  | [] => Ok (c, [])
  | (cache, p) :: l' =>
      do r <- process srv cache c p;
      do r2 <- session_pdus srv (fst r) l'; Ok (fst r2, snd r ++ snd r2)
  end.
