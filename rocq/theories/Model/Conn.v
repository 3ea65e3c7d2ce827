(** Model of the server side of one RTR connection, /repo/lib/server.go: NewServer,
    the accept functions, Client.Start and the query handlers.  One received PDU is
    handled in one step; the interleavings with other goroutines are in the Conc files.
    Log calls are dropped: String() only reads the fields. *)
From Coq Require Import String.
From Verif Require Export Model.Cache.
From Verif Require Import Lib.Str.
Local Open Scope string_scope.
Local Open Scope list_scope.
Local Open Scope N_scope.

(** ServerConfiguration, lib/server.go:153-170 (SessId is never read). *)
Record config := mkConfig {
  cfg_maxConn : Z; cfg_version : N; cfg_enforce : bool; cfg_keep : Z;
  cfg_disableBGPSec : bool;
  cfg_refresh : N; cfg_retry : N; cfg_expire : N
}.

(** The part of Server that does not change, lib/server.go:123-151. *)
Record rtrserver := mkRtr {
  baseVersion : N; sessId : list N; s_enforce : bool; s_disableBGPSec : bool;
  s_refresh : N; s_retry : N; s_expire : N; s_maxconn : Z
}.

(** NewServer, lib/server.go:172-217.  [s] is the result of GenerateSessionId
    (17-19): any uint16.  The loop 175-177 is the map over 0..ProtocolVersion. *)
Definition new_rtr_server (cfg : config) (s : N) : rtrserver :=
  let sessids := map (fun i => (s + (100 * N.of_nat i) mod 65536) mod 65536)
                     (seq 0 (N.to_nat (cfg_version cfg) + 1)) in
  let dflt x d := if x =? 0 then d else x in
  mkRtr (cfg_version cfg) sessids (cfg_enforce cfg) (cfg_disableBGPSec cfg)
        (dflt (cfg_refresh cfg) 3600) (dflt (cfg_retry cfg) 600) (dflt (cfg_expire cfg) 7200)
        (cfg_maxConn cfg).

(** GetSessionId, lib/server.go:291-293: an index expression. *)
Definition get_session_id {E} (srv : rtrserver) (version : N) : res N E :=
  match nth_error (sessId srv) (N.to_nat version) with Some s => Ok s | None => Panic end.

(** Client, lib/server.go:658-682, without the connection and the channels. *)
Record client := mkClient {
  c_connected : bool; c_version : N; c_versionset : bool; c_curserial : N;
  c_enforce : bool; c_disableVC : bool;
  c_refresh : N; c_retry : N; c_expire : N; c_noBGPsec : bool
}.

(** ClientFromConn, lib/server.go:639-649, followed by [connected = true] of Start
    (758). *)
Definition client_from_conn : client :=
  mkClient true 0 false 0 false false 0 0 0 false.

(** SetVersion, lib/server.go:710-713. *)
Definition c_set_version (v : N) (c : client) : client :=
  mkClient (c_connected c) v true (c_curserial c) (c_enforce c) (c_disableVC c)
           (c_refresh c) (c_retry c) (c_expire c) (c_noBGPsec c).
(** SetIntervals, lib/server.go:704-708. *)
Definition c_set_intervals (r t e : N) (c : client) : client :=
  mkClient (c_connected c) (c_version c) (c_versionset c) (c_curserial c) (c_enforce c) (c_disableVC c)
           r t e (c_noBGPsec c).
(** DisableBGPsec, lib/server.go:700-702. *)
Definition c_disable_bgpsec (c : client) : client :=
  mkClient (c_connected c) (c_version c) (c_versionset c) (c_curserial c) (c_enforce c) (c_disableVC c)
           (c_refresh c) (c_retry c) (c_expire c) true.
(** Assignment to c.curserial, lib/server.go:803-806. *)
Definition c_set_curserial (n : N) (c : client) : client :=
  mkClient (c_connected c) (c_version c) (c_versionset c) n (c_enforce c) (c_disableVC c)
           (c_refresh c) (c_retry c) (c_expire c) (c_noBGPsec c).
(** Assignment to c.connected in Disconnect, lib/server.go:1021. *)
Definition c_set_disconnected (c : client) : client :=
  mkClient false (c_version c) (c_versionset c) (c_curserial c) (c_enforce c) (c_disableVC c)
           (c_refresh c) (c_retry c) (c_expire c) (c_noBGPsec c).

(** How the client connects. lib/server.go:488-575. *)
Inductive transport := TCP | TLS | SSH.

(** acceptClientTCP, lib/server.go:489-508 (also used for TLS, 620), and the client
    part of acceptClientSSH, 554-560, which does not disable BGPsec. *)
Definition accept (tr : transport) (srv : rtrserver) : client :=
  let c := client_from_conn in
  let c := if s_enforce srv then c_set_version (baseVersion srv) c else c in
  let c := c_set_intervals (s_refresh srv) (s_retry srv) (s_expire srv) c in
  match tr with
  | TCP | TLS => if s_disableBGPSec srv then c_disable_bgpsec c else c
  | SSH => c
  end.

(** What a client handler does to the outside: put a PDU on the client's transmit
    channel, or call Disconnect. lib/server.go:1011-1032. *)
Inductive act := Queue (p : pdu) | Disc.

(** SendPDU, lib/server.go:1015-1018. *)
Definition send_pdu (c : client) (p : pdu) : list act := [Queue (set_version (c_version c) p)].
(** Disconnect, lib/server.go:1020-1032 (its effect on the server's client list and on
    the sender goroutine is modelled in the Conc files). *)
Definition disconnect (c : client) : client * list act := (c_set_disconnected c, [Disc]).

(** SendCacheReset, SendInternalError, SendNoDataError, SendCorruptData,
    SendWrongVersionError, lib/server.go:936-971. *)
Definition send_cache_reset (c : client) : list act := send_pdu c (CacheReset 0).
(** lib/server.go:941-947. *)
Definition send_internal_error (c : client) : list act :=
  send_pdu c (ErrorReport 0 PDU_ERROR_INTERNALERR [] (str "Unknown internal error")).
(** lib/server.go:949-955. *)
Definition send_no_data_error (c : client) : list act :=
  send_pdu c (ErrorReport 0 PDU_ERROR_NODATA [] (str "No data available")).
(** lib/server.go:957-963. *)
Definition send_corrupt_data (c : client) : list act :=
  send_pdu c (ErrorReport 0 PDU_ERROR_CORRUPTDATA [] (str "Session ID mismatch: client is desynchronized")).
(** lib/server.go:965-971. *)
Definition send_wrong_version_error (c : client) : list act :=
  send_pdu c (ErrorReport 0 PDU_ERROR_BADPROTOVERSION [] (str "Bad protocol version")).

(** SendData, lib/server.go:974-1009. *)
Definition send_data (c : client) (d : sd) : list act :=
  match d with
  | VRP p a m f =>
      if is6 (p_addr p) then send_pdu c (IPv6Prefix 0 f m a p)
      else if is4 (p_addr p) then send_pdu c (IPv4Prefix 0 f m a p)
      else []
  | BgpsecKey a s k f =>
      if (c_version c =? 0) || c_noBGPsec c then []
      else send_pdu c (RouterKey (c_version c) f s a k)
  end.

(** SendSDs, lib/server.go:917-934. *)
Definition send_sds (c : client) (sessionId serial : N) (data : list sd) : list act :=
  send_pdu c (CacheResponse 0 sessionId) ++
  flat_map (send_data c) data ++
  send_pdu c (EndOfData 0 sessionId serial (c_refresh c) (c_retry c) (c_expire c)).

(** Handlers return the new client, the actions in order, or Panic.
    lib/server.go:61-121, 450-479, 719-742. *)
Definition hres := res (client * list act) Empty_set.

(** DefaultRTREventHandler.RequestCache, lib/server.go:61-86, through Server.RequestCache
    (469-473).  GetCurrentSDs always reports [true], so SendInternalError is not reached. *)
Definition request_cache (srv : rtrserver) (cache : server) (c : client) : hres :=
  do sessionId <- get_session_id srv (c_version c);
  let '(serial, valid) := get_current_serial cache in
  if negb valid then Ok (c, send_no_data_error c)
  else Ok (c, send_sds c sessionId serial (get_current_sds cache)).

(** DefaultRTREventHandler.RequestNewVersion, lib/server.go:88-121, through
    Server.RequestNewVersion (475-479). *)
Definition request_new_version (srv : rtrserver) (cache : server) (c : client) (sessionId serialNumber : N) : hres :=
  do serverSessionId <- get_session_id srv (c_version c);
  if negb (sessionId =? serverSessionId) then
    let '(c', a) := disconnect c in Ok (c', send_corrupt_data c ++ a)
  else
    let '(serial, valid) := get_current_serial cache in
    if negb valid then Ok (c, send_no_data_error c)
    else match get_sds_serial_diff cache serialNumber with
         | Err _ => Ok (c, send_cache_reset c)
         | Ok data => Ok (c, send_sds c sessionId serial data)
         | Panic => Panic
         end.

(** checkVersion, lib/server.go:719-729. *)
Definition check_version (c : client) (newversion : N) : client * list act :=
  if (negb (c_versionset c) || (newversion =? c_version c)) && ((newversion =? 1) || (newversion =? 0))
  then (c_set_version newversion c, [])
  else let '(c', a) := disconnect c in (c', send_wrong_version_error c ++ a).

(** Server.HandlePDU, lib/server.go:450-467.  The inner handler (metrics) does not act
    on the client. *)
Definition server_handle_pdu (srv : rtrserver) (c : client) : client * list act :=
  let '(c1, a1) :=
    if s_enforce srv && negb (c_version c =? baseVersion srv)
    then let '(c', a) := disconnect c in (c', send_wrong_version_error c ++ a)
    else (c, []) in
  let c2 := if baseVersion srv <? c_version c1 then c_set_version (baseVersion srv) c1 else c1 in
  (c2, a1).

(** passSimpleHandler, lib/server.go:731-742. *)
Definition pass_simple_handler (srv : rtrserver) (cache : server) (c : client) (p : pdu) : hres :=
  match p with
  | SerialQuery _ sess serial => request_new_version srv cache c sess serial
  | ResetQuery _ => request_cache srv cache c
  | _ => Ok (c, [])
  end.

(** The body of the read loop after decoding, lib/server.go:786-812. *)
Definition process (srv : rtrserver) (cache : server) (c : client) (dec : pdu) : hres :=
  let '(c1, a1) := if c_disableVC c then (c, []) else check_version c (get_version dec) in
  let '(c2, a2) :=
    if c_enforce c1 then
      if negb (is_correct_pdu_version dec (c_version c1))
      then let '(c', a) := disconnect c1 in (c', send_wrong_version_error c1 ++ a)
      else (c1, [])
    else (c1, []) in
  let c3 := match dec with SerialQuery _ _ serial => c_set_curserial serial c2 | _ => c2 end in
  let '(c4, a4) := server_handle_pdu srv c3 in
  do r <- pass_simple_handler srv cache c4 dec;
  Ok (fst r, a1 ++ a2 ++ a4 ++ snd r).

(** One iteration of the read loop, lib/server.go:766-813.  [chunk] is what Read
    returned (at most 8000 bytes); the empty list stands for an error or zero bytes.
    The boolean tells whether Start returned (774).  64-bit int. *)
Definition on_read (srv : rtrserver) (cache : server) (c : client) (chunk : bytes)
  : res (client * list act * bool) Empty_set :=
  match chunk with
  | [] => let '(c', a) := disconnect c in Ok (c', a, true)
  | _ =>
    match decode_bytes 64 chunk with
    | Err _ => let '(c', a) := disconnect c in Ok (c', a, false)
    | Panic => Panic
    | Ok dec => do r <- process srv cache c dec; Ok (fst r, snd r, false)
    end
  end.

(** The read loop: the list of reads, each with the state of the cache at that time.
    lib/server.go:766-813. *)
Fixpoint session (srv : rtrserver) (c : client) (reads : list (server * bytes)) : hres :=
  if negb (c_connected c) then Ok (c, [])
  else match reads with
  | [] => Ok (c, [])
  | (cache, chunk) :: reads' =>
      do r <- on_read srv cache c chunk;
      let '(c', a, stop) := r in
      if stop : bool then Ok (c', a)
      else do r2 <- session srv c' reads'; Ok (fst r2, a ++ snd r2)
  end.
