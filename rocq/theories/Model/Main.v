(** Model of what the three commands make of their flags: run of
    /repo/cmd/stayrtr/stayrtr.go, main of /repo/cmd/rtrdump/rtrdump.go and
    /repo/cmd/rtrmon/rtrmon.go.  An int is 64 bits wide.  Log level, HTTP addresses and paths,
    certificates and the SSH server's authentication (see SshAuth.v) are left out. *)
From Coq Require Import String.
From Verif Require Export Model.Concurrent Model.State Model.Fetch Model.Rtrdump.
From Verif Require Import Lib.Str.
Local Open Scope string_scope.
Local Open Scope list_scope.
Local Open Scope N_scope.

(** * stayrtr *)
(** Flags, stayrtr.go:55-93; for addresses and files: whether the flag is not empty. *)
Record flags := mkFlags {
  f_protocol : Z; f_rtr_refresh : Z; f_rtr_retry : Z; f_rtr_expire : Z;
  f_notifications : bool; f_enforce : bool; f_disable_bgpsec : bool;
  f_bind : bool; f_bind_tls : bool; f_bind_ssh : bool;
  f_checktime : bool; f_etag : bool; f_last_modified : bool;
  f_refresh : Z; f_maxconn : Z; f_slurm : bool; f_slurm_refresh : bool
}.
(** protoverToLib, stayrtr.go:155-158: 0 for what is not in the map. *)
Definition protover_to_lib (z : Z) : N := if (z =? 1)%Z then 1 else 0.
(** The ServerConfiguration of run, stayrtr.go:755-768.  MaxConn is not set. *)
Definition server_config (f : flags) : config :=
  mkConfig 0 (protover_to_lib (f_protocol f)) (f_enforce f) 3 (f_disable_bgpsec f)
    (to_u32 (f_rtr_refresh f)) (to_u32 (f_rtr_retry f)) (to_u32 (f_rtr_expire f)).
(** The fields of state set from flags, stayrtr.go:785-786, and the treatment of -slurm and
    -slurm.refresh, 832-850. *)
Definition daemon_config (f : flags) : scfg :=
  mkSC (f_notifications f) (f_checktime f) (f_slurm f) (f_slurm_refresh f).
(** fetchConfig, stayrtr.go:795-796. *)
Definition fetch_config (f : flags) : fcfg := mkFC (f_etag f) (f_last_modified f).
(** What becomes of the process: it exits at 808-810; it panics in time.NewTicker, called
    with a duration that is not positive (543, after the first load; nanoseconds in an
    int64); or it runs. stayrtr.go:720-1010, 543. *)
Inductive boot := Exits | Crashes | Runs (cfg : config) (sc : scfg) (fc : fcfg).
(** main and run, stayrtr.go:720-1010. *)
Definition stayrtr_main (f : flags) : boot :=
  if negb (f_bind f || f_bind_tls f || f_bind_ssh f) then Exits
  else if (iwrap 64 (f_refresh f * 1000000000) <=? 0)%Z then Crashes
  else Runs (server_config f) (daemon_config f) (fetch_config f).

(** ** TCP_NODELAY *)
(** EnableNODELAY in the ServerConfiguration, from -enable.nodelay, stayrtr.go:62, 767. *)
Definition config_nodelay (flag : bool) : bool := flag.
(** enableNODELAY in the Server made by NewServer, lib/server.go:172-216: the field is not
    mentioned, so it has its zero value. *)
Definition server_nodelay (configured : bool) : bool := false.
(** Whether TCP_NODELAY is set on an accepted socket: package net sets it, acceptClientTCP
    takes it off if the connection is a *net.TCPConn (one from tls.Listen is a *tls.Conn),
    acceptClientSSH leaves it, lib/server.go:489-495, 510-514. *)
Definition accepted_nodelay (enable : bool) (t : transport) : bool :=
  match t with TCP => enable | TLS | SSH => true end.
(** The above put together, stayrtr.go:62, 767, lib/server.go:172-216, 489-514. *)
Definition socket_nodelay (flag : bool) (t : transport) : bool :=
  accepted_nodelay (server_nodelay (config_nodelay flag)) t.

(** * Connecting as a client *)
(** What decides whether and how a client connects: tls.Config.InsecureSkipVerify, the
    fingerprint HostKeyCallback asks for ([None]: any), the user and the one method of
    authentication. The method of authentication, rtrdump.go:160-235, rtrmon.go:245-345. *)
Inductive cred := NoCred | Password (p : bytes) | Key (k : bytes).
(** Everything that decides about the connection, rtrdump.go:160-235, rtrmon.go:245-345. *)
Record dial := mkDial { dl_insecure : bool; dl_hostkey : option bytes; dl_user : bytes; dl_cred : cred }.
(** crypto/tls and x/crypto/ssh: a server is accepted if its certificate is valid for the
    name asked for, or nothing is verified; if HostKeyCallback returns no error.
    Used for lib/client.go:150-210. *)
Definition tls_accepts (d : dial) (valid : bool) : bool := dl_insecure d || valid.
(** x/crypto/ssh, used for lib/client.go:150-210: the fingerprint is the one asked for, or
    none is. *)
Definition ssh_accepts (d : dial) (fingerprint : bytes) : bool :=
  match dl_hostkey d with None => true | Some fp => beqb fingerprint fp end.

(** typeToId, rtrdump.go:57-61, with ClientSession.Start, lib/client.go:199-210: [None] is an
    error (an unknown name gives 0, which is none of the types, structs.go:60-63). *)
Definition dump_transport (s : bytes) : option transport :=
  if beqb s (str "plain") then Some TCP else if beqb s (str "tls") then Some TLS
  else if beqb s (str "ssh") then Some SSH else None.
(** Flags of one connection: rtrdump.go:42-49, rtrmon.go:59-65, 70-76, with the environment
    variables and key file they stand for. *)
Record cflags := mkCF {
  cf_tls_validate : bool; cf_ssh_validate : bool; cf_ssh_key_hash : bytes; cf_method : bytes;
  cf_user : bytes; cf_password : bytes; cf_password_env : bytes;
  cf_key : bytes; cf_key_file : bytes; cf_key_env : bytes
}.
(** authToId, rtrdump.go:62-66, rtrmon.go:88-92; [None]: log.Fatal. *)
Inductive method := MNone | MPassword | MKey.
(** The lookup in authToId, rtrdump.go:62-66, rtrmon.go:88-92; [None]: log.Fatal. *)
Definition auth_to_id (s : bytes) : option method :=
  if beqb s (str "none") then Some MNone
  else if beqb s (str "password") then Some MPassword
  else if beqb s (str "key") then Some MKey else None.
(** ssh.FingerprintSHA256 and the text compared with it: "SHA256:" and a hash.
    rtrdump.go:196-210, rtrmon.go:280-300. *)
Definition sha256_text (h : bytes) : bytes := str "SHA256:" ++ h.
(** The bytes of the private key, rtrdump.go:203-214, rtrmon.go:957-970, 989-1001. *)
Definition key_bytes (f : cflags) : bytes := if beqb (cf_key f) [] then cf_key_env f else cf_key_file f.
(** main of rtrdump, rtrdump.go:179-224. *)
Definition rtrdump_dial (f : cflags) : option dial :=
  match auth_to_id (cf_method f) with
  | None => None
  | Some m =>
      Some (mkDial (negb (cf_tls_validate f))
        (if cf_ssh_validate f then Some (sha256_text (cf_ssh_key_hash f)) else None)
        (cf_user f)
        (match m with
         | MNone => NoCred
         | MPassword => Password (if beqb (cf_password f) [] then cf_password_env f else cf_password f)
         | MKey => Key (key_bytes f)
         end))
  end.

(** Client, rtrmon.go:209-217. *)
Record mclient := mkMC {
  mc_validate_ssh : bool; mc_validate_cert : bool; mc_user : bytes; mc_server_key : bytes;
  mc_password : bytes; mc_auth : method; mc_key_bytes : bytes
}.
(** main of rtrmon for the primary, rtrmon.go:939-970: ValidateSSH, ValidateCert and
    SSHServerKey stay at their zero values (NewClient, 245-252). *)
Definition primary_client (f : cflags) : option mclient :=
  match auth_to_id (cf_method f) with
  | None => None
  | Some m => Some (mkMC false false (cf_user f) []
      (if beqb (cf_password f) [] then cf_password_env f else cf_password f) m
      (match m with MKey => key_bytes f | _ => [] end))
  end.
(** The same for the secondary, rtrmon.go:972-1002: the password comes from the environment
    when the method is "key" (985-987). *)
Definition secondary_client (f : cflags) : option mclient :=
  match auth_to_id (cf_method f) with
  | None => None
  | Some m => Some (mkMC false false (cf_user f) []
      (match m with MKey => cf_password_env f | _ => cf_password f end) m
      (match m with MKey => key_bytes f | _ => [] end))
  end.
(** Start, rtrmon.go:283-308. *)
Definition mclient_dial (c : mclient) : dial :=
  mkDial (negb (mc_validate_cert c))
    (if mc_validate_ssh c then Some (sha256_text (mc_server_key c)) else None)
    (mc_user c)
    (match mc_auth c with
     | MNone => NoCred
     | MPassword => Password (mc_password c)
     | MKey => Key (mc_key_bytes c)
     end).
