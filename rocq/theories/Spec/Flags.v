(** What the flags mean, in the words of their help texts. *)
From Coq Require Import String.
From Verif Require Import Lib.Str Model.Main.
Local Open Scope string_scope.
Local Open Scope list_scope.
Local Open Scope N_scope.

(** An interval that can be sent: positive and 32 bits wide. *)
Definition interval (z : Z) : Prop := (0 < z < 4294967296)%Z.
(** "RTR protocol version": there are two. *)
Definition protocol (z : Z) : Prop := (z = 0 \/ z = 1)%Z.

(** "Validate TLS", "Validate SSH key": with the flag set a server is accepted if its
    certificate is valid, if its key has the given hash; without it always. *)
Definition right_server (f : cflags) (valid : bool) (fingerprint : bytes) : Prop * Prop :=
  ((cf_tls_validate f = true -> valid = true),
   (cf_ssh_validate f = true -> fingerprint = str "SHA256:" ++ cf_ssh_key_hash f)).
(** "SSH password (if blank, will use envvar)", "SSH key file (if blank, will use envvar)":
    the credential for a method, [None] for an unknown method. *)
Definition credential (f : cflags) (c : cred) : Prop :=
  (cf_method f = str "none" /\ c = NoCred) \/
  (cf_method f = str "password" /\
     (cf_password f <> [] /\ c = Password (cf_password f) \/ cf_password f = [] /\ c = Password (cf_password_env f))) \/
  (cf_method f = str "key" /\
     (cf_key f <> [] /\ c = Key (cf_key_file f) \/ cf_key f = [] /\ c = Key (cf_key_env f))).
Definition known_method (f : cflags) : Prop :=
  cf_method f = str "none" \/ cf_method f = str "password" \/ cf_method f = str "key".
