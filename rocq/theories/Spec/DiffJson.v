(** What a reader finds in diff.json: members by name, and the objects the elements show. *)
From Verif Require Import Lib.Str.
From Verif Require Export Model.MonJson Spec.MonRun Spec.Rfc8259 Spec.Auth.
Local Open Scope string_scope.
Local Open Scope list_scope.
Local Open Scope N_scope.

(** The object [j] has one member of this name, with this value; or none. *)
Definition member (name : string) (j v : json) : Prop :=
  exists l, j = JObj l /\ filter (fun m => beqb (fst m) (str name)) l = [(str name, v)].
Definition no_member (name : string) (j : json) : Prop :=
  exists l, j = JObj l /\ filter (fun m => beqb (fst m) (str name)) l = [].
(** An element of an array shows an object: a VRP by prefix (in a notation that is read as that
    prefix), AS number and maximum length; a router key by its identifier, AS number, and key in
    base64 (RFC 4648). *)
Definition displays (j : json) (o : obj) : Prop :=
  match o with
  | OV p a m => no_member "bgpsec" j /\ member "asn" j (JNum (dec a)) /\ member "max-length" j (JNum (dec m)) /\
      exists t, member "prefix" j (JStr t) /\ parse_prefix t = Some p
  | OK s a k => exists b, member "bgpsec" j b /\ member "asn" b (JNum (dec a)) /\ member "ski" b (JStr s) /\
      bytes_ok k /\ exists t, member "pubkey" b (JStr t) /\ base64 k t
  end.
(** With the times of an entry. *)
Definition dated (j : json) (e : mentry) : Prop :=
  member "first-seen" j (JNum (zdec (m_first e))) /\ member "last-seen" j (JNum (zdec (m_last e))) /\
  member "visible" j (JBool (m_visible e)).
(** What is said about a source. *)
Definition described (j : json) (url : bytes) (d : mdata) : Prop :=
  member "url" j (JStr url) /\ member "last-fetch" j (JNum (zdec (MonProc.md_last d))) /\
  member "serial" j (JNum (dec (MonProc.md_serial d))) /\ member "session-id" j (JNum (dec (MonProc.md_session d))) /\
  member "count" j (JNum (dec (MonProc.md_count d))) /\ member "rtr-refresh" j (JNum (dec (MonProc.md_refresh d))) /\
  member "rtr-retry" j (JNum (dec (MonProc.md_retry d))) /\ member "rtr-expire" j (JNum (dec (MonProc.md_expire d))).
(** Where things come from: files are texts, PDUs are decoded from bytes. *)
Definition from_outside (l : mlabel) : Prop :=
  match l with
  | LFetch _ _ (Listing vs bs) => exists room t d, reader room t = Some d /\ vs = roa_of d /\ bs = rl_brk d
  | LPdu _ _ p => exists b rest, bytes_ok b /\ decode 64 b = Ok (p, rest)
  | _ => True
  end.
