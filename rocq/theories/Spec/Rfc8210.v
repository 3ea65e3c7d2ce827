(** PDUs that RFC 8210 (and, for version 0, RFC 6810) lets a cache send, by absolute offsets
    into the byte string. *)
From Verif Require Import Model.Concurrent Model.State Spec.Wire Spec.Refresh Spec.Sets.
Local Open Scope list_scope.
Local Open Scope N_scope.

(** A Prefix PDU, sections 5.6 and 5.7: reserved bytes zero, flags 0 or 1, the prefix not longer
    than the longest prefix allowed, and that not longer than an address. *)
Definition prefix_frame (b : bytes) (size : N) : Prop :=
  fld b 2 2 = 0 /\ fld b 8 1 <= 1 /\ fld b 9 1 <= fld b 10 1 /\ fld b 10 1 <= size /\ fld b 11 1 = 0.

(** The payload, by type. *)
Inductive from_cache (b : bytes) : Prop :=
| F_notify : w_type b = 0 -> w_len b = 12 -> from_cache b                                    (* 5.2 *)
| F_response : w_type b = 3 -> w_len b = 8 -> from_cache b                                   (* 5.5 *)
| F_v4 : w_type b = 4 -> w_len b = 20 -> prefix_frame b 32 -> from_cache b                   (* 5.6 *)
| F_v6 : w_type b = 6 -> w_len b = 32 -> prefix_frame b 128 -> from_cache b                  (* 5.7 *)
| F_end : w_type b = 7 -> w_len b = (if w_ver b =? 0 then 12 else 24) -> from_cache b        (* 5.8 *)
| F_reset : w_type b = 8 -> w_len b = 8 -> fld b 2 2 = 0 -> from_cache b                     (* 5.9 *)
| F_key : w_type b = 9 -> w_ver b = 1 -> 32 <= w_len b -> fld b 2 1 <= 1 -> fld b 3 1 = 0 -> from_cache b (* 5.10 *)
| F_error (lp lt : N) : w_type b = 10 -> w_sess b <= 7 -> lp = fld b 8 4 -> lt = fld b (12 + N.to_nat lp) 4 ->
    w_len b = 16 + lp + lt -> Forall (fun x => x < 128) (skipn (16 + N.to_nat lp) b) -> from_cache b.     (* 5.11 *)

(** One PDU, nothing before and nothing behind it. *)
Definition valid_frame (b : bytes) : Prop := bytes_ok b /\ w_ver b <= 1 /\ w_len b = nlen b /\ from_cache b.

(** The server of the daemon: the cache that a query finds is the one after some refreshes.  The
    length of a PDU is a number of 32 bits, so public keys must not be longer than that. *)
Definition short_keys (e : env) (c : scfg) (h : list input) : Prop :=
  forall h1 h2 a s k, h = h1 ++ h2 -> served (State.after e c h1) (RK a s k) -> nlen k + 32 < 4294967296.
Definition fed (e : env) (c : scfg) (l : label) : Prop :=
  match l with
  | LRead _ cache _ => exists h, cache = st_server (State.after e c h) /\ short_keys e c h
  | LNotify serial => u32 serial
  | _ => True
  end.
