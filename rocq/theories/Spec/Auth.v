(** Lists of authorised keys. *)
From Verif Require Export Model.SshAuth.
Local Open Scope string_scope.
Local Open Scope list_scope.
Local Open Scope N_scope.

Definition alphabet : bytes := str "ABCDEFGHIJKLMNOPQRSTUVWXYZabcdefghijklmnopqrstuvwxyz0123456789+/".
Definition digit (d c : N) : Prop := nth_error alphabet (N.to_nat d) = Some c.
(** [t] is the Base64 text of [k] (RFC 4648, section 4). *)
Inductive base64 : bytes -> bytes -> Prop :=
| B_0 : base64 [] []
| B_1 a d1 d2 c1 c2 : digit d1 c1 -> digit d2 c2 -> a * 16 = d1 * 64 + d2 -> base64 [a] (c1 :: c2 :: str "==")
| B_2 a b d1 d2 d3 c1 c2 c3 : digit d1 c1 -> digit d2 c2 -> digit d3 c3 ->
    (a * 256 + b) * 4 = d1 * 4096 + d2 * 64 + d3 -> base64 [a; b] (c1 :: c2 :: c3 :: str "=")
| B_3 a b c d1 d2 d3 d4 c1 c2 c3 c4 k t : digit d1 c1 -> digit d2 c2 -> digit d3 c3 -> digit d4 c4 ->
    a * 65536 + b * 256 + c = d1 * 262144 + d2 * 4096 + d3 * 64 + d4 -> base64 k t ->
    base64 (a :: b :: c :: k) (c1 :: c2 :: c3 :: c4 :: t).

(** What may follow the key on its line: nothing, or white space and anything. *)
Definition ends (rest : bytes) : Prop := match rest with [] => True | c :: _ => c = 32 \/ c = 9 \/ c = 13 end.
Definition no_space (typ : bytes) : Prop := ~ In 32 typ.
(** The line for a key, as in authorized_keys. *)
Definition key_line (typ blob line : bytes) : Prop :=
  exists t rest, line = typ ++ 32 :: t ++ rest /\ base64 blob t /\ ends rest.
(** The lines of a text. *)
Fixpoint join_lines (ls : list bytes) : bytes :=
  match ls with [] => [] | [l] => l | l :: r => l ++ 10 :: join_lines r end.
Definition lines_of (text : bytes) (ls : list bytes) : Prop :=
  ls <> [] /\ text = join_lines ls /\ Forall (fun l => ~ In 10 l) ls.

(** A key is a number of fields, fixed by its type, each with its length in front (RFC 4253, section 6.6). *)
Definition key_blob (nfields : bytes -> nat) (typ blob : bytes) : Prop :=
  bytes_ok blob /\ exists fs, length fs = nfields typ /\ Forall (fun f => nlen f < 4294967296) fs /\ blob = concat (map (fun f => be 4 (nlen f) ++ f) fs).
