(** Model of the SSH authentication set up by run, /repo/cmd/stayrtr/stayrtr.go:897-963.

    The SSH library (golang.org/x/crypto/ssh) is modelled as far as it decides: method "none"
    is accepted when NoClientAuth is set, "password" and "publickey" when the callback is set
    and returns no error; that the client has the private key is checked by the library.
    Logging is left out. *)
From Verif Require Export Lib.Str Model.Go.
Local Open Scope string_scope.
Local Open Scope list_scope.
Local Open Scope N_scope.

(** Flags, stayrtr.go:73-79, and the environment variables and file they stand for. *)
Record sshflags := mkSsh {
  sf_password : bool; sf_user : bytes; sf_pwflag : bytes; sf_pwenv : bytes;
  sf_key : bool; sf_bypass : bool; sf_keysflag : bytes; sf_keysfile : bytes; sf_keysenv : bytes
}.

(** One digit of base64.RawStdEncoding, used by stayrtr.go:915-963. *)
Definition b64char (n : N) : N :=
  if n <? 26 then 65 + n else if n <? 52 then 71 + n else if n <? 62 then n - 4 else if n =? 62 then 43 else 47.
(** base64.RawStdEncoding.EncodeToString of the standard library (stayrtr.go:915-963). *)
Fixpoint b64raw (l : bytes) : bytes :=
  match l with
  | [] => []
  | [a] => [b64char (a / 4); b64char (a mod 4 * 16)]
  | [a; b] => [b64char (a / 4); b64char (a mod 4 * 16 + b / 16); b64char (b mod 16 * 4)]
  | a :: b :: c :: r =>
      b64char (a / 4) :: b64char (a mod 4 * 16 + b / 16) :: b64char (b mod 16 * 4 + c / 64) :: b64char (c mod 64) :: b64raw r
  end.
(** strings.Split(_, "\n"). Standard library; stayrtr.go:925-963. *)
Fixpoint split_lines (l : bytes) : list bytes :=
  match l with
  | [] => [[]]
  | c :: r =>
      if c =? 10 then [] :: split_lines r
      else match split_lines r with [] => [[c]] | x :: xs => (c :: x) :: xs end
  end.
(** strings.HasPrefix. Standard library; stayrtr.go:925-963. *)
Fixpoint has_prefix (l p : bytes) : bool :=
  match p, l with
  | [], _ => true
  | x :: p', y :: l' => (x =? y) && has_prefix l' p'
  | _, [] => false
  end.

(** ssh.ServerConfig, stayrtr.go:897-963: NoClientAuth and the callbacks (true: no error). *)
Record sshconfig := mkSC {
  sc_noauth : bool;
  sc_passwordcb : option (bytes -> bytes -> bool);
  sc_keycb : option (bytes -> bytes -> bool)
}.
(** stayrtr.go:897-963. *)
Definition ssh_setup (f : sshflags) : sshconfig :=
  mkSC (negb (sf_key f || sf_password f))
    (if sf_password f then
       let password := if beqb (sf_pwflag f) [] then sf_pwenv f else sf_pwflag f in
       Some (fun user supplied => negb (negb (beqb user (sf_user f)) || negb (beqb supplied password)))
     else None)
    (if sf_key f then
       let text := if beqb (sf_keysflag f) [] then sf_keysenv f else sf_keysfile f in
       Some (fun typ blob =>
         sf_bypass f ||
         existsb (fun k => negb (beqb k []) && has_prefix k (typ ++ 32 :: b64raw blob)) (split_lines text))
     else None).

(** What a client may try.
    golang.org/x/crypto/ssh calls the callbacks of stayrtr.go:897-963. *)
Inductive attempt := ANone | APassword (p : bytes) | AKey (typ blob : bytes).
(** The library's decision with the callbacks of stayrtr.go:897-963. *)
Definition let_in (f : sshflags) (user : bytes) (a : attempt) : bool :=
  let c := ssh_setup f in
  match a with
  | ANone => sc_noauth c
  | APassword p => match sc_passwordcb c with Some cb => cb user p | None => false end
  | AKey typ blob => match sc_keycb c with Some cb => cb typ blob | None => false end
  end.
