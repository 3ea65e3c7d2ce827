(** Which page a request for a path gets, in terms of the names between the slashes. *)
From Coq Require Import String.
From Verif Require Export Model.HttpMux.
From Verif Require Import Lib.Str.
From Coq Require Import List.
Local Open Scope string_scope.
Local Open Scope list_scope.
Local Open Scope N_scope.

(** The path with these names, with or without a slash at the end. *)
Definition path_text (ns : list bytes) (slash : bool) : bytes :=
  concat (map (cons 47) ns) ++ (if slash then [47] else []).
(** Names that cannot be taken for anything else: not empty, no dots, no slash, no brace, no
    blank, no percent sign. *)
Definition name_ok (n : bytes) : Prop :=
  n <> [] /\ n <> str "." /\ n <> str ".." /\
  Forall (fun c => c <> 47 /\ c <> 123 /\ c <> 32 /\ c <> 9 /\ c <> 37) n.
Definition plain_path (s : bytes) (ns : list bytes) (slash : bool) : Prop :=
  Forall name_ok ns /\ (ns <> [] \/ slash = true) /\ s = path_text ns slash.

(** A percent-encoded name and what it stands for. *)
Inductive says : bytes -> bytes -> Prop :=
| says_nil : says [] []
| says_byte c s t : c <> 37 -> says s t -> says (c :: s) (c :: t)
| says_hex a b x y s t : hexval a = Some x -> hexval b = Some y -> says s t -> says (37 :: a :: b :: s) (16 * x + y :: t).
(** Paths in normal form: no empty names, no dots. *)
Definition neat_name (n : bytes) : Prop := n <> [] /\ n <> str "." /\ n <> str ".." /\ ~ In 47 n.
Definition neat (q : bytes) : Prop :=
  exists qs slash, Forall neat_name qs /\ (qs <> [] \/ slash = true) /\ q = path_text qs slash.
(** The names a path in normal form asks for. *)
Definition asked (q : bytes) (ws : list bytes) (slash : bool) : Prop :=
  exists qs, Forall2 says qs ws /\ Forall neat_name qs /\ (qs <> [] \/ slash = true) /\ q = path_text qs slash.

(** A page at a path; one whose path ends in a slash is also for everything below. *)
Definition route := (list bytes * bool * page)%type.
Definition below (ns ws : list bytes) (slash : bool) : Prop :=
  exists rest, ws = ns ++ rest /\ (rest <> [] \/ slash = true).
(** What a request for the names [ws] has to get: the page of exactly this path; else, without
    a slash at the end, a redirection if there is one with the slash; else the page of the
    longest path it is below; else 404. *)
Inductive expects (routes : list route) (ws : list bytes) : bool -> answer page -> Prop :=
| ex_exact h : In (ws, false, h) routes -> expects routes ws false (Serve h)
| ex_slash h : (forall h', ~ In (ws, false, h') routes) -> In (ws, true, h) routes ->
    expects routes ws false (Moved (path_text ws true))
| ex_below slash ns h : (slash = false -> forall t h', ~ In (ws, t, h') routes) ->
    In (ns, true, h) routes -> below ns ws slash ->
    (forall ns' h', In (ns', true, h') routes -> below ns' ws slash -> (length ns' <= length ns)%nat) ->
    expects routes ws slash (Serve h)
| ex_none slash : (slash = false -> forall t h', ~ In (ws, t, h') routes) ->
    (forall ns h, In (ns, true, h) routes -> ~ below ns ws slash) ->
    expects routes ws slash NotFound.
