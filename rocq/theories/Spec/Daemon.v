(** What stayrtr serves from day to day, as a whole: every history of refreshes, with the files it got. *)
From Verif Require Export Spec.Refresh.
From Coq Require Import List ZArith.
Import ListNotations.
Local Open Scope list_scope.

(** The last file and the last SLURM file of a history that could be read. *)
Definition file_now (e : env) (h : list input) : rpkilist := last_ok (e_decode e) empty_list (files h).
Definition slurm_now (e : env) (c : scfg) (h : list input) : option slurm :=
  last_ok (fun x => option_map Some (e_dslurm e x)) None (slurm_files c h).
(** It has a list of VRPs and is not too old. *)
Definition in_use (e : env) (c : scfg) (h : list input) (i : input) : Prop :=
  rl_roa (file_now e (h ++ [i])) <> None /\ recent e c (i_now i) (file_now e (h ++ [i])).
(** The time written in the file as "buildtime", if it can be read (the year 1 counts as no time). *)
Definition dated (e : env) (text : bytes) : option Z :=
  match e_ptime e text with Some t => if (t =? -62135596800 * 1000000000)%Z then None else Some t | None => None end.
(** Some router key was listed twice, at some time of the history. *)
Definition key_twice (e : env) (c : scfg) (h : list input) : Prop :=
  exists h1 h2, h = h1 ++ h2 /\ ~ no_dup_keys (slurm_now e c h1) (file_now e h1).

(** [day_by_day h S B]: after the refreshes [h], [S] is served; [B] is the build time of the file from
    which the set served was last changed. *)
Definition renewed (S S' : rid -> Prop) (B : option Z) (b : option Z) (B' : option Z) : Prop :=
  ((forall x, S x <-> S' x) -> B' = B) /\ (~ (forall x, S x <-> S' x) -> B' = b).
Inductive day_by_day (e : env) (c : scfg) : list input -> (rid -> Prop) -> option Z -> Prop :=
| db_start S : (forall x, ~ S x) -> day_by_day e c [] S (dated e [])
(** The first file, a new file, or a new SLURM file. *)
| db_new h i S B S' B' : day_by_day e c h S B -> in_use e c h i -> h = [] \/ news e c h i ->
    (forall x, S' x <-> content (i_proc i) (slurm_now e c (h ++ [i])) (file_now e (h ++ [i])) x) ->
    renewed S S' B (dated e (rl_build (file_now e (h ++ [i])))) B' -> day_by_day e c (h ++ [i]) S' B'
(** Nothing new: what has expired goes. *)
| db_again h i S B S' B' : day_by_day e c h S B -> in_use e c h i -> h <> [] -> ~ news e c h i ->
    (forall x, S' x <-> content (i_proc i) (slurm_now e c (h ++ [i])) (file_now e (h ++ [i])) x) ->
    renewed S S' B (dated e (rl_build (file_now e (h ++ [i])))) B' -> day_by_day e c (h ++ [i]) S' B'
(** ... or does not, when a router key was listed twice. *)
| db_twice h i S B S' : day_by_day e c h S B -> in_use e c h i -> h <> [] -> ~ news e c h i -> key_twice e c (h ++ [i]) ->
    (forall x, S' x <-> S x) -> day_by_day e c (h ++ [i]) S' B
(** A new file that is too old, as is the one before: nothing is served any more. *)
| db_drop h i S B S' b t : day_by_day e c h S B -> h <> [] -> news e c h i -> sc_check c = true ->
    rl_roa (file_now e (h ++ [i])) <> None -> built e (file_now e (h ++ [i])) = Some b -> (b + day < i_now i)%Z ->
    B = Some t -> (t + day < i_late i)%Z -> (forall x, ~ S' x) -> day_by_day e c (h ++ [i]) S' B
(** In every other case everything stays. *)
| db_keep h i S B S' : day_by_day e c h S B -> ~ in_use e c h i ->
    ~ (h <> [] /\ news e c h i /\ sc_check c = true /\ rl_roa (file_now e (h ++ [i])) <> None /\
       (exists b, built e (file_now e (h ++ [i])) = Some b /\ (b + day < i_now i)%Z) /\
       (exists t, B = Some t /\ (t + day < i_late i)%Z)) ->
    (forall x, S' x <-> S x) -> day_by_day e c (h ++ [i]) S' B.
