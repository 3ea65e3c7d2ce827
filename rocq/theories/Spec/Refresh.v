(** What the server should serve after a history of refreshes. *)
From Verif Require Export Model.State Spec.Sets Spec.History Spec.Input.

Definition wf_list (d : rpkilist) : Prop := Forall wf_vj (roa_of d) /\ Forall wf_bj (rl_brk d).
(** The libraries: what is assumed of them. *)
Definition wf_env (e : env) : Prop :=
  sorts (e_sort e) /\ (forall x d, e_decode e x = Some d -> wf_list d) /\ (forall x s, e_dslurm e x = Some s -> wf_slurm s).

(** The records a list of entries stands for at second [now] (compare C34, C37). *)
Definition listed (now : Z) (vs : list vrpjson) (bs : list brkjson) (x : rid) : Prop :=
  (exists v p asn, In v vs /\ entry_ok now v p asn /\ x = RV p asn (vj_length v)) \/
  (exists b ski, In b bs /\ fresh now (bj_expires b) /\ is_hex_of (bj_ski b) ski /\ x = RK (bj_asn b) ski (bj_pubkey b)).

(** The records file [d] with SLURM file [sl] stands for at time [now] (the effect of
    [filter_assert] is the subject of C39, C40, C41). *)
Definition content (now : Z) (sl : option slurm) (d : rpkilist) (x : rid) : Prop :=
  match sl with
  | None => listed (now / 1000000000) (roa_of d) (rl_brk d) x
  | Some s => listed (now / 1000000000) (fst (filter_assert s (roa_of d) (rl_brk d)))
                                    (snd (filter_assert s (roa_of d) (rl_brk d))) x
  end.

(** Is [x] served? *)
Definition served (s : state) (x : rid) : Prop := In x (ids (get_current_sds (st_server s))).
Definition serial_of (s : state) : N := fst (get_current_serial (st_server s)).

(** When a file was built, in nanoseconds since 1970: "generated" if it is there, else
    "buildtime". *)
Definition built (e : env) (d : rpkilist) : option Z :=
  match rl_gen d with Some g => Some (g * 1000000000)%Z | None => e_ptime e (rl_build d) end.
Definition day : Z := 86400 * 1000000000.
(** Recent enough to be used. *)
Definition recent (e : env) (c : scfg) (now : Z) (d : rpkilist) : Prop :=
  sc_check c = true -> exists b, built e d = Some b /\ (now <= b + day)%Z.

(** The last file in a history that could be decoded. *)
Fixpoint last_ok {A} (dec : bytes -> option A) (start : A) (l : list (option bytes)) : A :=
  match l with
  | [] => start
  | None :: l' => last_ok dec start l'
  | Some x :: l' => last_ok dec (match dec x with Some d => d | None => start end) l'
  end.
(** Did the fetch bring something new that could be decoded: not what was fetched last. *)
Fixpoint last_some (l : list (option bytes)) (acc : option bytes) : option bytes :=
  match l with [] => acc | None :: l' => last_some l' acc | Some x :: l' => last_some l' (Some x) end.
Definition is_new {A} (dec : bytes -> option A) (past : list (option bytes)) (f : option bytes) : Prop :=
  exists x d, f = Some x /\ dec x = Some d /\ last_some past None <> Some x.

(** No two of the files fetched have the same hash and different content. *)
Definition no_collision (e : env) (l : list (option bytes)) : Prop :=
  forall x y, In (Some x) l -> In (Some y) l -> e_sha e x = e_sha e y -> x = y.

(** The clock does not run backwards, neither within a refresh nor from one to the next. *)
Definition ordered_h (h : list input) : Prop :=
  Forall (fun i => (i_got i <= i_now i <= i_proc i)%Z /\ (i_proc i <= i_late i)%Z) h /\
  forall h1 i j h2, h = h1 ++ i :: j :: h2 -> (i_late i <= i_got j)%Z.

(** The SLURM files fetched in a history. *)
Definition slurm_files (c : scfg) (h : list input) : list (option bytes) :=
  if sc_slurm c then if sc_slurm_refresh c then map i_slurm h else firstn 1 (map i_slurm h) else [].
Definition files (h : list input) : list (option bytes) := map i_file h.

(** The last refresh of the history [h ++ [i]]: state before it and what it does. *)
Definition turn (e : env) (c : scfg) (h : list input) (i : input) : state * list N :=
  match h with [] => first_refresh e c i | _ => refresh e c (after e c h) i end.

(** A refresh brings a new file or SLURM file. *)
Definition news (e : env) (c : scfg) (h : list input) (i : input) : Prop :=
  is_new (e_decode e) (files h) (i_file i) \/
  (sc_slurm c = true /\ sc_slurm_refresh c = true /\ is_new (e_dslurm e) (slurm_files c h) (i_slurm i)).

(** No router key is listed twice. *)
Definition key_of (b : brkjson) : N * bytes * bytes := (bj_asn b, map lower (bj_ski b), bj_pubkey b).
Definition no_dup_keys (sl : option slurm) (d : rpkilist) : Prop :=
  NoDup (map key_of (match sl with None => rl_brk d | Some s => snd (filter_assert s (roa_of d) (rl_brk d)) end)).

(** The same records are served. *)
Definition same_served (s s' : state) : Prop := forall x, served s x <-> served s' x.
(** The refresh [i] is the last one in the history that changed what is served. *)
Definition last_change (e : env) (c : scfg) (h h1 : list input) (i : input) (h2 : list input) : Prop :=
  h = h1 ++ i :: h2 /\ ~ same_served (after e c h1) (after e c (h1 ++ [i])) /\
  forall a j b, h2 = a ++ j :: b -> same_served (after e c (h1 ++ i :: a)) (after e c (h1 ++ i :: a ++ [j])).
(** Decoded lists have no spare capacity. *)
Definition no_spare (e : env) : Prop :=
  forall x d, e_decode e x = Some d -> rl_spare d = 0%nat /\ rl_bspare d = 0%nat.
