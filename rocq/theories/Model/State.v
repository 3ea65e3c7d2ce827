(** Model of the refresh of the data, /repo/cmd/stayrtr/stayrtr.go:332-629: type state and
    the functions updateFromNewState, reloadFromCurrentState, applyUpdateFromNewState,
    updateFile, updateSlurm, one turn of routineUpdate, the first load of run.

    Logging and metrics are left out.  The two files are fetched one after the other (in
    the code by two goroutines that write different fields and are joined).  All readings of
    the clock during one refresh give the same time. *)
From Verif Require Export Model.Process Model.Slurm Model.Cache.

(** RPKIList after JSON decoding, prefixfile.go:11-15, 17-24: only the fields read by the
    server.  [rl_roa] is [None] for a nil slice (key absent, or null); the spare counts are
    the capacities behind the decoded slices.  A nil BgpSecKeys is [] with no spare room
    (stayrtr.go:341-344). *)
Record rpkilist := mkRL {
  rl_build : bytes; rl_gen : option Z;
  rl_roa : option (list vrpjson); rl_spare : nat;
  rl_brk : list brkjson; rl_bspare : nat
}.
(** &prefixfile.RPKIList{}, stayrtr.go:783. *)
Definition empty_list : rpkilist := mkRL [] None None 0 [] 0.

(** Library functions the code calls: sort.Slice, SHA-256 (stayrtr.go:179-182), the JSON
    decoders (stayrtr.go:184-191, slurm.go:82-91), time.Parse(time.RFC3339, _) in nanoseconds
    since 1970. *)
Record env := mkEnv {
  e_sort : list sd -> list sd;
  e_sha : bytes -> bytes;
  e_decode : bytes -> option rpkilist;
  e_dslurm : bytes -> option slurm;
  e_ptime : bytes -> option Z
}.

(** Flags: -notifications, -checktime, whether -slurm is given, -slurm.refresh;
    stayrtr.go:59, 81, 92-93. *)
Record scfg := mkSC { sc_notify : bool; sc_check : bool; sc_slurm : bool; sc_slurm_refresh : bool }.

(** A slice: its own array, or one that starts with the decoded slice of lastdata and goes
    on for [k] elements into the spare room behind it. *)
Inductive slice (A : Type) := Own (l : list A) | Shared (k : nat).
Arguments Own {A} _. Arguments Shared {A} _.
(** What a slice holds now (Go language; the slices of stayrtr.go:335-443). *)
Definition read {A} (base tail : list A) (s : slice A) : list A :=
  match s with Own l => l | Shared k => base ++ firstn k tail end.

(** exported, a RPKIList (stayrtr.go:681), without the counts. *)
Record export := mkEx { ex_build : bytes; ex_roa : slice vrpjson; ex_brk : slice brkjson }.

(** type state, stayrtr.go:667-689.  [st_vtail], [st_btail]: what was written into the spare
    room behind lastdata.ROA and lastdata.BgpSecKeys.  [st_changed]: lastchange is not the
    zero time. *)
Record state := mkState {
  st_data : rpkilist; st_vtail : list vrpjson; st_btail : list brkjson;
  st_hcache : option bytes; st_hslurm : option bytes; st_changed : bool;
  st_slurm : option slurm; st_exported : export; st_server : server
}.
(** run, stayrtr.go:755-757 (KeepDifference 3) and 781-792. *)
Definition init_state : state :=
  mkState empty_list [] [] None None false None (mkEx [] (Own []) (Own [])) (new_server 3).

(** lastdata.ROA, a nil slice read as empty. *)
Definition roa_of (d : rpkilist) : list vrpjson := match rl_roa d with Some l => l | None => [] end.
(** The slices of exported, read now. stayrtr.go:440. *)
Definition exported_roa (s : state) : list vrpjson := read (roa_of (st_data s)) (st_vtail s) (ex_roa (st_exported s)).
(** stayrtr.go:441. *)
Definition exported_brk (s : state) : list brkjson := read (rl_brk (st_data s)) (st_btail s) (ex_brk (st_exported s)).

(** time.Second, stayrtr.go:531-563. *)
Definition second : Z := 1000000000.
(** time.Hour * 24, stayrtr.go:353, 390. *)
Definition hours24 : Z := 24 * 3600 * second.
(** The build time, stayrtr.go:345-348, 382-385.  (GeneratedUnix far outside the range of
    time.Time is not modelled.) *)
Definition build_time (e : env) (d : rpkilist) : option Z :=
  match rl_gen d with Some g => Some (g * second)%Z | None => e_ptime e (rl_build d) end.
(** Why a refresh was refused: stayrtr.go:350-356, 387-393. *)
Inductive uerr := EParse | ETooOld.
(** The time check, stayrtr.go:349-358, 386-395. *)
Definition time_check (e : env) (c : scfg) (now : Z) (d : rpkilist) : option uerr :=
  if sc_check c then
    match build_time e d with
    | None => Some EParse
    | Some b => if (b + hours24 <? now)%Z then Some ETooOld else None
    end
  else None.

(** append(s, a...) where [s] is the whole decoded slice with [spare] elements of room.
    Go language; slurm.go:194-253 called at stayrtr.go:361, 398. *)
Definition append_shared {A} (spare : nat) (base tail a : list A) : slice A * list A :=
  if (length a <=? spare)%nat then (Shared (length a), a ++ skipn (length a) tail) else (Own (base ++ a), tail).
(** The slices given to processData, stayrtr.go:360-362, 397-399; FilterAssert,
    slurm.go:243-253 with 96-98, 136-138: without filters the input slice itself is appended
    to. *)
Definition slurm_step (s : state) (roa : list vrpjson)
  : slice vrpjson * list vrpjson * slice brkjson * list brkjson :=
  let d := st_data s in
  match st_slurm s with
  | None => (Shared 0, st_vtail s, Shared 0, st_btail s)
  | Some sl =>
      let av := assert_vrps (s_passerts sl) in
      let ab := assert_brks (s_basserts sl) in
      let '(v, vt) := match s_pfilters sl with
                      | [] => append_shared (rl_spare d) roa (st_vtail s) av
                      | fs => (Own (fst (filter_on_vrps fs roa) ++ av), st_vtail s)
                      end in
      let '(b, bt) := match s_bfilters sl with
                      | [] => append_shared (rl_bspare d) (rl_brk d) (st_btail s) ab
                      | fs => (Own (fst (filter_on_brks fs (rl_brk d)) ++ ab), st_btail s)
                      end in
      (v, vt, b, bt)
  end.
(** No counterpart in /repo: writing behind lastdata's slices (slurm.go:194-253). *)
Definition set_tails (s : state) (vt : list vrpjson) (bt : list brkjson) : state :=
  mkState (st_data s) vt bt (st_hcache s) (st_hslurm s) (st_changed s) (st_slurm s) (st_exported s) (st_server s).
(** Assignment to the state's server, stayrtr.go:421. *)
Definition set_server (s : state) (sv : server) : state :=
  mkState (st_data s) (st_vtail s) (st_btail s) (st_hcache s) (st_hslurm s) (st_changed s) (st_slurm s) (st_exported s) sv.
(** Assignment to exported, stayrtr.go:435-442. *)
Definition set_exported (s : state) (x : export) : state :=
  mkState (st_data s) (st_vtail s) (st_btail s) (st_hcache s) (st_hslurm s) (st_changed s) (st_slurm s) x (st_server s).

(** applyUpdateFromNewState, stayrtr.go:410-459: new state and the serials given to
    NotifyClientsLatest.  GeneratedUnix is not copied to exported. *)
Definition apply_update (c : scfg) (s : state) (sds : list sd) (v : slice vrpjson) (b : slice brkjson)
  : state * list N :=
  let '(sv, changed) := add_data (st_server s) sds in
  if changed then
    (set_exported (set_server s sv) (mkEx (rl_build (st_data s)) v b),
     if sc_notify c then [fst (get_current_serial sv)] else [])
  else (s, []).

(** The common part of updateFromNewState and reloadFromCurrentState up to processData:
    state after FilterAssert, records, the slices. stayrtr.go:336-364, 373-401. *)
Definition prepare (e : env) (s : state) (now : Z) (roa : list vrpjson)
  : state * list sd * slice vrpjson * slice brkjson :=
  let '(v, vt, b, bt) := slurm_step s roa in
  let '(vrps, brks, _, _) := process_data (e_sort e) (now / second) (read roa vt v) (read (rl_brk (st_data s)) bt b) in
  (set_tails s vt bt, vrps ++ brks, v, b).

(** updateFromNewState, stayrtr.go:335-369; the clock is read at 354 ([now]) and 217 ([proc]). *)
Definition update_from_new_state (e : env) (c : scfg) (now proc : Z) (s : state) : state * list N * option uerr :=
  match rl_roa (st_data s) with
  | None => (s, [], None)
  | Some roa =>
      match time_check e c now (st_data s) with
      | Some x => (s, [], Some x)
      | None =>
          let '(s1, sds, v, b) := prepare e s proc roa in
          let '(s2, ns) := apply_update c s1 sds v b in (s2, ns, None)
      end
  end.
(** reloadFromCurrentState, stayrtr.go:372-408, the clock at 391 and 217; the error is only logged
    by the caller. *)
Definition reload_from_current_state (e : env) (c : scfg) (now proc : Z) (s : state) : state * list N :=
  match rl_roa (st_data s) with
  | None => (s, [])
  | Some roa =>
      match time_check e c now (st_data s) with
      | Some _ => (s, [])
      | None =>
          let '(s1, sds, v, b) := prepare e s proc roa in
          if negb (count_sds (st_server s1) =? nlen sds) then apply_update c s1 sds v b else (s1, [])
      end
  end.

(** updateFile, stayrtr.go:461-496.  The argument is the content FetchFile returned, [None]
    for any error (including "not modified"). *)
Definition update_file (e : env) (f : option bytes) (s : state) : state * bool :=
  match f with
  | None => (s, false)
  | Some data =>
      let h := e_sha e data in
      let same := match st_hcache s with Some h0 => beqb h0 h | None => false end in
      if same then (s, false)
      else match e_decode e data with
           | None => (mkState (st_data s) (st_vtail s) (st_btail s) (Some h) (st_hslurm s) (st_changed s)
                        (st_slurm s) (st_exported s) (st_server s), false)
           | Some d =>
               (** The array of the previous list lives on in exported, and is not written any more. *)
               let x := mkEx (ex_build (st_exported s)) (Own (exported_roa s)) (Own (exported_brk s)) in
               (mkState d [] [] (Some h) (st_hslurm s) true (st_slurm s) x (st_server s), true)
           end
  end.
(** updateSlurm, stayrtr.go:498-529. *)
Definition update_slurm (e : env) (f : option bytes) (s : state) : state * bool :=
  match f with
  | None => (s, false)
  | Some data =>
      let h := e_sha e data in
      let same := match st_hslurm s with Some h0 => beqb h0 h | None => false end in
      if same then (s, false)
      else
        let upd sl := mkState (st_data s) (st_vtail s) (st_btail s) (st_hcache s) (Some h) (st_changed s)
                        sl (st_exported s) (st_server s) in
        match e_dslurm e data with
        | None => (upd (st_slurm s), false)
        | Some sl => (upd (Some sl), true)
        end
  end.

(** MetaData.GetBuildTime of exported, prefixfile.go:47-53; [None] is the zero time, also
    when that is what the text says. *)
Definition zero_time : Z := -62135596800 * second.
(** GetBuildTime of exported, prefixfile.go:47-53. *)
Definition exported_build (e : env) (s : state) : option Z :=
  match e_ptime e (ex_build (st_exported s)) with
  | Some t => if (t =? zero_time)%Z then None else Some t
  | None => None
  end.
(** Dropping everything, stayrtr.go:612-619. *)
Definition drop_stale (e : env) (now : Z) (s : state) : state :=
  match exported_build e s with
  | Some t => if (hours24 <? now - t)%Z then set_server s (fst (add_data (st_server s) [])) else s
  | None => s
  end.

(** What one refresh sees: the four readings of the clock (when the file has been taken over, 492; in
    the time check, 354 or 391; in processData, 217; before dropping everything, 616) and the outcome
    of fetching the two files. stayrtr.go:461-529, 565-629. *)
Record input := mkTurn { i_got : Z; i_now : Z; i_proc : Z; i_late : Z; i_file : option bytes; i_slurm : option bytes }.
(** All within one tick of the clock. stayrtr.go:461-529, 565-629. *)
Definition mkIn (now : Z) (file slurm : option bytes) : input := mkTurn now now now now file slurm.

(** Fetching both files, stayrtr.go:564-605. *)
Definition fetch (e : env) (slurmOn : bool) (i : input) (s : state) : state * bool :=
  let '(s1, su) := if slurmOn then update_slurm e (i_slurm i) s else (s, false) in
  let '(s2, cu) := update_file e (i_file i) s1 in
  (s2, cu || su).
(** One turn of the loop of routineUpdate after the select, stayrtr.go:564-627. *)
Definition refresh (e : env) (c : scfg) (s : state) (i : input) : state * list N :=
  let '(s2, new) := fetch e (sc_slurm c && sc_slurm_refresh c) i s in
  if new then
    let '(s3, ns, err) := update_from_new_state e c (i_now i) (i_proc i) s2 in
    match err with
    | Some ETooOld => (drop_stale e (i_late i) s3, ns)
    | _ => (s3, ns)
    end
  else reload_from_current_state e c (i_now i) (i_proc i) s2.
(** The first load, stayrtr.go:812-859; an error is only logged. *)
Definition first_refresh (e : env) (c : scfg) (i : input) : state * list N :=
  let '(s2, _) := fetch e (sc_slurm c) i init_state in
  let '(s3, ns, _) := update_from_new_state e c (i_now i) (i_proc i) s2 in (s3, ns).

(** The state after a history of refreshes, the first being the one at start.
    stayrtr.go:539-629. *)
Definition after (e : env) (c : scfg) (h : list input) : state :=
  match h with
  | [] => init_state
  | i :: r => fold_left (fun s j => fst (refresh e c s j)) r (fst (first_refresh e c i))
  end.
