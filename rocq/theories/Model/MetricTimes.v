(** Model of the metrics about downloads and times that stayrtr publishes: rpki_refresh,
    refresh_requests_total (/repo/cmd/stayrtr/stayrtr.go:113-133, 464-474, 501-509), and rpki_change
    (120-126, 492, 455, 721), with all that FetchFile returns (/repo/utils/utils.go:50-172). *)
From Verif Require Export Model.Fetch Model.Metrics.
From Coq Require Import List.
Local Open Scope list_scope.
Local Open Scope N_scope.

(** What FetchFile returns: the data, the status code (-1 for none), the flag called lastrefresh by
    its callers, the error. utils/utils.go:50. *)
Record fret := mkRet { fr_data : option bytes; fr_code : Z; fr_last : bool; fr_err : option ferr }.
(** FetchFile for a URL: utils.go:57-116 (no response), 119-124 (304), 125-131 (not 200), 138-147
    (the same ETag), 167-171 (the body). *)
Definition http_ret (c : fcfg) (s : fstate) (file : bytes) (x : exchange) : fret :=
  match x with
  | NoResponse => mkRet None (-1) false (Some ENoResponse)
  | Response status etag lm body =>
      if status =? 304 then mkRet None (Z.of_N status) true (Some ENotModified)
      else if negb (status =? 200) then mkRet None (Z.of_N status) true (Some (EStatus status))
      else if etag_differs c s file etag then
        match body with Some b => mkRet (Some b) (-1) false None | None => mkRet None (-1) false (Some ERead) end
      else mkRet None (Z.of_N status) true (Some EIdentical)
  end.
(** FetchFile, utils.go:50-172; a file on disk: 162-171. *)
Definition fetch_ret (c : fcfg) (s : fstate) (file : bytes) (web : bytes -> request -> exchange) (disk : bytes -> option (option bytes)) : fret :=
  if is_http file then http_ret c s file (web file (request_of c s file))
  else match disk file with
       | None => mkRet None (-1) false (Some EOpen)
       | Some None => mkRet None (-1) false (Some ERead)
       | Some (Some b) => mkRet (Some b) (-1) false None
       end.

(** rpki_refresh by path ([None]: never set) and refresh_requests_total by path and code.
    stayrtr.go:113-119, 127-133. *)
Record rmetrics := mkRM { rm_refresh : bytes -> option Z; rm_requests : bytes -> Z -> N }.
(** Before anything is set. stayrtr.go:113-133. *)
Definition no_metrics : rmetrics := mkRM (fun _ => None) (fun _ _ => 0).
(** UnixNano divided by 1e9, an integer division. stayrtr.go:470, 505, 721. *)
Definition unix (t : Z) : Z := Z.quot t 1000000000.
(** The statements after FetchFile in updateFile (stayrtr.go:466-474) and updateSlurm (501-509).
    [lastts]: the value of s.lastts, in updateFile the time of the call; in updateSlurm whatever the
    other goroutine has put there. *)
Definition note_fetch (file : bytes) (lastts : Z) (r : fret) (m : rmetrics) : rmetrics :=
  match fr_err r with
  | Some _ => m
  | None =>
      let m1 := if fr_last r then mkRM (put (rm_refresh m) file (Some (unix lastts))) (rm_requests m) else m in
      if (fr_code r =? -1)%Z then m1
      else mkRM (rm_refresh m1) (fun f k => if beqb file f && (fr_code r =? k)%Z then rm_requests m1 f k + 1 else rm_requests m1 f k)
  end.
(** A download: the file, the time, what the web server answers or the disk gives.
    stayrtr.go:461-474, 496-509. *)
Record download := mkDl { dl_file : bytes; dl_now : Z; dl_web : exchange; dl_disk : option (option bytes) }.
(** One after the other; two that run in parallel are for different files or in some order (C67).
    stayrtr.go:465, 498. *)
Definition run_download (c : fcfg) (sm : fstate * rmetrics) (d : download) : fstate * rmetrics :=
  let web := fun _ _ => dl_web d in
  let disk := fun _ => dl_disk d in
  (fst (fetch_file c (fst sm) (dl_file d) web disk),
   note_fetch (dl_file d) (dl_now d) (fetch_ret c (fst sm) (dl_file d) web disk) (snd sm)).
(** All downloads since the start. stayrtr.go:564-605, 812-853. *)
Definition downloads (c : fcfg) (l : list download) : fstate * rmetrics := fold_left (run_download c) l (new_fetch, no_metrics).

(** Does updateFile report new data; then it has set lastchange. stayrtr.go:477-495. *)
Definition file_is_new (e : env) (on : bool) (i : input) (s : state) : bool :=
  snd (update_file e (i_file i) (if on then fst (update_slurm e (i_slurm i) s) else s)).
(** No counterpart in /repo: was something set.  The functions of Model/Metrics.v, begun with
    [None], give [Some] exactly when UpdateMetrics is called (stayrtr.go:444-456). *)
Definition is_set {A} (o : option A) : bool := match o with Some _ => true | None => false end.
(** s.lastchange ([None]: the zero time) and rpki_change; stayrtr.go:492, 455, 721. *)
Definition note_change (now : Z) (new called : bool) (t : option Z * option Z) : option Z * option Z :=
  let lc := if new then Some now else fst t in
  (lc, if called then option_map unix lc else snd t).
(** The first load, stayrtr.go:812-859. *)
Definition first_times (e : env) (c : scfg) (i : input) : option Z * option Z :=
  note_change (i_got i) (file_is_new e (sc_slurm c) i init_state) (is_set (first_metrics e c i)) (None, None).
(** One turn of routineUpdate, stayrtr.go:564-627. *)
Definition refresh_times (e : env) (c : scfg) (s : state) (i : input) (t : option Z * option Z) : option Z * option Z :=
  note_change (i_got i) (file_is_new e (sc_slurm c && sc_slurm_refresh c) i s) (is_set (refresh_metrics e c s i None)) t.
(** After a history of refreshes. stayrtr.go:539-629. *)
Definition times_after (e : env) (c : scfg) (h : list input) : option Z * option Z :=
  match h with
  | [] => (None, None)
  | i :: r => snd (fold_left (fun '(s, t) j => (fst (refresh e c s j), refresh_times e c s j t)) r (fst (first_refresh e c i), first_times e c i))
  end.
(** rpki_change; stayrtr.go:721. *)
Definition change_after (e : env) (c : scfg) (h : list input) : option Z := snd (times_after e c h).
