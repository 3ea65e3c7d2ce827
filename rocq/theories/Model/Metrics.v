(** Model of the gauges about the data that stayrtr publishes, /repo/cmd/stayrtr/stayrtr.go:431,
    444-456 and 712-722: rtr_serial, rpki_objects, rpki_vrps, and the member "vrps" of the
    metadata of the export (437).  The functions follow those of Model/State.v, which leaves
    the gauges out; [None] is the time before they are first set.  rpki_change, rpki_refresh
    and refresh_requests_total are in Model/MetricTimes.v. *)
From Verif Require Export Model.State.

(** rtr_serial (stayrtr.go:431); rpki_vrps: ipv4 and ipv6, unfiltered and filtered (717-720),
    of which rpki_objects gives the sums vrps and effective_vrps (714-715); bgpsec_pubkeys
    (713); the count in the export (437). *)
Record gauges := mkG { g_serial : N; g_v4 : N; g_v6 : N; g_eff4 : N; g_eff6 : N; g_keys : N; g_count : N }.
(** Is this a VRP of IPv4, of IPv6; stayrtr.go:448, 450. *)
Definition vrp4 (d : sd) : bool := match d with VRP p _ _ _ => is4 (p_addr p) | _ => false end.
(** stayrtr.go:450. *)
Definition vrp6 (d : sd) : bool := match d with VRP p _ _ _ => is6 (p_addr p) | _ => false end.
(** rpki_objects of type vrps; stayrtr.go:714. *)
Definition g_vrps (g : gauges) : N := g_v4 g + g_v6 g.
(** rpki_objects of type effective_vrps; stayrtr.go:715. *)
Definition g_effective (g : gauges) : N := g_eff4 g + g_eff6 g.

(** applyUpdateFromNewState, stayrtr.go:410-459, as far as the gauges are concerned. *)
Definition apply_metrics (s : state) (vrps brks : list sd) (c4 c6 listed : N) (g : option gauges) : option gauges :=
  let '(sv, changed) := add_data (st_server s) (vrps ++ brks) in
  if changed then
    Some (mkG (fst (get_current_serial sv)) c4 c6 (nlen (filter vrp4 vrps)) (nlen (filter vrp6 vrps)) (nlen brks) listed)
  else g.
(** What applyUpdateFromNewState is called with: the results of processData and the length
    of vrpsjson. stayrtr.go:336-364, 373-401. *)
Definition prepare_metrics (e : env) (s : state) (now : Z) (roa : list vrpjson) : list sd * list sd * N * N * N :=
  let '(v, vt, b, bt) := slurm_step s roa in
  (process_data (e_sort e) (now / second) (read roa vt v) (read (rl_brk (st_data s)) bt b), nlen (read roa vt v)).
(** updateFromNewState, stayrtr.go:335-369. *)
Definition update_metrics (e : env) (c : scfg) (now proc : Z) (s : state) (g : option gauges) : option gauges :=
  match rl_roa (st_data s) with
  | None => g
  | Some roa =>
      match time_check e c now (st_data s) with
      | Some _ => g
      | None => let '(vrps, brks, c4, c6, n) := prepare_metrics e s proc roa in apply_metrics s vrps brks c4 c6 n g
      end
  end.
(** reloadFromCurrentState, stayrtr.go:372-408. *)
Definition reload_metrics (e : env) (c : scfg) (now proc : Z) (s : state) (g : option gauges) : option gauges :=
  match rl_roa (st_data s) with
  | None => g
  | Some roa =>
      match time_check e c now (st_data s) with
      | Some _ => g
      | None =>
          let '(vrps, brks, c4, c6, n) := prepare_metrics e s proc roa in
          if negb (count_sds (st_server s) =? nlen (vrps ++ brks)) then apply_metrics s vrps brks c4 c6 n g else g
      end
  end.
(** One turn of routineUpdate, stayrtr.go:564-627.  Dropping everything (618) sets no gauge. *)
Definition refresh_metrics (e : env) (c : scfg) (s : state) (i : input) (g : option gauges) : option gauges :=
  let '(s2, new) := fetch e (sc_slurm c && sc_slurm_refresh c) i s in
  if new then update_metrics e c (i_now i) (i_proc i) s2 g else reload_metrics e c (i_now i) (i_proc i) s2 g.
(** The first load, stayrtr.go:812-859. *)
Definition first_metrics (e : env) (c : scfg) (i : input) : option gauges :=
  let '(s2, _) := fetch e (sc_slurm c) i init_state in update_metrics e c (i_now i) (i_proc i) s2 None.
(** The gauges after a history of refreshes. stayrtr.go:539-629. *)
Definition metrics_after (e : env) (c : scfg) (h : list input) : option gauges :=
  match h with
  | [] => None
  | i :: r => snd (fold_left (fun '(s, g) j => (fst (refresh e c s j), refresh_metrics e c s j g)) r
                (fst (first_refresh e c i), first_metrics e c i))
  end.
