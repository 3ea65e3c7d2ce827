(** Model of the metrics page of rtrmon, /repo/cmd/rtrmon/rtrmon.go:94-160, 349-350, 569-594, 787-886: what
    its gauges show while the process of [MonProc] runs.  A gauge vector of the Prometheus client
    library is a map from label values to numbers; With makes the series, Set assigns.  All values
    are below 2^53, where float64 is exact.  Label values that are not UTF-8 (With panics) are left
    out. *)
From Verif Require Export Model.MonProc.

(** The series: name and label values, rtrmon.go:94-142.  [SVrps _ _ true] has type "diff", [false]
    "total"; the server "primary" or "secondary" is the [side] (144-148). *)
Inductive series :=
| SVrps (server : side) (url : bytes) (diff : bool)
| SDiff (lhs rhs secs : bytes)
| SGrace (url : bytes)
| SState (server : side) (url : bytes)
| SSerial (server : side) (url : bytes)
| SSession (server : side) (url : bytes)
| SUpdate (server : side) (url : bytes).
(** Same name and labels (prometheus client library, used at rtrmon.go:350-886). *)
Definition series_dec (a b : series) : {a = b} + {a <> b}.
Proof. repeat decide equality. Defined.
(** What the page shows: rtrmon.go:154-160, 1009. *)
Definition page := list (series * Z).
(** The number shown for a series, [None] when it is not on the page. rtrmon.go:1009. *)
Fixpoint pget (k : series) (p : page) : option Z :=
  match p with [] => None | (k', v) :: r => if series_dec k k' then Some v else pget k r end.
(** With(...).Set(...), e.g. rtrmon.go:350. *)
Definition pset (p : page) (x : series * Z) : page :=
  x :: filter (fun y => if series_dec (fst x) (fst y) then false else true) p.

(** Path of the two clients, rtrmon.go:948, 980; also the URL of their metadata (621). *)
Definition urls := side -> bytes.
(** The gauges set by one comparison, in the order of the code, rtrmon.go:787-886. *)
Definition compare_sets (u : urls) (id : side) (p : pub) : list (series * Z) :=
  [(SVrps Pri (u Pri) false, Z.of_N (pb_total1 p)); (SVrps Pri (u Pri) true, Z.of_N (pb_diff1 p));
   (SVrps Sec (u Sec) false, Z.of_N (pb_total2 p)); (SVrps Sec (u Sec) true, Z.of_N (pb_diff2 p))] ++
  flat_map (fun '(t, n1, n2) => [(SDiff (u Pri) (u Sec) (dec_int t), Z.of_N n1); (SDiff (u Sec) (u Pri) (dec_int t), Z.of_N n2)])
    (pb_counts p) ++
  [(SSerial Pri (u Pri), Z.of_N (md_serial (pb_md1 p))); (SSerial Sec (u Sec), Z.of_N (md_serial (pb_md2 p)));
   (SSession Pri (u Pri), Z.of_N (md_session (pb_md1 p))); (SSession Sec (u Sec), Z.of_N (md_session (pb_md2 p)))] ++
  match id with
  | Pri => [(SUpdate Pri (u Pri), md_last (pb_md1 p))]
  | Sec => [(SUpdate Sec (u Sec), md_last (pb_md2 p))]
  end.

(** Steps of the process, and of the gauge of the connection: ClientConnected (rtrmon.go:573-577),
    ClientDisconnected (588-592).  [MonProc] has no connections: these two come at any time. *)
Inductive plabel := PStep (l : mlabel) | PUp (i : side) | PDown (i : side).
(** What a step does to the page: the gauge of the grace period (rtrmon.go:350), those of a comparison. *)
Definition page_step (u : urls) (s : mstate) (l : mlabel) (s' : mstate) (p : page) : page :=
  match l with
  | LAssign i _ => match mc_phase (ms_c i s) with MBuilt _ n _ => pset p (SGrace (u i), Z.of_N n) | _ => p end
  | LPublish _ => match ms_comp s, ms_pub s' with
                  | KDiff id _ _ _ _ _, Some pb => fold_left pset (compare_sets u id pb) p
                  | _, _ => p
                  end
  | _ => p
  end.
(** One step with the page, rtrmon.go:891-912. *)
Definition pstep (cfg : mcfg) (u : urls) (o : option (mstate * page)) (l : plabel) : option (mstate * page) :=
  match o with
  | None => None
  | Some (s, p) =>
      match l with
      | PStep l => match mstep cfg s l with Some s' => Some (s', page_step u s l s' p) | None => None end
      | PUp i => Some (s, pset p (SState i (u i), 1%Z))
      | PDown i => Some (s, pset p (SState i (u i), 0%Z))
      end
  end.
(** A schedule from the start, rtrmon.go:891-912. *)
Definition prun (cfg : mcfg) (u : urls) (ls : list plabel) : option (mstate * page) := fold_left (pstep cfg u) ls (Some (ms_init, [])).
