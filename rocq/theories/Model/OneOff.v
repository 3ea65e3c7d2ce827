(** Model of the flag -oneoff of rtrmon, /repo/cmd/rtrmon/rtrmon.go:49, 642, 764-888, 891-912, 1003-1014.

    The process is that of [Model/MonProc.v]; beside it the variables of Compare that decide
    whether its loop goes on. *)
From Verif Require Export Model.MonProc.
Local Open Scope N_scope.

(** The field OneOff of the comparator main makes, rtrmon.go:649-659 and 1003: NewComparator does not
    set it and nothing assigns to it; the flag (49) is not looked at. *)
Definition comparator_oneoff (flag : bool) : bool := false.

(** The process with donePrimary, doneSecondary and stop of Compare, rtrmon.go:764-765. *)
Record ostate := mkOS { os_ms : mstate; os_pri : bool; os_sec : bool; os_stop : bool }.
(** Start of Compare, rtrmon.go:764-766. *)
Definition os_init : ostate := mkOS ms_init false false false.
(** Which client's id Compare works on, rtrmon.go:772. *)
Definition working (k : kphase) : option side :=
  match k with
  | KIdle => None
  | KGot id | KHave1 id _ _ | KHave2 id _ _ _ _ | KDiff id _ _ _ _ _ => Some id
  end.
(** One step with the field OneOff: after the loop of Compare (rtrmon.go:767) has ended nobody receives
    from the channel, so no send goes through (357, 552); the end of a turn is 868-885.  c.q (769) is
    closed only after both clients have returned (908-909). *)
Definition ostep (cfg : mcfg) (oneoff : bool) (s : ostate) (l : mlabel) : option ostate :=
  match l with
  | LSend _ =>
      if os_stop s then None
      else match mstep cfg (os_ms s) l with Some m => Some (mkOS m (os_pri s) (os_sec s) (os_stop s)) | None => None end
  | LPublish _ =>
      match mstep cfg (os_ms s) l with
      | Some m =>
          let pri := os_pri s || match working (ms_comp (os_ms s)) with Some Pri => true | _ => false end in
          let sec := os_sec s || match working (ms_comp (os_ms s)) with Some Sec => true | _ => false end in
          Some (mkOS m pri sec (os_stop s || (oneoff && pri && sec)))
      | None => None
      end
  | _ => match mstep cfg (os_ms s) l with Some m => Some (mkOS m (os_pri s) (os_sec s) (os_stop s)) | None => None end
  end.
(** A schedule from a state, rtrmon.go:891-912. *)
Definition orun_from (cfg : mcfg) (oneoff : bool) (s : ostate) (ls : list mlabel) : option ostate :=
  fold_left (fun o l => match o with Some s => ostep cfg oneoff s l | None => None end) ls (Some s).
(** A schedule from the start of the process, rtrmon.go:891-912. *)
Definition orun (cfg : mcfg) (oneoff : bool) (ls : list mlabel) : option ostate := orun_from cfg oneoff os_init ls.
(** What has been written to a file or to the standard output: nothing.  Where the loop of Compare
    ends there is a remark instead of code (rtrmon.go:882-885); diff.json is served over HTTP (741-761). *)
Definition written (s : ostate) : list bytes := [].
(** The status the process has ended with: main ends when Start returns (rtrmon.go:1014), Start when both
    clients have (908), and their loops (268-361) have no way out.  Ending by log.Fatal (257, 305,
    317-319, 1011) is not modelled here. *)
Definition exit_status (s : ostate) : option N := None.
