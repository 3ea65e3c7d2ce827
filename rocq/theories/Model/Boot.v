(** Model of how stayrtr starts: run of /repo/cmd/stayrtr/stayrtr.go:737-977 and the goroutines it
    starts for the listeners, with Start, StartTLS and StartSSH of /repo/lib/server.go:481-487, 606-621.

    What happens from the first step to the loop of routineUpdate, in every interleaving of the main
    goroutine, the two downloads, the listeners and the HTTP server.  What is downloaded and what is
    done with a connection is in the other files (State.v, Fetch.v, Concurrent.v).  Whether an address can be
    bound and a file can be read does not change meanwhile. *)
From Verif Require Export Model.Conn.
Local Open Scope N_scope.

(** What the flags and the machine say: for -metrics.addr, -bind, -tls.bind and -ssh.bind whether they are
    given (stayrtr.go:770-776, 861, 872, 887) and whether the address can be bound (174, lib/server.go:482, 607, 616);
    for TLS whether certificate and key can be loaded (stayrtr.go:873), for SSH whether the host key can be
    read and parsed and, if asked for, the list of keys can be read (888-895, 920-928); whether the interval
    of -refresh is one that time.NewTicker takes (543). *)
Record setup := mkSetup {
  su_http : bool; su_http_ok : bool;
  su_asked : transport -> bool; su_addr : transport -> bool; su_files : transport -> bool;
  su_interval : bool
}.
(** Where the main goroutine is: before 798, 808, 812 (started the downloads, waiting at 853), 856, 861, 872, 887, 974
    (in routineUpdate before 543), in its loop. stayrtr.go:737-977. *)
Inductive bpc := PHttp | PBinds | PWait | PLoad | PTcp | PTls | PSsh | PTicker | PLoop.
(** A goroutine that listens: not started, before net.Listen, in the accept loop. stayrtr.go:172-175, 862-870, 880-885, 966-971. *)
Inductive lst := Off | Starting | Open.
(** The process: the main goroutine, whether each download has ended, the HTTP server, the three
    listeners, the connections taken (the newest first), and the exit status once it has ended.
    stayrtr.go:737-977, lib/server.go:577-604. *)
Record bstate := mkB {
  b_pc : bpc; b_file : bool; b_slurm : bool; b_http : lst;
  b_tcp : lst; b_tls : lst; b_ssh : lst; b_taken : list transport; b_exit : option N
}.
(** The start of run, stayrtr.go:737. *)
Definition b_init : bstate := mkB PHttp false false Off Off Off Off [] None.
(** The listener for a transport, stayrtr.go:861-971. *)
Definition lis (s : bstate) (t : transport) : lst := match t with TCP => b_tcp s | TLS => b_tls s | SSH => b_ssh s end.
(** Assignments, stayrtr.go:861-971. *)
Definition set_lis (s : bstate) (t : transport) (x : lst) : bstate :=
  mkB (b_pc s) (b_file s) (b_slurm s) (b_http s)
    (match t with TCP => x | _ => b_tcp s end) (match t with TLS => x | _ => b_tls s end) (match t with SSH => x | _ => b_ssh s end)
    (b_taken s) (b_exit s).
(** The main goroutine goes on, stayrtr.go:737-977. *)
Definition set_pc (s : bstate) (p : bpc) : bstate :=
  mkB p (b_file s) (b_slurm s) (b_http s) (b_tcp s) (b_tls s) (b_ssh s) (b_taken s) (b_exit s).
(** log.Fatal (status 1; stayrtr.go:174, 809, 868, 875, 883, 890, 894, 925, 969) and a panic (status 2; 543). *)
Definition ends (s : bstate) (n : N) : bstate :=
  mkB (b_pc s) (b_file s) (b_slurm s) (b_http s) (b_tcp s) (b_tls s) (b_ssh s) (b_taken s) (Some n).

(** Who does the next step: the main goroutine; the main goroutine with updateFromNewState (856); the
    goroutine of updateFile (815-830), of updateSlurm (833-850); the HTTP server (172-175); a listener up to
    its accept loop; the accept loop taking a connection. stayrtr.go:737-977, lib/server.go:481-621. *)
Inductive blabel := BMain | BLoad | BFile | BSlurm | BHttp | BListen (t : transport) | BTake (t : transport).
(** -tls.bind and -ssh.bind, stayrtr.go:872-971; for -bind (861-871) there are no files. *)
Definition open_one (su : setup) (s : bstate) (t : transport) (next : bpc) : bstate :=
  if su_asked su t then
    if match t with TCP => true | _ => su_files su t end then set_lis (set_pc s next) t Starting else ends s 1
  else set_pc s next.
(** One step; [None]: the step cannot be done, or the process has ended. stayrtr.go:737-977,
    lib/server.go:481-487, 577-621. *)
Definition bstep (su : setup) (s : bstate) (l : blabel) : option bstate :=
  match b_exit s with
  | Some _ => None
  | None =>
    match l with
    | BMain =>
        match b_pc s with
        | PHttp => Some (mkB PBinds (b_file s) (b_slurm s) (if su_http su then Starting else Off)
                           (b_tcp s) (b_tls s) (b_ssh s) (b_taken s) None)
        | PBinds => Some (if su_asked su TCP || su_asked su TLS || su_asked su SSH then set_pc s PWait else ends s 1)
        | PWait => if b_file s && b_slurm s then Some (set_pc s PLoad) else None
        | PLoad => None
        | PTcp => Some (open_one su s TCP PTls)
        | PTls => Some (open_one su s TLS PSsh)
        | PSsh => Some (open_one su s SSH PTicker)
        | PTicker => Some (if su_interval su then set_pc s PLoop else ends s 2)
        | PLoop => None
        end
    | BLoad => match b_pc s with PLoad => Some (set_pc s PTcp) | _ => None end
    | BFile =>
        match b_pc s, b_file s with
        | PWait, false => Some (mkB PWait true (b_slurm s) (b_http s) (b_tcp s) (b_tls s) (b_ssh s) (b_taken s) None)
        | _, _ => None
        end
    | BSlurm =>
        match b_pc s, b_slurm s with
        | PWait, false => Some (mkB PWait (b_file s) true (b_http s) (b_tcp s) (b_tls s) (b_ssh s) (b_taken s) None)
        | _, _ => None
        end
    | BHttp =>
        match b_http s with
        | Starting => Some (if su_http_ok su
                            then mkB (b_pc s) (b_file s) (b_slurm s) Open (b_tcp s) (b_tls s) (b_ssh s) (b_taken s) None
                            else ends s 1)
        | _ => None
        end
    | BListen t =>
        match lis s t with
        | Starting => Some (if su_addr su t then set_lis s t Open else ends s 1)
        | _ => None
        end
    | BTake t =>
        match lis s t with
        | Open => Some (mkB (b_pc s) (b_file s) (b_slurm s) (b_http s) (b_tcp s) (b_tls s) (b_ssh s) (t :: b_taken s) None)
        | _ => None
        end
    end
  end.
(** A schedule from the start, stayrtr.go:737-977. *)
Fixpoint brun_from (su : setup) (s : bstate) (ls : list blabel) : option bstate :=
  match ls with
  | [] => Some s
  | l :: r => match bstep su s l with Some s' => brun_from su s' r | None => None end
  end.
(** The same from the start of run, stayrtr.go:737. *)
Definition brun (su : setup) (ls : list blabel) : option bstate := brun_from su b_init ls.
