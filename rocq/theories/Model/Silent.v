(** Model of the refreshes of the daemon against a web server that may fall silent:
    routineUpdate, /repo/cmd/stayrtr/stayrtr.go:539-614, with FetchFile, /repo/utils/utils.go:50-172,
    in seconds.

    Of the http.Transport (utils.go:57-69) the connection has a limit of 30 seconds and the TLS
    handshake one of 10; there is none for the header of the response (ResponseHeaderTimeout is
    not set), for its body or for the whole (http.Client.Timeout, 73).  Keep-alive (61) notices
    that the other machine is gone, not that its server does not answer.  Simplified: one URL
    (the SLURM file is fetched the same way, and the loop waits for both, 566-606); no proxy, no redirection; what follows the
    download takes no time; a limit that is reached takes effect in that second, and a refresh
    that is due begins in that second. *)
From Coq Require Import List.
Import ListNotations.
Local Open Scope list_scope.

(** Where the goroutine is, stayrtr.go:555, utils.go:110, 167: in the select; connecting or
    in the handshake for so many seconds; waiting for the header; reading the body. *)
Inductive place := Waiting | Connecting (t : nat) | Shaking (t : nat) | Header | Body.
(** That, and whether a tick, a SIGHUP or a request to update waits in its channel, stayrtr.go:541-562. *)
Record hstate := mkH { h_place : place; h_asked : bool }.
(** In the select for the first time, stayrtr.go:555. *)
Definition h_start : hstate := mkH Waiting false.
(** Steps: a second passes; a refresh is asked for (stayrtr.go:556-562); it begins (566-590); the connection is
    made, the handshake is done, the header of a response arrives, with status 200 or another
    (utils.go:110-132), its body ends (167); a limit is reached (57-69); the connection breaks. *)
Inductive hstep := HSecond | HAsk | HBegin | HConnected | HShaken | HStatus (ok : bool) | HEnd | HLimit | HBreaks.
(** The limit for connecting, in seconds, utils.go:60. *)
Definition dial_limit : nat := 30.
(** TLSHandshakeTimeout, utils.go:66. *)
Definition tls_limit : nat := 10.
(** One step, stayrtr.go:539-614, utils.go:50-172, for an https URL or not. *)
Definition hstep_fn (https : bool) (s : hstate) (l : hstep) : option hstate :=
  match l, h_place s with
  | HAsk, _ => Some (mkH (h_place s) true)
  | HSecond, Waiting => if h_asked s then None else Some s
  | HSecond, Connecting t => if Nat.ltb t dial_limit then Some (mkH (Connecting (S t)) (h_asked s)) else None
  | HSecond, Shaking t => if Nat.ltb t tls_limit then Some (mkH (Shaking (S t)) (h_asked s)) else None
  | HSecond, Header | HSecond, Body => Some s
  | HBegin, Waiting => if h_asked s then Some (mkH (Connecting 0) false) else None
  | HConnected, Connecting _ => Some (mkH (if https then Shaking 0 else Header) (h_asked s))
  | HShaken, Shaking _ => Some (mkH Header (h_asked s))
  | HStatus ok, Header => Some (mkH (if ok : bool then Body else Waiting) (h_asked s))
  | HEnd, Body => Some (mkH Waiting (h_asked s))
  | HLimit, Connecting t => if Nat.ltb t dial_limit then None else Some (mkH Waiting (h_asked s))
  | HLimit, Shaking t => if Nat.ltb t tls_limit then None else Some (mkH Waiting (h_asked s))
  | HBreaks, Connecting _ | HBreaks, Shaking _ | HBreaks, Header | HBreaks, Body => Some (mkH Waiting (h_asked s))
  | _, _ => None
  end.
(** A schedule, stayrtr.go:539-614. *)
Fixpoint hrun (https : bool) (s : hstate) (tr : list hstep) : option hstate :=
  match tr with
  | [] => Some s
  | l :: tr' => match hstep_fn https s l with Some s' => hrun https s' tr' | None => None end
  end.
