(** SetMaxConnections, /repo/lib/server.go:402-416, called while the server of Model/Concurrent.v
    runs.  There a Disconnect only ever comes from the client's own reader, so that the test of
    c.connected (765) and the Read that follows it (767) can be one step; here another goroutine
    may call Disconnect in between, so they are two. *)
From Verif Require Export Model.Concurrent.

(** The goroutine that calls SetMaxConnections: not in a call; about to compare s.connected with
    the new limit [n]; about to take the list of clients, to disconnect the first [d]; in the
    loop; past c.connected = false of client [i]; past ClientDisconnected of it.  The two reads of
    s.connected (403, 404) are one step.  lib/server.go:402-416, 1020-1032. *)
Inductive apc :=
| AIdle
| AWant (n : Z)
| AList (n : Z) (d : nat)
| ALoop (n : Z) (todo : list nat)
| ACount (n : Z) (i : nat) (todo : list nat)
| AQuit (n : Z) (i : nat) (todo : list nat).

(** The server, s.maxconn, the connections whose reader is inside Read, and the goroutine above.
    lib/server.go:123-151, 402-416, 767. *)
Record anet := mkA { a_net : net; a_max : Z; a_in : list nat; a_pc : apc }.
(** A server without clients, lib/server.go:172-217. *)
Definition empty_anet (srv : rtrserver) : anet := mkA empty_net (s_maxconn srv) [] AIdle.

(** The steps, with the lines of lib/server.go they stand for. *)
Inductive alabel :=
| AStep (l : label)                                   (* any but LRead *)
| AEnter (i : nat)                                    (* c.connected is true, Read is called, 765-767 *)
| AReturn (i : nat) (cache : server) (chunk : bytes)  (* it returns, 768-813 *)
| ACall (n : Z)                                       (* SetMaxConnections is called, 402 *)
| AAdmin.                                             (* its next step *)

(** The server with another s.maxconn, lib/server.go:415. *)
Definition with_max (srv : rtrserver) (n : Z) : rtrserver :=
  mkRtr (baseVersion srv) (sessId srv) (s_enforce srv) (s_disableBGPSec srv)
        (s_refresh srv) (s_retry srv) (s_expire srv) n.

(** No counterpart in /repo: changes to the fields of Client, lib/server.go:658-682. *)
Definition on_conn (w : net) (i : nat) (f : conn -> conn) : net :=
  match nth_error (n_conns w) i with Some k => with_conn w i (f k) | None => w end.
(** The non-blocking send on quit, lib/server.go:1028-1031. *)
Definition wake (k : conn) : conn := match k_pc k with SParked => k_set_pc SDone k | _ => k end.

(** The next step of SetMaxConnections.  Clients beyond the end of the list are skipped (410);
    the new limit is stored at the end (415).  lib/server.go:402-416, 1020-1032. *)
Definition admin_step (a : anet) : anet :=
  let w := a_net a in
  match a_pc a with
  | AIdle => a
  | AWant n => if (n <? n_count w)%Z then mkA w (a_max a) (a_in a) (AList n (Z.to_nat (n_count w - n)))
               else mkA w n (a_in a) AIdle
  | AList n d => mkA w (a_max a) (a_in a) (ALoop n (firstn d (n_clients w)))
  | ALoop n [] => mkA w n (a_in a) AIdle
  | ALoop n (i :: r) => mkA (on_conn w i (k_set_flag false)) (a_max a) (a_in a) (ACount n i r)
  | ACount n i r => mkA (client_disconnected w i) (a_max a) (a_in a) (AQuit n i r)
  | AQuit n i r => mkA (on_conn w i wake) (a_max a) (a_in a) (ALoop n r)
  end.

(** One step; a step that is not possible leaves the state unchanged.  What Read returns is
    handled whether or not c.connected is still true.  lib/server.go:402-822, 1011-1032. *)
Definition astep (srv : rtrserver) (a : anet) (l : alabel) : res anet Empty_set :=
  let w := a_net a in
  let inside i := existsb (Nat.eqb i) (a_in a) in
  let step l := do w' <- nstep (with_max srv (a_max a)) w l; Ok (mkA w' (a_max a) (a_in a) (a_pc a)) in
  match l with
  | AStep (LRead _ _ _) => Ok a
  | AStep (LReturn i) => if inside i then Ok a else step (LReturn i)
  | AStep l => step l
  | AEnter i =>
      match nth_error (n_conns w) i with
      | Some k => match k_phase k, k_prog k, k_flag k, inside i with
                  | Running, [], true, false => Ok (mkA w (a_max a) (i :: a_in a) (a_pc a))
                  | _, _, _, _ => Ok a
                  end
      | None => Ok a
      end
  | AReturn i cache chunk =>
      match nth_error (n_conns w) i with
      | Some k => match k_phase k, k_prog k, inside i with
                  | Running, [], true =>
                      do r <- read_ops srv cache (k_cli k) chunk;
                      Ok (mkA (with_conn w i (k_set_read (fst r) (snd r) k)) (a_max a)
                              (filter (fun j => negb (Nat.eqb j i)) (a_in a)) (a_pc a))
                  | _, _, _ => Ok a
                  end
      | None => Ok a
      end
  | ACall n => Ok (match a_pc a with AIdle => mkA w (a_max a) (a_in a) (AWant n) | _ => a end)
  | AAdmin => Ok (admin_step a)
  end.

(** Any interleaving, lib/server.go:402-822, 1011-1032. *)
Fixpoint arun (srv : rtrserver) (a : anet) (sched : list alabel) : res anet Empty_set :=
  match sched with [] => Ok a | l :: r => do a' <- astep srv a l; arun srv a' r end.
