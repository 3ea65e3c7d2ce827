(** Model of the metrics about clients, /repo/cmd/stayrtr/stayrtr.go:134-147 and 691-710: the
    gauge rtr_clients and the counter rtr_pdus, beside Model/Concurrent.v.  The server calls
    the handler outside its critical sections (lib/server.go:428-430, 445-447), so a change of
    the gauge comes some time after the change of the list of clients, and the goroutine
    concerned does nothing else in between.  HandlePDU (465) is taken together with the read;
    metrics themselves are atomic.  All of this runs whether or not -metrics.addr is given: the
    handler is then a nil *metricsEvent in a non-nil interface (770-777), whose methods work. *)
From Verif Require Export Lib.Str Model.Concurrent.
Local Open Scope string_scope.
Local Open Scope list_scope.
Local Open Scope N_scope.

(** The server, the gauge per label "bind", the changes of it that goroutines are about to
    make (whose, how much), and the counter per label "type".  stayrtr.go:134-147. *)
Record gnet := mkGN { gn_net : net; gn_gauge : bytes -> Z; gn_owed : list (nat * Z); gn_pdus : bytes -> N }.
(** At the start, stayrtr.go:134-147. *)
Definition empty_gnet : gnet := mkGN empty_net (fun _ => 0%Z) [] (fun _ => 0).

(** TypeToString, lib/structs.go:75-100, for the types PDUs have. *)
Definition type_to_string (t : N) : bytes :=
  match t with
  | 0 => str "Serial Notify" | 1 => str "Serial Query" | 2 => str "Reset Query" | 3 => str "Cache Response"
  | 4 => str "IPv4 Prefix" | 6 => str "IPv6 Prefix" | 7 => str "End of Data" | 8 => str "Cache Reset"
  | 9 => str "Router Key" | 10 => str "Error Report" | _ => str "Unknown type"
  end.
(** strings.ToLower of strings.Replace " " by "_"; stayrtr.go:704-709. *)
Definition label_char (c : N) : N := if c =? 32 then 95 else if (65 <=? c) && (c <=? 90) then c + 32 else c.
(** The label of a PDU, stayrtr.go:703-709. *)
Definition pdu_label (p : pdu) : bytes := map label_char (type_to_string (get_type p)).

(** Adding to one of the values of a vector; WithLabelValues(a).Inc, Dec, stayrtr.go:695, 699, 709. *)
Definition add_to {A} (f : A -> A) (g : bytes -> A) (a : bytes) : bytes -> A := fun b => if beqb a b then f (g b) else g b.

(** The goroutine of a connection that makes a step, if it is one: lib/server.go:516-569, 757-813. *)
Definition actor (l : label) : option nat :=
  match l with LSshBegin i | LStart i | LRead i _ _ | LReader i | LReturn i => Some i | _ => None end.
(** What the handler is called with after this step: ClientConnected (lib/server.go:428-430),
    ClientDisconnected (445-447). *)
Definition owes (w : net) (l : label) : list (nat * Z) :=
  match l with
  | LStart i => match nth_error (n_conns w) i with
      | Some k => match k_phase k, k_tr k with
                  | Accepted, TCP | Accepted, TLS | SshBegun, _ => [(i, 1%Z)]
                  | _, _ => [] end
      | None => [] end
  | LReader i => match nth_error (n_conns w) i with
      | Some k => match k_prog k with ODisc :: _ => [(i, (-1)%Z)] | _ => [] end
      | None => [] end
  | _ => []
  end.
(** The PDU handed to HandlePDU, lib/server.go:766-810. *)
Definition received (w : net) (l : label) : list pdu :=
  match l with
  | LRead i _ chunk => match nth_error (n_conns w) i with
      | Some k => match k_phase k, k_prog k, k_flag k, chunk with
                  | Running, [], true, _ :: _ => match decode_bytes 64 chunk with Ok p => [p] | _ => [] end
                  | _, _, _, _ => [] end
      | None => [] end
  | _ => []
  end.

(** A step of the server, or of a goroutine inside ClientConnected (stayrtr.go:694-696) or
    ClientDisconnected (698-700) of the handler. *)
Inductive glabel := GNet (l : label) | GMetric (i : nat).
(** The first change a goroutine owes, and the others; stayrtr.go:694-700. *)
Fixpoint take_owed (i : nat) (l : list (nat * Z)) : option (Z * list (nat * Z)) :=
  match l with
  | [] => None
  | (j, d) :: r => if Nat.eqb j i then Some (d, r)
                   else match take_owed i r with Some (x, r') => Some (x, (j, d) :: r') | None => None end
  end.
(** Is a goroutine inside the handler?  lib/server.go:428-430, 445-447. *)
Definition busy (x : gnet) (l : label) : bool :=
  match actor l with Some i => existsb (fun p => Nat.eqb (fst p) i) (gn_owed x) | None => false end.
(** One step; [addr i] is the local address of connection [i] as text (GetLocalAddress,
    lib/server.go:692-694).  lib/server.go:403-822, 1011-1032, stayrtr.go:694-710. *)
Definition gstep (addr : nat -> bytes) (srv : rtrserver) (x : gnet) (g : glabel) : res gnet Empty_set :=
  match g with
  | GNet l =>
      if busy x l then Ok x
      else do w' <- nstep srv (gn_net x) l;
           Ok (mkGN w' (gn_gauge x) (gn_owed x ++ owes (gn_net x) l)
                 (fold_left (fun c p => add_to N.succ c (pdu_label p)) (received (gn_net x) l) (gn_pdus x)))
  | GMetric i =>
      match take_owed i (gn_owed x) with
      | Some (d, r) => Ok (mkGN (gn_net x) (add_to (Z.add d) (gn_gauge x) (addr i)) r (gn_pdus x))
      | None => Ok x
      end
  end.
(** Any interleaving; lib/server.go:403-822, 1011-1032, stayrtr.go:694-710. *)
Fixpoint grun (addr : nat -> bytes) (srv : rtrserver) (x : gnet) (sched : list glabel) : res gnet Empty_set :=
  match sched with [] => Ok x | l :: r => do x' <- gstep addr srv x l; grun addr srv x' r end.
