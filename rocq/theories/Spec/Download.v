(** Web servers, and what downloading from one should give. *)
From Verif Require Export Model.Fetch Model.Trigger.

(** What a server has under one URL at one moment. *)
Record version := mkV { v_body : bytes; v_etag : bytes; v_lm : option Z }.
(** May the server answer "not modified" (RFC 9110, 13.2.2)? *)
Definition unmodified (v : version) (rq : request) : Prop :=
  (exists t, rq_inm rq = Some t /\ t <> [] /\ t = v_etag v) \/
  ((rq_inm rq = None \/ rq_inm rq = Some []) /\ exists t l, rq_ims rq = Some t /\ v_lm v = Some l /\ (l <= t)%Z).
(** The exchanges possible with a server that has [v]. *)
Inductive answers (v : version) (rq : request) : exchange -> Prop :=
| A_full : answers v rq (Response 200 (v_etag v) (v_lm v) (Some (v_body v)))
| A_cut : answers v rq (Response 200 (v_etag v) (v_lm v) None)
| A_304 e l b : unmodified v rq -> answers v rq (Response 304 e l b)
| A_error n e l b : n <> 200 -> n <> 304 -> answers v rq (Response n e l b)
| A_none : answers v rq NoResponse.

(** A sequence of downloads: the version at the time, the exchange, the result. *)
Definition event := (version * exchange * res bytes ferr)%type.
Definition ev_v (e : event) : version := fst (fst e).
Definition ev_x (e : event) : exchange := snd (fst e).
Definition ev_r (e : event) : res bytes ferr := snd e.
Inductive downloads (c : fcfg) (file : bytes) : list event -> fstate -> Prop :=
| D_start : downloads c file [] new_fetch
| D_step h s v x s' r : downloads c file h s -> answers v (request_of c s file) x ->
    fetch_http c s file x = (s', r) -> downloads c file (h ++ [(v, x, r)]) s'.

(** Validators tell versions apart. *)
Definition honest (h : list event) : Prop :=
  forall h1 e1 h2 e2 h3, h = h1 ++ e1 :: h2 ++ e2 :: h3 ->
    (v_etag (ev_v e1) = v_etag (ev_v e2) -> v_etag (ev_v e1) <> [] -> v_body (ev_v e1) = v_body (ev_v e2)) /\
    (forall l1 l2, v_lm (ev_v e1) = Some l1 -> v_lm (ev_v e2) = Some l2 -> (l2 <= l1)%Z -> v_body (ev_v e1) = v_body (ev_v e2)).

Definition cut (x : exchange) : Prop := exists e l, x = Response 200 e l None.
(** The server answered, with the file or that it has not changed. *)
Definition answered (x : exchange) : Prop := exists n e l b, x = Response n e l b /\ (n = 200 \/ n = 304).
Definition failed_status (x : exchange) : Prop := exists n e l b, x = Response n e l b /\ n <> 200 /\ n <> 304.
(** The last content a sequence of downloads gave. *)
Fixpoint last_read (h : list event) (acc : option bytes) : option bytes :=
  match h with
  | [] => acc
  | e :: h' => last_read h' (match ev_r e with Ok b => Some b | _ => acc end)
  end.

(** The validators a client should have after a sequence of downloads: those of the last
    response with content; none after an error status, or if there were none. *)
Definition last_etag (h : list event) : option bytes :=
  fold_left (fun acc e => match ev_x e with
    | Response n t _ _ => if n =? 304 then acc else if n =? 200 then Some t else None
    | NoResponse => acc end) h None.
Definition last_lm (h : list event) : option Z :=
  fold_left (fun acc e => match ev_x e, ev_r e with
    | Response n _ l _, r => if n =? 304 then acc else if n =? 200 then match r with Err EIdentical => acc | _ => l end else None
    | NoResponse, _ => acc end) h None.

(** Two goroutines about to access the same map, one of them to write. *)
Definition access (o : op) : option (bool * bool) :=
  match o with ORead m => Some (m, false) | OWrite m => Some (m, true) | _ => None end.
Definition race (s : lstate) : Prop :=
  exists i j o1 o2 p1 p2 m w1 w2, i <> j /\ nth_error (l_ths s) i = Some (o1 :: p1) /\ nth_error (l_ths s) j = Some (o2 :: p2) /\
    access o1 = Some (m, w1) /\ access o2 = Some (m, w2) /\ (w1 = true \/ w2 = true).
Definition finished (s : lstate) : Prop := forall p, In p (l_ths s) -> p = [].

(** A refresh starts. *)
Definition starts (l : tlabel) : bool := match l with TTick | THup | TTake => true | _ => false end.
(** A step of the loop, not of a handler. *)
Definition of_loop (l : tlabel) : bool := match l with TCall _ => false | _ => true end.
(** A call answered with success; the taking of a trigger from the queue. *)
Definition is_success (l : tlabel) : bool := match l with TCall true => true | _ => false end.
Definition is_take (l : tlabel) : bool := match l with TTake => true | _ => false end.
(** The download compares ETags, line 138; and it writes to the maps. *)
Definition compares (c : fcfg) (file : bytes) (x : exchange) : Prop :=
  is_http file = true /\ fc_etags c = true /\ exists etag lm b, x = Response 200 etag lm b /\ etag <> [].
Definition stores (c : fcfg) (file : bytes) (x : exchange) (same : bool) : Prop :=
  is_http file = true /\ exists status etag lm b, x = Response status etag lm b /\ status <> 304 /\
    (status = 200 -> fc_etags c = false \/ etag = [] \/ same = false).
