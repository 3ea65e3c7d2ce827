(** From the files to the router: a daemon that refreshes, a router that polls. *)
From Verif Require Import Model.Conn Spec.Refresh Spec.Response Spec.Router.
Local Open Scope list_scope.
Local Open Scope N_scope.

(** The daemon refreshes, the router polls, the router connects again. *)
Inductive devent := Turn (i : input) | Ask | Again.
Record dworld := mkDa { da_turns : list input; da_conn : client; da_router : router }.
Definition dhappens (e : env) (c : scfg) (srv : rtrserver) (tr : transport) (v : N) (w : dworld) (x : devent) : option dworld :=
  match x with
  | Turn i => Some (mkDa (da_turns w ++ [i]) (da_conn w) (da_router w))
  | Ask =>
      match poll srv v (st_server (State.after e c (da_turns w))) (da_conn w) (da_router w) with
      | Some (cl, r) => Some (mkDa (da_turns w) cl r)
      | None => None
      end
  | Again => Some (mkDa (da_turns w) (accept tr srv) (da_router w))
  end.
Fixpoint dplay (e : env) (c : scfg) (srv : rtrserver) (tr : transport) (v : N) (w : dworld) (l : list devent) : option dworld :=
  match l with [] => Some w | x :: l' => match dhappens e c srv tr v w x with Some w' => dplay e c srv tr v w' l' | None => None end end.
Definition dstart (srv : rtrserver) (tr : transport) : dworld := mkDa [] (accept tr srv) fresh_router.
Definition turns (l : list devent) : list input := flat_map (fun x => match x with Turn i => [i] | _ => [] end) l.

(** The router polls after every refresh. *)
Fixpoint prompt (behind : option N) (l : list devent) : Prop :=
  match l with
  | [] => True
  | Turn _ :: l' => prompt (option_map (fun k => k + 1) behind) l'
  | Ask :: l' => match behind with Some k => k <= 1 | None => True end /\ prompt (Some 0) l'
  | Again :: l' => prompt behind l'
  end.
(** Records that a connection of version [v] may carry. *)
Definition allowed (v : N) (nokeys : bool) (x : rid) : Prop :=
  match x with RV _ _ _ => True | RK _ _ _ => v <> 0 /\ nokeys = false end.
(** After every refresh there is something to serve, and no router key is listed twice. *)
Definition never_empty (e : env) (c : scfg) (h : list input) : Prop :=
  forall h1 i h2, h = h1 ++ i :: h2 -> exists x, served (State.after e c (h1 ++ [i])) x.
Definition keys_once (e : env) (c : scfg) (h : list input) : Prop :=
  forall h1 h2, h = h1 ++ h2 -> no_dup_keys (st_slurm (State.after e c h1)) (st_data (State.after e c h1)).
