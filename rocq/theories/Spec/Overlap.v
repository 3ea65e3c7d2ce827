(** A router polling a cache that is updated while it answers.  An exchange has two moments: the
    handler reads the serial, and it reads the data and answers (the critical sections of
    [tstep]).  An update is one moment: with one updater only the section that writes changes the
    cache (C62). *)
From Verif Require Import Model.ConcCache Spec.Sets Spec.History.

(** The cache, the query being handled, the serial of the router's last End of Data and the
    records it holds. *)
Record link := mkLk { lk_cache : server; lk_query : option thread; lk_at : option N; lk_set : list rid }.
Definition idle_link (keep : Z) : link := mkLk (new_server keep) None None [].
(** A router that takes what is announced and drops what is withdrawn, without complaint. *)
Definition absorb (R : list rid) (l : list sd) : list rid :=
  fold_left (fun R d => if get_flag d =? 1 then rid_of d :: R else remove rid_dec (rid_of d) R) l R.

(** New data; the router's query is taken up; it is answered. *)
Inductive happening := Publish (new : list sd) | Arrive | Finish.
Definition occur (w : link) (e : happening) : link :=
  match e with
  | Publish new => mkLk (step (lk_cache w) new) (lk_query w) (lk_at w) (lk_set w)
  | Arrive =>
      match lk_query w with
      | Some _ => w
      | None =>
          match tstep (lk_cache w) (match lk_at w with Some n => TSerial n | None => TReset end) with
          | Some (_, TNoData) | None => w
          | Some (_, t) => mkLk (lk_cache w) (Some t) (lk_at w) (lk_set w)
          end
      end
  | Finish =>
      match lk_query w with
      | None => w
      | Some t =>
          match tstep (lk_cache w) t with
          | Some (_, TAnswer n data) =>
              mkLk (lk_cache w) None (Some n) (absorb (match lk_at w with Some _ => lk_set w | None => [] end) data)
          | Some _ => mkLk (lk_cache w) None None (lk_set w)
          | None => w
          end
      end
  end.
Definition elapse (w : link) (l : list happening) : link := fold_left occur l w.
Definition published_sets (l : list happening) : list (list sd) :=
  flat_map (fun e => match e with Publish new => [new] | _ => [] end) l.
Definition newest (l : list happening) : list sd := last (published_sets l) [].

(** The changes since the serial of the last answer was read ([lag]) and since that of the query
    being handled was read ([pend]). *)
Definition lag_next (w : link) (lag pend : N) (e : happening) : N * N :=
  match e with
  | Publish new => let k := if advances (sdCurrent (lk_cache w)) new then 1 else 0 in (lag + k, pend + k)
  | Arrive => match lk_query w with None => (lag, 0) | Some _ => (lag, pend) end
  | Finish => match lk_query w with None => (lag, pend) | Some _ => (pend, pend) end
  end.
(** A condition on [lag] at each query for changes when it is taken up, resp. when it is answered. *)
Fixpoint each_arrive (ok : N -> Prop) (w : link) (lag pend : N) (l : list happening) : Prop :=
  match l with
  | [] => True
  | e :: l' =>
      match e, lk_query w, lk_at w with Arrive, None, Some _ => ok lag | _, _, _ => True end /\
      each_arrive ok (occur w e) (fst (lag_next w lag pend e)) (snd (lag_next w lag pend e)) l'
  end.
Fixpoint each_finish (ok : N -> Prop) (w : link) (lag pend : N) (l : list happening) : Prop :=
  match l with
  | [] => True
  | e :: l' =>
      match e, lk_query w, lk_at w with Finish, Some _, Some _ => ok lag | _, _, _ => True end /\
      each_finish ok (occur w e) (fst (lag_next w lag pend e)) (snd (lag_next w lag pend e)) l'
  end.
(** At most one change, or more than the history holds. *)
Definition served (keep : Z) (k : N) : Prop := k <= 1 \/ ((0 < keep < Z.of_N k)%Z /\ k < 4294967296).
(** The router holds exactly the records [l]. *)
Definition holds (w : link) (l : list sd) : Prop := forall x, In x (lk_set w) <-> In x (ids l).
(** What the query being handled would be answered now. *)
Definition reply (w : link) : option (list sd) :=
  match lk_query w with
  | Some t => match tstep (lk_cache w) t with Some (_, TAnswer _ data) => Some data | _ => None end
  | None => None
  end.
(** RFC 8210 leaves no room for it: announced although held, or withdrawn although not. *)
Definition offends (w : link) : Prop :=
  exists data, reply w = Some data /\ lk_at w <> None /\ ~ diff_for (fun x => In x (lk_set w)) data.
(** The polls that follow, with nothing published. *)
Fixpoint polls (n : nat) : list happening := match n with O => [] | S n' => Arrive :: Finish :: polls n' end.
