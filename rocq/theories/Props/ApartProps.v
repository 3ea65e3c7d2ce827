(** Property C62 for any number of updaters. *)
From Coq Require Import ZArith.
From Verif Require Import Model.ConcCache Spec.Sets Spec.History Spec.Snapshot Spec.Apart Proofs.ConcCacheP Proofs.ApartP
  Props.CacheProps Props.ConcCacheProps.
From Coq Require Import List Arith Lia.
Import ListNotations.
Local Open Scope list_scope.

(** C62 Concurrent updates are serialised: true of any number of updaters and queries as long as no two calls of
    AddData overlap: the cache is the one reached by the updates done one after the other, those of each
    updater in its order, and all of them when it has finished. *)
Theorem C62_apart_partial : forall s ts sched, (forall t, In t ts -> ~ busy t) -> apart (s, ts) sched ->
  exists l, in_turn ts (snd (wrun (s, ts) sched)) l /\ fst (wrun (s, ts) sched) = run s (map snd l).
Proof.
  intros s ts sched HB HA. destruct (apart_run s ts sched HB HA) as (l & H1 & H2 & _ & H4). exists l. split; [|exact H1].
  split; [|exact H4]. intros j h EJ. destruct (H2 j _ EJ) as (t' & E' & rest & ER & HS). exists rest. split; [exact ER|].
  intros E. rewrite E in E'. injection E' as <-. exact HS.
Qed.
(** Three updaters and a query; the second updater is between the two updates of the first; the third has nothing
    new. *)
Definition w_three : world := (new_server 3, [TUpd [[x1]; [x5]]; TUpd [[x1; x2]]; TReset; TUpd [[x5]]]).
Definition s_three : list nat := [0; 0; 0; 2; 1; 1; 2; 1; 0; 0; 0; 3]%nat.
Fixpoint momentsb (w : world) (sched : list nat) : bool :=
  Nat.leb (length (filter (fun t => match t with TUpd1 _ _ | TUpd2 _ _ _ _ => true | _ => false end) (snd w))) 1 &&
  match sched with [] => true | k :: r => momentsb (wstep w k) r end.
Lemma two_busy l : forall i j ti tj, nth_error l i = Some ti -> nth_error l j = Some tj -> busy ti -> busy tj -> i <> j ->
  (2 <= length (filter (fun t => match t with TUpd1 _ _ | TUpd2 _ _ _ _ => true | _ => false end) l))%nat.
Proof.
  assert (ONE : forall l j tj, nth_error l j = Some tj -> busy tj ->
    (1 <= length (filter (fun t => match t with TUpd1 _ _ | TUpd2 _ _ _ _ => true | _ => false end) l))%nat).
  { clear. induction l as [|x l IH]; intros [|j] tj E B; cbn [nth_error filter] in *; try discriminate E.
    - injection E as ->. destruct tj; destruct B; cbn [length]; lia.
    - specialize (IH j tj E B). destruct x; cbn [length]; lia. }
  induction l as [|x l IH]; intros [|i] [|j] ti tj EI EJ BI BJ N; cbn [nth_error filter] in *; try discriminate EI; try discriminate EJ; [now elim N| | |].
  - injection EI as ->. pose proof (ONE l j tj EJ BJ). destruct ti; destruct BI; cbn [length]; lia.
  - injection EJ as ->. pose proof (ONE l i ti EI BI). destruct tj; destruct BJ; cbn [length]; lia.
  - assert (H : (2 <= length (filter (fun t => match t with TUpd1 _ _ | TUpd2 _ _ _ _ => true | _ => false end) l))%nat) by (apply (IH i j ti tj); auto).
    destruct x; cbn [length]; lia.
Qed.
Lemma momentsb_apart sched : forall w, momentsb w sched = true -> apart w sched.
Proof.
  assert (HD : forall w r, momentsb w r = true -> forall i j ti tj, nth_error (snd w) i = Some ti -> nth_error (snd w) j = Some tj -> busy ti -> busy tj -> i = j).
  { intros w r H i j ti tj EI EJ BI BJ. destruct (Nat.eq_dec i j) as [E|N]; [exact E|]. pose proof (two_busy _ _ _ _ _ EI EJ BI BJ N) as T.
    destruct r; cbn [momentsb] in H; apply andb_prop in H as [H _]; apply Nat.leb_le in H; lia. }
  induction sched as [|k r IH]; intros w H n.
  - rewrite firstn_nil. apply (HD w []). exact H.
  - destruct n as [|n]; [apply (HD w (k :: r)); exact H|]. cbn [momentsb] in H. apply andb_prop in H as [_ H]. apply (IH (wstep w k) H n).
Qed.
Example C62_apart_case : (forall t, In t (snd w_three) -> ~ busy t) /\ apart w_three s_three /\
  fst (wrun w_three s_three) = run (new_server 3) [[x1]; [x1; x2]; [x5]; [x5]] /\
  snd (wrun w_three s_three) = [TUpd []; TUpd []; TAnswer 0 [x1]; TUpd []].
Proof.
  split; [intros t [<-|[<-|[<-|[<-|[]]]]] []|]. split; [apply momentsb_apart; vm_compute; reflexivity|]. split; vm_compute; reflexivity.
Qed.
Print Assumptions C62_apart_partial.
