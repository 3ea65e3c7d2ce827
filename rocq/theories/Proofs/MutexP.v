(** Sections that do not nest, fields guarded by one lock each. *)
From Coq Require Import ZArith List Bool Lia Arith ZifyBool ZifyNat.
From Verif Require Import Model.Mutex Spec.Locking.
Import ListNotations.

(** The lock held, and whether for writing. *)
Definition hold := option (lck * bool).
(** The lock that guards a field. *)
Definition guard (x : fld) : option lck :=
  match x with
  | SdCurrent | SdListDiff | SdSerial => Some SdLock
  | Clients => Some ClientLock
  | Exported => Some JsonLock
  | MVrps k | MTimers k | MLast k => Some (CompLock k)
  | MVrpsRtr k => Some (CompRtrLock k)
  | OnlyIn | Metas => Some DiffLock
  | _ => None
  end.
Definition holds (h : hold) (l : lck) : bool := match h with Some (m, _) => if lck_eq_dec l m then true else false | None => false end.
Definition holds_w (h : hold) (l : lck) : bool := match h with Some (m, true) => if lck_eq_dec l m then true else false | _ => false end.
Definition is_conn (x : fld) : bool := if fld_eq_dec x Connected then true else false.

(** A program is in order: from the lock held (and whether the counter has just been read under its lock). *)
Fixpoint scan (own : fld -> bool) (owned : fld -> bool) (strict : bool) (h : hold) (f : bool) (ops : list mop) : bool :=
  match ops with
  | [] => match h with None => negb f | Some _ => false end
  | MRLock l :: r => match h with None => negb f && scan own owned strict (Some (l, false)) false r | Some _ => false end
  | MLock l :: r => match h with None => negb f && scan own owned strict (Some (l, true)) false r | Some _ => false end
  | MRUnlock l :: r => match h with Some (m, false) => (if lck_eq_dec l m then true else false) && scan own owned strict None false r | _ => false end
  | MUnlock l :: r => match h with Some (m, true) => (if lck_eq_dec l m then true else false) && scan own owned strict None false r | _ => false end
  | MRead x :: r =>
      match guard x with None => true | Some l => holds h l || (owned x && own x) end &&
      scan own owned strict h (is_conn x && holds_w h ClientLock) r
  | MWrite x d :: r =>
      match guard x with None => true | Some l => holds_w h l && (negb (owned x) || own x) end &&
      (if strict && is_conn x then f && holds_w h ClientLock else true) &&
      scan own owned strict h (if is_conn x then false else f) r
  end.
Lemma scan_app own owned strict p : forall h f q, scan own owned strict h f p = true -> scan own owned strict None false q = true ->
  scan own owned strict h f (p ++ q) = true.
Proof.
  induction p as [|o p IH]; intros h f q H1 H2.
  - cbn [scan] in H1. destruct h; [discriminate|]. destruct f; [discriminate|exact H2].
  - cbn [app]. destruct o as [l|l|l|l|x|x d]; cbn [scan] in *.
    + destruct h; [discriminate|]. apply andb_prop in H1 as [-> H1]. now apply IH.
    + destruct h as [[m [|]]|]; try discriminate. apply andb_prop in H1 as [-> H1]. now apply IH.
    + destruct h; [discriminate|]. apply andb_prop in H1 as [-> H1]. now apply IH.
    + destruct h as [[m [|]]|]; try discriminate. apply andb_prop in H1 as [-> H1]. now apply IH.
    + apply andb_prop in H1 as [-> H1]. now apply IH.
    + apply andb_prop in H1 as [H0 H1]. apply andb_prop in H0 as [-> ->]. now apply IH.
Qed.
Lemma scan_flat {A} own owned strict (g : A -> list mop) l : (forall a, In a l -> scan own owned strict None false (g a) = true) ->
  scan own owned strict None false (flat_map g l) = true.
Proof.
  induction l as [|a l IH]; intros H; [reflexivity|]. cbn [flat_map]. apply scan_app; [apply H; now left|].
  apply IH. intros b Hb. apply H. now right.
Qed.

(** * Threads *)
Lemma set_thread_nth l i t j : nth_error (set_thread l i t) j = if (j =? i) && (i <? length l) then Some t else nth_error l j.
Proof.
  revert i j. induction l as [|x l IH]; intros i j; cbn [set_thread].
  - rewrite andb_false_r. reflexivity.
  - destruct i as [|i], j as [|j]; cbn [nth_error length]; try reflexivity. rewrite IH. reflexivity.
Qed.
Lemma set_thread_same l i t : (i < length l) -> nth_error (set_thread l i t) i = Some t.
Proof. intros H. rewrite set_thread_nth, Nat.eqb_refl. apply Nat.ltb_lt in H. now rewrite H. Qed.
Lemma set_thread_other l i t j : j <> i -> nth_error (set_thread l i t) j = nth_error l j.
Proof. intros H. rewrite set_thread_nth. apply Nat.eqb_neq in H. now rewrite H. Qed.

(** What each goroutine holds, given by a function of its number. *)
Section Inv.
Context (own : nat -> fld -> bool) (owned : fld -> bool) (strict : bool).
Context (own_one : forall x i j, own i x = true -> own j x = true -> i = j).

(** Readers of [l] among the first [n] goroutines. *)
Fixpoint readers (hs : nat -> hold) (l : lck) (n : nat) : nat :=
  match n with
  | O => O
  | S m => (match hs m with Some (k, false) => if lck_eq_dec l k then 1 else 0 | _ => 0 end) + readers hs l m
  end.
Record inv (s : mstate) (hs : nat -> hold) (fs : nat -> bool) : Prop := mkInv {
  i_scan : forall i t, nth_error (ms_threads s) i = Some t -> scan (own i) owned strict (hs i) (fs i) (mt_ops t) = true;
  i_none : forall i, length (ms_threads s) <= i -> hs i = None;
  i_read : forall l, rw_readers (ms_lock s l) = readers hs l (length (ms_threads s));
  i_held : forall l i, rw_writer (ms_lock s l) = Some (i, true) <-> hs i = Some (l, true);
  i_excl : forall l i, hs i = Some (l, true) -> rw_readers (ms_lock s l) = 0;
  i_pend : forall l i, rw_writer (ms_lock s l) = Some (i, false) -> exists t r, nth_error (ms_threads s) i = Some t /\ mt_ops t = MLock l :: r;
  i_fresh : forall i t, strict = true -> nth_error (ms_threads s) i = Some t -> fs i = true -> hs i = Some (ClientLock, true) /\ mt_reg t = ms_mem s Connected
}.

Definition upd {A} (g : nat -> A) (i : nat) (a : A) : nat -> A := fun j => if j =? i then a else g j.
Lemma upd_same {A} (g : nat -> A) i a : upd g i a i = a.
Proof. unfold upd. now rewrite Nat.eqb_refl. Qed.
Lemma upd_other {A} (g : nat -> A) i a j : j <> i -> upd g i a j = g j.
Proof. unfold upd. intros H. apply Nat.eqb_neq in H. now rewrite H. Qed.
Definition one (h : hold) (l : lck) : nat := match h with Some (k, false) => if lck_eq_dec l k then 1 else 0 | _ => 0 end.
Lemma readers_upd hs l n i h : i < n -> readers (upd hs i h) l n + one (hs i) l = readers hs l n + one h l.
Proof.
  induction n as [|n IH]; [lia|]. intros H. cbn [readers]. fold (one (upd hs i h n) l). fold (one (hs n) l).
  destruct (Nat.eq_dec n i) as [->|Hn].
  - rewrite upd_same. assert (E : readers (upd hs i h) l i = readers hs l i).
    { clear. assert (forall m, m <= i -> readers (upd hs i h) l m = readers hs l m); [|auto].
      induction m as [|m IH]; [reflexivity|]. intros Hm. cbn [readers]. rewrite IH by lia. now rewrite upd_other by lia. }
    lia.
  - rewrite upd_other by assumption. specialize (IH ltac:(lia)). lia.
Qed.
Lemma readers_pos hs l n i : i < n -> hs i = Some (l, false) -> 0 < readers hs l n.
Proof.
  induction n as [|n IH]; [lia|]. intros H E. cbn [readers]. destruct (Nat.eq_dec i n) as [->|Hn].
  - rewrite E. destruct (lck_eq_dec l l); [lia|congruence].
  - specialize (IH ltac:(lia) E). lia.
Qed.
Lemma readers_zero hs l n : readers hs l n <> 0 -> exists i, i < n /\ hs i = Some (l, false).
Proof.
  induction n as [|n IH]; cbn [readers]; [congruence|]. intros H.
  destruct (hs n) as [[k [|]]|] eqn:E.
  - destruct IH as (i & Hi & Ei); [lia|]. exists i. split; [lia|exact Ei].
  - destruct (lck_eq_dec l k) as [->|].
    + exists n. split; [lia|exact E].
    + destruct IH as (i & Hi & Ei); [lia|]. exists i. split; [lia|exact Ei].
  - destruct IH as (i & Hi & Ei); [lia|]. exists i. split; [lia|exact Ei].
Qed.
Lemma set_thread_length l i t : length (set_thread l i t) = length l.
Proof. revert i. induction l as [|x l IH]; intros [|i]; cbn; auto. Qed.
Lemma set_lock_same f l v : set_lock f l v l = v.
Proof. unfold set_lock. destruct (lck_eq_dec l l); congruence. Qed.
Lemma set_lock_other f l v m : m <> l -> set_lock f l v m = f m.
Proof. unfold set_lock. destruct (lck_eq_dec m l); congruence. Qed.
Lemma nth_lt {A} (l : list A) i x : nth_error l i = Some x -> i < length l.
Proof. intros H. apply nth_error_Some. congruence. Qed.

(** No two goroutines hold one lock, unless both for reading. *)
Lemma excl s hs fs i j l b : inv s hs fs -> hs i = Some (l, true) -> hs j = Some (l, b) -> i = j.
Proof.
  intros HI H1 H2. destruct b.
  - apply (i_held _ _ _ HI) in H1, H2. congruence.
  - pose proof (i_excl _ _ _ HI _ _ H1) as E. rewrite (i_read _ _ _ HI) in E.
    assert (j < length (ms_threads s)).
    { destruct (Nat.lt_ge_cases j (length (ms_threads s))) as [|G]; [assumption|]. apply (i_none _ _ _ HI) in G. congruence. }
    pose proof (readers_pos hs l _ j H H2). lia.
Qed.

(** The common part of a step that changes one thread and no lock. *)
Lemma inv_local s hs fs i t t' mem h f :
  inv s hs fs -> nth_error (ms_threads s) i = Some t -> h = hs i ->
  (forall l, ~ exists r, mt_ops t = MLock l :: r) ->
  scan (own i) owned strict h f (mt_ops t') = true ->
  (strict = true -> f = true -> h = Some (ClientLock, true) /\ mt_reg t' = mem Connected) ->
  (strict = true -> forall j, j <> i -> fs j = true -> hs j = Some (ClientLock, true) -> mem Connected = ms_mem s Connected) ->
  inv (mkMS (set_thread (ms_threads s) i t') (ms_lock s) mem) hs (upd fs i f).
Proof.
  intros HI Ht -> HL HS HF HM. pose proof (nth_lt _ _ _ Ht) as Hi. constructor; cbn [ms_threads ms_lock ms_mem].
  - intros j u Hu. destruct (Nat.eq_dec j i) as [->|Hj].
    + rewrite set_thread_same in Hu by assumption. injection Hu as <-. now rewrite upd_same.
    + rewrite set_thread_other in Hu by assumption. rewrite upd_other by assumption. eapply i_scan; eauto.
  - intros j. rewrite set_thread_length. now apply (i_none _ _ _ HI).
  - intros l. rewrite set_thread_length. now apply (i_read _ _ _ HI).
  - apply (i_held _ _ _ HI).
  - apply (i_excl _ _ _ HI).
  - intros l j Hp. destruct (i_pend _ _ _ HI _ _ Hp) as (u & r & Hu & Hr). destruct (Nat.eq_dec j i) as [->|Hj].
    + exfalso. apply (HL l). rewrite Ht in Hu. injection Hu as ->. eauto.
    + exists u, r. rewrite set_thread_other by assumption. auto.
  - intros j u SS Hu. destruct (Nat.eq_dec j i) as [->|Hj].
    + rewrite set_thread_same in Hu by assumption. injection Hu as <-. rewrite upd_same. auto.
    + rewrite set_thread_other in Hu by assumption. rewrite upd_other by assumption. intros E.
      destruct (i_fresh _ _ _ HI _ _ SS Hu E) as [A B]. split; [exact A|]. rewrite (HM SS j); auto.
Qed.

Lemma holds_w_eq h l : holds_w h l = true -> h = Some (l, true).
Proof. unfold holds_w. destruct h as [[m [|]]|]; try discriminate. destruct (lck_eq_dec l m); [now subst|discriminate]. Qed.
Lemma holds_eq h l : holds h l = true -> exists b, h = Some (l, b).
Proof. unfold holds. destruct h as [[m b]|]; try discriminate. destruct (lck_eq_dec l m); [subst; eauto|discriminate]. Qed.


Lemma inv_lock s hs fs i t t' l v h' :
  inv s hs fs -> nth_error (ms_threads s) i = Some t -> mt_reg t' = mt_reg t ->
  scan (own i) owned strict h' false (mt_ops t') = true ->
  rw_readers v + one (hs i) l = rw_readers (ms_lock s l) + one h' l ->
  (forall m, m <> l -> one (hs i) m = one h' m /\ (hs i = Some (m, true) <-> h' = Some (m, true)) /\ ~ exists r, mt_ops t = MLock m :: r) ->
  (forall j, rw_writer v = Some (j, true) <-> upd hs i h' j = Some (l, true)) ->
  (forall j, upd hs i h' j = Some (l, true) -> rw_readers v = 0) ->
  (forall j, rw_writer v = Some (j, false) -> j <> i /\ rw_writer (ms_lock s l) = Some (j, false)) ->
  inv (mkMS (set_thread (ms_threads s) i t') (set_lock (ms_lock s) l v) (ms_mem s)) (upd hs i h') (upd fs i false).
Proof.
  intros HI Ht Hreg HS HR HO HW HE HP. pose proof (nth_lt _ _ _ Ht) as Hi. constructor; cbn [ms_threads ms_lock ms_mem].
  - intros j u Hu. destruct (Nat.eq_dec j i) as [->|Hj].
    + rewrite set_thread_same in Hu by assumption. injection Hu as <-. now rewrite !upd_same.
    + rewrite set_thread_other in Hu by assumption. rewrite !upd_other by assumption. eapply i_scan; eauto.
  - intros j. rewrite set_thread_length. intros Hj. rewrite upd_other by lia. now apply (i_none _ _ _ HI).
  - intros m. rewrite set_thread_length. pose proof (readers_upd hs m (length (ms_threads s)) i h' Hi) as E.
    pose proof (i_read _ _ _ HI m) as E2. destruct (lck_eq_dec m l) as [->|Hm].
    + rewrite set_lock_same. lia.
    + rewrite set_lock_other by assumption. destruct (HO m Hm) as (E3 & _). lia.
  - intros m j. destruct (lck_eq_dec m l) as [->|Hm].
    + rewrite set_lock_same. apply HW.
    + rewrite set_lock_other by assumption. rewrite (i_held _ _ _ HI). destruct (Nat.eq_dec j i) as [->|Hj].
      * rewrite upd_same. now destruct (HO m Hm) as (_ & E3 & _).
      * now rewrite upd_other by assumption.
  - intros m j E. destruct (lck_eq_dec m l) as [->|Hm].
    + rewrite set_lock_same. now apply (HE j).
    + rewrite set_lock_other by assumption. destruct (Nat.eq_dec j i) as [->|Hj].
      * rewrite upd_same in E. apply (HO m Hm) in E. now apply (i_excl _ _ _ HI _ i).
      * rewrite upd_other in E by assumption. now apply (i_excl _ _ _ HI _ j).
  - intros m j E. assert (E' : j <> i /\ rw_writer (ms_lock s m) = Some (j, false)).
    { destruct (lck_eq_dec m l) as [->|Hm].
      - rewrite set_lock_same in E. now apply HP.
      - rewrite set_lock_other in E by assumption. split; [|exact E]. intros ->.
        destruct (i_pend _ _ _ HI _ _ E) as (u & r & Hu & Hr). destruct (HO m Hm) as (_ & _ & N). apply N.
        rewrite Ht in Hu. injection Hu as ->. eauto. }
    destruct E' as [Hj E']. destruct (i_pend _ _ _ HI _ _ E') as (u & r & Hu & Hr). exists u, r.
    rewrite set_thread_other by assumption. auto.
  - intros j u SS Hu. destruct (Nat.eq_dec j i) as [->|Hj].
    + rewrite upd_same. discriminate.
    + rewrite set_thread_other in Hu by assumption. rewrite !upd_other by assumption. eapply i_fresh; eauto.
Qed.

Ltac nohead := let H := fresh in intros [? H]; discriminate H.
Lemma inv_step s hs fs i s' : inv s hs fs -> mx_step s i = Some s' -> exists hs' fs', inv s' hs' fs'.
Proof.
  intros HI H. unfold mx_step in H. destruct (nth_error (ms_threads s) i) as [[[|o r] reg]|] eqn:Ht; try discriminate.
  pose proof (nth_lt _ _ _ Ht) as Hi. pose proof (i_scan _ _ _ HI _ _ Ht) as HS. cbn [mt_ops] in HS.
  destruct o as [l|l|l|l|x|x d]; cbn [scan] in HS.
  - (* RLock *)
    destruct (hs i) eqn:Eh; [discriminate|]. apply andb_prop in HS as [_ HS].
    destruct (ms_lock s l) as [n w] eqn:El. destruct w as [|]; [discriminate|]. injection H as <-.
    do 2 eexists. eapply (inv_lock s hs fs i _ (mkMT r reg) l (mkRW (S n) None) (Some (l, false)) HI Ht); cbn [mt_reg mt_ops rw_readers rw_writer].
    + reflexivity.
    + exact HS.
    + rewrite Eh, El. cbn [one rw_readers]. destruct (lck_eq_dec l l); [lia|congruence].
    + intros m Hm. rewrite Eh. cbn [one]. destruct (lck_eq_dec m l); [congruence|]. split; [reflexivity|]. split; [|nohead].
      split; [discriminate|]. intros E. injection E as _ E. discriminate E.
    + intros j. split; [discriminate|]. intros E. destruct (Nat.eq_dec j i) as [->|Hj].
      * rewrite upd_same in E. discriminate E.
      * rewrite upd_other in E by assumption. apply (i_held _ _ _ HI) in E. rewrite El in E. discriminate E.
    + intros j E. destruct (Nat.eq_dec j i) as [->|Hj].
      * rewrite upd_same in E. discriminate E.
      * rewrite upd_other in E by assumption. apply (i_held _ _ _ HI) in E. rewrite El in E. discriminate E.
    + discriminate.
  - (* RUnlock *)
    destruct (hs i) as [[m [|]]|] eqn:Eh; try discriminate. apply andb_prop in HS as [Em HS].
    destruct (lck_eq_dec l m) as [<-|]; [|discriminate].
    destruct (ms_lock s l) as [[|n] w] eqn:El; [discriminate|]. injection H as <-.
    assert (NW : forall j, hs j <> Some (l, true)).
    { intros j E. pose proof (i_excl _ _ _ HI _ _ E) as Z. rewrite El in Z. discriminate Z. }
    assert (NU : forall j, upd hs i None j <> Some (l, true)).
    { intros j. destruct (Nat.eq_dec j i) as [->|Hj]; [rewrite upd_same; discriminate|rewrite upd_other by assumption; apply NW]. }
    do 2 eexists. eapply (inv_lock s hs fs i _ (mkMT r reg) l (mkRW n w) None HI Ht); cbn [mt_reg mt_ops rw_readers rw_writer].
    + reflexivity.
    + exact HS.
    + rewrite Eh, El. cbn [one rw_readers]. destruct (lck_eq_dec l l); [lia|congruence].
    + intros m Hm. rewrite Eh. cbn [one]. destruct (lck_eq_dec m l); [congruence|]. split; [reflexivity|]. split; [|nohead].
      split; [|discriminate]. intros E. injection E as _ E. discriminate E.
    + intros j. split; [|intros E; now apply NU in E]. intros ->. exfalso.
      assert (E : rw_writer (ms_lock s l) = Some (j, true)) by now rewrite El. apply (i_held _ _ _ HI) in E. now apply NW in E.
    + intros j E. now apply NU in E.
    + intros j ->. assert (E : rw_writer (ms_lock s l) = Some (j, false)) by now rewrite El. rewrite El. split; [|reflexivity].
      intros ->. destruct (i_pend _ _ _ HI _ _ E) as (u & q & Hu & Hr). rewrite Ht in Hu. injection Hu as <-. discriminate Hr.
  - (* Lock *)
    destruct (hs i) eqn:Eh; [discriminate|]. apply andb_prop in HS as [_ HS].
    destruct (ms_lock s l) as [n w] eqn:El. destruct w as [[j b]|].
    + destruct n as [|n]; [|discriminate]. destruct b; [discriminate|]. destruct (j =? i) eqn:Ej; [|discriminate]. apply Nat.eqb_eq in Ej as ->.
      injection H as <-.
      do 2 eexists. eapply (inv_lock s hs fs i _ (mkMT r reg) l (mkRW 0 (Some (i, true))) (Some (l, true)) HI Ht); cbn [mt_reg mt_ops rw_readers rw_writer].
      * reflexivity.
      * exact HS.
      * rewrite Eh, El. reflexivity.
      * intros m Hm. rewrite Eh. split; [reflexivity|]. split; [split; [discriminate|congruence]|].
        intros [q E]. injection E as E _. congruence.
      * intros j. split; [intros [= <-]; now rewrite upd_same|]. intros E. destruct (Nat.eq_dec j i) as [->|Hj]; [reflexivity|].
        rewrite upd_other in E by assumption. apply (i_held _ _ _ HI) in E. rewrite El in E. discriminate E.
      * reflexivity.
      * discriminate.
    + assert (H' : Some (mkMS (ms_threads s) (set_lock (ms_lock s) l (mkRW n (Some (i, false)))) (ms_mem s)) = Some s') by (destruct n; exact H).
      clear H. injection H' as <-. exists hs, fs. constructor; cbn [ms_threads ms_lock ms_mem].
      * apply (i_scan _ _ _ HI).
      * apply (i_none _ _ _ HI).
      * intros m. destruct (lck_eq_dec m l) as [->|Hm]; [rewrite set_lock_same|rewrite set_lock_other by assumption; apply (i_read _ _ _ HI)].
        cbn [rw_readers]. rewrite <- (i_read _ _ _ HI), El. reflexivity.
      * intros m j. destruct (lck_eq_dec m l) as [->|Hm]; [rewrite set_lock_same|rewrite set_lock_other by assumption; apply (i_held _ _ _ HI)].
        cbn [rw_writer]. rewrite <- (i_held _ _ _ HI), El. cbn [rw_writer]. split; discriminate.
      * intros m j E. apply (i_excl _ _ _ HI) in E. destruct (lck_eq_dec m l) as [->|Hm]; [rewrite set_lock_same|rewrite set_lock_other by assumption; exact E].
        rewrite El in E. exact E.
      * intros m j E. destruct (lck_eq_dec m l) as [->|Hm].
        -- rewrite set_lock_same in E. cbn [rw_writer] in E. injection E as <-. do 2 eexists. split; [exact Ht|reflexivity].
        -- rewrite set_lock_other in E by assumption. now apply (i_pend _ _ _ HI).
      * apply (i_fresh _ _ _ HI).
  - (* Unlock *)
    destruct (hs i) as [[m [|]]|] eqn:Eh; try discriminate. apply andb_prop in HS as [Em HS].
    destruct (lck_eq_dec l m) as [<-|]; [|discriminate].
    destruct (ms_lock s l) as [n w] eqn:El. destruct w as [[j b]|]; [|discriminate]. destruct b; [|discriminate].
    destruct (j =? i) eqn:Ej; [|discriminate]. apply Nat.eqb_eq in Ej as ->. injection H as <-.
    assert (NU : forall j, upd hs i None j <> Some (l, true)).
    { intros j. destruct (Nat.eq_dec j i) as [->|Hj]; [rewrite upd_same; discriminate|rewrite upd_other by assumption].
      intros E. apply Hj. apply (i_held _ _ _ HI) in E, Eh. congruence. }
    do 2 eexists. eapply (inv_lock s hs fs i _ (mkMT r reg) l (mkRW n None) None HI Ht); cbn [mt_reg mt_ops rw_readers rw_writer].
    + reflexivity.
    + exact HS.
    + rewrite Eh, El. reflexivity.
    + intros m Hm. rewrite Eh. split; [reflexivity|]. split; [split; [congruence|discriminate]|nohead].
    + intros j. split; [discriminate|]. intros E. now apply NU in E.
    + intros j E. now apply NU in E.
    + discriminate.
  - (* Read *)
    apply andb_prop in HS as [_ HS]. injection H as <-. do 2 eexists.
    eapply (inv_local s hs fs i _ (mkMT r (ms_mem s x)) (ms_mem s) (hs i) _ HI Ht eq_refl); cbn [mt_ops mt_reg].
    + intros l. nohead.
    + exact HS.
    + intros _ F. apply andb_prop in F as [F1 F2]. split; [now apply holds_w_eq|]. unfold is_conn in F1. destruct (fld_eq_dec x Connected); [now subst|discriminate].
    + reflexivity.
  - (* Write *)
    apply andb_prop in HS as [HS1 HS]. apply andb_prop in HS1 as [_ HC]. injection H as <-. do 2 eexists.
    eapply (inv_local s hs fs i _ (mkMT r reg) (set_mem (ms_mem s) x (reg + d)) (hs i) _ HI Ht eq_refl); cbn [mt_ops mt_reg].
    + intros l. nohead.
    + exact HS.
    + intros SS F. unfold is_conn, set_mem in *. destruct (fld_eq_dec x Connected) as [->|N]; [discriminate|].
      destruct (fld_eq_dec Connected x) as [<-|]; [congruence|].
      exact (i_fresh _ _ _ HI _ _ SS Ht F).
    + intros SS j Hj Fj Hhj. unfold set_mem. destruct (fld_eq_dec Connected x) as [<-|]; [|reflexivity]. exfalso.
      rewrite SS in HC. cbn in HC. apply andb_prop in HC as [_ HC]. apply holds_w_eq in HC.
      apply Hj. exact (excl _ _ _ _ _ _ _ HI Hhj HC).
Qed.

Lemma inv_run sched : forall s hs fs s', inv s hs fs -> mx_run s sched = Some s' -> exists hs' fs', inv s' hs' fs'.
Proof.
  induction sched as [|i r IH]; intros s hs fs s' HI H; cbn [mx_run] in H; [injection H as <-; eauto|].
  destruct (mx_step s i) as [s1|] eqn:E; [|discriminate]. destruct (inv_step _ _ _ _ _ HI E) as (h1 & f1 & HI1). eauto.
Qed.
Lemma inv_start ps : (forall i p, nth_error ps i = Some p -> scan (own i) owned strict None false p = true) ->
  inv (mx_start ps) (fun _ => None) (fun _ => false).
Proof.
  intros H. constructor; cbn [mx_start ms_threads ms_lock ms_mem rw_readers rw_writer]; try discriminate; auto.
  - intros i t Ht. rewrite nth_error_map in Ht. destruct (nth_error ps i) as [p|] eqn:E; [|discriminate]. injection Ht as <-. now apply H.
  - intros l. generalize (length (map (fun p => mkMT p 0%Z) ps)). intros n. induction n as [|n IH]; cbn [readers]; auto.
  - intros l i. split; discriminate.
Qed.

(** A goroutine that is not waiting for a lock can make a step. *)
Lemma step_if s hs fs i t : inv s hs fs -> nth_error (ms_threads s) i = Some t -> mt_ops t <> [] -> ~ waits s i -> exists s', mx_step s i = Some s'.
Proof.
  intros HI Ht HN HW. pose proof (i_scan _ _ _ HI _ _ Ht) as HS. unfold mx_step. rewrite Ht. destruct t as [[|o r] reg]; [now contradiction HN|].
  cbn [mt_ops] in *. destruct o as [l|l|l|l|x|x d]; cbn [scan] in HS; eauto.
  - exfalso. apply HW. exists (mkMT (MRLock l :: r) reg), r, l. auto.
  - destruct (hs i) as [[m [|]]|] eqn:Eh; try discriminate. apply andb_prop in HS as [Em HS].
    destruct (lck_eq_dec l m) as [<-|]; [|discriminate].
    pose proof (readers_pos hs l _ i (nth_lt _ _ _ Ht) Eh) as P. rewrite <- (i_read _ _ _ HI) in P.
    destruct (ms_lock s l) as [[|n] w]; cbn [rw_readers] in P; [lia|eauto].
  - exfalso. apply HW. exists (mkMT (MLock l :: r) reg), r, l. auto.
  - destruct (hs i) as [[m [|]]|] eqn:Eh; try discriminate. apply andb_prop in HS as [Em HS].
    destruct (lck_eq_dec l m) as [<-|]; [|discriminate].
    apply (i_held _ _ _ HI) in Eh. destruct (ms_lock s l) as [n w]. cbn [rw_writer] in Eh. subst w. rewrite Nat.eqb_refl. eauto.
Qed.
(** Some goroutine can make a step unless all have ended. *)
Lemma progress s hs fs : inv s hs fs -> all_done s \/ exists i s', mx_step s i = Some s'.
Proof.
  intros HI.
  assert (D : all_done s \/ exists i t, nth_error (ms_threads s) i = Some t /\ mt_ops t <> []).
  { unfold all_done. induction (ms_threads s) as [|t l IH]; [left; constructor|].
    destruct (mt_ops t) as [|o r] eqn:E.
    - destruct IH as [IH|(i & u & Hu & Hn)]; [left; now constructor|]. right. exists (S i), u. auto.
    - right. exists 0, t. split; [reflexivity|congruence]. }
  destruct D as [D|(i & t & Ht & HN)]; [now left|right].
  (* is anyone inside a section? *)
  assert (S : (exists j, hs j <> None) \/ forall j, hs j = None).
  { assert (G : forall n, (exists j, j < n /\ hs j <> None) \/ forall j, j < n -> hs j = None).
    { induction n as [|n [(j & Hj & E)|IH]]; [right; lia|left; exists j; split; [lia|exact E]|].
      destruct (hs n) eqn:E; [left; exists n; split; [lia|congruence]|]. right. intros j Hj.
      destruct (Nat.eq_dec j n) as [->|]; [exact E|apply IH; lia]. }
    destruct (G (length (ms_threads s))) as [(j & _ & E)|G']; [left; eauto|]. right. intros j.
    destruct (Nat.lt_ge_cases j (length (ms_threads s))); [auto|now apply (i_none _ _ _ HI)]. }
  destruct S as [(j & Hj)|S].
  - destruct (nth_error (ms_threads s) j) as [u|] eqn:Hu.
    2:{ apply nth_error_None in Hu. apply (i_none _ _ _ HI) in Hu. congruence. }
    pose proof (i_scan _ _ _ HI _ _ Hu) as HS. exists j. destruct u as [[|o r] reg].
    + cbn [mt_ops scan] in HS. destruct (hs j); congruence.
    + eapply step_if; eauto; [discriminate|]. intros (u' & r' & l & Hu' & W). rewrite Hu in Hu'. injection Hu' as <-.
      cbn [mt_ops] in *. destruct W as [W|W]; injection W as -> ->; cbn [scan] in HS; destruct (hs j); congruence.
  - assert (R0 : forall l, rw_readers (ms_lock s l) = 0).
    { intros l. destruct (Nat.eq_dec (rw_readers (ms_lock s l)) 0) as [|N]; [assumption|]. rewrite (i_read _ _ _ HI) in N.
      apply readers_zero in N as (j & _ & E). rewrite S in E. discriminate E. }
    assert (W0 : forall l, rw_writer (ms_lock s l) = None \/ exists j s', mx_step s j = Some s').
    { intros l. destruct (rw_writer (ms_lock s l)) as [[j [|]]|] eqn:E; [|right|now left].
      - apply (i_held _ _ _ HI) in E. rewrite S in E. discriminate E.
      - destruct (i_pend _ _ _ HI _ _ E) as ([ops reg] & r & Hu & Hr). cbn [mt_ops] in Hr. subst ops. exists j. unfold mx_step. rewrite Hu.
        specialize (R0 l). destruct (ms_lock s l) as [n w]. cbn [rw_readers rw_writer] in *. subst n w. rewrite Nat.eqb_refl. eauto. }
    destruct t as [[|o r] reg]; [now contradiction HN|].
    assert (WD : waits s i \/ ~ waits s i).
    { destruct o; try (right; intros (u & q & l' & Hu & W); rewrite Ht in Hu; injection Hu as <-; destruct W as [W|W]; discriminate W);
        left; eexists _, _, _; split; [exact Ht|now left|exact Ht|now right]. }
    destruct WD as [(u & q & l & Hu & W)|NW]; [|exists i; exact (step_if _ _ _ _ _ HI Ht HN NW)].
    rewrite Ht in Hu. injection Hu as <-. destruct (W0 l) as [W1|]; [|assumption]. exists i. unfold mx_step. rewrite Ht.
    cbn [mt_ops] in W. destruct (ms_lock s l) as [n w] eqn:El. cbn [rw_writer] in W1. subst w.
    destruct W as [W|W]; injection W as -> ->; rewrite El; [eauto|]. destruct n; eauto.
Qed.

(** No race on a guarded field. *)
Lemma no_race s hs fs x : inv s hs fs -> guard x <> None -> ~ data_race s x.
Proof.
  intros HI HG (i & j & w & Hij & Hi & Hj). destruct Hi as (t & r & Ht & d & Et).
  pose proof (i_scan _ _ _ HI _ _ Ht) as S1. rewrite Et in S1. cbn [scan] in S1.
  destruct (guard x) as [l|] eqn:Eg; [|congruence]. apply andb_prop in S1 as [S1 _]. apply andb_prop in S1 as [S1 _].
  apply andb_prop in S1 as [S1 O1]. apply holds_w_eq in S1.
  destruct Hj as (u & q & Hu & Hj). pose proof (i_scan _ _ _ HI _ _ Hu) as S2. destruct w.
  - destruct Hj as (e & Eu). rewrite Eu in S2. cbn [scan] in S2. rewrite Eg in S2.
    apply andb_prop in S2 as [S2 _]. apply andb_prop in S2 as [S2 _]. apply andb_prop in S2 as [S2 _]. apply holds_w_eq in S2.
    apply Hij. exact (excl _ _ _ _ _ _ _ HI S1 S2).
  - rewrite Hj in S2. cbn [scan] in S2. rewrite Eg in S2. apply andb_prop in S2 as [S2 _]. apply orb_prop in S2 as [S2|S2].
    + apply holds_eq in S2 as [b S2]. apply Hij. exact (excl _ _ _ _ _ _ _ HI S1 S2).
    + apply andb_prop in S2 as [S2 O2]. rewrite S2 in O1. cbn in O1. apply Hij. eauto.
Qed.

(** The counter of connections: what is still to be added. *)
Definition adds (o : mop) : Z := match o with MWrite Connected d => d | _ => 0%Z end.
Definition adds_all (ops : list mop) : Z := fold_right Z.add 0%Z (map adds ops).
Definition to_add (l : list mthread) : Z := fold_right Z.add 0%Z (map (fun t => adds_all (mt_ops t)) l).
Lemma to_add_set l i t t' : nth_error l i = Some t -> to_add (set_thread l i t') = (to_add l - adds_all (mt_ops t) + adds_all (mt_ops t'))%Z.
Proof.
  revert i. induction l as [|u l IH]; intros [|i] H; cbn [set_thread nth_error] in *; try discriminate.
  - injection H as ->. unfold to_add. cbn [map fold_right]. lia.
  - specialize (IH _ H). unfold to_add in *. cbn [map fold_right]. lia.
Qed.
Lemma count_step s hs fs i s' : strict = true -> inv s hs fs -> mx_step s i = Some s' ->
  (ms_mem s' Connected + to_add (ms_threads s') = ms_mem s Connected + to_add (ms_threads s))%Z.
Proof.
  intros SS HI H. unfold mx_step in H. destruct (nth_error (ms_threads s) i) as [[[|o r] reg]|] eqn:Ht; try discriminate.
  pose proof (i_scan _ _ _ HI _ _ Ht) as HS. cbn [mt_ops] in HS.
  assert (L : adds o = 0%Z -> to_add (set_thread (ms_threads s) i (mkMT r reg)) = to_add (ms_threads s)).
  { intros E. rewrite (to_add_set _ _ _ _ Ht). cbn [mt_ops]. unfold adds_all. cbn [map fold_right]. lia. }
  destruct o as [l|l|l|l|x|x d]; cbn [scan] in HS.
  - destruct (ms_lock s l) as [n [|]]; [discriminate|]. injection H as <-. cbn [ms_mem ms_threads]. rewrite L; reflexivity.
  - destruct (ms_lock s l) as [[|n] w]; [discriminate|]. injection H as <-. cbn [ms_mem ms_threads]. rewrite L; reflexivity.
  - destruct (ms_lock s l) as [[|n] [[j [|]]|]]; try discriminate; try (destruct (j =? i); [|discriminate]); injection H as <-; cbn [ms_mem ms_threads]; rewrite ?L; reflexivity.
  - destruct (ms_lock s l) as [n [[j [|]]|]]; try discriminate. destruct (j =? i); [|discriminate]. injection H as <-. cbn [ms_mem ms_threads]. rewrite L; reflexivity.
  - injection H as <-. cbn [ms_mem ms_threads]. rewrite (to_add_set _ _ _ _ Ht). cbn [mt_ops]. unfold adds_all. cbn [map fold_right adds]. lia.
  - apply andb_prop in HS as [HS1 _]. apply andb_prop in HS1 as [_ HC]. injection H as <-. cbn [ms_mem ms_threads].
    rewrite (to_add_set _ _ _ _ Ht). cbn [mt_ops]. unfold adds_all. cbn [map fold_right adds]. unfold set_mem, is_conn in *.
    destruct (fld_eq_dec x Connected) as [->|N].
    + rewrite SS in HC. cbn in HC. apply andb_prop in HC as [HC _]. destruct (fld_eq_dec Connected Connected); [|congruence].
      destruct (i_fresh _ _ _ HI _ _ SS Ht HC) as [_ E]. cbn [mt_reg] in E. cbn [adds]. lia.
    + destruct (fld_eq_dec Connected x); [congruence|]. assert (E : adds (MWrite x d) = 0%Z) by (cbn [adds]; destruct x; try reflexivity; congruence).
      cbn [adds] in E. rewrite E. lia.
Qed.
Lemma count_run sched : forall s hs fs s', strict = true -> inv s hs fs -> mx_run s sched = Some s' ->
  (ms_mem s' Connected + to_add (ms_threads s') = ms_mem s Connected + to_add (ms_threads s))%Z.
Proof.
  induction sched as [|i r IH]; intros s hs fs s' SS HI H; cbn [mx_run] in H; [now injection H as <-|].
  destruct (mx_step s i) as [s1|] eqn:E; [|discriminate]. destruct (inv_step _ _ _ _ _ HI E) as (h1 & f1 & HI1).
  rewrite (IH _ _ _ _ SS HI1 H). eapply count_step; eauto.
Qed.
End Inv.

(** * Every run ends *)
Definition announced (s : mstate) (i : nat) (ops : list mop) : nat :=
  match ops with MLock l :: _ => match rw_writer (ms_lock s l) with Some (j, false) => if j =? i then 1 else 0 | _ => 0 end | _ => 0 end.
Definition left_of (s : mstate) (i : nat) (t : mthread) : nat := 2 * length (mt_ops t) - announced s i (mt_ops t).
Fixpoint left_all (s : mstate) (k : nat) (l : list mthread) : nat :=
  match l with [] => 0 | t :: r => left_of s k t + left_all s (S k) r end.
Lemma announced_one s i ops : announced s i ops <= 1.
Proof. unfold announced. destruct ops as [|[] ?]; try lia. destruct (rw_writer _) as [[j [|]]|]; try lia. destruct (j =? i); lia. Qed.
Lemma left_same s s' l : forall k, (forall j t, nth_error l j = Some t -> left_of s' (k + j) t <= left_of s (k + j) t) -> left_all s' k l <= left_all s k l.
Proof.
  induction l as [|t l IH]; intros k H; cbn [left_all]; [lia|].
  pose proof (H 0 t eq_refl) as H0. rewrite Nat.add_0_r in H0.
  assert (left_all s' (S k) l <= left_all s (S k) l); [|lia]. apply IH. intros j u Hu. specialize (H (S j) u Hu). now replace (S k + j) with (k + S j) by lia.
Qed.
Lemma left_set s s' l : forall k i t t', nth_error l i = Some t ->
  left_of s' (k + i) t' < left_of s (k + i) t ->
  (forall j u, nth_error l j = Some u -> j <> i -> left_of s' (k + j) u <= left_of s (k + j) u) ->
  left_all s' k (set_thread l i t') < left_all s k l.
Proof.
  induction l as [|u l IH]; intros k [|i] t t' Ht HL HO; cbn [nth_error set_thread left_all] in *; try discriminate.
  - injection Ht as ->. rewrite Nat.add_0_r in HL.
    assert (left_all s' (S k) l <= left_all s (S k) l); [|lia]. apply left_same. intros j v Hv. specialize (HO (S j) v Hv ltac:(lia)).
    now replace (S k + j) with (k + S j) by lia.
  - pose proof (HO 0 u eq_refl ltac:(lia)) as H0. rewrite Nat.add_0_r in H0.
    assert (left_all s' (S k) (set_thread l i t') < left_all s (S k) l); [|lia].
    apply (IH (S k) i t); [exact Ht|now replace (S k + i) with (k + S i) by lia|].
    intros j v Hv Hj. specialize (HO (S j) v Hv ltac:(lia)). now replace (S k + j) with (k + S j) by lia.
Qed.
Lemma others_keep s s' j ops : (forall l, rw_writer (ms_lock s l) = Some (j, false) -> rw_writer (ms_lock s' l) = Some (j, false)) ->
  announced s j ops <= announced s' j ops.
Proof.
  intros H. unfold announced. destruct ops as [|[] ?]; try lia. destruct (rw_writer (ms_lock s l)) as [[k [|]]|] eqn:E; try lia.
  destruct (k =? j) eqn:Ek; [|lia]. apply Nat.eqb_eq in Ek as ->. rewrite (H _ E), Nat.eqb_refl. lia.
Qed.
Lemma set_thread_self l i t : nth_error l i = Some t -> set_thread l i t = l.
Proof. revert i. induction l as [|u l IH]; intros [|i] H; cbn in *; try discriminate; [congruence|]. now rewrite IH. Qed.
Lemma step_left s i s' : mx_step s i = Some s' -> left_all s' 0 (ms_threads s') < left_all s 0 (ms_threads s).
Proof.
  intros H. unfold mx_step in H. destruct (nth_error (ms_threads s) i) as [[[|o r] reg]|] eqn:Ht; try discriminate.
  assert (G : forall s1 t', ms_threads s1 = set_thread (ms_threads s) i t' ->
    left_of s1 i t' < left_of s i (mkMT (o :: r) reg) ->
    (forall l j, j <> i -> rw_writer (ms_lock s l) = Some (j, false) -> rw_writer (ms_lock s1 l) = Some (j, false)) ->
    left_all s1 0 (ms_threads s1) < left_all s 0 (ms_threads s)).
  { intros s1 t' -> H1 H2. apply (left_set s s1 _ 0 i _ t' Ht); [exact H1|]. intros j u _ Hj. cbn [Nat.add]. unfold left_of.
    pose proof (others_keep s s1 j (mt_ops u) (fun l => H2 l j Hj)). lia. }
  assert (D : forall s1 g, left_of s1 i (mkMT r g) < left_of s i (mkMT (o :: r) reg)).
  { intros s1 g. unfold left_of. cbn [mt_ops length]. pose proof (announced_one s i (o :: r)). lia. }
  destruct o as [l|l|l|l|x|x d].
  - destruct (ms_lock s l) as [n [|]] eqn:El; [discriminate|]. injection H as <-. eapply G; [reflexivity|apply D|].
    intros m j _ E. cbn [ms_lock]. destruct (lck_eq_dec m l) as [->|Hm]; [rewrite El in E; discriminate E|now rewrite set_lock_other by assumption].
  - destruct (ms_lock s l) as [[|n] w] eqn:El; [discriminate|]. injection H as <-. eapply G; [reflexivity|apply D|].
    intros m j _ E. cbn [ms_lock]. destruct (lck_eq_dec m l) as [->|Hm]; [rewrite El in E; now rewrite set_lock_same|now rewrite set_lock_other by assumption].
  - destruct (ms_lock s l) as [n w] eqn:El. destruct w as [[j b]|].
    + destruct n as [|n]; [|discriminate]. destruct b; [discriminate|]. destruct (j =? i) eqn:Ej; [|discriminate]. apply Nat.eqb_eq in Ej as ->.
      injection H as <-. eapply G; [reflexivity|apply D|].
      intros m j Hj E. cbn [ms_lock]. destruct (lck_eq_dec m l) as [->|Hm]; [rewrite El in E; cbn in E; congruence|now rewrite set_lock_other by assumption].
    + assert (H' : Some (mkMS (ms_threads s) (set_lock (ms_lock s) l (mkRW n (Some (i, false)))) (ms_mem s)) = Some s') by (destruct n; exact H).
      clear H. injection H' as <-. eapply (G _ (mkMT (MLock l :: r) reg)); cbn [ms_threads].
      * symmetry. now apply set_thread_self.
      * unfold left_of. cbn [mt_ops announced ms_lock]. rewrite set_lock_same, El. cbn [rw_writer length]. rewrite Nat.eqb_refl. lia.
      * intros m j Hj E. cbn [ms_lock]. destruct (lck_eq_dec m l) as [->|Hm]; [rewrite El in E; discriminate E|now rewrite set_lock_other by assumption].
  - destruct (ms_lock s l) as [n [[j [|]]|]] eqn:El; try discriminate. destruct (j =? i) eqn:Ej; [|discriminate]. injection H as <-. eapply G; [reflexivity|apply D|].
    intros m k _ E. cbn [ms_lock]. destruct (lck_eq_dec m l) as [->|Hm]; [rewrite El in E; discriminate E|now rewrite set_lock_other by assumption].
  - injection H as <-. eapply G; [reflexivity|apply D|]. auto.
  - injection H as <-. eapply G; [reflexivity|apply D|]. auto.
Qed.
Lemma run_left sched : forall s s', mx_run s sched = Some s' -> length sched + left_all s' 0 (ms_threads s') <= left_all s 0 (ms_threads s).
Proof.
  induction sched as [|i r IH]; intros s s' H; cbn [mx_run] in H; [injection H as <-; cbn; lia|].
  destruct (mx_step s i) as [s1|] eqn:E; [|discriminate]. apply step_left in E. apply IH in H. cbn [length]. lia.
Qed.
Lemma left_start ps : left_all (mx_start ps) 0 (ms_threads (mx_start ps)) <= 2 * length (concat ps).
Proof.
  unfold mx_start. cbn [ms_threads]. set (s := mkMS _ _ _). clearbody s.
  enough (G : forall k, left_all s k (map (fun p => mkMT p 0%Z) ps) <= 2 * length (concat ps)) by apply G.
  induction ps as [|p ps IH]; intros k; cbn [map left_all concat]; [lia|].
  rewrite app_length. specialize (IH (S k)). unfold left_of. cbn [mt_ops]. lia.
Qed.
(** From a state in order every run can be completed. *)
Lemma completes own owned strict : (forall x i j, own i x = true -> own j x = true -> i = j) ->
  forall s hs fs, inv own owned strict s hs fs -> exists more s', mx_run s more = Some s' /\ all_done s'.
Proof.
  intros O1 s. remember (left_all s 0 (ms_threads s)) as n eqn:En. revert s En.
  induction n as [n IH] using lt_wf_ind. intros s -> hs fs HI.
  destruct (progress _ _ _ O1 _ _ _ HI) as [D|(i & s1 & E)]; [exists [], s; auto|].
  destruct (inv_step _ _ _ O1 _ _ _ _ _ HI E) as (h1 & f1 & HI1).
  destruct (IH _ (step_left _ _ _ E) s1 eq_refl _ _ HI1) as (more & s' & R & D). exists (i :: more), s'. cbn [mx_run]. rewrite E. auto.
Qed.

(** * The calls *)
Definition srv_owned (x : fld) : bool := match x with Exported => true | _ => false end.
Definition srv_own (i : nat) (x : fld) : bool := srv_owned x && (i =? 0).
Definition mon_owned (files : nat -> bool) (x : fld) : bool := match x with MVrps k | MLast k => files k | _ => false end.
Definition mon_own (files : nat -> bool) (i : nat) (x : fld) : bool := match x with MVrps k | MLast k => files k && (i =? k) | _ => false end.
Lemma srv_own_one x i j : srv_own i x = true -> srv_own j x = true -> i = j.
Proof. unfold srv_own. intros H1 H2. apply andb_prop in H1 as [_ H1]. apply andb_prop in H2 as [_ H2]. apply Nat.eqb_eq in H1, H2. congruence. Qed.
Lemma mon_own_one files x i j : mon_own files i x = true -> mon_own files j x = true -> i = j.
Proof.
  unfold mon_own. intros H1 H2. destruct x; try discriminate;
  apply andb_prop in H1 as [_ H1]; apply andb_prop in H2 as [_ H2]; apply Nat.eqb_eq in H1, H2; congruence.
Qed.

(** Whether the counter is only changed under its lock. *)
Definition ssh_call (c : scall) : bool := match c with CSshBegin | CSshEnd => true | _ => false end.
Local Arguments lck_eq_dec : simpl never.
Local Arguments fld_eq_dec : simpl never.
Ltac cases := repeat match goal with |- context [fld_eq_dec ?a ?b] => destruct (fld_eq_dec a b); try congruence end; repeat match goal with |- context [lck_eq_dec ?a ?b] => destruct (lck_eq_dec a b); [|congruence] end.
Lemma scan_disconnect own owned strict k : owned Clients = false -> scan own owned strict None false (disconnect k) = true.
Proof. intros H. unfold disconnect, connect, wsection, bump. cbn. rewrite H. cases. destruct strict; cbn; reflexivity. Qed.
Lemma scan_srv i c strict : stayrtr_may i c = true -> (strict = true -> ssh_call c = false) ->
  scan (srv_own i) srv_owned strict None false (body c) = true.
Proof.
  intros HM HS. destruct c as [|n| | |b| | | |k|cs| | | |k|k|k|k|cs| | | | | | | |b| |k|k|k|k|k| |]; try discriminate HM;
    try (destruct strict; [discriminate (HS eq_refl)|]);
    try (cbn; cases; reflexivity); try (cbn; cases; destruct strict; cbn; reflexivity).
  - destruct n as [|[|[|n]]]; cbn; cases; reflexivity.
  - destruct b; cbn; cases; destruct strict; reflexivity.
  - destruct cs as [|c cs]; [cbn; destruct strict; reflexivity|].
    unfold body. change (scan (srv_own i) srv_owned strict None false ([MRead Connected; MRead Connected] ++ client_list ++ flat_map disconnect (c :: cs) ++ [MWrite MaxConn 0]) = true).
    apply scan_app; [reflexivity|]. apply scan_app; [cbn; cases; reflexivity|].
    apply scan_app; [apply scan_flat; intros; now apply scan_disconnect|]. cbn. destruct strict; reflexivity.
  - unfold body. apply scan_app; [cbn; cases; reflexivity|]. apply scan_app; [cbn; cases; reflexivity|].
    apply scan_flat. intros. reflexivity.
  - cbn in HM |- *. cases. unfold srv_own. cbn. rewrite HM. destruct strict; reflexivity.
  - cbn in HM |- *. unfold srv_own. cbn. rewrite HM. destruct strict; reflexivity.
  - destruct b; cbn; cases; destruct strict; reflexivity.
Qed.
Lemma scan_mon files i c strict : rtrmon_may files i c = true -> scan (mon_own files i) (mon_owned files) strict None false (body c) = true.
Proof.
  intros HM. destruct c as [|n| | |b| | | |k|cs| | | |k|k|k|k|cs| | | | | | | |b| |k|k|k|k|k| |]; try discriminate HM;
    try (cbn; cases; destruct strict; cbn; reflexivity).
  - cbn in HM |- *. cases. destruct (files k); [discriminate|]. destruct strict; reflexivity.
  - cbn in HM |- *. cases. apply andb_prop in HM as [-> ->]. destruct strict; reflexivity.
Qed.

(** * The programs *)
Definition in_order (s : mstate) : Prop :=
  exists own owned hs fs, (forall x i j, own i x = true -> own j x = true -> i = j) /\ inv own owned false s hs fs.
Lemma start_scan own owned strict (pss : list (list scall)) :
  (forall i cs c, nth_error pss i = Some cs -> In c cs -> scan (own i) owned strict None false (body c) = true) ->
  inv own owned strict (goroutines pss) (fun _ => None) (fun _ => false).
Proof.
  intros H. apply inv_start. intros i p Hp. rewrite nth_error_map in Hp. destruct (nth_error pss i) as [cs|] eqn:E; [|discriminate].
  injection Hp as <-. apply scan_flat. intros c Hc. eapply H; eauto.
Qed.
Lemma program_order pss sched s : a_program pss -> mx_run (goroutines pss) sched = Some s -> in_order s.
Proof.
  intros [H|[files H]] R.
  - assert (I : inv srv_own srv_owned false (goroutines pss) (fun _ => None) (fun _ => false)).
    { apply start_scan. intros i cs c Hi Hc. apply scan_srv; [eapply H; eauto|discriminate]. }
    destruct (inv_run _ _ _ srv_own_one _ _ _ _ _ I R) as (hs & fs & I'). exists srv_own, srv_owned, hs, fs. split; [exact srv_own_one|exact I'].
  - assert (I : inv (mon_own files) (mon_owned files) false (goroutines pss) (fun _ => None) (fun _ => false)).
    { apply start_scan. intros i cs c Hi Hc. apply scan_mon. eapply H; eauto. }
    destruct (inv_run _ _ _ (mon_own_one files) _ _ _ _ _ I R) as (hs & fs & I'). exists (mon_own files), (mon_owned files), hs, fs.
    split; [exact (mon_own_one files)|exact I'].
Qed.
Lemma protected_guard x : protected x -> guard x <> None.
Proof. destruct x; cbn; intros H; try contradiction; discriminate. Qed.

(** ** The counter *)
Lemma adds_app p q : adds_all (p ++ q) = (adds_all p + adds_all q)%Z.
Proof. unfold adds_all. induction p as [|o p IH]; cbn [app map fold_right]; [lia|]. rewrite IH. lia. Qed.
Lemma adds_disconnect cs : adds_all (flat_map disconnect cs) = (- Z.of_nat (length cs))%Z.
Proof. induction cs as [|c cs IH]; [reflexivity|]. cbn [flat_map]. rewrite adds_app, IH. change (adds_all (disconnect c)) with (-1)%Z. cbn [length]. lia. Qed.
Lemma adds_reads cs : adds_all (flat_map (fun k => [MRead (Version k); MRead (Version k)]) cs) = 0%Z.
Proof. induction cs as [|c cs IH]; [reflexivity|]. cbn [flat_map]. rewrite adds_app, IH. reflexivity. Qed.
Lemma adds_body c : adds_all (body c) = begun c.
Proof.
  destruct c as [|n| | |b| | | |k|cs| | | |k|k|k|k|cs| | | | | | | |b| |k|k|k|k|k| |]; try reflexivity.
  - destruct n as [|[|[|n]]]; reflexivity.
  - destruct b; reflexivity.
  - destruct cs as [|c cs]; [reflexivity|].
    change (adds_all ([MRead Connected; MRead Connected] ++ client_list ++ flat_map disconnect (c :: cs) ++ [MWrite MaxConn 0]) = - Z.of_nat (length (c :: cs)))%Z.
    rewrite !adds_app, adds_disconnect. change (adds_all [MRead Connected; MRead Connected]) with 0%Z.
    change (adds_all client_list) with 0%Z. change (adds_all [MWrite MaxConn 0]) with 0%Z. lia.
  - unfold body. rewrite !adds_app, adds_reads. reflexivity.
  - destruct b; reflexivity.
Qed.
Lemma adds_calls cs : adds_all (flat_map body cs) = fold_right Z.add 0%Z (map begun cs).
Proof. induction cs as [|c cs IH]; [reflexivity|]. cbn [flat_map map fold_right]. now rewrite adds_app, adds_body, IH. Qed.
Lemma sum_app p q : fold_right Z.add 0%Z (p ++ q) = (fold_right Z.add 0 p + fold_right Z.add 0 q)%Z.
Proof. induction p as [|x p IH]; cbn [app fold_right]; [lia|]. rewrite IH. lia. Qed.
Lemma to_add_start pss : to_add (ms_threads (goroutines pss)) = open_at_the_end pss.
Proof.
  unfold goroutines, mx_start, open_at_the_end, to_add. cbn [ms_threads]. induction pss as [|cs pss IH]; [reflexivity|].
  cbn [map concat fold_right mt_ops]. rewrite map_app, sum_app, <- adds_calls. now f_equal.
Qed.
Lemma to_add_done s : all_done s -> to_add (ms_threads s) = 0%Z.
Proof. unfold all_done, to_add. induction 1 as [|t l H _ IH]; [reflexivity|]. cbn [map fold_right]. rewrite H, IH. reflexivity. Qed.

(** ** Updates that are lost *)
Lemma nth_pre {A} (pre l : list A) j : nth_error (pre ++ l) (length pre + j) = nth_error l j.
Proof. induction pre; cbn; auto. Qed.
Lemma set_pre pre l j t : set_thread (pre ++ l) (length pre + j) t = pre ++ set_thread l j t.
Proof. induction pre as [|u pre IH]; cbn [app length Nat.add set_thread]; [reflexivity|]. now rewrite IH. Qed.
(** One connection is opened between the two halves of another's [++], so that its [--] is lost. *)
Definition lossy (i : nat) : list nat := map (Nat.add i) [0; 0; 1; 0; 0; 1; 1; 1].
Fixpoint lossy_all (i n : nat) : list nat := match n with O => [] | S m => lossy i ++ lossy_all (2 + i) m end.
Lemma run_app p : forall s q s1, mx_run s p = Some s1 -> mx_run s (p ++ q) = mx_run s1 q.
Proof.
  induction p as [|i p IH]; intros s q s1 H; cbn [app mx_run] in *; [now injection H as <-|].
  destruct (mx_step s i); [|discriminate]. now apply IH.
Qed.
Definition conn_ops : list mop := [MRead Connected; MWrite Connected 1; MRead Connected; MWrite Connected (-1)].
Lemma st_read pre l j lk m x r g : nth_error l j = Some (mkMT (MRead x :: r) g) ->
  mx_step (mkMS (pre ++ l) lk m) (length pre + j) = Some (mkMS (pre ++ set_thread l j (mkMT r (m x))) lk m).
Proof. intros H. unfold mx_step. cbn [ms_threads ms_lock ms_mem]. rewrite nth_pre, H, set_pre. reflexivity. Qed.
Lemma st_write pre l j lk m x d r g : nth_error l j = Some (mkMT (MWrite x d :: r) g) ->
  mx_step (mkMS (pre ++ l) lk m) (length pre + j) = Some (mkMS (pre ++ set_thread l j (mkMT r g)) lk (set_mem m x (g + d))).
Proof. intros H. unfold mx_step. cbn [ms_threads ms_lock ms_mem]. rewrite nth_pre, H, set_pre. reflexivity. Qed.
Lemma run_cons i r s s1 : mx_step s i = Some s1 -> mx_run s (i :: r) = mx_run s1 r.
Proof. intros H. cbn [mx_run]. now rewrite H. Qed.
Lemma set_conn m v : set_mem m Connected v Connected = v.
Proof. unfold set_mem. destruct (fld_eq_dec Connected Connected); [reflexivity|congruence]. Qed.
Lemma lossy_round pre l lk m a b : exists pre' m',
  mx_run (mkMS (pre ++ mkMT conn_ops a :: mkMT conn_ops b :: l) lk m) (lossy (length pre)) = Some (mkMS (pre' ++ l) lk m') /\
  length pre' = 2 + length pre /\ (Forall (fun t => mt_ops t = []) pre -> Forall (fun t => mt_ops t = []) pre') /\
  m' Connected = (m Connected + 1)%Z.
Proof.
  unfold lossy, conn_ops. cbn [map]. set (v := m Connected).
  erewrite run_cons; [|eapply st_read; reflexivity]. cbn [set_thread]. fold v.
  erewrite run_cons; [|eapply st_write; reflexivity]. cbn [set_thread]. set (m1 := set_mem m Connected (v + 1)).
  assert (E1 : m1 Connected = (v + 1)%Z) by apply set_conn. clearbody m1.
  erewrite run_cons; [|eapply st_read; reflexivity]. cbn [set_thread].
  erewrite run_cons; [|eapply st_read; reflexivity]. cbn [set_thread].
  erewrite run_cons; [|eapply st_write; reflexivity]. cbn [set_thread]. set (m2 := set_mem m1 Connected _). clearbody m2.
  erewrite run_cons; [|eapply st_write; reflexivity]. cbn [set_thread]. set (m3 := set_mem m2 Connected _).
  assert (E3 : m3 Connected = (v + 2)%Z) by (unfold m3; rewrite set_conn; lia). clearbody m3.
  erewrite run_cons; [|eapply st_read; reflexivity]. cbn [set_thread].
  erewrite run_cons; [|eapply st_write; reflexivity]. cbn [set_thread mx_run].
  exists (pre ++ [mkMT [] (m1 Connected); mkMT [] (m3 Connected)]), (set_mem m3 Connected (m3 Connected + -1)).
  split; [now rewrite <- app_assoc|]. split; [rewrite app_length; cbn; lia|]. split.
  - intros F. apply Forall_app. split; [exact F|repeat constructor].
  - rewrite set_conn. lia.
Qed.
Lemma lossy_runs n : forall pre lk m, Forall (fun t => mt_ops t = []) pre -> exists s,
  mx_run (mkMS (pre ++ repeat (mkMT conn_ops 0%Z) (2 * n)) lk m) (lossy_all (length pre) n) = Some s /\
  all_done s /\ ms_mem s Connected = (m Connected + Z.of_nat n)%Z.
Proof.
  induction n as [|n IH]; intros pre lk m F.
  - eexists. split; [reflexivity|]. cbn. rewrite app_nil_r. split; [exact F|lia].
  - replace (2 * S n) with (S (S (2 * n))) by lia. cbn [repeat lossy_all].
    destruct (lossy_round pre (repeat (mkMT conn_ops 0%Z) (2 * n)) lk m 0%Z 0%Z) as (pre' & m' & R & L & F' & M).
    rewrite (run_app _ _ _ _ R). destruct (IH pre' lk m' (F' F)) as (s & Rs & D & E). rewrite L in Rs.
    exists s. split; [exact Rs|]. split; [exact D|]. rewrite E, M. lia.
Qed.

(** A state looked at by a test. *)
Definition after_run (pss : list (list scall)) (sched : list nat) (f : mstate -> bool) : bool :=
  match mx_run (goroutines pss) sched with Some s => f s | None => false end.
Lemma after_run_ex pss sched f : after_run pss sched f = true -> exists s, mx_run (goroutines pss) sched = Some s /\ f s = true.
Proof. unfold after_run. destruct (mx_run _ _) as [s|]; [eauto|discriminate]. Qed.
Definition aboutb (s : mstate) (i : nat) (x : fld) (w : bool) : bool :=
  match nth_error (ms_threads s) i with
  | Some t =>
      match mt_ops t with
      | MRead y :: _ => negb w && if fld_eq_dec y x then true else false
      | MWrite y _ :: _ => w && if fld_eq_dec y x then true else false
      | _ => false
      end
  | None => false
  end.
Lemma aboutb_ok s i x w : aboutb s i x w = true -> about_to s i x w.
Proof.
  unfold aboutb, about_to. destruct (nth_error (ms_threads s) i) as [[[|o r] g]|]; try discriminate. cbn [mt_ops].
  destruct o as [| | | |y|y d]; try discriminate; intros H; apply andb_prop in H as [H1 H2]; destruct (fld_eq_dec y x) as [->|]; try discriminate;
    destruct w; try discriminate; do 2 eexists; (split; [reflexivity|]); cbn [mt_ops]; [|eexists]; reflexivity.
Qed.
Definition stuckb (s : mstate) (i : nat) : bool := match mx_step s i with None => true | Some _ => false end.
Lemma stuckb_ok s i : stuckb s i = true -> mx_step s i = None.
Proof. unfold stuckb. destruct (mx_step s i); [discriminate|reflexivity]. Qed.
Lemma movesb_ok s i : stuckb s i = false -> mx_step s i <> None.
Proof. unfold stuckb. destruct (mx_step s i); discriminate. Qed.
