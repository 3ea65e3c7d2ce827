(** Property C128: file descriptors. *)
From Coq Require Import ZArith ZifyBool ZifyNat ZifyN.
From Verif Require Import Model.Descriptors Spec.Descriptors.
From Coq Require Import List.
Import ListNotations.
Local Open Scope list_scope.

Lemma clients_snoc l e : forall n, clients n (l ++ [e]) = clients (clients n l) [e].
Proof. induction l as [|x l IH]; intros n; [reflexivity|]. destruct x; cbn [app clients]; apply IH. Qed.
Lemma opened_snoc l e : forall n, opened n (l ++ [e]) = opened (opened n l) [e].
Proof. induction l as [|x l IH]; intros n; [reflexivity|]. destruct x; cbn [app opened]; apply IH. Qed.
Lemma drun_app c tr1 : forall s tr2, drun c s (tr1 ++ tr2) =
  match drun c s tr1 with Some s' => drun c s' tr2 | None => None end.
Proof. induction tr1 as [|l tr1 IH]; intros s tr2; [reflexivity|]. cbn [app drun]. destruct (dstep_fn c s l); [apply IH|reflexivity]. Qed.

(** What each event says about the descriptors in use before it. *)
Definition fits (c : dconf) (l : list devent) (e : devent) : Prop :=
  let u := in_use (dc_base c) (dc_local c) l in
  (u <= dc_limit c)%nat /\ (starved e -> u = dc_limit c) /\
  (e = Taken \/ e = Refused \/ e = Opens -> (u < dc_limit c)%nat) /\
  (e = Taken -> (0 < dc_maxconn c)%nat -> (clients 0 l < dc_maxconn c)%nat).
Definition dinv (c : dconf) (s : dstate) : Prop :=
  ds_open s = clients 0 (ds_log s) /\ ds_files s = (if dc_local c then opened 0 (ds_log s) else 0)%nat /\
  (in_use (dc_base c) (dc_local c) (ds_log s) <= dc_limit c)%nat /\
  forall l1 e l2, ds_log s = l1 ++ e :: l2 -> fits c l1 e.
Lemma snoc_cases {A} (l : list A) x l1 e l2 : l ++ [x] = l1 ++ e :: l2 ->
  (exists l3, l2 = l3 ++ [x] /\ l = l1 ++ e :: l3) \/ (l1 = l /\ e = x /\ l2 = []).
Proof.
  destruct l2 as [|y l2] using rev_ind; intros H.
  - apply app_inj_tail in H as [-> ->]. now right.
  - left. rewrite app_comm_cons, app_assoc in H. apply app_inj_tail in H as [-> ->]. now exists l2.
Qed.
Lemma dinv_add c s w o f e : dinv c s -> fits c (ds_log s) e ->
  o = clients (ds_open s) [e] -> f = (if dc_local c then opened (ds_files s) [e] else 0)%nat ->
  (dc_base c + o + f <= dc_limit c)%nat -> dinv c (mkDS w o f (ds_log s ++ [e])).
Proof.
  intros (I1 & I2 & I3 & I4) HF -> -> HL. unfold dinv. cbn [ds_open ds_files ds_log].
  rewrite clients_snoc, opened_snoc, <- I1. split; [reflexivity|].
  assert (E : (if dc_local c then opened (ds_files s) [e] else 0)%nat = (if dc_local c then opened (opened 0 (ds_log s)) [e] else 0)%nat).
  { rewrite I2. now destruct (dc_local c). }
  split; [exact E|]. split.
  - unfold in_use. rewrite clients_snoc, opened_snoc, <- I1, <- E. lia.
  - intros l1 x l2 H. destruct (snoc_cases _ _ _ _ _ H) as [(l3 & -> & H3)|(-> & -> & ->)]; [now apply (I4 l1 x l3)|exact HF].
Qed.
Ltac same := cbn [opened]; match goal with |- _ = (if ?b then _ else _) => destruct b; [reflexivity|assumption] end.
Ltac none := unfold fits, starved; cbv zeta;
    match goal with E : _ = in_use _ _ _ |- _ => rewrite <- E end; match goal with E : _ = clients 0 _ |- _ => rewrite <- E end;
    (split; [lia|]); (split; [try (intros _; lia); intros [E|E]; discriminate|]);
    (split; [try (intros _; lia); intros [E|[E|E]]; discriminate|]); try discriminate; intros _; lia.
Lemma dinv_step c s l s' : dinv c s -> dstep_fn c s l = Some s' -> dinv c s'.
Proof.
  intros HI H. pose proof HI as (I1 & I2 & I3 & I4).
  assert (EU : (dc_base c + ds_open s + ds_files s = in_use (dc_base c) (dc_local c) (ds_log s))%nat).
  { unfold in_use. rewrite I1, I2. reflexivity. }
  assert (EC : ds_open s = clients 0 (ds_log s)) by exact I1.
  destruct l; cbn [dstep_fn] in H.
  - injection H as <-. exact HI.
  - unfold accept_turn, fd_left in H. destruct (Nat.ltb_spec (dc_base c + ds_open s + ds_files s) (dc_limit c)) as [L|L].
    + destruct (ds_waiting s) as [|w]; [discriminate|].
      destruct (Nat.ltb_spec 0 (dc_maxconn c)) as [M|M]; destruct (Nat.leb_spec (dc_maxconn c) (ds_open s)) as [K|K];
        cbn [andb] in H; injection H as <-; (apply dinv_add; [exact HI|none|reflexivity|same|lia]).
    + injection H as <-. apply dinv_add; [exact HI|none|reflexivity|same|lia].
  - destruct (ds_open s) as [|o] eqn:EO; [discriminate|]. injection H as <-.
    apply dinv_add; [exact HI|rewrite <- EO in *; none|rewrite EO; cbn; lia|same|lia].
  - unfold fetch_turn, fd_left in H. destruct (Nat.ltb_spec (dc_base c + ds_open s + ds_files s) (dc_limit c)) as [L|L]; injection H as <-.
    + apply dinv_add; [exact HI|none|reflexivity| |destruct (dc_local c); lia]. destruct (dc_local c); [reflexivity|exact I2].
    + apply dinv_add; [exact HI|none|reflexivity|same|lia].
  - injection H as <-. apply dinv_add; [exact HI|none|reflexivity|now destruct (dc_local c)|lia].
Qed.
Lemma dinv_run c tr : forall s s', dinv c s -> drun c s tr = Some s' -> dinv c s'.
Proof.
  induction tr as [|l tr IH]; intros s s' HI; cbn [drun]; [now intros [= <-]|].
  destruct (dstep_fn c s l) as [s1|] eqn:E; [|discriminate]. apply IH. now apply (dinv_step c s l).
Qed.
Lemma dinv_start c : (dc_base c <= dc_limit c)%nat -> dinv c ds_start.
Proof.
  intros H. split; [reflexivity|]. split; [now destruct (dc_local c)|]. split.
  - unfold in_use. cbn. destruct (dc_local c); lia.
  - intros [|x l1] e l2 E; discriminate.
Qed.

(** C128 Clients and refreshes do not take the descriptors from one another: false.  Clients that
    only connect, whatever -maxconn says, leave none: from then on every refresh fails, and the
    accept loop goes round and round ... *)
Theorem C128_clients_refuted : forall limit base f local n, (base <= limit)%nat ->
  exists tr s, ~ In DLeave tr /\ drun (daemon_fds limit base f local) ds_start tr = Some s /\
    ds_log s = repeat Taken (limit - base) ++ repeat AcceptFails n ++ repeat CannotOpen n.
Proof.
  intros limit base f local n HB. set (c := daemon_fds limit base f local).
  assert (T : forall k w o l, (base + o + k <= limit)%nat -> exists tr, ~ In DLeave tr /\
    drun c (mkDS w o 0 l) tr = Some (mkDS w (o + k) 0 (l ++ repeat Taken k))).
  { induction k as [|k IH]; intros w o l H; [exists []; split; [intros []|]; cbn; now rewrite Nat.add_0_r, app_nil_r|].
    destruct (IH w (S o) (l ++ [Taken])) as (tr & H1 & H2); [lia|]. exists (DConnect :: DTurn :: tr).
    split; [intros [E|[E|E]]; try discriminate; now apply H1|]. cbn [drun dstep_fn]. unfold accept_turn, fd_left. cbn [ds_waiting ds_open ds_files ds_log].
    change (dc_base c) with base. change (dc_limit c) with limit. change (dc_maxconn c) with 0%nat.
    replace (Nat.ltb (base + o + 0) limit) with true by lia. cbn [Nat.ltb Nat.leb andb ds_next ds_log].
    unfold ds_next. cbn [ds_log]. rewrite H2. f_equal. f_equal; [lia|]. now rewrite <- app_assoc. }
  assert (A : forall k l, drun c (mkDS 0 (limit - base) 0 l) (repeat DTurn k) = Some (mkDS 0 (limit - base) 0 (l ++ repeat AcceptFails k))).
  { induction k as [|k IH]; intros l; [cbn; now rewrite app_nil_r|]. cbn [repeat drun dstep_fn]. unfold accept_turn, fd_left. cbn [ds_waiting ds_open ds_files ds_log].
    change (dc_base c) with base. change (dc_limit c) with limit. replace (Nat.ltb (base + (limit - base) + 0) limit) with false by lia.
    unfold ds_next. cbn [ds_log]. rewrite IH, <- app_assoc. reflexivity. }
  assert (R : forall k l, drun c (mkDS 0 (limit - base) 0 l) (repeat DRefresh k) = Some (mkDS 0 (limit - base) 0 (l ++ repeat CannotOpen k))).
  { induction k as [|k IH]; intros l; [cbn; now rewrite app_nil_r|]. cbn [repeat drun dstep_fn]. unfold fetch_turn, fd_left. cbn [ds_waiting ds_open ds_files ds_log].
    change (dc_base c) with base. change (dc_limit c) with limit. replace (Nat.ltb (base + (limit - base) + 0) limit) with false by lia.
    unfold ds_next. cbn [ds_log]. rewrite IH, <- app_assoc. reflexivity. }
  destruct (T (limit - base)%nat 0%nat 0%nat []) as (tr & H1 & H2); [lia|].
  exists (tr ++ repeat DTurn n ++ repeat DRefresh n), (mkDS 0 (limit - base) 0 ((repeat Taken (limit - base) ++ repeat AcceptFails n) ++ repeat CannotOpen n)).
  split; [|split].
  - intros H. apply in_app_or in H as [H|H]; [now apply H1|]. apply in_app_or in H as [H|H]; apply repeat_spec in H; discriminate.
  - rewrite drun_app. unfold ds_start. rewrite H2. cbn [Nat.add app]. rewrite drun_app, A. apply R.
  - cbn [ds_log]. now rewrite <- app_assoc.
Qed.
(** ... and a daemon that nobody is connected to takes them itself when it reads a local file:
    what a refresh opened stays open until the garbage collector comes. *)
Theorem C128_files_refuted : forall limit base f n, (base <= limit)%nat ->
  exists s, drun (daemon_fds limit base f true) ds_start (repeat DRefresh (limit - base + n)) = Some s /\
    ds_log s = repeat Opens (limit - base) ++ repeat CannotOpen n.
Proof.
  intros limit base f n HB. set (c := daemon_fds limit base f true).
  assert (T : forall k o l, (base + o + k <= limit)%nat ->
    drun c (mkDS 0 0 o l) (repeat DRefresh k) = Some (mkDS 0 0 (o + k) (l ++ repeat Opens k))).
  { induction k as [|k IH]; intros o l H; [cbn; now rewrite Nat.add_0_r, app_nil_r|].
    cbn [repeat drun dstep_fn]. unfold fetch_turn, fd_left. cbn [ds_waiting ds_open ds_files ds_log].
    change (dc_base c) with base. change (dc_limit c) with limit. change (dc_local c) with true.
    replace (Nat.ltb (base + 0 + o) limit) with true by lia. unfold ds_next. cbn [ds_log]. rewrite IH by lia.
    rewrite <- app_assoc. replace (S o + k)%nat with (o + S k)%nat by lia. reflexivity. }
  assert (R : forall k l, drun c (mkDS 0 0 (limit - base) l) (repeat DRefresh k) = Some (mkDS 0 0 (limit - base) (l ++ repeat CannotOpen k))).
  { induction k as [|k IH]; intros l; [cbn; now rewrite app_nil_r|]. cbn [repeat drun dstep_fn]. unfold fetch_turn, fd_left. cbn [ds_waiting ds_open ds_files ds_log].
    change (dc_base c) with base. change (dc_limit c) with limit. replace (Nat.ltb (base + 0 + (limit - base)) limit) with false by lia.
    unfold ds_next. cbn [ds_log]. rewrite IH, <- app_assoc. reflexivity. }
  eexists. rewrite repeat_app, drun_app. unfold ds_start. rewrite T by lia. cbn [Nat.add app]. rewrite R. split; reflexivity.
Qed.
(** What holds: nothing is refused for want of a descriptor unless those of the clients and of the
    files opened since the last collection (none for URLs) are all there are ... *)
Theorem C128_exact_partial : forall c tr s, (dc_base c <= dc_limit c)%nat -> drun c ds_start tr = Some s ->
  forall l1 e l2, ds_log s = l1 ++ e :: l2 ->
  let u := in_use (dc_base c) (dc_local c) l1 in
  (u <= dc_limit c)%nat /\ (starved e -> u = dc_limit c) /\ (e = Taken \/ e = Refused \/ e = Opens -> (u < dc_limit c)%nat).
Proof.
  intros c tr s HB HR l1 e l2 E. destruct (dinv_run c tr ds_start s (dinv_start c HB) HR) as (_ & _ & _ & H).
  destruct (H l1 e l2 E) as (H1 & H2 & H3 & _). auto.
Qed.
(** ... so with a limit on connections that leaves room for the files between two collections
    nothing ever fails. *)
Theorem C128_limit_partial : forall c tr s k, (dc_base c <= dc_limit c)%nat -> drun c ds_start tr = Some s ->
  (0 < dc_maxconn c)%nat -> (dc_base c + dc_maxconn c + k < dc_limit c)%nat ->
  (forall l1 l2, ds_log s = l1 ++ l2 -> dc_local c = true -> (opened 0 l1 <= k)%nat) ->
  (forall e, In e (ds_log s) -> ~ starved e) /\
  forall l1 l2, ds_log s = l1 ++ l2 -> (clients 0 l1 <= dc_maxconn c)%nat.
Proof.
  intros c tr s k HB HR HM HL HK. destruct (dinv_run c tr ds_start s (dinv_start c HB) HR) as (_ & _ & _ & H).
  assert (C : forall l1 l2, ds_log s = l1 ++ l2 -> (clients 0 l1 <= dc_maxconn c)%nat).
  { intros l1. induction l1 as [|e l1 IH] using rev_ind; intros l2 E; [cbn; lia|]. rewrite <- app_assoc in E. cbn [app] in E.
    specialize (IH _ E). destruct (H l1 e l2 E) as (_ & _ & _ & H4). rewrite clients_snoc. destruct e; cbn [clients]; try specialize (H4 eq_refl HM); lia. }
  split; [|exact C]. intros e He HS. apply in_split in He as (l1 & l2 & E). destruct (H l1 e l2 E) as (_ & H2 & _).
  specialize (H2 HS). unfold in_use in H2. specialize (C l1 _ E). specialize (HK l1 _ E).
  destruct (dc_local c); [specialize (HK eq_refl)|]; lia.
Qed.

(** Six descriptors, three of them in use: three refreshes of a local file and the next one fails,
    after a collection it works; with room for one client and two files nothing fails. *)
Example C128_case :
  option_map ds_log (drun (mkDC 6 3 0 true) ds_start [DRefresh; DConnect; DTurn; DRefresh; DRefresh; DTurn; DCollect; DRefresh; DLeave]) =
    Some [Opens; Taken; Opens; CannotOpen; AcceptFails; Collects; Opens; Leaves] /\
  option_map ds_log (drun (mkDC 7 3 1 true) ds_start [DRefresh; DConnect; DConnect; DTurn; DTurn; DRefresh; DCollect; DRefresh]) =
    Some [Opens; Taken; Refused; Opens; Collects; Opens] /\ (3 + 1 + 2 < 7)%nat /\
  in_use 3 true [Opens; Taken; Opens] = 6%nat.
Proof. repeat split; try reflexivity. lia. Qed.

Print Assumptions C128_clients_refuted.
Print Assumptions C128_files_refuted.
Print Assumptions C128_exact_partial.
Print Assumptions C128_limit_partial.
Print Assumptions C128_case.
