(** Properties C12 and C95 for routers that are more than one change behind: exactly what they are
    told, and when that leaves them right. *)
From Coq Require Import ZArith ZifyBool ZifyNat ZifyN.
From Verif Require Import Model.Conn Spec.Sets Spec.History Spec.Response Spec.Router Spec.Behind Proofs.DataP Proofs.CacheP Proofs.BehindP Proofs.BehindRouterP
  Props.CacheProps Props.ConnProps Props.RouterProps.
From Coq Require Import List.
Local Open Scope list_scope.
Local Open Scope N_scope.

(** C12, the whole truth: a router that has missed [k] changes is told to start anew if fewer are
    kept.  Otherwise it is told the last [covered k] of these changes, merged: a record that comes or
    goes in these and is there in the end is announced; one that goes and neither comes nor goes
    again is withdrawn; nothing is said about the others. *)
Theorem C12_behind_partial : forall keep h ns, let s1 := run (new_server keep) h in let s2 := run s1 ns in let k := length ns in
  Forall (Forall wf_sd) (h ++ ns) -> last h [] <> [] -> Forall (fun n => n <> []) ns -> changing (last h [] :: ns) -> sdCurrentSerial s1 + nlen ns < 4294967296 ->
  if ((0 <? keep) && (keep <? Z.of_nat k))%Z then get_sds_serial_diff s2 (sdCurrentSerial s1) = Err tt
  else exists d, get_sds_serial_diff s2 (sdCurrentSerial s1) = Ok d /\ flags01 d /\ (Forall (fun n => NoDup (ids n)) (h ++ ns) -> NoDup (ids d)) /\ forall x, let t := flips x (recent k (last h [] :: ns)) in
    ((exists e, In e d /\ rid_of e = x /\ get_flag e = 1) <-> (0 < t)%nat /\ In x (ids (last ns (last h [])))) /\
    ((exists e, In e d /\ rid_of e = x /\ get_flag e = 0) <-> t = 1%nat /\ ~ In x (ids (last ns (last h [])))).
Proof. exact behind. Qed.

(** So it is known when that is right: every record that the router has and should not have goes
    exactly once in the last [covered k] changes, and every record that it lacks comes in them.  It
    is without errors of RFC 8210 (a record announced twice, an unknown one withdrawn) exactly if no
    record comes back in them that it has, and none goes that it does not have. *)
Theorem C12_behind_exact_partial : forall keep h ns d, let s1 := run (new_server keep) h in let s2 := run s1 ns in
  let old := last h [] in let new := last ns old in let t x := flips x (recent (length ns) (old :: ns)) in
  Forall (Forall wf_sd) (h ++ ns) -> old <> [] -> Forall (fun n => n <> []) ns -> changing (old :: ns) -> sdCurrentSerial s1 + nlen ns < 4294967296 ->
  get_sds_serial_diff s2 (sdCurrentSerial s1) = Ok d ->
  (r_eq (r_apply (as_set old) d) (as_set new) <->
    (forall x, In x (ids old) -> ~ In x (ids new) -> t x = 1%nat) /\ (forall x, In x (ids new) -> ~ In x (ids old) -> (0 < t x)%nat)) /\
  (diff_for (as_set old) d <->
    (forall x, (0 < t x)%nat -> In x (ids new) -> ~ In x (ids old)) /\ (forall x, t x = 1%nat -> ~ In x (ids new) -> In x (ids old))).
Proof.
  intros keep h ns d s1 s2 old new t HW HN HF HC HM HD.
  pose proof (behind keep h ns HW HN HF HC HM) as B. cbv zeta in B. fold s1 s2 in B. destruct (_ && _)%Z; [congruence|].
  destruct B as (d' & E & F & _ & G). rewrite HD in E. injection E as <-. fold old new in G.
  assert (A : forall R x, r_apply R d x <-> if Nat.eqb (t x) 0 then R x else In x (ids new) \/ t x <> 1%nat /\ R x).
  { intros R x. destruct (G x) as [G1 G0]. apply (told_set d R x (t x) (In x (ids new)) F); [apply in_dec, rid_dec|exact G1|exact G0]. }
  split.
  - unfold r_eq, as_set. split.
    + intros H. split; intros x H1 H2; specialize (H x); rewrite A in H; destruct (Nat.eqb (t x) 0) eqn:T; [tauto| |tauto|apply Nat.eqb_neq in T; lia].
      destruct (Nat.eq_dec (t x) 1); [assumption|]. exfalso. apply H2, H. auto.
    + intros [HA HB] x. rewrite A. destruct (Nat.eqb (t x) 0) eqn:T.
      * apply Nat.eqb_eq in T. split; intros H.
        -- destruct (in_dec rid_dec x (ids new)); [assumption|]. specialize (HA x H n). lia.
        -- destruct (in_dec rid_dec x (ids old)); [assumption|]. specialize (HB x H n). lia.
      * split; [|now left]. intros [H|[H1 H2]]; [exact H|]. destruct (in_dec rid_dec x (ids new)); [assumption|]. specialize (HA x H2 n). contradiction.
  - unfold diff_for, announces_clean, withdraws_clean, as_set. split.
    + intros (_ & H1 & H2). split; intros x T H; destruct (G x) as [G1 G0].
      * destruct G1 as [_ G1]. destruct G1 as (e & E1 & <- & E3); [split; assumption|]. now apply H1.
      * destruct G0 as [_ G0]. destruct G0 as (e & E1 & <- & E3); [split; assumption|]. now apply H2.
    + intros [HA HB]. split; [exact F|]. split; intros e E1 E2; destruct (G (rid_of e)) as [G1 G0].
      * destruct G1 as [G1 _]. destruct G1 as [T H]; [exists e; auto|]. now apply HA.
      * destruct G0 as [G0 _]. destruct G0 as [T H]; [exists e; auto|]. now apply HB.
Qed.
(** In particular two changes behind the router is told nothing but the new serial number. *)
Theorem C12_two_behind_partial : forall keep h n1 n2, let s1 := run (new_server keep) h in let s2 := run s1 [n1; n2] in
  Forall (Forall wf_sd) (h ++ [n1; n2]) -> last h [] <> [] -> n1 <> [] -> n2 <> [] -> ~ same_set (last h []) n1 -> ~ same_set n1 n2 -> sdCurrentSerial s1 + 2 < 4294967296 ->
  get_sds_serial_diff s2 (sdCurrentSerial s1) = if (keep =? 1)%Z then Err tt else Ok [].
Proof.
  intros keep h n1 n2 s1 s2 HW HN H1 H2 C1 C2 HM. pose proof (behind keep h [n1; n2] HW HN) as B. cbv zeta in B. cbn [length] in B. fold s1 s2 in B.
  assert (B' := B ltac:(repeat (apply Forall_cons; [assumption|]); apply Forall_nil) (conj C1 (conj C2 I)) HM). clear B.
  replace ((0 <? keep) && (keep <? Z.of_nat 2))%Z with (keep =? 1)%Z in B' by lia. destruct (keep =? 1)%Z; [exact B'|].
  destruct B' as (d & E & F & _ & G). rewrite E. f_equal. destruct d as [|e d]; [reflexivity|]. exfalso.
  destruct (G (rid_of e)) as [[G1 _] [G0 _]]. cbn in G1, G0. unfold recent, lastn in G1, G0. cbn in G1, G0.
  destruct (F e (or_introl eq_refl)) as [X|X]; [destruct G1 as [T _]|destruct G0 as [T _]]; try (exists e; split; [now left|auto]; fail); lia.
Qed.

(** Three changes: the router with x1 is told the last two.  x1 goes and x3 comes, which is right;
    but it is also told to drop x2, which it never had. *)
Example C12_behind_case : let h := [[x1]] in let ns := [[x1; x2]; [x2; x3]; [x3]] in
  Forall (Forall wf_sd) (h ++ ns) /\ changing (last h [] :: ns) /\
  map covered (seq 0 9) = [0; 1; 0; 2; 1; 3; 2; 4; 3]%nat /\ recent 3 (last h [] :: ns) = ns /\
  map (fun x => flips (rid_of x) ns) [x1; x2; x3] = [1; 1; 1]%nat /\
  get_sds_serial_diff (run (run (new_server 3) h) ns) 0 = Ok [x3; set_flag 0 x1; set_flag 0 x2] /\
  get_sds_serial_diff (run (run (new_server 2) h) ns) 0 = Err tt /\
  get_sds_serial_diff (run (run (new_server 3) h) [[x1; x2]; [x2; x3]]) 0 = Ok [].
Proof.
  cbv zeta. split; [apply wf_sdss_ok; vm_compute; reflexivity|]. split.
  { assert (M : forall x a b, mem x (ids a) <> mem x (ids b) -> ~ same_set a b).
    { intros x a b H S. apply H. specialize (S x). unfold mem. destruct (in_dec rid_dec x (ids a)), (in_dec rid_dec x (ids b)); tauto. }
    split; [apply (M (rid_of x2)); vm_compute; discriminate|]. split; [apply (M (rid_of x1)); vm_compute; discriminate|].
    split; [apply (M (rid_of x2)); vm_compute; discriminate|exact I]. }
  repeat split; vm_compute; reflexivity.
Qed.

(** C95, for a router that has polled in time and then misses any number of changes: its next poll is
    answered in a way it can follow and leaves it with exactly the records fed in last if and only
    if fewer changes are kept than it missed, or each record it may be sent comes and goes in the
    last [covered k] changes as often as it should: not at all if it has it and should have it, once
    if it has to go, at least once if it has to come, and not just once if it is neither there
    before nor after. *)
Theorem C95_behind_partial : forall cfg s v tr keep l ns, u16 s -> cfg_version cfg < 256 -> v <= cfg_version cfg ->
  acceptable (accept tr (new_rtr_server cfg s)) v ->
  Forall (fun n => Forall wf_sd n /\ NoDup (ids n) /\ n <> []) (updates l ++ ns) -> updates l <> [] -> timely keep [] None (l ++ [Poll]) ->
  changing (latest l :: ns) -> sdCurrentSerial (run (new_server keep) (updates l)) + nlen ns < 4294967296 ->
  let old := latest l in let new := last ns old in
  (exists w, play (new_rtr_server cfg s) tr v (start (new_rtr_server cfg s) tr keep) (l ++ [Poll] ++ map Update ns ++ [Poll]) = Some w /\
     in_sync v (keys_off tr cfg) (wo_router w) new) <->
  (0 < keep < Z.of_nat (length ns))%Z \/
  forall x, carried v (keys_off tr cfg) x = true -> set_right (mem x (ids old)) (mem x (ids new)) (flips x (recent (length ns) (old :: ns))).
Proof. exact router_behind. Qed.
Fixpoint distinct (l : list rid) : bool := match l with [] => true | x :: r => negb (mem x r) && distinct r end.
Lemma distinct_ok l : distinct l = true -> NoDup l.
Proof.
  induction l as [|x l IH]; intros H; [constructor|]. cbn in H. apply andb_true_iff in H as [A B]. constructor; [|auto].
  apply negb_true_iff in A. now apply mem_not.
Qed.
(** Three changes of which the first is undone by the second: right, although only two are told.
    Three that bring x2 and take it away: the router is told to drop what it does not have.  Three
    with two kept: right. *)
Example C95_behind_case : let l := [Update [x1]] in let good3 := [[x1; x2]; [x1]; [x1; x2; x3]] in let bad3 := [[x1; x2]; [x2; x3]; [x3]] in
  let outcome keep ns := option_map (fun w => wo_router w) (play (new_rtr_server cfg1 7) TCP 1 (start (new_rtr_server cfg1 7) TCP keep) (l ++ [Poll] ++ map Update ns ++ [Poll])) in
  Forall (fun n => Forall wf_sd n /\ NoDup (ids n) /\ n <> []) (updates l ++ good3 ++ bad3) /\ timely 3 [] None (l ++ [Poll]) /\
  changing (latest l :: good3) /\ changing (latest l :: bad3) /\
  outcome 3%Z good3 = Some (mkRo (Some (session_of 7 1, 3)) (ids [x3; x2; x1])) /\ outcome 3%Z bad3 = None /\
  outcome 2%Z bad3 = Some (mkRo (Some (session_of 7 1, 3)) (ids [x3])).
Proof.
  cbv zeta. split.
  { assert (M : forall L, Forall (Forall wf_sd) L -> forallb (fun n => distinct (ids n) && negb (is_nil n)) L = true -> Forall (fun n => Forall wf_sd n /\ NoDup (ids n) /\ n <> []) L).
    { intros L HW HB. rewrite forallb_forall in HB. rewrite Forall_forall in *. intros n HN. specialize (HB n HN). apply andb_true_iff in HB as [B1 B2].
      split; [now apply HW|]. split; [now apply distinct_ok|]. intros ->. discriminate B2. }
    apply M; [apply wf_sdss_ok; vm_compute; reflexivity|vm_compute; reflexivity]. }
  assert (M : forall x a b, mem x (ids a) <> mem x (ids b) -> ~ same_set a b).
  { intros x a b H S. apply H. specialize (S x). unfold mem. destruct (in_dec rid_dec x (ids a)), (in_dec rid_dec x (ids b)); tauto. }
  split; [vm_compute; auto|].
  split; [split; [apply (M (rid_of x2)); vm_compute; discriminate|]; split; [apply (M (rid_of x2)); vm_compute; discriminate|]; split; [apply (M (rid_of x3)); vm_compute; discriminate|exact I]|].
  split; [split; [apply (M (rid_of x2)); vm_compute; discriminate|]; split; [apply (M (rid_of x1)); vm_compute; discriminate|]; split; [apply (M (rid_of x2)); vm_compute; discriminate|exact I]|].
  repeat split; vm_compute; reflexivity.
Qed.

Print Assumptions C95_behind_partial.
Print Assumptions C12_behind_partial.
Print Assumptions C12_behind_exact_partial.
Print Assumptions C12_two_behind_partial.
