(** Properties C07 to C17 and C59: record identity, diffs, serials and history. *)
From Coq Require Import ZifyBool ZifyNat ZifyN.
From Verif Require Import Model.Cache Spec.Sets Spec.History Proofs.FormatP Proofs.DataP Proofs.CacheP.

(** Sample records. *)
Definition pfx4 (a b : N) : prefix := mkPrefix (A4 a) (Some b).
Definition x1 := VRP (pfx4 3221225984 24) 64496 24 1.   (* 192.0.2.0/24 AS64496 *)
Definition x2 := VRP (pfx4 3325256704 24) 64497 28 1.   (* 198.51.100.0/24 AS64497 *)
Definition x3 := VRP (mkPrefix (A6 42540766411282592856903984951653826560) (Some 32)) 64498 48 1.
Definition x4 := BgpsecKey 64499 (repeat 7 20) [48; 89; 1; 2] 1.
Lemma x_wf : Forall wf_sd [x1; x2; x3; x4].
Proof. apply wf_sds_ok. vm_compute. reflexivity. Qed.

Lemma x12 : rid_of x1 <> rid_of x2.
Proof.
  intros E. apply (f_equal (fun r => match r with RV _ a _ => a =? 64496 | _ => false end)) in E.
  vm_compute in E. discriminate.
Qed.

(** C07 ComputeDiff is exact set difference. *)
Theorem C07_exact : forall new prev pop, Forall wf_sd new -> Forall wf_sd prev ->
  compute_diff new prev pop =
    (map (set_flag 1) (filter (fun x => negb (mem (rid_of x) (ids prev))) new),
     map (set_flag 0) (filter (fun x => negb (mem (rid_of x) (ids new))) prev),
     filter (fun x => pop && mem (rid_of x) (ids new)) prev).
Proof. exact compute_diff_exact. Qed.
Example C07_case : compute_diff [x1; x3; x3] [x2; x3] true =
  ([x1], [set_flag 0 x2], [x3]).
Proof. vm_compute. reflexivity. Qed.

(** C08 The served set is the last set fed in. *)
Theorem C08_last_set : forall keep h new, Forall (Forall wf_sd) (h ++ [new]) ->
  same_set (get_current_sds (run (new_server keep) (h ++ [new]))) new /\
  (forall d, In d (get_current_sds (run (new_server keep) (h ++ [new]))) -> get_flag d = 1).
Proof. intros keep h new. apply run_set, inv_new. Qed.
Example C08_last_set_case : Forall (Forall wf_sd) ([[x1; x2]; []] ++ [[x4; x1; x4]]) /\
  get_current_sds (run (new_server 3) ([[x1; x2]; []] ++ [[x4; x1; x4]])) = [x4; x1; x4].
Proof. split; [apply wf_sdss_ok|]; vm_compute; reflexivity. Qed.
(** No record is served twice if no input lists one twice. *)
Theorem C08_no_duplicates : forall keep h, Forall (Forall wf_sd) h ->
  Forall (fun l => NoDup (ids l)) h -> NoDup (ids (get_current_sds (run (new_server keep) h))).
Proof. intros keep h H. apply run_nodup; [apply inv_new|constructor|exact H]. Qed.
Example C08_case : get_current_sds (run (new_server 3) [[x1; x2]; []; [x4; x1]; [x2; x1]]) = [x1; x2].
Proof. vm_compute. reflexivity. Qed.

(** C09 Merging two diffs is sequential application. *)
Theorem C09_merge : forall R d1 d2, Forall wf_sd d1 -> Forall wf_sd d2 ->
  diff_for R d1 -> diff_for (r_apply R d1) d2 ->
  r_eq (r_apply R (apply_diff d2 d1)) (r_apply (r_apply R d1) d2).
Proof. exact merge_sequential. Qed.
Example C09_merge_case : let d1 := [x2; set_flag 0 x1] in let d2 := [x3; set_flag 0 x2] in
  Forall wf_sd d1 /\ Forall wf_sd d2 /\ diff_for (as_set [x1]) d1 /\ diff_for (r_apply (as_set [x1]) d1) d2 /\
  apply_diff d2 d1 = [set_flag 0 x1; x3].
Proof.
  assert (H31 : rid_of x3 <> rid_of x1) by discriminate. assert (H32 : rid_of x3 <> rid_of x2) by discriminate. pose proof x12 as H12.
  cbv zeta. split; [apply wf_sds_ok; vm_compute; reflexivity|]. split; [apply wf_sds_ok; vm_compute; reflexivity|]. split; [|split; [|vm_compute; reflexivity]].
  - split; [|split]; intros d [<-|[<-|[]]]; try (cbn; auto; discriminate).
    intros _ [E|[]]. apply H12. exact E.
  - split; [|split]; intros d [<-|[<-|[]]]; try (cbn; auto; discriminate).
    intros _ [_ [E|[E|[]]]]; [exact (H32 E)|exact (H31 (eq_sym E))].
Qed.
(** Diffs computed by the server between successive sets meet the hypotheses. *)
Theorem C09_applies : forall A B C, Forall wf_sd A -> Forall wf_sd B -> Forall wf_sd C ->
  let diff new prev := let '(a, r, _) := compute_diff new prev false in a ++ r in
  diff_for (as_set A) (diff B A) /\ diff_for (r_apply (as_set A) (diff B A)) (diff C B) /\
  r_eq (r_apply (as_set A) (diff B A)) (as_set B).
Proof.
  intros A B C HA HB HC. cbv beta zeta. rewrite !compute_diff_exact by assumption.
  fold (the_diff B A) (the_diff C B). split; [apply the_diff_for|]. split; [|apply the_diff_result].
  destruct (the_diff_for C B) as (H1 & H2 & H3). pose proof (the_diff_result B A) as HR. split; [exact H1|]. split.
  - intros d Hd Hf G. apply (H2 d Hd Hf). now apply HR.
  - intros d Hd Hf. apply HR. now apply H3.
Qed.
Example C09_case : apply_diff [x3; set_flag 0 x2] [x2; set_flag 0 x1] = [set_flag 0 x1; x3].
Proof. vm_compute. reflexivity. Qed.

(** The merge of three diffs is not sequential application: withdrawing, announcing and
    withdrawing the same record merges to nothing. *)
Theorem C09_three_diffs_refuted : exists R d1 d2 d3,
  Forall wf_sd d1 /\ Forall wf_sd d2 /\ Forall wf_sd d3 /\
  diff_for R d1 /\ diff_for (r_apply R d1) d2 /\ diff_for (r_apply (r_apply R d1) d2) d3 /\
  ~ r_eq (r_apply R (apply_diff d3 (apply_diff d2 d1))) (r_apply (r_apply (r_apply R d1) d2) d3).
Proof.
  exists (as_set [x1]), [set_flag 0 x1], [x1], [set_flag 0 x1].
  split; [first [apply wf_sds_ok | apply wf_sdss_ok]; vm_compute; reflexivity|].
  split; [first [apply wf_sds_ok | apply wf_sdss_ok]; vm_compute; reflexivity|].
  split; [first [apply wf_sds_ok | apply wf_sdss_ok]; vm_compute; reflexivity|].
  split; [|split; [|split]].
  - split; [|split]; intros d [<-|[]]; cbn; auto; try discriminate.
  - split; [|split]; intros d [<-|[]]; cbn; auto; try discriminate. intros _ [G _]. now apply G.
  - split; [|split]; intros d [<-|[]]; cbn; auto; try discriminate.
  - intros G. specialize (G (rid_of x1)).
    replace (apply_diff [set_flag 0 x1] (apply_diff [x1] [set_flag 0 x1])) with (@nil sd) in G by (vm_compute; reflexivity).
    destruct G as [G _]. cbn in G. destruct G as [G _]; [now left|]. now apply G.
Qed.

(** C10 Merged diffs are clean: refuted for announcements. *)
Theorem C10_announce_refuted : exists R d1 d2, Forall wf_sd d1 /\ Forall wf_sd d2 /\
  diff_for R d1 /\ diff_for (r_apply R d1) d2 /\ ~ announces_clean R (apply_diff d2 d1).
Proof.
  exists (as_set [x1]), [set_flag 0 x1], [x1].
  split; [first [apply wf_sds_ok | apply wf_sdss_ok]; vm_compute; reflexivity|].
  split; [first [apply wf_sds_ok | apply wf_sdss_ok]; vm_compute; reflexivity|].
  split; [|split].
  - split; [|split]; intros d [<-|[]]; cbn; auto; try discriminate.
  - split; [|split]; intros d [<-|[]]; cbn; auto; try discriminate. intros _ [G _]. now apply G.
  - replace (apply_diff [x1] [set_flag 0 x1]) with [x1] by (vm_compute; reflexivity).
    intros G. apply (G x1); cbn; auto.
Qed.
(** What holds: withdrawals are always clean, announcements exactly when nothing is
    withdrawn and re-announced.  (Missing: that case.) *)
Theorem C10_withdraw_partial : forall R d1 d2, Forall wf_sd d1 -> Forall wf_sd d2 ->
  diff_for R d1 -> diff_for (r_apply R d1) d2 -> withdraws_clean R (apply_diff d2 d1).
Proof. exact merge_withdraws_clean. Qed.
Theorem C10_announce_partial : forall R d1 d2, Forall wf_sd d1 -> Forall wf_sd d2 ->
  diff_for R d1 -> diff_for (r_apply R d1) d2 ->
  (announces_clean R (apply_diff d2 d1) <->
   ~ exists a b, In a d1 /\ In b d2 /\ rid_of a = rid_of b /\ get_flag a = 0 /\ get_flag b = 1).
Proof. exact merge_announces_iff. Qed.
Example C10_partial_case : let d1 := [set_flag 0 x1] in let d2 := [x2] in
  Forall wf_sd d1 /\ Forall wf_sd d2 /\ diff_for (as_set [x1; x4]) d1 /\ diff_for (r_apply (as_set [x1; x4]) d1) d2 /\
  apply_diff d2 d1 = [set_flag 0 x1; x2] /\ announces_clean (as_set [x1; x4]) (apply_diff d2 d1) /\ withdraws_clean (as_set [x1; x4]) (apply_diff d2 d1).
Proof.
  assert (H42 : rid_of x4 <> rid_of x2) by discriminate. pose proof x12 as H12. cbv zeta.
  replace (apply_diff [x2] [set_flag 0 x1]) with [set_flag 0 x1; x2] by (vm_compute; reflexivity).
  split; [apply wf_sds_ok; vm_compute; reflexivity|]. split; [apply wf_sds_ok; vm_compute; reflexivity|]. split; [|split; [|split; [reflexivity|split]]].
  - split; [|split]; intros d [<-|[]]; try (cbn; auto; discriminate).
  - split; [|split]; intros d [<-|[]]; try (cbn; auto; discriminate). intros _ [_ [E|[E|[]]]]; [exact (H12 E)|exact (H42 E)].
  - intros d [<-|[<-|[]]]; [discriminate|]. intros _ [E|[E|[]]]; [exact (H12 E)|exact (H42 E)].
  - intros d [<-|[<-|[]]]; [|discriminate]. intros _. now left.
Qed.

(** C11 AddData reports and publishes exactly real changes. *)
Theorem C11_changes : forall keep h new, Forall (Forall wf_sd) h -> Forall wf_sd new ->
  let s := run (new_server keep) h in
  (snd (add_data s new) = true <-> ~ same_set (sdCurrent s) new) /\
  (snd (add_data s new) = false -> fst (add_data s new) = s) /\
  (snd (add_data s new) = true -> sdCurrent s <> [] ->
     sdCurrentSerial (fst (add_data s new)) = (sdCurrentSerial s + 1) mod 4294967296) /\
  (snd (add_data s new) = true -> sdCurrent s = [] ->
     sdCurrentSerial (fst (add_data s new)) = sdCurrentSerial s).
Proof. intros keep h new Hh Hn. apply add_data_changes; [apply run_inv; [apply inv_new|exact Hh]|exact Hn]. Qed.
Example C11_case :
  (snd (add_data (run (new_server 3) [[x1; x2]]) [x2; x1]), snd (add_data (run (new_server 3) [[x1; x2]]) [x2]))
  = (false, true).
Proof. vm_compute. reflexivity. Qed.

(** C12 Incremental synchronisation.  The full statement: a router holding the set
    published after [h1], asking later, after [h2], with the serial it got then. *)
Definition C12_statement : Prop := forall keep h1 h2 d,
  Forall (Forall wf_sd) (h1 ++ h2) -> nlen (h1 ++ h2) < 4294967296 ->
  let s1 := run (new_server keep) h1 in let s2 := run s1 h2 in
  sdCurrent s1 <> [] -> sdCurrent s2 <> [] ->
  get_sds_serial_diff s2 (sdCurrentSerial s1) = Ok d ->
  r_eq (r_apply (as_set (sdCurrent s1)) d) (as_set (sdCurrent s2)).

(** It is false: two updates behind with the default history of 3 the router is sent
    nothing but the new serial ... *)
Theorem C12_sync_refuted : ~ C12_statement.
Proof.
  intros H. specialize (H 3%Z [[x1]] [[x1; x2]; [x2]] []).
  assert (W : Forall (Forall wf_sd) ([[x1]] ++ [[x1; x2]; [x2]])).
  { apply wf_sdss_ok. vm_compute. reflexivity. }
  specialize (H W eq_refl). cbv zeta in H.
  replace (sdCurrent (run (run (new_server 3) [[x1]]) [[x1; x2]; [x2]])) with [x2] in H by (vm_compute; reflexivity).
  replace (sdCurrent (run (new_server 3) [[x1]])) with [x1] in H by (vm_compute; reflexivity).
  specialize (H ltac:(discriminate) ltac:(discriminate)). 
  assert (E : get_sds_serial_diff (run (run (new_server 3) [[x1]]) [[x1; x2]; [x2]])
                (sdCurrentSerial (run (new_server 3) [[x1]])) = Ok []) by (vm_compute; reflexivity).
  specialize (H E (rid_of x2)). destruct H as [_ H]. specialize (H (or_introl eq_refl)).
  destruct H as [H|[]]. exact (x12 H).
Qed.
(** ... and even with a history of one, after the set was emptied and refilled, the
    router is never told to withdraw what it has. *)
Theorem C12_serial_reuse_refuted : exists h1 h2 d,
  Forall (Forall wf_sd) (h1 ++ h2) /\
  get_sds_serial_diff (run (run (new_server 1) h1) h2) (sdCurrentSerial (run (new_server 1) h1)) = Ok d /\
  sdCurrent (run (new_server 1) h1) = [x1] /\ sdCurrent (run (run (new_server 1) h1) h2) = [x2] /\
  ~ r_eq (r_apply (as_set [x1]) d) (as_set [x2]).
Proof.
  exists [[x1]], [[]; [x2]], [x2].
  split; [first [apply wf_sds_ok | apply wf_sdss_ok]; vm_compute; reflexivity|].
  split; [vm_compute; reflexivity|]. split; [vm_compute; reflexivity|]. split; [vm_compute; reflexivity|].
  intros H. specialize (H (rid_of x1)). destruct H as [H _].
  assert (G : r_apply (as_set [x1]) [x2] (rid_of x1)) by (right; now left).
  apply H in G. destruct G as [G|[]]. exact (x12 (eq_sym G)).
Qed.
(** What holds, for every history bound: routers that are up to date or exactly one
    serial behind.  (Missing: routers further behind, and emptied sets.) *)
Theorem C12_current_partial : forall keep h1 h2,
  Forall (Forall wf_sd) (h1 ++ h2) -> nlen h2 < 4294967296 ->
  let s1 := run (new_server keep) h1 in let s2 := run s1 h2 in
  sdCurrent s1 <> [] -> sdCurrentSerial s2 = sdCurrentSerial s1 ->
  get_sds_serial_diff s2 (sdCurrentSerial s1) = Ok [] /\ same_set (sdCurrent s1) (sdCurrent s2).
Proof.
  intros keep h1 h2 Hh HL. cbv zeta. intros Hne HS. apply Forall_app in Hh as [Hh1 Hh2].
  apply sync_current; auto. apply run_inv; [apply inv_new|assumption].
Qed.
Example C12_current_partial_case : let s1 := run (new_server 3) [[x1]; [x1; x4]] in let s2 := run s1 [[x4; x1]; [x1; x4; x4]] in
  sdCurrent s1 <> [] /\ sdCurrentSerial s1 = 1 /\ sdCurrentSerial s2 = 1 /\ get_sds_serial_diff s2 1 = Ok [].
Proof. cbv zeta. split; [vm_compute; discriminate|]. repeat split; vm_compute; reflexivity. Qed.
Theorem C12_one_behind_partial : forall keep h1 h2,
  Forall (Forall wf_sd) (h1 ++ h2) -> Forall (fun n => n <> []) h2 -> nlen h2 < 4294967296 ->
  let s1 := run (new_server keep) h1 in let s2 := run s1 h2 in
  sdCurrent s1 <> [] -> sdCurrentSerial s2 = sdCurrentSerial s1 + 1 ->
  exists d, get_sds_serial_diff s2 (sdCurrentSerial s1) = Ok d /\
    diff_for (as_set (sdCurrent s1)) d /\
    r_eq (r_apply (as_set (sdCurrent s1)) d) (as_set (sdCurrent s2)).
Proof.
  intros keep h1 h2 Hh HF HL. cbv zeta. intros Hne HS. apply Forall_app in Hh as [Hh1 Hh2].
  apply sync_one_behind; auto. apply run_inv; [apply inv_new|assumption].
Qed.
Example C12_case :
  get_sds_serial_diff (run (run (new_server 3) [[x1; x4]]) [[x1; x4]; [x3; x4]; [x4; x3]]) 0
  = Ok [x3; set_flag 0 x1].
Proof. vm_compute. reflexivity. Qed.
(** What the history really holds, for all sequences of published diffs: 2k-1 places
    from the end the last k diffs merged, 2k places from the end the last k-1. *)
Theorem C12_history_shape : forall keep ds, Forall flags01 ds ->
  sdListDiff (publish (new_server keep) ds) =
  if (0 <? keep)%Z then lastn (Z.to_nat keep) (kept ds) else kept ds.
Proof. exact history_shape. Qed.
Example C12_history_shape_case : sdListDiff (publish (new_server 5) [[x1]; [x2]; [set_flag 0 x1]]) =
  [[x2]; [set_flag 0 x1]; [x2; set_flag 0 x1]; []; [set_flag 0 x1]].
Proof. vm_compute. reflexivity. Qed.
Theorem C12_history_odd : forall ds k, (1 <= k <= length ds)%nat ->
  nth_error (kept ds) (length (kept ds) - (2 * k - 1)) = Some (merge (lastn k ds)).
Proof. exact kept_nth_odd. Qed.
Theorem C12_history_even : forall ds k, (1 <= k <= length ds)%nat ->
  nth_error (kept ds) (length (kept ds) - 2 * k) = Some (merge (lastn (k - 1) ds)).
Proof. exact kept_nth_even. Qed.
Example C12_history_case : let ds := [[x1]; [x2]; [set_flag 0 x1]] in
  kept ds = [[x2; set_flag 0 x1]; [x2]; [set_flag 0 x1]; [x2; set_flag 0 x1]; []; [set_flag 0 x1]] /\
  nth_error (kept ds) (length (kept ds) - 3) = Some (merge [[x2]; [set_flag 0 x1]]) /\ nth_error (kept ds) (length (kept ds) - 4) = Some [set_flag 0 x1].
Proof. cbv zeta. repeat split; vm_compute; reflexivity. Qed.

(** C13 Unknown serials get a Cache Reset. *)
Theorem C13_unknown : forall s q,
  (get_sds_serial_diff s q = Err tt <->
   sdCurrentSerial s < q \/ (q < sdCurrentSerial s /\ nlen (sdListDiff s) < sdCurrentSerial s - q)) /\
  get_sds_serial_diff s q <> Panic /\
  get_sds_serial_diff s (sdCurrentSerial s) = Ok [].
Proof. intros s q. split; [apply serial_diff_err|]. split; [apply serial_diff_total|apply serial_diff_cur]. Qed.
Example C13_case :
  let s := run (new_server 3) [[x1]; [x2]; [x3]; [x4]; [x1; x4]; [x2]] in
  (sdCurrentSerial s, get_sds_serial_diff s 6, get_sds_serial_diff s 1) = (5, Err tt, Err tt).
Proof. vm_compute. reflexivity. Qed.

(** C14 A serial names one data set. *)
Theorem C14_serial_names_set : forall keep h1 h2, Forall (Forall wf_sd) (h1 ++ h2) ->
  sdCurrent (run (new_server keep) h1) <> [] -> nlen h2 < 4294967296 ->
  ~ same_set (sdCurrent (run (new_server keep) h1)) (sdCurrent (run (new_server keep) (h1 ++ h2))) ->
  sdCurrentSerial (run (new_server keep) h1) <> sdCurrentSerial (run (new_server keep) (h1 ++ h2)).
Proof. intros keep h1 h2. apply serial_names, inv_new. Qed.
Example C14_case : (sdCurrentSerial (run (new_server 3) [[x1]]), sdCurrentSerial (run (new_server 3) [[x1]; []; [x2]])) = (0, 1).
Proof. vm_compute. reflexivity. Qed.
(** The empty set is no such set: it shares its serial with the next one. *)
Theorem C14_empty_refuted : exists h1 h2, Forall (Forall wf_sd) (h1 ++ h2) /\ nlen h2 < 4294967296 /\
  ~ same_set (sdCurrent (run (new_server 3) h1)) (sdCurrent (run (new_server 3) (h1 ++ h2))) /\
  sdCurrentSerial (run (new_server 3) h1) = sdCurrentSerial (run (new_server 3) (h1 ++ h2)).
Proof.
  exists [[x1]; []], [[x2]].
  split; [first [apply wf_sds_ok | apply wf_sdss_ok]; vm_compute; reflexivity|].
  split; [reflexivity|]. split; [|vm_compute; reflexivity].
  replace (sdCurrent (run (new_server 3) ([[x1]; []] ++ [[x2]]))) with [x2] by (vm_compute; reflexivity).
  replace (sdCurrent (run (new_server 3) [[x1]; []])) with (@nil sd) by (vm_compute; reflexivity).
  intros H. specialize (H (rid_of x2)). destruct H as [_ H]. apply H. now left.
Qed.

(** C15 Diff history is bounded. *)
Theorem C15_bounded : forall keep h, (0 < keep)%Z ->
  (Z.of_nat (length (sdListDiff (run (new_server keep) h))) <= keep)%Z.
Proof. intros keep h Hk. apply (run_bound h (new_server keep)); cbn; lia. Qed.
Example C15_case : length (sdListDiff (run (new_server 2) [[x1]; [x2]; [x3]; [x1; x2; x4]])) = 2%nat.
Proof. vm_compute. reflexivity. Qed.

(** C16 Record identity keys do not collide. *)
Theorem C16_keys : forall a b, wf_sd a -> wf_sd b ->
  (hashkey a = hashkey b <-> rid_of a = rid_of b) /\ (equals a b = true <-> rid_of a = rid_of b).
Proof. intros a b Ha Hb. split; [now apply hashkey_rid|apply equals_rid]. Qed.
Example C16_case : Forall wf_sd [x1; x2; x3; x4] /\ NoDup (map hashkey [x1; x2; x3; x4]).
Proof. split; [exact x_wf|]. vm_compute. repeat constructor; cbn; intuition discriminate. Qed.

(** C17 Serials move forward. *)
Theorem C17_serial : forall keep h, Forall (Forall wf_sd) h ->
  sdCurrentSerial (run (new_server keep) h) = count_advances [] h mod 4294967296.
Proof.
  intros keep h Hh. rewrite run_serial by (apply inv_new || assumption). reflexivity.
Qed.
Example C17_serial_case : count_advances [] [[x1]; [x1]; [x2; x1]; []; [x2]; [x3]] = 3.
Proof. vm_compute. reflexivity. Qed.
Theorem C17_step : forall keep h new, Forall (Forall wf_sd) h -> Forall wf_sd new ->
  let s := run (new_server keep) h in
  sdCurrentSerial (step s new) = sdCurrentSerial s \/
  sdCurrentSerial (step s new) = (sdCurrentSerial s + 1) mod 4294967296.
Proof.
  intros keep h new Hh Hn. cbv zeta. pose proof (run_inv (new_server keep) h (inv_new keep) Hh) as Hi.
  destruct (add_data_changes _ new Hi Hn) as (_ & H2 & H3 & H4). unfold step.
  destruct (snd (add_data (run (new_server keep) h) new)).
  - destruct (sdCurrent (run (new_server keep) h)) eqn:E; [left; now apply H4|right; apply H3; auto; discriminate].
  - left. now rewrite H2.
Qed.
Example C17_case : sdCurrentSerial (run (new_server 3) [[x1]; [x1]; [x2; x1]; []; [x2]; [x3]]) = 3.
Proof. vm_compute. reflexivity. Qed.

(** C59 Textual prefixes round trip. *)
Theorem C59_text_roundtrip : forall p, wf_prefix p -> is_valid p = true ->
  parse_prefix (prefix_string p) = Some p.
Proof. exact parse_prefix_string. Qed.
Example C59_text_roundtrip_case : prefix_string (pfx4 3221225984 24) = map N.of_nat [49; 57; 50; 46; 48; 46; 50; 46; 48; 47; 50; 52]%nat /\
  parse_prefix (prefix_string (pfx4 3221225984 24)) = Some (pfx4 3221225984 24).
Proof. split; vm_compute; reflexivity. Qed.
Theorem C59_text_injective : forall p q, wf_prefix p -> is_valid p = true -> wf_prefix q -> is_valid q = true ->
  prefix_string p = prefix_string q -> p = q.
Proof. exact prefix_string_inj. Qed.
Example C59_case : map (fun d => match d with VRP p _ _ _ => parse_prefix (prefix_string p) | _ => None end) [x1; x3]
  = [Some (pfx4 3221225984 24); Some (mkPrefix (A6 42540766411282592856903984951653826560) (Some 32))].
Proof. vm_compute. reflexivity. Qed.

Print Assumptions C07_exact.
Print Assumptions C08_last_set.
Print Assumptions C08_no_duplicates.
Print Assumptions C09_merge.
Print Assumptions C09_applies.
Print Assumptions C09_three_diffs_refuted.
Print Assumptions C10_announce_refuted.
Print Assumptions C10_withdraw_partial.
Print Assumptions C10_announce_partial.
Print Assumptions C11_changes.
Print Assumptions C12_sync_refuted.
Print Assumptions C12_serial_reuse_refuted.
Print Assumptions C12_current_partial.
Print Assumptions C12_one_behind_partial.
Print Assumptions C12_history_shape.
Print Assumptions C12_history_odd.
Print Assumptions C12_history_even.
Print Assumptions C13_unknown.
Print Assumptions C14_serial_names_set.
Print Assumptions C14_empty_refuted.
Print Assumptions C15_bounded.
Print Assumptions C16_keys.
Print Assumptions C17_serial.
Print Assumptions C17_step.
Print Assumptions C59_text_roundtrip.
Print Assumptions C59_text_injective.
