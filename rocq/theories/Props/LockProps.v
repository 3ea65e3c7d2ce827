(** Locks: goroutines that share data (C103), and the counter of connections under them (C25). *)
From Coq Require Import ZArith List Bool Lia Arith.
From Verif Require Import Model.Mutex Spec.Locking Proofs.MutexP.
Import ListNotations.

(** Nobody waits for ever: in every state that the goroutines of stayrtr or rtrmon reach, one of them can go
    on unless all have ended; and whatever has happened, a schedule remains that ends them all. *)
Theorem C103_no_deadlock pss sched s : a_program pss -> mx_run (goroutines pss) sched = Some s ->
  (all_done s \/ exists i s', mx_step s i = Some s') /\ exists more s', mx_run s more = Some s' /\ all_done s'.
Proof.
  intros H R. destruct (program_order _ _ _ H R) as (own & owned & hs & fs & O1 & I). split.
  - exact (progress _ _ _ O1 _ _ _ I).
  - exact (completes _ _ _ O1 _ _ _ I).
Qed.
(** Two refreshes, a router that is read from and one that is closed, and the metrics.  While goroutine 0 is
    about to take the lock of the data for writing, goroutine 1 reads it and 2 has to wait. *)
Definition calls1 : list (list scall) :=
  [[CAddData true; CSetExported; CNotify [0; 1]]; [CStart 0; CGetCurrentSDs; CSend 0]; [CGetDiff 3; CDisconnect 1]; [CExporter; CCountSDs]].
Lemma calls1_ok : a_program calls1.
Proof.
  left. intros i cs c Hi Hc. destruct i as [|[|[|[|i]]]]; cbn in Hi; try (injection Hi as <-; cbn in Hc; repeat (destruct Hc as [<-|Hc]; [reflexivity|]); contradiction).
  destruct i; discriminate.
Qed.
Example C103_case : exists s, mx_run (goroutines calls1) ([0; 0; 0; 0; 0; 0; 0; 0] ++ [1; 1; 1; 1; 1; 1; 1; 1] ++ [1; 0]) = Some s /\
  mx_step s 0 = None /\ mx_step s 2 = None /\ mx_step s 1 <> None.
Proof.
  destruct (after_run_ex calls1 ([0; 0; 0; 0; 0; 0; 0; 0] ++ [1; 1; 1; 1; 1; 1; 1; 1] ++ [1; 0])
    (fun s => stuckb s 0 && stuckb s 2 && negb (stuckb s 1)) ltac:(vm_compute; reflexivity)) as (s & R & T).
  apply andb_prop in T as [T T1]. apply andb_prop in T as [T0 T2]. exists s. split; [exact R|].
  split; [now apply stuckb_ok|]. split; [now apply stuckb_ok|]. apply movesb_ok. now destruct (stuckb s 1).
Qed.

(** Every run is finite: no goroutine goes round in circles at a lock. *)
Theorem C103_bounded pss sched s : mx_run (goroutines pss) sched = Some s -> length sched <= 2 * length (concat (map (flat_map body) pss)).
Proof. intros R. apply run_left in R. pose proof (left_start (map (flat_map body) pss)) as H. unfold goroutines in R. lia. Qed.

(** Only locks make a goroutine wait: none unlocks what it has not locked (Go would abort the program). *)
Theorem C103_only_locks pss sched s i t : a_program pss -> mx_run (goroutines pss) sched = Some s ->
  nth_error (ms_threads s) i = Some t -> mt_ops t <> [] -> ~ waits s i -> exists s', mx_step s i = Some s'.
Proof.
  intros H R. destruct (program_order _ _ _ H R) as (own & owned & hs & fs & O1 & I). exact (step_if _ _ _ O1 _ _ _ _ _ I).
Qed.
Example C103_only_locks_case : exists s t, mx_run (goroutines calls1) [0; 0; 1] = Some s /\ nth_error (ms_threads s) 0 = Some t /\
  mt_ops t <> [] /\ ~ waits s 0.
Proof.
  eexists _, _. split; [vm_compute; reflexivity|]. split; [vm_compute; reflexivity|]. split; [vm_compute; discriminate|].
  intros (t & r & l & Ht & [H|H]); vm_compute in Ht; injection Ht as <-; cbn in H; discriminate H.
Qed.

(** The data served, the list of clients, the exported document, the differences shown by rtrmon and the tables of
    its sources are never written while somebody else accesses them. *)
Theorem C103_protected_partial pss sched s x : a_program pss -> mx_run (goroutines pss) sched = Some s -> protected x -> ~ data_race s x.
Proof.
  intros H R P. destruct (program_order _ _ _ H R) as (own & owned & hs & fs & O1 & I).
  exact (no_race _ _ _ O1 _ _ _ _ I (protected_guard _ P)).
Qed.
(** Goroutine 0 is about to replace the data, of which goroutine 2 wants a difference. *)
Example C103_protected_case : exists s, mx_run (goroutines calls1) (repeat 0 12) = Some s /\
  about_to s 0 SdListDiff true /\ mx_step s 2 = None.
Proof.
  destruct (after_run_ex calls1 (repeat 0 12) (fun s => aboutb s 0 SdListDiff true && stuckb s 2) ltac:(vm_compute; reflexivity)) as (s & R & T).
  apply andb_prop in T as [T1 T2]. exists s. split; [exact R|]. split; [now apply aboutb_ok|now apply stuckb_ok].
Qed.

(** The others have no such protection: the counter of connections, the version of a client and whether it is
    connected, the time and the hash of the last file, the ETags, and serial and session in rtrmon. *)
Theorem C103_race_refuted x : In x [Connected; Version 0; Live 0; LastTs; HashCache; ETags; MSerial 0; MSession 0] ->
  exists pss sched s, a_program pss /\ mx_run (goroutines pss) sched = Some s /\ data_race s x.
Proof.
  assert (P2 : forall p q, stayrtr_may 0 p = true -> stayrtr_may 1 q = true -> a_program [[p]; [q]]).
  { intros p q Hp Hq. left. intros [|[|[|i]]] cs c Hi Hc; cbn in Hi; try discriminate; injection Hi as <-; destruct Hc as [<-|[]]; assumption. }
  assert (M2 : forall p q, rtrmon_may (fun _ => false) 0 p = true -> rtrmon_may (fun _ => false) 1 q = true -> a_program [[p]; [q]]).
  { intros p q Hp Hq. right. exists (fun _ => false). intros [|[|[|i]]] cs c Hi Hc; cbn in Hi; try discriminate; injection Hi as <-; destruct Hc as [<-|[]]; assumption. }
  assert (G : forall p q sched y, a_program [[p]; [q]] -> after_run [[p]; [q]] sched (fun s => aboutb s 1 y true && aboutb s 0 y false) = true ->
    exists pss sched s, a_program pss /\ mx_run (goroutines pss) sched = Some s /\ data_race s y).
  { intros p q sched y HP T. destruct (after_run_ex _ _ _ T) as (s & R & T'). apply andb_prop in T' as [T1 T0].
    exists [[p]; [q]], sched, s. split; [exact HP|]. split; [exact R|]. exists 1, 0, false.
    split; [discriminate|]. split; now apply aboutb_ok. }
  intros [<-|[<-|[<-|[<-|[<-|[<-|[<-|[<-|[]]]]]]]]].
  - apply (G CSshBegin CSshEnd [1]); [now apply P2|vm_compute; reflexivity].
  - apply (G (CNotify [0]) (CSetVersion 0) (repeat 0 8)); [now apply P2|vm_compute; reflexivity].
  - apply (G (CLoop 0) (CDisconnect 0) []); [now apply P2|vm_compute; reflexivity].
  - apply (G CUpdateSlurm CUpdateFile []); [now apply P2|vm_compute; reflexivity].
  - apply (G CUpdateSlurm CUpdateFile [0; 1; 1; 1]); [now apply P2|vm_compute; reflexivity].
  - apply (G (CFetchETag false) CFetchBad [1; 1]); [now apply P2|vm_compute; reflexivity].
  - apply (G (CMonPoll 0) (CMonEod 0) [0; 1; 1]); [now apply M2|vm_compute; reflexivity].
  - apply (G (CMonPoll 0) (CMonResponse 0) []); [now apply M2|vm_compute; reflexivity].
Qed.

(** The counter of connections, as long as no router comes over SSH: it is what it should be. *)
Theorem C103_counter_partial pss sched s : allowed stayrtr_may pss -> (forall cs c, In cs pss -> In c cs -> ~ over_ssh c) ->
  mx_run (goroutines pss) sched = Some s -> all_done s -> ms_mem s Connected = open_at_the_end pss.
Proof.
  intros H HN R D.
  assert (I : inv srv_own srv_owned true (goroutines pss) (fun _ => None) (fun _ => false)).
  { apply start_scan. intros i cs c Hi Hc. apply scan_srv; [eapply H; eauto|]. intros _.
    apply nth_error_In in Hi. specialize (HN _ _ Hi Hc). unfold over_ssh in HN. destruct c; try reflexivity; exfalso; apply HN; auto. }
  pose proof (count_run _ _ _ srv_own_one _ _ _ _ _ eq_refl I R) as E. rewrite (to_add_done _ D), to_add_start in E.
  cbn [goroutines mx_start ms_mem] in E. lia.
Qed.
(** Three routers come, one goes, another is disconnected because of a new maximum. *)
Definition calls2 : list (list scall) := [[CSetMaxConn [1]]; [CStart 0; CClientDisconnected]; [CStart 1]; [CStart 2]].
Example C103_counter_case : allowed stayrtr_may calls2 /\ (forall cs c, In cs calls2 -> In c cs -> ~ over_ssh c) /\ open_at_the_end calls2 = 1%Z.
Proof.
  split; [|split; [|reflexivity]].
  - intros i cs c Hi Hc. destruct i as [|[|[|[|i]]]]; cbn in Hi; try (injection Hi as <-; cbn in Hc; repeat (destruct Hc as [<-|Hc]; [reflexivity|]); contradiction).
    destruct i; discriminate.
  - intros cs c Hcs Hc [-> | ->]; cbn in Hcs; repeat (destruct Hcs as [<-|Hcs]; [cbn in Hc; repeat (destruct Hc as [Hc|Hc]; [discriminate|]); contradiction|]); contradiction.
Qed.

(** Over SSH the counter is changed without the lock.  It can end as high as one likes although every connection has
    been closed; with a maximum of connections the server then accepts nobody any more. *)
Theorem C25_lost_refuted (n : nat) : exists sched s,
  mx_run (goroutines (repeat [CSshBegin; CSshEnd] (2 * n))) sched = Some s /\ all_done s /\
  open_at_the_end (repeat [CSshBegin; CSshEnd] (2 * n)) = 0%Z /\ ms_mem s Connected = Z.of_nat n.
Proof.
  destruct (lossy_runs n [] (fun _ => mkRW 0 None) (fun _ => 0%Z) (Forall_nil _)) as (s & R & D & E).
  exists (lossy_all 0 n), s. split; [|split; [exact D|split]].
  - rewrite <- R. unfold goroutines, mx_start. f_equal. f_equal. cbn [app]. clear. induction (2 * n) as [|k IH]; [reflexivity|].
    cbn [repeat map]. now rewrite IH.
  - unfold open_at_the_end. clear. induction (2 * n) as [|k IH]; [reflexivity|]. cbn [repeat concat app map fold_right begun]. rewrite IH. reflexivity.
  - rewrite E. lia.
Qed.
(** With 3 pairs of connections the counter ends at 3. *)
Example C25_lost_case : after_run (repeat [CSshBegin; CSshEnd] 6) (lossy_all 0 3) (fun s => Z.eqb (ms_mem s Connected) 3) = true.
Proof. vm_compute. reflexivity. Qed.

Print Assumptions C103_no_deadlock.
Print Assumptions C103_bounded.
Print Assumptions C103_only_locks.
Print Assumptions C103_protected_partial.
Print Assumptions C103_race_refuted.
Print Assumptions C103_counter_partial.
Print Assumptions C25_lost_refuted.
