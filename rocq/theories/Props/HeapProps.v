(** Records are pointers, and yet they are handed over by value (C104). *)
From Coq Require Import ZArith Lia Arith List Bool.
From Verif Require Import Model.Heap Spec.Places Proofs.HeapP Props.ConnProps Props.CacheProps.
Import ListNotations.

(** Whatever callers of the library do to their own records and byte slices before and after, the cache is the one
    that Model/Cache.v computes from the values the records had when AddData was called. *)
Theorem C104_by_value keep ops st : h_run (h_new keep) ops = Some st ->
  as_values st = cache_after keep (updates (h_new keep) ops).
Proof. intros H. destruct (run_spec _ _ _ (inv_new keep) H) as (_ & _ & V). exact V. Qed.

(** A caller makes a prefix and a key, adds them, overwrites the record and the bytes of the key, adds the overwritten
    record, and a router is answered in between. *)
Definition vrp_at (a : N) : hrec := HVRP (pfx4 a 24) 64496 24 1.
Definition ops1 : list hop :=
  [HNewBlock (repeat 7%N 20); HNewBlock [48; 89; 1; 2]%N; HNewRec (vrp_at 3221225984); HNewRec (HKey 64499 0 1 1);
   HAddData [0; 1]%nat].
Definition ops2 : list hop :=
  [HSetRec 0 (vrp_at 3325256704); HSetBlock 1 [0; 0; 0; 0]%N; HSetBlock 0 []; HSend est1 7 0 [2; 3]%nat; HAddData [0]%nat].
Definition st_of (o : option (heap * hserver)) : heap * hserver := match o with Some st => st | None => h_new 0 end.
Definition st1 : heap * hserver := st_of (h_run (h_new 3) ops1).
Definition st2 : heap * hserver := st_of (h_run st1 ops2).
Example C104_case : h_run (h_new 3) (ops1 ++ ops2) = Some st2 /\
  updates (h_new 3) (ops1 ++ ops2) = [[x1; x4]; [VRP (pfx4 3325256704 24) 64496 24 1]] /\
  sdCurrent (as_values st1) = [x1; x4] /\ sdCurrent (as_values st2) = [VRP (pfx4 3325256704 24) 64496 24 1].
Proof. split; [vm_compute; reflexivity|]. split; [vm_compute; reflexivity|]. split; vm_compute; reflexivity. Qed.

(** What AddData answers is what it answers on values. *)
Theorem C104_answer keep ops h s l : h_run (h_new keep) ops = Some (h, s) -> forallb (ptr_ok h) l = true ->
  snd (h_add_data h s l) = snd (add_data (as_values (h, s)) (values h l)).
Proof.
  intros H F. destruct (run_spec _ _ _ (inv_new keep) H) as (I & _). destruct (add_data_spec _ _ _ I (ptr_range _ _ F)) as (_ & _ & _ & R). exact R.
Qed.
(** The caller has overwritten a record that it added before: a change, although the pointer is the same. *)
Example C104_answer_case :
  let '(h, s) := st_of (h_run st1 [HSetRec 0 (vrp_at 3325256704)]) in
  snd (h_add_data h s [0; 1]%nat) = true /\ snd (h_add_data (fst st1) (snd st1) [0; 1]%nat) = false.
Proof. vm_compute. split; reflexivity. Qed.

(** A record that GetCurrentSDs or GetSDsSerialDiff has handed out never changes, whatever happens later. *)
Theorem C104_handed_out keep ops h1 s1 later h2 s2 p :
  h_run (h_new keep) ops = Some (h1, s1) -> h_run (h1, s1) later = Some (h2, s2) -> handed_out s1 p -> deref h2 p = deref h1 p.
Proof.
  intros H1 H2 HO. destruct (run_spec _ _ _ (inv_new keep) H1) as (I & _). destruct (run_spec _ _ _ I H2) as (_ & K & _).
  apply (proj2 (k_own _ _ K p (i_own _ I _ HO))).
Qed.
(** The key that was current after the first update is not any more, but who has it still reads it. *)
Example C104_handed_out_case : handed_out (snd st1) 5 /\ deref (fst st1) 5 = x4 /\ deref (fst st2) 5 = x4 /\ ~ In 5%nat (hs_current (snd st2)).
Proof.
  split; [left; vm_compute; auto|]. split; [vm_compute; reflexivity|]. split; [vm_compute; reflexivity|].
  vm_compute. intuition discriminate.
Qed.

(** An answer that waits in the queue of a client is written as it was made, whatever happens in between. *)
Theorem C104_queued keep ops h1 s1 c sid serial l h2 qs later h3 s3 :
  h_run (h_new keep) ops = Some (h1, s1) -> forallb (ptr_ok h1) l = true -> h_send_sds h1 c sid serial l = (h2, qs) ->
  h_run (h2, s1) later = Some (h3, s3) ->
  map (fun q => Queue (q_read h3 q)) qs = send_sds c sid serial (values h1 l).
Proof.
  intros H1 F HS H2. destruct (run_spec _ _ _ (inv_new keep) H1) as (I & _). pose proof (i_wf _ I) as W. cbn [fst] in W.
  destruct (send_spec _ _ _ _ _ _ _ W (ptr_range _ _ F) HS) as (X & W2 & Q & V).
  destruct (keeps_inv _ _ _ I (ext_keeps _ _ X) W2) as [I2 _]. destruct (run_spec _ _ _ I2 H2) as (_ & K & _). cbn [fst] in K.
  rewrite <- V. apply map_ext_in. intros q Hq. rewrite Forall_forall in Q. specialize (Q _ Hq). f_equal.
  destruct q as [p|v f a s k]; [reflexivity|]. destruct Q as [B1 B2]. cbn [q_read].
  now rewrite (proj2 (k_block _ _ K _ B1)), (proj2 (k_block _ _ K _ B2)).
Qed.
(** An answer made from records of the caller itself, who overwrites the bytes of the key before it is written. *)
Example C104_queued_case :
  let '(h2, qs) := h_send_sds (fst st1) est1 7 0 [0; 1]%nat in
  let '(h3, _) := st_of (h_run (h2, snd st1) ops2) in
  map (q_read h3) qs = [CacheResponse 1 7; IPv4Prefix 1 1 24 64496 (pfx4 3221225984 24); RouterKey 1 1 (repeat 7%N 20) 64499 [48; 89; 1; 2]%N;
                        EndOfData 1 7 0 (c_refresh est1) (c_retry est1) (c_expire est1)].
Proof. vm_compute. reflexivity. Qed.

(** At no moment of an update is anything written to that was there before: an answer being made at the same time
    cannot see half of it. *)
Theorem C104_new_places keep ops h s l : h_run (h_new keep) ops = Some (h, s) -> forallb (ptr_ok h) l = true ->
  let h' := fst (fst (h_add_data h s l)) in
  (exists w, h_written h' = w ++ h_written h /\ Forall (fun p => length (h_recs h) <= p)%nat w) /\
  firstn (length (h_recs h)) (h_recs h') = h_recs h /\ firstn (length (h_blocks h)) (h_blocks h') = h_blocks h.
Proof.
  intros H F. destruct (run_spec _ _ _ (inv_new keep) H) as (I & _). destruct (add_data_spec _ _ _ I (ptr_range _ _ F)) as ([[r E1] [b E2] E3] & _).
  cbn zeta. split; [exact E3|]. split; [rewrite E1|rewrite E2]; rewrite firstn_app, Nat.sub_diag, firstn_all; apply app_nil_r.
Qed.
Example C104_new_places_case : length (h_recs (fst st1)) = 6%nat /\ h_written (fst st1) = [3; 2]%nat /\ length (h_blocks (fst st1)) = 6%nat /\
  h_written (fst (fst (h_add_data (fst st1) (snd st1) []))) = [7; 6; 3; 2]%nat.
Proof. vm_compute. repeat split; reflexivity. Qed.

Print Assumptions C104_by_value.
Print Assumptions C104_answer.
Print Assumptions C104_handed_out.
Print Assumptions C104_queued.
Print Assumptions C104_new_places.
