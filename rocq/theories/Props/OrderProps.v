(** C100: sort.Slice with the comparisons the programs give it. *)
From Coq Require Import ZArith ZifyBool ZifyNat ZifyN.
From Verif Require Import Lib.Str Proofs.PdqSortP Model.Process Proofs.ConnP Spec.Order Spec.Input Spec.Monitor Props.InputProps Props.CacheProps Props.StateProps Props.MonitorProps.
From Coq Require Import List Permutation Sorted Lia.
Import ListNotations.
Local Open Scope N_scope.

(** Whatever pivots are chosen: the result has the same elements, in order. *)
Theorem C100_slice : forall (A : Type) (less : A -> A -> bool) (le : A -> A -> Prop) (D : A -> Prop) choose shuffle l,
  preorder le -> compares D less le -> within choose shuffle -> Forall D l ->
  Permutation (sort_slice less choose shuffle l) l /\ in_order le (sort_slice less choose shuffle l).
Proof.
  intros A less le D choose shuffle l [HR HT] HC [HW1 HW2] HD. unfold sort_slice. destruct l as [|d l0]; [split; [auto|constructor]|].
  set (l := d :: l0) in *. set (n := length l). set (f := fun i => nth i l d).
  assert (E : map f (seq 0 n) = l).
  { unfold f, n. clear HD. clearbody l. apply nth_ext with d d; [now rewrite map_length, seq_length|].
    intros i Hi. rewrite map_length, seq_length in Hi. rewrite (nth_indep _ d (nth 0 l d)) by (now rewrite map_length, seq_length).
    rewrite (map_nth (fun i => nth i l d)). now rewrite seq_nth. }
  pose proof (pdqsort_ok less le D HT HR (fun x y Hx Hy => proj1 (HC x y Hx Hy)) (fun x y Hx Hy => proj2 (HC x y Hx Hy)) n
    choose shuffle HW1 HW2 (n + 1) 0 n (S (Nat.log2 n)) true true f) as H.
  destruct H as [H1 H2]; [lia|lia| | |].
  - intros k Hk. unfold f. rewrite Forall_forall in HD. apply HD. apply nth_In. exact Hk.
  - intros x y Hx. lia.
  - set (g := pdqsort less choose shuffle (n + 1) 0 n (S (Nat.log2 n)) true true f) in *. split.
    + pose proof (reach_perm le n 0 n f g (Nat.le_refl n) H1) as P. rewrite E in P. exact P.
    + assert (G : forall k a, (a + k = n)%nat -> in_order le (map g (seq a k))); [|apply (G n 0%nat); lia].
      induction k as [|k IH]; intros a Ha; cbn [seq map]; [constructor|]. constructor; [|apply IH; lia].
      apply Forall_forall. intros x Hx. apply in_map_iff in Hx. destruct Hx as (j & <- & Hj). apply in_seq in Hj.
      apply H2; lia.
Qed.

(** The comparison of stayrtr.go is reflexive, against the documentation of sort.Slice; it
    is <= of a preorder all the same. *)
Lemma ahead_pre x : is_vrp x -> ahead x x.
Proof. destruct x; [intros _|contradiction]. cbn. right. split; [reflexivity|]. right. split; [reflexivity|]. right. lia. Qed.
Definition ahead' (x y : sd) : Prop := is_vrp x /\ is_vrp y /\ ahead x y \/ x = y.
Lemma ahead'_preorder : preorder ahead'.
Proof.
  split; [intros x; now right|]. intros x y z [(H1 & H2 & H3)|<-]; [|auto]. intros [(H4 & H5 & H6)|<-]; [|left; auto].
  left. split; [auto|split; [auto|]]. destruct x, y, z; try contradiction. cbn [ahead] in *. lia.
Qed.
Lemma ahead_less x y : is_vrp x -> is_vrp y -> (vrp_less x y = true <-> ahead x y).
Proof.
  destruct x as [p a m s|], y as [q b k t|]; try contradiction. intros _ _. cbn [vrp_less ahead].
  destruct (bits p =? bits q)%Z eqn:E1; [|lia]. destruct (m =? k) eqn:E2; cbn [negb]; [|lia].
  destruct (p_addr p) as [|u|u], (p_addr q) as [|v|v]; cbn [addr_le Order.width Order.number]; lia.
Qed.
Lemma vrp_compares : compares is_vrp vrp_less ahead'.
Proof.
  intros x y Hx Hy. split; intros H.
  - left. split; [auto|split; [auto|]]. now apply ahead_less.
  - left. split; [auto|split; [auto|]]. apply ahead_less; auto. now apply less_total.
Qed.
Lemma in_order_vrps l : Forall is_vrp l -> in_order ahead' l -> in_order ahead l.
Proof.
  intros HV H. induction H as [|x l H1 H2 IH]; [constructor|]. inversion HV; subst. constructor; [|now apply IH].
  apply Forall_forall. intros y Hy. rewrite Forall_forall in H1. destruct (H1 y Hy) as [(_ & _ & H)| <-]; auto. now apply ahead_pre.
Qed.

(** The VRPs of a file: none lost, none doubled, in the order the comment promises. *)
Theorem C100_vrps : forall choose shuffle l, within choose shuffle -> Forall is_vrp l ->
  Permutation (sort_slice vrp_less choose shuffle l) l /\ in_order ahead (sort_slice vrp_less choose shuffle l).
Proof.
  intros choose shuffle l HW HV.
  destruct (C100_slice sd vrp_less ahead' is_vrp choose shuffle l ahead'_preorder vrp_compares HW HV) as [H1 H2]. split; [exact H1|].
  apply in_order_vrps; auto. rewrite Forall_forall in HV |- *. intros x Hx. apply HV. now apply (Permutation_in _ H1).
Qed.
(** So what the other theorems ask of the sorting function holds of it: of sort.Slice with
    the comparison of stayrtr.go ... *)
Theorem C100_sorts : forall choose shuffle, within choose shuffle -> sorts (sort_slice vrp_less choose shuffle).
Proof.
  intros choose shuffle HW l HV. destruct (C100_vrps choose shuffle l HW HV) as [H1 H2]. split; [exact H1|].
  assert (HV' : Forall is_vrp (sort_slice vrp_less choose shuffle l)).
  { rewrite Forall_forall in HV |- *. intros x Hx. apply HV. now apply (Permutation_in _ H1). }
  clear H1. induction H2 as [|x r H1 H2 IH]; [exact I|]. inversion HV'; subst. split; [|now apply IH].
  intros y Hy. rewrite Forall_forall in H1, H4. apply ahead_less; auto.
Qed.
(** ... and with that of rtrmon.go. *)
Theorem C100_thresholds : forall choose shuffle, within choose shuffle -> sorts_int (sort_slice Z.ltb choose shuffle).
Proof.
  intros choose shuffle HW l. destruct (C100_slice Z Z.ltb Z.le (fun _ => True) choose shuffle l) as [H1 H2]; auto.
  - split; intros; lia.
  - intros x y _ _. lia.
  - apply Forall_forall. auto.
  - split; [exact H1|]. apply StronglySorted_Sorted. clear H1. induction H2 as [|x r H1 H2 IH]; constructor; auto.
Qed.
(** The first data set a daemon serves, with the sort.Slice that runs. *)
Theorem C100_first_load : forall choose shuffle now vs bs keep cfg s tr c v c' a,
  within choose shuffle -> Forall wf_vj vs -> Forall wf_bj bs ->
  u16 s -> cfg_version cfg < 256 -> reach (new_rtr_server cfg s) tr c -> c_connected c = true -> acceptable c v ->
  let '(vrps, brks, _, _) := process_data (sort_slice vrp_less choose shuffle) now vs bs in
  process (new_rtr_server cfg s) (run (new_server keep) [vrps ++ brks]) c (ResetQuery v) = Ok (c', map Queue a) ->
  longest_first a.
Proof. intros. eapply C35_first_load_partial; eauto using C100_sorts. Qed.

(** Entries that compare equal do not keep the order of the file: the same prefix and
    length for two AS numbers come out reversed, whatever pivots are chosen. *)
Theorem C100_ties_reversed : exists x y, x <> y /\ vrp_less x y = true /\ vrp_less y x = true /\
  forall choose shuffle, sort_slice vrp_less choose shuffle [x; y] = [y; x].
Proof.
  exists (VRP (pfx4 167772160 8) 1 8 0), (VRP (pfx4 167772160 8) 2 8 0). split; [discriminate|].
  split; [reflexivity|]. split; [reflexivity|]. intros. vm_compute. reflexivity.
Qed.

(** The middle as the pivot; the last and the first element swapped as the shuffle. *)
Definition mid_pivot {A} (h : hint) (f : nat -> A) (a b : nat) : nat * hint := (a + (b - a) / 2, h)%nat.
Definition flip (a b : nat) : list (nat * nat) := [(a, b - 1)]%nat.
Lemma mid_within A h : within (A := A) (mid_pivot h) flip.
Proof.
  split.
  - intros f a b H. unfold mid_pivot. cbn [fst]. pose proof (Nat.div_lt (b - a) 2 ltac:(lia) ltac:(lia)). lia.
  - intros a b H. repeat constructor; cbn; lia.
Qed.
(** 60 VRPs, many of which compare equal, through partitioning, insertion and the shuffle ... *)
Definition many : list sd :=
  map (fun i => let k := N.of_nat i in VRP (pfx4 ((k * 7 mod 5) * 65536) 16) k (16 + k * 11 mod 3) 0) (seq 0 60).
Fixpoint ordered (l : list sd) : bool :=
  match l with x :: r => match r with y :: _ => vrp_less x y | [] => true end && ordered r | [] => true end.
Example C100_case : map (fun h => ordered (sort_slice vrp_less (mid_pivot h) flip many)) [Unknown; Increasing; Decreasing] = [true; true; true]
  /\ ordered many = false /\ Forall is_vrp many /\ within (A := sd) (mid_pivot Decreasing) flip.
Proof.
  split; [vm_compute; reflexivity|]. split; [vm_compute; reflexivity|]. split; [|apply mid_within].
  apply Forall_forall. intros x Hx. apply in_map_iff in Hx. destruct Hx as (i & <- & _). exact I.
Qed.
(** ... and thresholds that are all equal but one, with the first element as the pivot, which
    ends in heapsort. *)
Definition first_pivot {A} (f : nat -> A) (a b : nat) : nat * hint := (a, Unknown).
Example C100_heap : sort_slice Z.ltb first_pivot (fun _ _ => []) (map Z.of_nat (seq 0 40)) = map Z.of_nat (seq 0 40) /\
  sort_slice Z.leb first_pivot (fun _ _ => []) (repeat 5%Z 39 ++ [4%Z]) = 4%Z :: repeat 5%Z 39.
Proof. split; vm_compute; reflexivity. Qed.
Print Assumptions C100_slice.
Print Assumptions C100_vrps.
Print Assumptions C100_sorts.
Print Assumptions C100_thresholds.
Print Assumptions C100_first_load.
Print Assumptions C100_ties_reversed.
