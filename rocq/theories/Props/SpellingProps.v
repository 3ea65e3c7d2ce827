(** Property C109, exactly: when an authorisation is there twice. *)
From Coq Require Import String ZArith.
From Verif Require Import Lib.Str Model.Json Model.Process Model.Cache Spec.AddrText Spec.Input Spec.Sets Proofs.DataP Props.CacheProps Props.InputProps Props.HostBitsProps.
From Coq Require Import List.
Import ListNotations.
Local Open Scope string_scope.
Local Open Scope list_scope.
Local Open Scope N_scope.

(** A range of addresses is there for an AS and a maximum length once for every way in which an acceptable,
    unexpired entry writes it, however often it does: so more than once exactly when two entries write it
    differently.  (Missing: once only.) *)
Theorem C109_exact_partial : forall sort now vs bs asn m, sorts sort -> Forall wf_vj vs ->
  let '(vrps, _, _, _) := process_data sort now vs bs in
  let writes p := exists v, In v vs /\ vj_length v = m /\ entry_ok now v p asn in
  (forall p, length (filter (fun d => if rid_dec (rid_of d) (RV p asn m) then true else false) vrps) = 1%nat <-> writes p) /\
  (forall p, length (filter (fun d => if rid_dec (rid_of d) (RV p asn m) then true else false) vrps) = 0%nat <-> ~ writes p) /\
  ((exists p r f g, In (VRP p asn m f) vrps /\ In (VRP r asn m g) vrps /\ same_range p r /\ p <> r) <->
   exists p r, writes p /\ writes r /\ same_range p r /\ p <> r).
Proof.
  intros sort now vs bs asn m HS HW. pose proof (C34_vrps sort now vs bs HS HW) as H.
  destruct (process_data sort now vs bs) as [[[vrps brks] c4] c6]. destruct H as [H ND].
  assert (I : forall p f, In (VRP p asn m f) vrps -> exists v, In v vs /\ vj_length v = m /\ entry_ok now v p asn).
  { intros p f HI. apply H in HI as (v & p' & a & Iv & E & EQ). injection EQ as -> -> -> _. eauto. }
  assert (J : forall p, (exists v, In v vs /\ vj_length v = m /\ entry_ok now v p asn) -> In (VRP p asn m 0) vrps).
  { intros p (v & Iv & <- & E). apply H. eauto 6. }
  assert (K : forall d p, In d vrps -> rid_of d = RV p asn m -> In (VRP p asn m 0) vrps).
  { intros d p HI E. pose proof HI as HI0. apply H in HI as (v & p' & a & _ & _ & ->). cbn in E. injection E as -> -> E. now rewrite E in HI0. }
  assert (C : forall l x, NoDup (ids l) -> length (filter (fun d => if rid_dec (rid_of d) x then true else false) l) = if in_dec rid_dec x (ids l) then 1%nat else 0%nat).
  { clear. induction l as [|d l IH]; intros x ND; [reflexivity|]. cbn [ids map] in ND |- *. inversion ND as [|? ? N1 N2]; subst. cbn [filter].
    specialize (IH x N2). fold (ids l) in *. destruct (rid_dec (rid_of d) x) as [E|E].
    - cbn [length]. rewrite IH. destruct (in_dec rid_dec x (ids l)) as [X|X]; [subst; contradiction|]. destruct (in_dec rid_dec x (rid_of d :: ids l)) as [Y|Y]; [reflexivity|]. exfalso. apply Y. now left.
    - rewrite IH. destruct (in_dec rid_dec x (ids l)) as [X|X], (in_dec rid_dec x (rid_of d :: ids l)) as [Y|Y]; auto; exfalso; [apply Y; now right|]. destruct Y as [Y|Y]; contradiction. }
  assert (D : forall p, In (RV p asn m) (ids vrps) <-> exists v, In v vs /\ vj_length v = m /\ entry_ok now v p asn).
  { intros p. split; intros X.
    - apply ids_in in X as (d & X1 & X2). apply (I p 0). exact (K d p X1 X2).
    - apply J in X. now apply (in_ids _ _ X). }
  split; [|split].
  - intros p. rewrite (C vrps _ ND), <- D. destruct (in_dec rid_dec (RV p asn m) (ids vrps)); split; auto; [discriminate|contradiction].
  - intros p. rewrite (C vrps _ ND), <- D. destruct (in_dec rid_dec (RV p asn m) (ids vrps)); split; auto; [discriminate|contradiction].
  - split.
    + intros (p & r & f & g & X1 & X2 & X3). exists p, r. eauto.
    + intros (p & r & X1 & X2 & X3). exists p, r, 0, 0. auto.
Qed.
(** 10.0.0.0/8 twice and 10.1.2.3/8: two records. *)
Example C109_exact_case : process_data isort 99 [ej "10.0.0.0/8" 8 "1" None; ej "10.1.2.3/8" 8 "AS1" None; ej "10.0.0.0/8" 8 "as1" None; ej "10.1.2.4/8" 8 "1" (Some 98%Z)] [] =
  ([VRP (pfx4 167772160 8) 1 8 0; VRP (pfx4 167838211 8) 1 8 0], [], 3, 0).
Proof. vm_compute. reflexivity. Qed.

Print Assumptions C109_exact_partial.
