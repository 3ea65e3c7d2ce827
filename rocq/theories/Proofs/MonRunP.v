(** The invariants of rtrmon at run time. *)
From Coq Require Import ZifyBool ZifyNat ZifyN.
From Verif Require Import Spec.MonRun Proofs.MonitorP Proofs.MonitorP2 Proofs.MonProcP.
Local Open Scope list_scope.
Local Open Scope N_scope.
Ltac Zify.zify_post_hook ::= Z.div_mod_to_equations.

Definition prefs (p : cphase) : list nat := match p with MBuilt m _ _ | MEod m _ _ _ => refs m | _ => [] end.
Definition mrefs (c : mclient) : list nat := refs (mc_vrps c) ++ refs (mc_rtr c) ++ prefs (mc_phase c).
Definition waits (p : cphase) : bool := match p with MIdle => true | _ => false end.

(** One client. *)
Definition finv (cfg : mcfg) (i : side) (ls : list mlabel) (h : heap) (c : mclient) : Prop :=
  NoDup (refs (mc_vrps c)) /\ mc_rtr c = [] /\ mc_serial c = 0 /\ mc_session c = 0 /\
  mc_refresh c = 0 /\ mc_retry c = 0 /\ mc_expire c = 0 /\
  let good m n t :=
    NoDup (refs m) /\ values h m = after (k_grace cfg) (rounds_of i ls) /\
    t = match newest (rounds_of i ls) with Some t => t | None => zero_time end /\
    (Forall good_label ls -> n = nlen (filter invisible (after (k_grace cfg) (rounds_of i ls)))) in
  match mc_phase c with
  | MBuilt m n t => good m n t
  | MEod _ _ _ _ => False
  | _ => good (mc_vrps c) (mc_ingrace c) (mc_last c)
  end.
Definition tinv (cfg : mcfg) (i : side) (ls : list mlabel) (h : heap) (c : mclient) : Prop :=
  let M := told_rtr cfg i ls in
  values h (mc_rtr c) = mo_rtr M /\ mc_serial c = mo_serial M /\ mc_session c = mo_session M /\ mc_ingrace c = 0 /\
  match mc_phase c with
  | MEod m r u e => values h m = mo_vrps M /\ r = mo_refresh M /\ u = mo_retry M /\ e = mo_expire M
  | MBuilt _ _ _ => False
  | _ => values h (mc_vrps c) = mo_vrps M /\ mc_refresh c = mo_refresh M /\ mc_retry c = mo_retry M /\ mc_expire c = mo_expire M
  end.
Definition cinv (cfg : mcfg) (i : side) (ls : list mlabel) (h : heap) (c : mclient) : Prop :=
  (forall r, In r (mrefs c) -> (r < length h)%nat) /\
  (waits (mc_phase c) = false -> delivered cfg i ls = true) /\
  (if k_file cfg i then finv cfg i ls h c else tinv cfg i ls h c).

(** What a step of a client may do to the heap. *)
Definition owns (h : heap) (c : mclient) (h' : heap) (c' : mclient) : Prop :=
  (length h <= length h')%nat /\
  (forall r, In r (mrefs c') -> In r (mrefs c) \/ (length h <= r < length h')%nat) /\
  (forall r, (r < length h)%nat -> deref h' r = deref h r \/
     (In r (refs (mc_vrps c)) /\ waits (mc_phase c') = false /\ deref h' r = set_visible false (deref h r))).

Lemma side_refl i : side_eqb i i = true.
Proof. now destruct i. Qed.
Lemma rounds_snoc i ls l : rounds_of i (ls ++ [l]) =
  match l with LFetch j t r => if side_eqb i j then (t, r) :: rounds_of i ls else rounds_of i ls | _ => rounds_of i ls end.
Proof.
  unfold rounds_of. rewrite flat_map_app, rev_app_distr. cbn [flat_map]. rewrite app_nil_r.
  destruct l; try reflexivity. destruct (side_eqb i i0); reflexivity.
Qed.
Lemma pdus_snoc i ls l : pdus_of i (ls ++ [l]) =
  match l with LPdu j t p => if side_eqb i j then pdus_of i ls ++ [(t, p)] else pdus_of i ls | _ => pdus_of i ls end.
Proof.
  unfold pdus_of. rewrite flat_map_app. cbn [flat_map]. rewrite app_nil_r.
  destruct l; rewrite ?app_nil_r; try reflexivity. destruct (side_eqb i i0); rewrite ?app_nil_r; reflexivity.
Qed.
(** Labels that say nothing about the source [i]. *)
Definition silent (i : side) (l : mlabel) : bool :=
  match l with LFetch j _ _ | LPdu j _ _ => negb (side_eqb i j) | _ => true end.
Lemma silent_rounds i ls l : silent i l = true -> rounds_of i (ls ++ [l]) = rounds_of i ls.
Proof. intros H. rewrite rounds_snoc. destruct l; try reflexivity. cbn [silent] in H. destruct (side_eqb i i0); [discriminate H|reflexivity]. Qed.
Lemma silent_pdus i ls l : silent i l = true -> pdus_of i (ls ++ [l]) = pdus_of i ls.
Proof. intros H. rewrite pdus_snoc. destruct l; try reflexivity. cbn [silent] in H. destruct (side_eqb i i0); [discriminate H|reflexivity]. Qed.
Lemma good_snoc ls l : Forall good_label (ls ++ [l]) -> Forall good_label ls.
Proof. intros H. now apply Forall_app in H. Qed.

Lemma cinv_frame cfg i ls l h h' c : cinv cfg i ls h c -> silent i l = true -> (length h <= length h')%nat ->
  (forall r, In r (mrefs c) -> deref h' r = deref h r) -> cinv cfg i (ls ++ [l]) h' c.
Proof.
  intros (B & W & C) HS HL HD. pose proof (silent_rounds i ls l HS) as ER. pose proof (silent_pdus i ls l HS) as EP.
  split; [intros r Hr; apply B in Hr; lia|].
  split; [unfold delivered in *; rewrite ER, EP; exact W|].
  assert (V : forall m, (forall r, In r (refs m) -> In r (mrefs c)) -> values h' m = values h m).
  { intros m Hm. apply values_ext. intros r Hr. apply HD, Hm, Hr. }
  assert (V1 : values h' (mc_vrps c) = values h (mc_vrps c)) by (apply V; intros; apply in_or_app; now left).
  assert (V2 : values h' (mc_rtr c) = values h (mc_rtr c))
    by (apply V; intros; apply in_or_app; right; apply in_or_app; now left).
  destruct (k_file cfg i).
  - unfold finv in *. destruct C as (C1 & C2 & C3 & C4 & C5 & C6 & C7 & C8).
    do 7 (split; [assumption|]). cbv zeta in *. rewrite ER.
    destruct (mc_phase c) as [|m n t|m r u e|] eqn:EPh; try assumption; rewrite ?V1.
    + destruct C8 as (D1 & D2 & D3 & D4). repeat split; auto. intros HG. apply D4. now apply (good_snoc ls l).
    + destruct C8 as (D1 & D2 & D3 & D4). rewrite (V m).
      * repeat split; auto. intros HG. apply D4. now apply (good_snoc ls l).
      * intros q Hq. unfold mrefs. rewrite EPh. apply in_or_app. right. apply in_or_app. now right.
    + destruct C8 as (D1 & D2 & D3 & D4). repeat split; auto. intros HG. apply D4. now apply (good_snoc ls l).
  - unfold tinv, told_rtr in *. cbv zeta in *. rewrite EP, V2. destruct C as (C1 & C2 & C3 & C4 & C5).
    do 4 (split; [assumption|]).
    destruct (mc_phase c) as [|m n t|m r u e|] eqn:EPh; rewrite ?V1; try assumption.
    rewrite (V m); [assumption|]. intros q Hq. unfold mrefs. rewrite EPh. apply in_or_app. right. apply in_or_app. now right.
Qed.

(** What stays of a client that is between two steps before and after. *)
Definition still (cfg : mcfg) (i : side) (ls : list mlabel) (l : mlabel) (c c' : mclient) : Prop :=
  waits (mc_phase c') = true -> waits (mc_phase c) = true /\
    mc_vrps c' = mc_vrps c /\ mc_last c' = mc_last c /\ mc_serial c' = mc_serial c /\ mc_refresh c' = mc_refresh c /\
    mc_retry c' = mc_retry c /\ mc_expire c' = mc_expire c /\
    (closed i (ls ++ [l]) = true -> closed i ls = true /\ mc_session c' = mc_session c) /\
    delivered cfg i (ls ++ [l]) = delivered cfg i ls.
Definition moved (cfg : mcfg) (i : side) (ls : list mlabel) (l : mlabel) (s s' : mstate) : Prop :=
  exists h' c', s' = set_c i c' h' s /\ cinv cfg i (ls ++ [l]) h' c' /\ owns (ms_heap s) (ms_c i s) h' c' /\
    still cfg i ls l (ms_c i s) c'.

Lemma set_c_id i s : set_c i (ms_c i s) (ms_heap s) s = s.
Proof. now destruct s, i. Qed.
Lemma owns_same h c : owns h c h c.
Proof. split; [lia|]. split; auto. Qed.
Lemma source_told_file grace h : Forall (fun x => plain_file (snd x)) h -> minv (after grace h).
Proof. intros H. apply source_minv. now apply src_file. Qed.
Lemma rounds_good i ls : Forall good_label ls -> Forall (fun x => plain_file (snd x)) (rounds_of i ls).
Proof.
  intros H. unfold rounds_of. apply Forall_rev. apply Forall_forall. intros x Hx. apply in_flat_map in Hx.
  destruct Hx as (l & HI & Hx). rewrite Forall_forall in H. specialize (H l HI). destruct l; try contradiction.
  destruct (side_eqb i i0); [|contradiction]. destruct Hx as [<-|[]]. exact H.
Qed.
Lemma pdus_good i ls : Forall good_label ls -> Forall good_pdu (map snd (pdus_of i ls)).
Proof.
  intros H. apply Forall_forall. intros p Hp. apply in_map_iff in Hp. destruct Hp as (x & <- & Hx).
  apply in_flat_map in Hx. destruct Hx as (l & HI & Hx). rewrite Forall_forall in H. specialize (H l HI).
  destruct l; try contradiction. destruct (side_eqb i i0); [|contradiction]. destruct Hx as [<-|[]]. exact H.
Qed.
Lemma told_source cfg i ls : Forall good_label ls -> source (told_map cfg i ls).
Proof.
  intros H. unfold told_map. destruct (k_file cfg i).
  - apply src_file. now apply rounds_good.
  - apply src_rtr. now apply pdus_good.
Qed.

Lemma fetch_moved cfg i ls s t r s' : cinv cfg i ls (ms_heap s) (ms_c i s) -> step_fetch cfg i t r s = Some s' ->
  moved cfg i ls (LFetch i t r) s s'.
Proof.
  intros (B & W & C) HE. unfold step_fetch in HE. set (c := ms_c i s) in *. set (h := ms_heap s) in *.
  destruct (k_file cfg i) eqn:EK; [|discriminate HE]. unfold finv in C. cbv zeta in C.
  destruct C as (C1 & C2 & C3 & C4 & C5 & C6 & C7 & C8).
  destruct (mc_phase c) as [|m n t'|m a b e|] eqn:EPh; try (destruct r; discriminate HE).
  destruct C8 as (D1 & D2 & D3 & D4).
  assert (RS : rounds_of i (ls ++ [LFetch i t r]) = (t, r) :: rounds_of i ls) by (rewrite rounds_snoc, side_refl; reflexivity).
  assert (PS : pdus_of i (ls ++ [LFetch i t r]) = pdus_of i ls) by apply pdus_snoc.
  assert (BV : below (length h) (mc_vrps c)) by (intros q Hq; apply B; apply in_or_app; now left).
  assert (SAME : (r = FetchError \/ r = BadJson) -> s' = s -> moved cfg i ls (LFetch i t r) s s').
  { intros HR ->. unfold moved. fold c h. exists h, c. split; [symmetry; apply set_c_id|]. split; [|split; [apply owns_same|]].
    - split; [exact B|]. split; [rewrite EPh; discriminate|]. rewrite EK. unfold finv. cbv zeta.
      do 7 (split; [assumption|]). rewrite EPh, RS. split; [assumption|].
      assert (E1 : after (k_grace cfg) ((t, r) :: rounds_of i ls) = after (k_grace cfg) (rounds_of i ls)) by (destruct HR as [->| ->]; reflexivity).
      assert (E2 : newest ((t, r) :: rounds_of i ls) = newest (rounds_of i ls)) by (destruct HR as [->| ->]; reflexivity).
      rewrite E1, E2. split; [assumption|]. split; [assumption|]. intros HG. apply D4. now apply good_snoc in HG.
    - intros _. split; [now rewrite EPh|]. do 6 (split; [reflexivity|]). unfold closed, delivered. rewrite PS, RS, EK. split; [auto|].
      destruct HR as [->| ->]; reflexivity. }
  assert (NEW : forall h' m n, (values h' m, n) = match r with NotModified => update_current_vrp_map (k_grace cfg) (values h (mc_vrps c)) t
                                               | Listing vs bs => build_new_vrp_map (k_grace cfg) (values h (mc_vrps c)) vs bs t
                                               | _ => ([], 0) end ->
    (r <> FetchError /\ r <> BadJson) ->
    (length h <= length h')%nat -> below (length h') m -> NoDup (refs m) ->
    (forall q, In q (refs m) -> (length h <= q)%nat \/ In q (refs (mc_vrps c))) ->
    (forall q, (q < length h)%nat -> deref h' q = deref h q \/ (In q (refs (mc_vrps c)) /\ deref h' q = set_visible false (deref h q))) ->
    s' = set_c i (set_mphase (MBuilt m n t) c) h' s -> moved cfg i ls (LFetch i t r) s s').
  { intros h' m n HV [HR1 HR2] HL HB HN HQ HD ->. unfold moved. fold c h. exists h', (set_mphase (MBuilt m n t) c). split; [reflexivity|].
    assert (EV : values h' m = after (k_grace cfg) ((t, r) :: rounds_of i ls)).
    { cbn [after fold_right]. fold (after (k_grace cfg) (rounds_of i ls)). unfold mon_step. cbn [fst snd mon_round]. rewrite <- D2.
      destruct r; try contradiction; cbn [mon_round]; rewrite <- HV; reflexivity. }
    split; [|split].
    - split; [|split; [|rewrite EK]].
      + intros q Hq. unfold mrefs in Hq. cbn [set_mphase mc_vrps mc_rtr mc_phase prefs] in Hq.
        apply in_app_or in Hq. destruct Hq as [Hq|Hq]; [apply BV in Hq; lia|]. rewrite C2 in Hq. cbn [app refs map] in Hq. now apply HB.
      + intros _. unfold delivered. rewrite EK, RS. destruct r; try contradiction; reflexivity.
      + unfold finv. cbn [set_mphase mc_vrps mc_rtr mc_phase mc_serial mc_session mc_refresh mc_retry mc_expire].
        do 7 (split; [assumption|]). cbv zeta. rewrite RS. split; [exact HN|]. split; [exact EV|].
        split; [destruct r; try contradiction; reflexivity|].
        intros HG. rewrite <- EV. apply Forall_app in HG. destruct HG as [HG1 HG2].
        pose proof (source_told_file (k_grace cfg) _ (rounds_good i ls HG1)) as HM. rewrite <- D2 in HM.
        destruct r as [| | |vs bs]; try contradiction.
        * destruct (update_spec (k_grace cfg) _ t HM) as (_ & U & _). rewrite <- HV in U. exact U.
        * inversion HG2 as [|? ? HP _]; subst. cbn [good_label plain_file] in HP.
          destruct (build_spec (k_grace cfg) _ vs bs t HM HP) as (_ & U & _). rewrite <- HV in U. exact U.
    - split; [exact HL|]. split.
      + intros q Hq. unfold mrefs in *. cbn [set_mphase mc_vrps mc_rtr mc_phase prefs] in *. apply in_app_or in Hq.
        destruct Hq as [Hq|Hq]; [left; apply in_or_app; now left|]. rewrite C2 in Hq. cbn [app refs map] in Hq.
        destruct (HQ q Hq) as [H|H]; [right; split; [exact H|now apply HB]|]. left. apply in_or_app. now left.
      + intros q Hq. destruct (HD q Hq) as [H|[H1 H2]]; [now left|]. right. split; [exact H1|]. split; [reflexivity|exact H2].
    - intros HW. discriminate HW. }
  destruct r as [| | |vs bs].
  - pose proof (update_refs_spec (k_grace cfg) h (mc_vrps c) t) as HU.
    destruct (update_refs (k_grace cfg) h (mc_vrps c) t) as [[h' m] n]. destruct HU as (U1 & U2 & U3 & U4 & U5 & U6).
    injection HE as <-. apply (NEW h' m n); auto; [split; discriminate].
  - injection HE as <-. apply SAME; auto.
  - injection HE as <-. apply SAME; auto.
  - pose proof (build_refs_spec (k_grace cfg) h (mc_vrps c) vs bs t C1 BV) as HU.
    destruct (build_refs (k_grace cfg) h (mc_vrps c) vs bs t) as [[h' m] n]. destruct HU as (U1 & U2 & U3 & U4 & U5 & U6).
    injection HE as <-. apply (NEW h' m n); auto; [split; discriminate].
Qed.

Lemma told_snoc cfg i ls t p : told_rtr cfg i (ls ++ [LPdu i t p]) = fst (mon_handle (k_break cfg i) t (told_rtr cfg i ls) p).
Proof. unfold told_rtr. rewrite pdus_snoc, side_refl. unfold mon_pdus. now rewrite fold_left_app. Qed.
Lemma closed_snoc i ls t p : closed i (ls ++ [LPdu i t p]) =
  match p with CacheResponse _ _ => false | EndOfData _ _ _ _ _ _ => true | _ => closed i ls end.
Proof. unfold closed. rewrite pdus_snoc, side_refl, fold_left_app. reflexivity. Qed.
Lemma delivered_snoc cfg i ls t p : k_file cfg i = false -> delivered cfg i (ls ++ [LPdu i t p]) =
  delivered cfg i ls || (get_type p =? PDU_ID_END_OF_DATA).
Proof. intros HK. unfold delivered. rewrite HK, pdus_snoc, side_refl, existsb_app. cbn [existsb snd]. now rewrite orb_false_r. Qed.

Lemma data_moved cfg i ls s t p f k e : cinv cfg i ls (ms_heap s) (ms_c i s) -> k_file cfg i = false ->
  mc_phase (ms_c i s) = MIdle ->
  told_rtr cfg i (ls ++ [LPdu i t p]) = mon_data f k e (told_rtr cfg i ls) ->
  closed i (ls ++ [LPdu i t p]) = closed i ls -> delivered cfg i (ls ++ [LPdu i t p]) = delivered cfg i ls ->
  let '(h', c') := data_ref f k e (ms_heap s) (ms_c i s) in moved cfg i ls (LPdu i t p) s (set_c i c' h' s).
Proof.
  intros (B & W & C) EK EPh ET EC ED. rewrite EK in C. unfold moved. set (c := ms_c i s) in *. set (h := ms_heap s) in *.
  unfold tinv in C. cbv zeta in C. rewrite EPh in C. destruct C as (C1 & C2 & C3 & C4 & C5 & C6 & C7 & C8).
  assert (BV : below (length h) (mc_vrps c)) by (intros q Hq; apply B; apply in_or_app; now left).
  assert (BR : below (length h) (mc_rtr c)) by (intros q Hq; apply B; apply in_or_app; right; apply in_or_app; now left).
  unfold data_ref. unfold mon_data, mo_set_rtr in ET. destruct (f =? FLAG_ADDED).
  - eexists _, _. split; [reflexivity|]. split; [|split].
    + split; [|split].
      * intros q Hq. unfold mrefs in Hq. cbn [mc_vrps mc_rtr mc_phase] in Hq. rewrite EPh in Hq. cbn [prefs] in Hq. rewrite app_nil_r in Hq.
        rewrite app_length. cbn [length]. apply in_app_or in Hq. destruct Hq as [Hq|Hq]; [apply BV in Hq; lia|].
        apply refs_gset in Hq. destruct Hq as [->|Hq]; [lia|]. apply BR in Hq. lia.
      * cbn [mc_phase]. rewrite EPh. discriminate.
      * rewrite EK. unfold tinv. cbv zeta. cbn [mc_vrps mc_rtr mc_phase mc_serial mc_session mc_refresh mc_retry mc_expire mc_ingrace].
        rewrite EPh, ET. cbn [mo_rtr mo_vrps mo_serial mo_session mo_refresh mo_retry mo_expire].
        rewrite values_gset, !values_app by assumption. unfold deref at 1. rewrite app_nth2 by lia. rewrite Nat.sub_diag. cbn [nth].
        rewrite C1. repeat split; auto.
    + split; [rewrite app_length; lia|]. split.
      * intros q Hq. unfold mrefs in *. cbn [mc_vrps mc_rtr mc_phase] in *. apply in_app_or in Hq.
        destruct Hq as [Hq|Hq]; [left; apply in_or_app; now left|]. apply in_app_or in Hq. destruct Hq as [Hq|Hq].
        -- apply refs_gset in Hq. destruct Hq as [->|Hq]; [right; rewrite app_length; cbn [length]; lia|].
           left. apply in_or_app. right. apply in_or_app. now left.
        -- left. apply in_or_app. right. apply in_or_app. now right.
      * intros q Hq. left. now apply deref_app.
    + intros _. cbn [mc_vrps mc_last mc_serial mc_refresh mc_retry mc_expire mc_session]. rewrite EPh, EC, ED. repeat split; auto.
  - eexists _, _. split; [reflexivity|]. split; [|split].
    + split; [|split].
      * intros q Hq. unfold mrefs in Hq. cbn [mc_vrps mc_rtr mc_phase] in Hq. rewrite EPh in Hq. cbn [prefs] in Hq. rewrite app_nil_r in Hq.
        apply in_app_or in Hq. destruct Hq as [Hq|Hq]; [apply BV in Hq; lia|]. apply refs_gdel in Hq. now apply BR.
      * cbn [mc_phase]. rewrite EPh. discriminate.
      * rewrite EK. unfold tinv. cbv zeta. cbn [mc_vrps mc_rtr mc_phase mc_serial mc_session mc_refresh mc_retry mc_expire mc_ingrace].
        rewrite EPh, ET. cbn [mo_rtr mo_vrps mo_serial mo_session mo_refresh mo_retry mo_expire].
        rewrite values_gdel, C1. repeat split; auto.
    + split; [lia|]. split; [|auto].
      intros q Hq. left. unfold mrefs in *. cbn [mc_vrps mc_rtr mc_phase] in *. apply in_app_or in Hq. apply in_or_app.
      destruct Hq as [Hq|Hq]; [now left|]. right. apply in_app_or in Hq. apply in_or_app.
      destruct Hq as [Hq|Hq]; [left; now apply refs_gdel in Hq|now right].
    + intros _. cbn [mc_vrps mc_last mc_serial mc_refresh mc_retry mc_expire mc_session]. rewrite EPh, EC, ED. repeat split; auto.
Qed.
Lemma pdu_moved cfg i ls s t p s' : cinv cfg i ls (ms_heap s) (ms_c i s) -> step_pdu cfg i t p s = Some s' ->
  moved cfg i ls (LPdu i t p) s s'.
Proof.
  intros HC HE. unfold step_pdu in HE. destruct (k_file cfg i) eqn:EK; [discriminate HE|].
  destruct (mc_phase (ms_c i s)) eqn:EPh; try discriminate HE.
  pose proof (told_snoc cfg i ls t p) as ET. pose proof (closed_snoc i ls t p) as EC. pose proof (delivered_snoc cfg i ls t p EK) as ED.
  assert (SAME : told_rtr cfg i (ls ++ [LPdu i t p]) = told_rtr cfg i ls -> closed i (ls ++ [LPdu i t p]) = closed i ls ->
     delivered cfg i (ls ++ [LPdu i t p]) = delivered cfg i ls -> Some (set_c i (ms_c i s) (ms_heap s) s) = Some s' ->
     moved cfg i ls (LPdu i t p) s s').
  { intros ET' EC' ED' E. injection E as <-. unfold moved. exists (ms_heap s), (ms_c i s). split; [reflexivity|].
    split; [|split; [apply owns_same|]].
    - destruct HC as (B & W & C). split; [exact B|]. split; [rewrite ED'; exact W|]. rewrite EK in *. unfold tinv in *. cbv zeta in *.
      rewrite ET'. exact C.
    - intros _. rewrite EPh, EC', ED'. repeat split; auto. }
  destruct p as [v s1 n|v s1 n|v|v s1|v f m a x|v f m a x|v s1 n r u e|v|v f sk a kd|v e pc em]; cbn [mon_handle fst] in ET; cbn [get_type] in ED.
  all: try (apply SAME; [exact ET|exact EC|rewrite ED; apply orb_false_r|exact HE]).
  - (* Cache Response *)
    injection HE as <-. eexists _, _. split; [reflexivity|]. destruct HC as (B & W & C). rewrite EK in C.
    unfold tinv in C. cbv zeta in C. rewrite EPh in C. destruct C as (C1 & C2 & C3 & C4 & C5 & C6 & C7 & C8).
    assert (MR : forall n, mrefs (mkMC (mc_vrps (ms_c i s)) (mc_last (ms_c i s)) (mc_ingrace (ms_c i s)) (mc_rtr (ms_c i s)) (mc_serial (ms_c i s)) n
      (mc_refresh (ms_c i s)) (mc_retry (ms_c i s)) (mc_expire (ms_c i s)) MIdle) = mrefs (ms_c i s)).
    { intros n. unfold mrefs. cbn [mc_vrps mc_rtr mc_phase]. now rewrite EPh. }
    split; [|split].
    + split; [rewrite MR; exact B|]. split; [discriminate|]. rewrite EK. unfold tinv. cbv zeta.
      cbn [mc_vrps mc_rtr mc_phase mc_serial mc_session mc_refresh mc_retry mc_expire mc_ingrace]. rewrite ET.
      cbn [mo_rtr mo_vrps mo_serial mo_session mo_refresh mo_retry mo_expire]. repeat split; auto.
    + split; [lia|]. rewrite MR. split; auto.
    + intros _. cbn [mc_vrps mc_last mc_serial mc_refresh mc_retry mc_expire mc_session]. rewrite EPh, EC, ED, orb_false_r.
      repeat split; auto; discriminate.
  - assert (ED' : delivered cfg i (ls ++ [LPdu i t (IPv4Prefix v f m a x)]) = delivered cfg i ls) by (rewrite ED; apply orb_false_r).
    pose proof (data_moved cfg i ls s t _ _ _ _ HC EK EPh ET EC ED') as HM. cbn [m_first] in HE.
    destruct (data_ref f _ _ (ms_heap s) (ms_c i s)) as [h' c']. injection HE as <-. exact HM.
  - assert (ED' : delivered cfg i (ls ++ [LPdu i t (IPv6Prefix v f m a x)]) = delivered cfg i ls) by (rewrite ED; apply orb_false_r).
    pose proof (data_moved cfg i ls s t _ _ _ _ HC EK EPh ET EC ED') as HM.
    destruct (data_ref f _ _ (ms_heap s) (ms_c i s)) as [h' c']. injection HE as <-. exact HM.
  - (* End of Data *)
    injection HE as <-. eexists _, _. split; [reflexivity|]. destruct HC as (B & W & C). rewrite EK in C.
    unfold tinv in C. cbv zeta in C. rewrite EPh in C. destruct C as (C1 & C2 & C3 & C4 & C5 & C6 & C7 & C8).
    split; [|split].
    + split; [|split].
      * intros q Hq. apply B. unfold mrefs in *. cbn [mc_vrps mc_rtr mc_phase prefs] in Hq. apply in_app_or in Hq. apply in_or_app.
        destruct Hq as [Hq|Hq]; [now left|]. right. apply in_or_app. apply in_app_or in Hq. destruct Hq; now left.
      * intros _. rewrite ED. apply orb_true_r.
      * rewrite EK. unfold tinv. cbv zeta. cbn [mc_vrps mc_rtr mc_phase mc_serial mc_session mc_refresh mc_retry mc_expire mc_ingrace].
        rewrite ET. cbn [mo_rtr mo_vrps mo_serial mo_session mo_refresh mo_retry mo_expire]. repeat split; auto.
    + split; [lia|]. split; [|auto]. intros q Hq. left. unfold mrefs in *. cbn [mc_vrps mc_rtr mc_phase prefs] in Hq.
      apply in_app_or in Hq. apply in_or_app.
      destruct Hq as [Hq|Hq]; [now left|]. right. apply in_or_app. apply in_app_or in Hq. destruct Hq; now left.
    + intros HW. discriminate HW.
  - assert (ED' : delivered cfg i (ls ++ [LPdu i t (RouterKey v f sk a kd)]) = delivered cfg i ls) by (rewrite ED; apply orb_false_r).
    pose proof (data_moved cfg i ls s t _ _ _ _ HC EK EPh ET EC ED') as HM.
    destruct (data_ref f _ _ (ms_heap s) (ms_c i s)) as [h' c']. injection HE as <-. exact HM.
Qed.

Lemma silent_closed i ls l : silent i l = true -> closed i (ls ++ [l]) = closed i ls.
Proof. intros H. unfold closed. now rewrite silent_pdus. Qed.
Lemma silent_delivered cfg i ls l : silent i l = true -> delivered cfg i (ls ++ [l]) = delivered cfg i ls.
Proof. intros H. unfold delivered. now rewrite silent_pdus, silent_rounds. Qed.

Lemma assign_moved cfg i ls s t s' : cinv cfg i ls (ms_heap s) (ms_c i s) -> step_assign i t s = Some s' ->
  moved cfg i ls (LAssign i t) s s'.
Proof.
  intros HC HE. unfold step_assign in HE.
  assert (HS : silent i (LAssign i t) = true) by reflexivity.
  pose proof (cinv_frame cfg i ls (LAssign i t) _ (ms_heap s) _ HC HS (le_n _) (fun r _ => eq_refl)) as (B & W & C).
  set (c := ms_c i s) in *. destruct (mc_phase c) as [|m n t0|m r u e|] eqn:EPh; try discriminate HE; injection HE as <-.
  - eexists _, _. split; [reflexivity|]. split; [|split].
    + split; [|split].
      * intros q Hq. apply B. unfold mrefs in *. cbn [mc_vrps mc_rtr mc_phase prefs] in Hq. rewrite EPh. cbn [prefs].
        rewrite app_nil_r in Hq. rewrite !in_app_iff in *. tauto.
      * intros _. now apply W.
      * destruct (k_file cfg i).
        -- unfold finv in *. cbv zeta in *. rewrite EPh in C. cbn [mc_vrps mc_rtr mc_phase mc_serial mc_session mc_refresh mc_retry mc_expire mc_ingrace mc_last].
           destruct C as (C1 & C2 & C3 & C4 & C5 & C6 & C7 & C8 & C9). split; [exact C8|]. do 6 (split; [assumption|]).
           split; [exact C8|exact C9].
        -- unfold tinv in C. cbv zeta in C. rewrite EPh in C. tauto.
    + split; [lia|]. split; [|auto]. intros q Hq. left. fold c. unfold mrefs in *. cbn [mc_vrps mc_rtr mc_phase prefs] in Hq. rewrite EPh. cbn [prefs].
      rewrite app_nil_r in Hq. rewrite !in_app_iff in *. tauto.
    + intros HW. discriminate HW.
  - eexists _, _. split; [reflexivity|]. split; [|split].
    + split; [|split].
      * intros q Hq. apply B. unfold mrefs in *. cbn [mc_vrps mc_rtr mc_phase prefs] in Hq. rewrite EPh. cbn [prefs].
        rewrite app_nil_r in Hq. rewrite !in_app_iff in *. tauto.
      * intros _. now apply W.
      * destruct (k_file cfg i).
        -- unfold finv in C. cbv zeta in C. rewrite EPh in C. tauto.
        -- unfold tinv in *. cbv zeta in *. rewrite EPh in C. cbn [mc_vrps mc_rtr mc_phase mc_serial mc_session mc_refresh mc_retry mc_expire mc_ingrace mc_last].
           tauto.
    + split; [lia|]. split; [|auto]. intros q Hq. left. fold c. unfold mrefs in *. cbn [mc_vrps mc_rtr mc_phase prefs] in Hq. rewrite EPh. cbn [prefs].
      rewrite app_nil_r in Hq. rewrite !in_app_iff in *. tauto.
    + intros HW. discriminate HW.
Qed.

(** The comparator. *)
Definition knows (ls : list mlabel) (i : side) (c : mclient) (v : gmap nat) (d : mdata) : Prop :=
  waits (mc_phase c) = true -> v = mc_vrps c /\ md_last d = mc_last c /\ md_serial d = mc_serial c /\
    md_refresh d = mc_refresh c /\ md_retry d = mc_retry c /\ md_expire d = mc_expire c /\
    (closed i ls = true -> md_session d = mc_session c).
Definition both (s : mstate) : Prop := waits (mc_phase (ms_c1 s)) = true /\ waits (mc_phase (ms_c2 s)) = true.
Definition published (cfg : mcfg) (ls : list mlabel) (h : heap) (p : pub) (v1 v2 : gmap nat) : Prop :=
  pb_only1 p = diff_refs h v1 v2 /\ pb_only2 p = diff_refs h v2 v1 /\
  exists t, In (LPublish t) ls /\ pb_counts p = pub_counts cfg h v1 v2 (pb_only1 p) (pb_only2 p) t.
Definition sized (p : pub) (v1 v2 : gmap nat) : Prop :=
  pb_total1 p = nlen v1 /\ pb_total2 p = nlen v2 /\ pb_diff1 p = nlen (pb_only1 p) /\ pb_diff2 p = nlen (pb_only2 p) /\
  md_count (pb_md1 p) = nlen v1 /\ md_count (pb_md2 p) = nlen v2.
Definition kinv (cfg : mcfg) (ls : list mlabel) (s : mstate) : Prop :=
  match ms_comp s with
  | KIdle =>
      match ms_pub s with
      | None => forall i, waits (mc_phase (ms_c i s)) = true -> delivered cfg i ls = false
      | Some p => exists v1 v2, knows ls Pri (ms_c1 s) v1 (pb_md1 p) /\ knows ls Sec (ms_c2 s) v2 (pb_md2 p) /\
                    sized p v1 v2 /\ (both s -> published cfg ls (ms_heap s) p v1 v2)
      end
  | KGot _ => True
  | KHave1 _ v1 d1 => knows ls Pri (ms_c1 s) v1 d1 /\ md_count d1 = nlen v1
  | KHave2 _ v1 d1 v2 d2 => knows ls Pri (ms_c1 s) v1 d1 /\ md_count d1 = nlen v1 /\ knows ls Sec (ms_c2 s) v2 d2 /\ md_count d2 = nlen v2
  | KDiff _ v1 d1 v2 d2 o1 => knows ls Pri (ms_c1 s) v1 d1 /\ md_count d1 = nlen v1 /\ knows ls Sec (ms_c2 s) v2 d2 /\ md_count d2 = nlen v2 /\
                              (both s -> o1 = diff_refs (ms_heap s) v1 v2)
  end.
(** Maps the comparator holds. *)
Definition krefs (k : kphase) : list nat :=
  match k with
  | KIdle | KGot _ => []
  | KHave1 _ v1 _ => refs v1
  | KHave2 _ v1 _ v2 _ => refs v1 ++ refs v2
  | KDiff _ v1 _ v2 _ o1 => refs v1 ++ refs v2 ++ refs o1
  end.
Definition brefs (p : option pub) : list nat := match p with Some p => refs (pb_only1 p) ++ refs (pb_only2 p) | None => [] end.
Definition kid (k : kphase) : option side :=
  match k with
  | KIdle => None
  | KGot id | KHave1 id _ _ | KHave2 id _ _ _ _ | KDiff id _ _ _ _ _ => Some id
  end.
Definition upd (i : side) (s : mstate) : option Z := match i with Pri => ms_upd1 s | Sec => ms_upd2 s end.
Definition linv (cfg : mcfg) (ls : list mlabel) (s : mstate) : Prop :=
  forall i, kid (ms_comp s) <> Some i -> waits (mc_phase (ms_c i s)) = true -> delivered cfg i ls = true ->
    upd i s = Some (mc_last (ms_c i s)).
Definition oneinv (cfg : mcfg) (ls : list mlabel) (s : mstate) : Prop :=
  ms_pub s <> None \/ ms_comp s <> KIdle -> delivered cfg Pri ls || delivered cfg Sec ls = true.
Definition ginv (cfg : mcfg) (ls : list mlabel) (s : mstate) : Prop :=
  (forall i, cinv cfg i ls (ms_heap s) (ms_c i s)) /\
  (forall r, In r (mrefs (ms_c1 s)) -> ~ In r (mrefs (ms_c2 s))) /\
  (forall r, In r (krefs (ms_comp s)) \/ In r (brefs (ms_pub s)) -> (r < length (ms_heap s))%nat) /\
  kinv cfg ls s /\ linv cfg ls s /\ oneinv cfg ls s.

Lemma ms_c_set i j c h s : ms_c j (set_c i c h s) = if side_eqb i j then c else ms_c j s.
Proof. now destruct i, j. Qed.
Lemma heap_set i c h s : ms_heap (set_c i c h s) = h. Proof. now destruct i. Qed.
Lemma comp_set i c h s : ms_comp (set_c i c h s) = ms_comp s. Proof. now destruct i. Qed.
Lemma pub_set i c h s : ms_pub (set_c i c h s) = ms_pub s. Proof. now destruct i. Qed.
Lemma upd_set i c h s j : upd j (set_c i c h s) = upd j s. Proof. now destruct i, j. Qed.
Lemma side_neq i j : i <> j -> side_eqb i j = false.
Proof. destruct i, j; try reflexivity; intros H; now contradiction H. Qed.
Lemma side_dec (i j : side) : {i = j} + {i <> j}.
Proof. decide equality. Qed.

Lemma diff_refs_sub_gen h a b : forall res r, In r (refs (fold_left (fun (res : gmap nat) (x : bytes * nat) =>
    if m_visible (deref h (snd x)) then
      match gget (fst x) b with
      | Some r => if m_visible (deref h r) then res else gset (fst x) (snd x) res
      | None => gset (fst x) (snd x) res
      end
    else res) a res)) -> In r (refs a) \/ In r (refs res).
Proof.
  induction a as [|[k q] a IH]; intros res r Hr; [now right|]. cbn [fold_left fst snd] in Hr. apply IH in Hr. destruct Hr as [Hr|Hr]; [left; now right|].
  assert (HG : In r (refs (gset k q res)) -> In r (refs ((k, q) :: a)) \/ In r (refs res)).
  { intros H. apply refs_gset in H. destruct H as [->|H]; [left; now left|now right]. }
  destruct (m_visible (deref h q)); [|now right]. destruct (gget k b) as [q'|]; [destruct (m_visible (deref h q')); [now right|]|]; auto.
Qed.
Lemma diff_refs_sub h a b r : In r (refs (diff_refs h a b)) -> In r (refs a).
Proof. intros H. apply (diff_refs_sub_gen h a b []) in H. destruct H as [H|[]]. exact H. Qed.
Lemma diff_refs_ext h h' a b : (forall r, In r (refs a) \/ In r (refs b) -> deref h' r = deref h r) -> diff_refs h' a b = diff_refs h a b.
Proof.
  intros H. unfold diff_refs. generalize (@nil (bytes * nat)) as res. induction a as [|[k q] a IH]; intros res; [reflexivity|].
  cbn [fold_left fst snd].
  assert (HQ : forall q', gget k b = Some q' -> In q' (refs b)).
  { intros q' HG. apply gget_in in HG. unfold refs. apply in_map_iff. exists (k, q'). auto. }
  rewrite (H q) by (left; now left).
  assert (IH' : forall res, _) by (exact (IH (fun r Hr => H r (match Hr with or_introl x => or_introl (or_intror x) | or_intror y => or_intror y end)))).
  destruct (gget k b) as [q'|] eqn:EG; [|destruct (m_visible (deref h q)); apply IH'].
  rewrite (H q') by (right; now apply HQ). destruct (m_visible (deref h q)), (m_visible (deref h q')); apply IH'.
Qed.
Lemma pub_counts_ext cfg h h' v1 v2 o1 o2 t : (forall r, In r (refs v1) \/ In r (refs v2) \/ In r (refs o1) \/ In r (refs o2) -> deref h' r = deref h r) ->
  pub_counts cfg h' v1 v2 o1 o2 t = pub_counts cfg h v1 v2 o1 o2 t.
Proof.
  intros H. unfold pub_counts. rewrite (values_ext h h' v1), (values_ext h h' v2), (values_ext h h' o1), (values_ext h h' o2); auto.
Qed.

Lemma knows_moved cfg i ls l s s' : moved cfg i ls l s s' -> (forall j, j <> i -> silent j l = true) ->
  forall j v d, knows ls j (ms_c j s) v d -> knows (ls ++ [l]) j (ms_c j s') v d.
Proof.
  intros (h' & c' & -> & _ & _ & HS) HO j v d HK. rewrite ms_c_set. destruct (side_dec i j) as [<-|HN].
  - rewrite side_refl. intros HW. destruct (HS HW) as (W & S1 & S2 & S3 & S4 & S5 & S6 & S7 & _).
    destruct (HK W) as (K1 & K2 & K3 & K4 & K5 & K6 & K7). rewrite S1, S2, S3, S4, S5, S6.
    do 6 (split; [assumption|]). intros HC. destruct (S7 HC) as [HC' ->]. now apply K7.
  - rewrite side_neq by exact HN. unfold knows. rewrite silent_closed; [exact HK|]. apply HO. congruence.
Qed.
Lemma waits_moved cfg i ls l s s' : moved cfg i ls l s s' -> forall j, waits (mc_phase (ms_c j s')) = true -> waits (mc_phase (ms_c j s)) = true.
Proof.
  intros (h' & c' & -> & _ & _ & HS) j. rewrite ms_c_set. destruct (side_dec i j) as [<-|HN].
  - rewrite side_refl. intros HW. now apply HS.
  - rewrite side_neq by exact HN. auto.
Qed.
Lemma both_all s : both s <-> forall i, waits (mc_phase (ms_c i s)) = true.
Proof. unfold both. split; [intros [A B] []; assumption|intros H; split; [apply (H Pri)|apply (H Sec)]]. Qed.
Lemma both_moved cfg i ls l s s' : moved cfg i ls l s s' -> both s' -> both s /\ forall r, (r < length (ms_heap s))%nat -> deref (ms_heap s') r = deref (ms_heap s) r.
Proof.
  intros HM HB. rewrite both_all in HB. split; [apply both_all; intros j; apply (waits_moved cfg i ls l s s' HM), HB|].
  destruct HM as (h' & c' & -> & _ & HO & _). intros r Hr. rewrite heap_set. specialize (HB i). rewrite ms_c_set, side_refl in HB.
  destruct HO as (_ & _ & HO). destruct (HO r Hr) as [H|(_ & H & _)]; [exact H|congruence].
Qed.
Lemma cinv_below cfg i ls h c : cinv cfg i ls h c -> below (length h) (mc_vrps c).
Proof. intros (B & _) r Hr. apply B. apply in_or_app. now left. Qed.

Lemma moved_ginv cfg i ls l s s' : ginv cfg ls s -> moved cfg i ls l s s' -> (forall j, j <> i -> silent j l = true) ->
  ginv cfg (ls ++ [l]) s'.
Proof.
  intros (G1 & G2 & G3 & G4 & G5 & G6) HM HO.
  pose proof (knows_moved cfg i ls l s s' HM HO) as KM. pose proof (waits_moved cfg i ls l s s' HM) as WM.
  pose proof (both_moved cfg i ls l s s' HM) as BM.
  destruct HM as (h' & c' & E & C' & (O1 & O2 & O3) & HS).
  assert (EH : ms_heap s' = h') by (subst s'; apply heap_set).
  assert (EK : ms_comp s' = ms_comp s) by (subst s'; apply comp_set).
  assert (EP : ms_pub s' = ms_pub s) by (subst s'; apply pub_set).
  assert (EC : forall j, ms_c j s' = if side_eqb i j then c' else ms_c j s) by (intros j; subst s'; apply ms_c_set).
  assert (DJ : forall j r, j <> i -> In r (mrefs (ms_c j s)) -> ~ In r (mrefs (ms_c i s))).
  { intros j r HN HR HI. destruct i, j; try (now contradiction HN); [apply (G2 r HI HR)|apply (G2 r HR HI)]. }
  assert (DL : forall j, delivered cfg j ls = true -> delivered cfg j (ls ++ [l]) = true).
  { intros j HD. destruct (side_dec j i) as [->|HN].
    - unfold delivered in *. destruct (k_file cfg i).
      + rewrite rounds_snoc. destruct l; try exact HD. destruct (side_eqb i i0); [|exact HD]. destruct r; try reflexivity; exact HD.
      + rewrite pdus_snoc. destruct l; try exact HD. destruct (side_eqb i i0); [|exact HD]. rewrite existsb_app, HD. reflexivity.
    - rewrite silent_delivered; auto. }
  split; [|split; [|split; [|split; [|split]]]].
  - intros j. rewrite EH, EC. destruct (side_dec i j) as [<-|HN]; [now rewrite side_refl|]. rewrite side_neq by exact HN.
    apply cinv_frame with (h := ms_heap s); auto. intros r Hr. destruct (G1 j) as (B & _).
    destruct (O3 r (B r Hr)) as [H|(H & _)]; [exact H|]. exfalso. apply (DJ j r); auto. apply in_or_app. now left.
  - assert (DJ' : forall j r, j <> i -> In r (mrefs (ms_c j s)) -> ~ In r (mrefs c')).
    { intros j r HN HR HI. destruct (O2 r HI) as [H|H]; [now apply (DJ j r)|]. destruct (G1 j) as (B & _). apply B in HR. lia. }
    intros r H1 H2. pose proof (EC Pri) as E1. pose proof (EC Sec) as E2. cbn [ms_c] in E1, E2. rewrite E1 in H1. rewrite E2 in H2.
    destruct i; cbn [side_eqb] in *.
    + exact (DJ' Sec r ltac:(discriminate) H2 H1).
    + exact (DJ' Pri r ltac:(discriminate) H1 H2).
  - intros r. rewrite EK, EP, EH. intros HR. apply G3 in HR. lia.
  - unfold kinv in *. rewrite EK, EP. pose proof (KM Pri) as KM1. pose proof (KM Sec) as KM2. cbn [ms_c] in KM1, KM2.
    assert (BV : both s' -> below (length (ms_heap s)) (mc_vrps (ms_c1 s)) /\ below (length (ms_heap s)) (mc_vrps (ms_c2 s))).
    { intros _. split; [apply (cinv_below cfg Pri ls _ _ (G1 Pri))|apply (cinv_below cfg Sec ls _ _ (G1 Sec))]. }
    destruct (ms_comp s) as [|id|id v1 d1|id v1 d1 v2 d2|id v1 d1 v2 d2 o1].
    + destruct (ms_pub s) as [p|].
      * destruct G4 as (v1 & v2 & K1 & K2 & K3 & K4). exists v1, v2. split; [auto|]. split; [auto|]. split; [exact K3|].
        intros HB. destruct (BM HB) as [HB' HD]. destruct (BV HB) as [BV1 BV2]. destruct HB' as [W1 W2].
        destruct (K1 W1) as (-> & _). destruct (K2 W2) as (-> & _). destruct (K4 (conj W1 W2)) as (P1 & P2 & t & PT & P3).
        unfold published.
        assert (X1 : pb_only1 p = diff_refs (ms_heap s') (mc_vrps (ms_c1 s)) (mc_vrps (ms_c2 s)))
          by (rewrite P1; symmetry; apply diff_refs_ext; intros r [Hr|Hr]; apply HD; auto).
        assert (X2 : pb_only2 p = diff_refs (ms_heap s') (mc_vrps (ms_c2 s)) (mc_vrps (ms_c1 s)))
          by (rewrite P2; symmetry; apply diff_refs_ext; intros r [Hr|Hr]; apply HD; auto).
        split; [exact X1|]. split; [exact X2|]. exists t. split; [apply in_or_app; now left|]. rewrite P3. symmetry. apply pub_counts_ext.
        intros r Hr. apply HD. destruct Hr as [Hr|[Hr|[Hr|Hr]]]; auto.
        -- rewrite P1 in Hr. apply diff_refs_sub in Hr. auto.
        -- rewrite P2 in Hr. apply diff_refs_sub in Hr. auto.
      * intros j HW. pose proof (G4 j (WM j HW)) as HD. destruct (side_dec j i) as [->|HN].
        -- rewrite EC, side_refl in HW. destruct (HS HW) as (_ & _ & _ & _ & _ & _ & _ & _ & ->). exact HD.
        -- rewrite silent_delivered; auto.
    + exact I.
    + destruct G4. auto.
    + destruct G4 as (K1 & K2 & K3 & K4). auto.
    + destruct G4 as (K1 & K2 & K3 & K4 & K5). split; [auto|]. split; [auto|]. split; [auto|]. split; [auto|].
      intros HB. destruct (BM HB) as [HB' HD]. destruct (BV HB) as [BV1 BV2]. rewrite (K5 HB').
      destruct HB' as [W1 W2]. destruct (K1 W1) as (-> & _). destruct (K3 W2) as (-> & _).
      symmetry. apply diff_refs_ext. intros r [Hr|Hr]; apply HD; auto.
  - intros j. rewrite EK. intros HK HW HD. subst s'. rewrite upd_set. rewrite ms_c_set in *. destruct (side_dec i j) as [<-|HN].
    + rewrite side_refl in *. destruct (HS HW) as (W & _ & S2 & _ & _ & _ & _ & _ & S8). rewrite S2. apply G5; auto. now rewrite <- S8.
    + rewrite side_neq in * by exact HN. rewrite silent_delivered in HD by (apply HO; congruence). now apply G5.
  - unfold oneinv in *. rewrite EP, EK. intros H. apply G6 in H. apply orb_true_iff in H. apply orb_true_iff.
    destruct H as [H|H]; [left|right]; now apply DL.
Qed.

Lemma send_ginv cfg i ls s s' : ginv cfg ls s -> step_send i s = Some s' -> ginv cfg (ls ++ [LSend i]) s'.
Proof.
  intros (G1 & G2 & G3 & G4 & G5 & G6) HE. unfold step_send in HE.
  destruct (mc_phase (ms_c i s)) eqn:EPh; try discriminate HE. destruct (ms_comp s) eqn:EK; try discriminate HE. injection HE as <-.
  set (c := ms_c i s) in *. set (c' := set_mphase MIdle c).
  assert (ES : forall j, silent j (LSend i) = true) by reflexivity.
  assert (MR : mrefs c' = mrefs c) by (unfold mrefs, c'; cbn [set_mphase mc_vrps mc_rtr mc_phase]; rewrite EPh; reflexivity).
  assert (EC : forall j, ms_c j (set_comp (KGot i) (set_c i c' (ms_heap s) s)) = if side_eqb i j then c' else ms_c j s)
    by (intros j; destruct i, j; reflexivity).
  assert (EH : ms_heap (set_comp (KGot i) (set_c i c' (ms_heap s) s)) = ms_heap s) by (destruct i; reflexivity).
  assert (EP : ms_pub (set_comp (KGot i) (set_c i c' (ms_heap s) s)) = ms_pub s) by (destruct i; reflexivity).
  assert (EU : forall j, upd j (set_comp (KGot i) (set_c i c' (ms_heap s) s)) = upd j s) by (intros j; destruct i, j; reflexivity).
  assert (EQ : ms_comp (set_comp (KGot i) (set_c i c' (ms_heap s) s)) = KGot i) by reflexivity.
  set (s' := set_comp (KGot i) (set_c i c' (ms_heap s) s)) in *.
  assert (CF : forall j, cinv cfg j (ls ++ [LSend i]) (ms_heap s) (ms_c j s)).
  { intros j. apply (cinv_frame cfg j ls (LSend i) (ms_heap s)); auto. }
  split; [|split; [|split; [|split; [|split]]]].
  - intros j. rewrite EH, EC. destruct (side_dec i j) as [<-|HN]; [|rewrite side_neq by exact HN; apply CF].
    rewrite side_refl. destruct (CF i) as (B & W & C). fold c in B, W, C. split; [rewrite MR; exact B|]. split; [discriminate|].
    destruct (k_file cfg i).
    + unfold finv, c' in *. cbv zeta in *. rewrite EPh in C. cbn [set_mphase mc_vrps mc_rtr mc_phase mc_serial mc_session mc_refresh mc_retry mc_expire mc_ingrace mc_last]. exact C.
    + unfold tinv, c' in *. cbv zeta in *. rewrite EPh in C. cbn [set_mphase mc_vrps mc_rtr mc_phase mc_serial mc_session mc_refresh mc_retry mc_expire mc_ingrace mc_last]. exact C.
  - intros r. pose proof (EC Pri) as E1. pose proof (EC Sec) as E2. cbn [ms_c] in E1, E2. rewrite E1, E2. pose proof (G2 r) as G.
    destruct i; cbn [side_eqb]; rewrite MR; exact G.
  - intros r. rewrite EQ, EP, EH. cbn [krefs]. intros [[]|HR]. apply G3. now right.
  - unfold kinv. rewrite EQ. exact I.
  - intros j. rewrite EQ. cbn [kid]. intros HK HW HD. rewrite EU. rewrite EC in *. rewrite side_neq in * by congruence.
    rewrite silent_delivered in HD by apply ES. apply G5; auto. rewrite EK. discriminate.
  - intros _. destruct (CF i) as (_ & W & _). fold c in W. rewrite EPh in W. specialize (W eq_refl). apply orb_true_iff.
    destruct i; auto.
Qed.
Lemma knows_get ls i c : knows ls i c (mc_vrps c) (snd (get_data c)).
Proof. intros _. cbn [get_data snd md_last md_serial md_refresh md_retry md_expire md_session]. repeat split; auto. Qed.
Lemma compare_ginv cfg l ls s s' : (forall j, silent j l = true) -> ginv cfg ls s -> step_compare cfg l s = Some s' -> ginv cfg (ls ++ [l]) s'.
Proof.
  intros ES (G1 & G2 & G3 & G4 & G5 & G6) HE.
  assert (HK : forall i c v d, knows ls i c v d -> knows (ls ++ [l]) i c v d)
    by (intros i c v d H; unfold knows; now rewrite silent_closed).
  assert (BV1 : below (length (ms_heap s)) (mc_vrps (ms_c1 s))) by apply (cinv_below cfg Pri ls _ _ (G1 Pri)).
  assert (BV2 : below (length (ms_heap s)) (mc_vrps (ms_c2 s))) by apply (cinv_below cfg Sec ls _ _ (G1 Sec)).
  assert (X : ms_heap s' = ms_heap s /\ ms_c1 s' = ms_c1 s /\ ms_c2 s' = ms_c2 s /\ ms_comp s <> KIdle /\
    (forall r, In r (krefs (ms_comp s')) \/ In r (brefs (ms_pub s')) -> (r < length (ms_heap s))%nat) /\ kinv cfg (ls ++ [l]) s' /\
    (forall i, kid (ms_comp s') <> Some i -> waits (mc_phase (ms_c i s)) = true ->
       (kid (ms_comp s) <> Some i /\ upd i s' = upd i s) \/ upd i s' = Some (mc_last (ms_c i s)))).
  { unfold step_compare in HE. unfold kinv in *. destruct (ms_comp s) as [|id|id v1 d1|id v1 d1 v2 d2|id v1 d1 v2 d2 o1] eqn:EK.
    - destruct l; discriminate HE.
    - destruct l; try discriminate HE. injection HE as <-. cbn [set_comp ms_heap ms_c1 ms_c2 ms_comp ms_pub krefs].
      do 3 (split; [reflexivity|]). split; [discriminate|]. split; [|split].
      + intros r [Hr|Hr]; [now apply BV1|]. apply G3. now right.
      + split; [apply knows_get|reflexivity].
      + intros i HI _. left. split; [exact HI|now destruct i].
    - destruct l; try discriminate HE. injection HE as <-. cbn [set_comp ms_heap ms_c1 ms_c2 ms_comp ms_pub krefs].
      do 3 (split; [reflexivity|]). split; [discriminate|]. split; [|split].
      + intros r [Hr|Hr]; [|apply G3; now right]. apply in_app_or in Hr. destruct Hr as [Hr|Hr]; [apply G3; now left|now apply BV2].
      + destruct G4 as [K1 K2]. split; [auto|]. split; [exact K2|]. split; [apply knows_get|reflexivity].
      + intros i HI _. left. split; [exact HI|now destruct i].
    - destruct l; try discriminate HE. injection HE as <-. cbn [set_comp ms_heap ms_c1 ms_c2 ms_comp ms_pub krefs].
      do 3 (split; [reflexivity|]). split; [discriminate|]. split; [|split].
      + intros r [Hr|Hr]; [|apply G3; now right]. rewrite app_assoc in Hr. apply in_app_or in Hr. destruct Hr as [Hr|Hr]; [apply G3; now left|].
        apply diff_refs_sub in Hr. apply G3. left. cbn [krefs]. apply in_or_app. now left.
      + destruct G4 as (K1 & K2 & K3 & K4). do 4 (split; [auto|]). intros _. reflexivity.
      + intros i HI _. left. split; [exact HI|now destruct i].
    - destruct l as [| | | | | | |t]; try discriminate HE. injection HE as <-. cbn [ms_heap ms_c1 ms_c2 ms_comp ms_pub krefs brefs pb_only1 pb_only2].
      do 3 (split; [reflexivity|]). split; [discriminate|]. destruct G4 as (K1 & K2 & K3 & K4 & K5). split; [|split].
      + intros r [[]|Hr]. apply in_app_or in Hr. apply G3. left. cbn [krefs]. rewrite !in_app_iff. destruct Hr as [Hr|Hr]; [tauto|].
        apply diff_refs_sub in Hr. tauto.
      + exists v1, v2. cbn [pb_md1 pb_md2]. split; [auto|]. split; [auto|]. split.
        * unfold sized. cbn [pb_total1 pb_total2 pb_diff1 pb_diff2 pb_only1 pb_only2 pb_md1 pb_md2]. repeat split; assumption || reflexivity.
        * intros HB. unfold published. cbn [pb_only1 pb_only2 pb_counts ms_heap]. split; [apply K5; exact HB|]. split; [reflexivity|]. exists t. split; [apply in_or_app; right; now left|reflexivity].
      + intros i _ HW. cbn [kid]. destruct (side_dec id i) as [<-|HN].
        * right. destruct id; cbn [upd ms_upd1 ms_upd2 ms_c] in *; f_equal; [now apply K1|now apply K3].
        * left. split; [congruence|]. destruct i, id; try (now contradiction HN); reflexivity. }
  destruct X as (E1 & E2 & E3 & E4 & E5 & E6 & E7).
  assert (EC : forall j, ms_c j s' = ms_c j s) by (intros []; assumption).
  split; [|split; [|split; [|split; [|split]]]].
  - intros j. rewrite E1, EC. apply (cinv_frame cfg j ls l (ms_heap s)); auto.
  - rewrite E2, E3. exact G2.
  - rewrite E1. exact E5.
  - exact E6.
  - intros j HKj HW HD. rewrite EC in *. rewrite silent_delivered in HD by apply ES.
    destruct (E7 j HKj HW) as [[H1 H2]|H]; [|exact H]. rewrite H2. now apply G5.
  - intros _. rewrite !silent_delivered by apply ES. apply G6. now right.
Qed.

Lemma step_ginv cfg ls s l s' : ginv cfg ls s -> mstep cfg s l = Some s' -> ginv cfg (ls ++ [l]) s'.
Proof.
  intros HG HE. pose proof HG as (G1 & _).
  destruct l as [i t r|i t p|i t|i| | | |t]; cbn [mstep] in HE.
  - apply (moved_ginv cfg i ls _ s s' HG); [now apply fetch_moved|]. intros j HN. cbn [silent]. now rewrite side_neq.
  - apply (moved_ginv cfg i ls _ s s' HG); [now apply pdu_moved|]. intros j HN. cbn [silent]. now rewrite side_neq.
  - apply (moved_ginv cfg i ls _ s s' HG); [now apply assign_moved|]. reflexivity.
  - now apply (send_ginv cfg i ls s).
  - now apply compare_ginv with (s := s).
  - now apply compare_ginv with (s := s).
  - now apply compare_ginv with (s := s).
  - now apply compare_ginv with (s := s).
Qed.
Lemma init_ginv cfg : ginv cfg [] ms_init.
Proof.
  split; [|split; [|split; [|split; [|split]]]].
  - intros i. assert (E : ms_c i ms_init = new_mclient) by (destruct i; reflexivity). rewrite E.
    split; [intros r []|]. split; [discriminate|]. destruct (k_file cfg i).
    + repeat split; constructor.
    + repeat split.
  - intros r [].
  - intros r [[]|[]].
  - intros i _. unfold delivered. destruct (k_file cfg i); reflexivity.
  - intros i _ _ HD. unfold delivered in HD. destruct (k_file cfg i); discriminate HD.
  - intros [H|H]; now contradiction H.
Qed.
Lemma mrun_snoc cfg ls l : mrun cfg (ls ++ [l]) = match mrun cfg ls with Some s => mstep cfg s l | None => None end.
Proof. unfold mrun. now rewrite fold_left_app. Qed.
Theorem reach_ginv cfg ls : forall s, mrun cfg ls = Some s -> ginv cfg ls s.
Proof.
  induction ls as [|l ls IH] using rev_ind; intros s HE.
  - injection HE as <-. apply init_ginv.
  - rewrite mrun_snoc in HE. destruct (mrun cfg ls) as [s0|] eqn:E; [|discriminate HE]. now apply (step_ginv cfg ls s0); [apply IH|].
Qed.

(** Rest. *)
Lemma run_renewed cfg i : k_file cfg i = false -> forall ls s, mrun cfg ls = Some s ->
  mc_last (ms_c i s) = match renewed i ls with Some t => t | None => zero_time end.
Proof.
  intros HK ls. induction ls as [|l ls IH] using rev_ind; intros s HR.
  - injection HR as <-. destruct i; reflexivity.
  - rewrite mrun_snoc in HR. destruct (mrun cfg ls) as [s0|] eqn:E; [|discriminate HR]. specialize (IH s0 eq_refl).
    unfold renewed. rewrite fold_left_app. cbn [fold_left]. fold (renewed i ls).
    destruct l as [j t r|j t p|j t|j| | | |t]; cbn [mstep] in HR.
    + unfold step_fetch in HR. destruct (k_file cfg j) eqn:EJ; [|discriminate HR].
      assert (HN : side_eqb j i = false) by (apply side_neq; congruence).
      assert (X : forall c h, mc_last (ms_c i (set_c j c h s0)) = match renewed i ls with Some t => t | None => zero_time end)
        by (intros c h; rewrite ms_c_set, HN; exact IH).
      destruct (mc_phase (ms_c j s0)); try discriminate HR. destruct r; try (injection HR as <-; exact IH).
      * destruct (update_refs _ _ _ _) as [[h m] n]. injection HR as <-. apply X.
      * destruct (build_refs _ _ _ _ _ _) as [[h m] n]. injection HR as <-. apply X.
    + unfold step_pdu in HR. destruct (k_file cfg j); [discriminate HR|]. destruct (mc_phase (ms_c j s0)) eqn:EPh; try discriminate HR.
      assert (X : forall f k e, let '(h, c) := data_ref f k e (ms_heap s0) (ms_c j s0) in mc_last c = mc_last (ms_c j s0))
        by (intros f k e; unfold data_ref; destruct (f =? FLAG_ADDED); reflexivity).
      assert (Y : forall c h, mc_last c = mc_last (ms_c j s0) -> mc_last (ms_c i (set_c j c h s0)) = match renewed i ls with Some t => t | None => zero_time end).
      { intros c h Hc. rewrite ms_c_set. destruct (side_dec j i) as [->|HN]; [rewrite side_refl; congruence|rewrite side_neq by exact HN; exact IH]. }
      destruct p; cbn iota beta in HR; try (injection HR as <-; apply Y; reflexivity);
        (match type of HR with context [data_ref ?f ?k ?e _ _] => specialize (X f k e); destruct (data_ref f k e (ms_heap s0) (ms_c j s0)) as [h c] end);
        injection HR as <-; now apply Y.
    + unfold step_assign in HR. destruct (mc_phase (ms_c j s0)) eqn:EPh; try discriminate HR; injection HR as <-; rewrite ms_c_set;
        destruct (side_dec j i) as [->|HN].
      * exfalso. destruct (reach_ginv cfg ls s0 E) as (G & _). destruct (G i) as (_ & _ & C). rewrite HK in C. unfold tinv in C. cbv zeta in C. rewrite EPh in C. tauto.
      * assert (HN' : i <> j) by congruence. rewrite !side_neq by assumption. exact IH.
      * rewrite !side_refl. reflexivity.
      * assert (HN' : i <> j) by congruence. rewrite !side_neq by assumption. exact IH.
    + unfold step_send in HR. destruct (mc_phase (ms_c j s0)) eqn:EPh; try discriminate HR. destruct (ms_comp s0); try discriminate HR. injection HR as <-.
      destruct i, j; exact IH.
    + unfold step_compare in HR. destruct (ms_comp s0); try discriminate HR. injection HR as <-. destruct i; exact IH.
    + unfold step_compare in HR. destruct (ms_comp s0); try discriminate HR. injection HR as <-. destruct i; exact IH.
    + unfold step_compare in HR. destruct (ms_comp s0); try discriminate HR. injection HR as <-. destruct i; exact IH.
    + unfold step_compare in HR. destruct (ms_comp s0); try discriminate HR. injection HR as <-. destruct i; exact IH.
Qed.
Lemma rest_told cfg ls s i : mrun cfg ls = Some s -> at_rest s -> values (ms_heap s) (mc_vrps (ms_c i s)) = told_map cfg i ls.
Proof.
  intros HR (R1 & R2 & _). destruct (reach_ginv cfg ls s HR) as (G1 & _). destruct (G1 i) as (_ & _ & C).
  assert (EPh : mc_phase (ms_c i s) = MIdle) by (destruct i; assumption). unfold told_map.
  destruct (k_file cfg i); [unfold finv in C|unfold tinv in C]; cbv zeta in C; rewrite EPh in C; tauto.
Qed.
Lemma rest_pub cfg ls s p : mrun cfg ls = Some s -> at_rest s -> ms_pub s = Some p ->
  sized p (mc_vrps (ms_c1 s)) (mc_vrps (ms_c2 s)) /\ published cfg ls (ms_heap s) p (mc_vrps (ms_c1 s)) (mc_vrps (ms_c2 s)) /\
  knows ls Pri (ms_c1 s) (mc_vrps (ms_c1 s)) (pb_md1 p) /\ knows ls Sec (ms_c2 s) (mc_vrps (ms_c2 s)) (pb_md2 p).
Proof.
  intros HR (R1 & R2 & R3) HP. destruct (reach_ginv cfg ls s HR) as (_ & _ & _ & G4 & _). unfold kinv in G4. rewrite R3, HP in G4.
  destruct G4 as (v1 & v2 & K1 & K2 & K3 & K4).
  assert (W1 : waits (mc_phase (ms_c1 s)) = true) by now rewrite R1. assert (W2 : waits (mc_phase (ms_c2 s)) = true) by now rewrite R2.
  destruct (K1 W1) as (E1 & _). destruct (K2 W2) as (E2 & _). subst v1 v2.
  split; [exact K3|]. split; [apply K4; split; assumption|]. auto.
Qed.

(** Entries change only by losing their visibility. *)
Definition evolves (h h' : heap) : Prop := (length h <= length h')%nat /\ forall r, (r < length h)%nat -> dimmed (deref h r) (deref h' r).
Lemma dimmed_trans a b c : dimmed a b -> dimmed b c -> dimmed a c.
Proof. unfold dimmed. intros [->| ->] [->| ->]; auto. Qed.
Lemma step_evolves cfg ls s l s' : ginv cfg ls s -> mstep cfg s l = Some s' -> evolves (ms_heap s) (ms_heap s').
Proof.
  intros HG HE. pose proof HG as (G1 & _).
  assert (HM : forall i, moved cfg i ls l s s' -> evolves (ms_heap s) (ms_heap s')).
  { intros i (h' & c' & -> & _ & (O1 & _ & O3) & _). rewrite heap_set. split; [exact O1|]. intros r Hr.
    destruct (O3 r Hr) as [H|(_ & _ & H)]; [now left|now right]. }
  assert (HS : ms_heap s' = ms_heap s -> evolves (ms_heap s) (ms_heap s')) by (intros ->; split; [lia|now left]).
  assert (HC : step_compare cfg l s = Some s' -> evolves (ms_heap s) (ms_heap s')).
  { intros E. apply HS. unfold step_compare in E. destruct (ms_comp s), l; try discriminate E; injection E as <-; reflexivity. }
  destruct l as [i t r|i t p|i t|i| | | |t]; cbn [mstep] in HE.
  - apply (HM i). now apply fetch_moved.
  - apply (HM i). now apply pdu_moved.
  - apply (HM i). now apply assign_moved.
  - apply HS. unfold step_send in HE. destruct (mc_phase (ms_c i s)), (ms_comp s); try discriminate HE. injection HE as <-. now destruct i.
  - now apply HC.
  - now apply HC.
  - now apply HC.
  - now apply HC.
Qed.
Definition no_publish (l : mlabel) : Prop := match l with LPublish _ => False | _ => True end.
Lemma step_pub cfg s l s' : mstep cfg s l = Some s' -> no_publish l -> ms_pub s' = ms_pub s.
Proof.
  intros HE HN.
  assert (HC : step_compare cfg l s = Some s' -> ms_pub s' = ms_pub s).
  { intros E. unfold step_compare in E. destruct (ms_comp s), l; try discriminate E; try contradiction; injection E as <-; reflexivity. }
  destruct l as [i t r|i t p|i t|i| | | |t]; cbn [mstep] in HE; try (now apply HC).
  - unfold step_fetch in HE. destruct (k_file cfg i); [|discriminate HE]. destruct (mc_phase (ms_c i s)), r; try discriminate HE;
      try (injection HE as <-; reflexivity).
    + destruct (update_refs _ _ _ _) as [[h m] n]. injection HE as <-. apply pub_set.
    + destruct (build_refs _ _ _ _ _ _) as [[h m] n]. injection HE as <-. apply pub_set.
  - unfold step_pdu in HE. destruct (k_file cfg i); [discriminate HE|]. destruct (mc_phase (ms_c i s)); try discriminate HE.
    match type of HE with context [let '(_, _) := ?x in _] => destruct x as [h c'] end. injection HE as <-. apply pub_set.
  - unfold step_assign in HE. destruct (mc_phase (ms_c i s)); try discriminate HE; injection HE as <-; apply pub_set.
  - unfold step_send in HE. destruct (mc_phase (ms_c i s)), (ms_comp s); try discriminate HE. injection HE as <-. now destruct i.
Qed.
Lemma run_evolves cfg ls ls' : forall s s', mrun cfg ls = Some s -> mrun cfg (ls ++ ls') = Some s' -> Forall no_publish ls' ->
  evolves (ms_heap s) (ms_heap s') /\ ms_pub s' = ms_pub s.
Proof.
  induction ls' as [|l ls' IH] using rev_ind; intros s s' H1 H2 HN.
  - rewrite app_nil_r in H2. assert (s' = s) by congruence. subst s'. split; [split; [lia|now left]|reflexivity].
  - apply Forall_app in HN. destruct HN as [HN1 HN2]. inversion HN2 as [|? ? HN3 _]; subst.
    rewrite app_assoc, mrun_snoc in H2. destruct (mrun cfg (ls ++ ls')) as [s1|] eqn:E1; [|discriminate H2].
    destruct (IH s s1 H1 eq_refl HN1) as [[I1 I2] I3]. destruct (step_evolves cfg _ s1 l s' (reach_ginv cfg _ s1 E1) H2) as [J1 J2].
    split; [|rewrite (step_pub cfg s1 l s' H2 HN3); exact I3]. split; [lia|]. intros r Hr. apply (dimmed_trans _ (deref (ms_heap s1) r)); [now apply I2|].
    apply J2. lia.
Qed.
(** Without files nothing is written to. *)
Lemma step_const cfg ls s l s' : (forall i, k_file cfg i = false) -> ginv cfg ls s -> mstep cfg s l = Some s' ->
  forall r, (r < length (ms_heap s))%nat -> deref (ms_heap s') r = deref (ms_heap s) r.
Proof.
  intros HK HG HE r Hr.
  assert (HC : step_compare cfg l s = Some s' -> ms_heap s' = ms_heap s).
  { intros E. unfold step_compare in E. destruct (ms_comp s), l; try discriminate E; injection E as <-; reflexivity. }
  destruct l as [i t q|i t p|i t|i| | | |t]; cbn [mstep] in HE; try (now rewrite HC).
  - unfold step_fetch in HE. rewrite HK in HE. discriminate HE.
  - unfold step_pdu in HE. rewrite HK in HE. destruct (mc_phase (ms_c i s)); try discriminate HE.
    assert (HD : forall f k e, let '(h, c) := data_ref f k e (ms_heap s) (ms_c i s) in deref h r = deref (ms_heap s) r).
    { intros f k e. unfold data_ref. destruct (f =? FLAG_ADDED); [now apply deref_app|reflexivity]. }
    destruct p; try (injection HE as <-; rewrite heap_set; reflexivity);
      match type of HE with context [data_ref ?f ?k ?e ?h ?c] => specialize (HD f k e); destruct (data_ref f k e h c) as [h' c'] end;
      injection HE as <-; rewrite heap_set; exact HD.
  - unfold step_assign in HE. destruct (mc_phase (ms_c i s)); try discriminate HE; injection HE as <-; now rewrite heap_set.
  - unfold step_send in HE. destruct (mc_phase (ms_c i s)), (ms_comp s); try discriminate HE. injection HE as <-. now destruct i.
Qed.
Lemma run_const cfg ls ls' : (forall i, k_file cfg i = false) -> forall s s', mrun cfg ls = Some s -> mrun cfg (ls ++ ls') = Some s' ->
  (length (ms_heap s) <= length (ms_heap s'))%nat /\ forall r, (r < length (ms_heap s))%nat -> deref (ms_heap s') r = deref (ms_heap s) r.
Proof.
  intros HK. induction ls' as [|l ls' IH] using rev_ind; intros s s' H1 H2.
  - rewrite app_nil_r in H2. assert (s' = s) by congruence. subst s'. auto.
  - rewrite app_assoc, mrun_snoc in H2. destruct (mrun cfg (ls ++ ls')) as [s1|] eqn:E1; [|discriminate H2].
    destruct (IH s s1 H1 eq_refl) as [I1 I2]. pose proof (reach_ginv cfg _ s1 E1) as G.
    destruct (step_evolves cfg _ s1 l s' G H2) as [J1 _]. split; [lia|]. intros r Hr. rewrite <- I2 by exact Hr.
    apply (step_const cfg _ s1 l s' HK G H2). lia.
Qed.

(** Internal steps. *)
Definition prank (p : cphase) : nat := match p with MIdle => 0 | MSending => 5 | _ => 6 end.
Definition krank (k : kphase) : nat := match k with KIdle => 0 | KGot _ => 4 | KHave1 _ _ _ => 3 | KHave2 _ _ _ _ _ => 2 | KDiff _ _ _ _ _ _ => 1 end.
Definition mrank (s : mstate) : nat := prank (mc_phase (ms_c1 s)) + prank (mc_phase (ms_c2 s)) + krank (ms_comp s).
Lemma mrank_step cfg s l s' : internal l -> mstep cfg s l = Some s' -> (mrank s' < mrank s)%nat.
Proof.
  intros HI HE. unfold mrank.
  assert (HC : step_compare cfg l s = Some s' -> (mrank s' < mrank s)%nat).
  { intros E. unfold step_compare in E. unfold mrank. destruct (ms_comp s), l; try discriminate E; injection E as <-; cbn [set_comp ms_c1 ms_c2 ms_comp krank]; lia. }
  destruct l as [i t r|i t p|i t|i| | | |t]; cbn [mstep internal] in *; try contradiction; try (now apply HC).
  - unfold step_assign in HE. destruct (mc_phase (ms_c i s)) eqn:E; try discriminate HE; injection HE as <-;
      destruct i; cbn [ms_c] in E; cbn [set_c ms_c1 ms_c2 ms_comp mc_phase]; rewrite E; cbn [prank]; lia.
  - unfold step_send in HE. destruct (mc_phase (ms_c i s)) eqn:E; try discriminate HE. destruct (ms_comp s) eqn:EK; try discriminate HE.
    injection HE as <-. destruct i; cbn [ms_c] in E; cbn [set_comp set_c set_mphase ms_c ms_c1 ms_c2 ms_comp mc_phase]; rewrite E; cbn [prank krank]; lia.
Qed.
Lemma busy_step cfg s : ~ at_rest s -> exists l, internal l /\ exists s', mstep cfg s l = Some s'.
Proof.
  intros HR. destruct (ms_comp s) as [|id|id v1 d1|id v1 d1 v2 d2|id v1 d1 v2 d2 o1] eqn:EK.
  - assert (HP : forall i, mc_phase (ms_c i s) <> MIdle -> exists l, internal l /\ exists s', mstep cfg s l = Some s').
    { intros i HN. destruct (mc_phase (ms_c i s)) as [|m n t|m r u e|] eqn:E; [now contradiction HN| | |].
      - exists (LAssign i 0). split; [exact I|]. cbn [mstep]. unfold step_assign. rewrite E. eauto.
      - exists (LAssign i 0). split; [exact I|]. cbn [mstep]. unfold step_assign. rewrite E. eauto.
      - exists (LSend i). split; [exact I|]. cbn [mstep]. unfold step_send. rewrite E, EK. eauto. }
    destruct (mc_phase (ms_c1 s)) eqn:E1; [destruct (mc_phase (ms_c2 s)) eqn:E2|..];
      try (apply (HP Pri); cbn [ms_c]; rewrite E1; discriminate); try (apply (HP Sec); cbn [ms_c]; rewrite E2; discriminate).
    exfalso. apply HR. split; [exact E1|]. split; [exact E2|exact EK].
  - exists LGet1. split; [exact I|]. cbn [mstep]. unfold step_compare. rewrite EK. cbn [get_data]. eauto.
  - exists LGet2. split; [exact I|]. cbn [mstep]. unfold step_compare. rewrite EK. cbn [get_data]. eauto.
  - exists LDiff. split; [exact I|]. cbn [mstep]. unfold step_compare. rewrite EK. eauto.
  - exists (LPublish (fun _ => 0%Z)). split; [exact I|]. cbn [mstep]. unfold step_compare. rewrite EK. eauto.
Qed.
Lemma internal_bounded cfg ls ls' : forall s s', mrun cfg ls = Some s -> Forall internal ls' -> mrun cfg (ls ++ ls') = Some s' ->
  (length ls' + mrank s' <= mrank s)%nat.
Proof.
  induction ls' as [|l ls' IH] using rev_ind; intros s s' H1 HI H2.
  - rewrite app_nil_r in H2. assert (s' = s) by congruence. subst s'. cbn. lia.
  - apply Forall_app in HI. destruct HI as [I1 I2]. inversion I2 as [|? ? I3 _]; subst.
    rewrite app_assoc, mrun_snoc in H2. destruct (mrun cfg (ls ++ ls')) as [s1|] eqn:E1; [|discriminate H2].
    pose proof (IH s s1 H1 I1 eq_refl) as J1. pose proof (mrank_step cfg s1 l s' I3 H2). rewrite app_length. cbn [length]. lia.
Qed.
Lemma prank_le p : (prank p <= 6)%nat. Proof. destruct p; cbn; lia. Qed.
Lemma krank_le k : (krank k <= 4)%nat. Proof. destruct k; cbn; lia. Qed.
Lemma mrank_le s : (mrank s <= 16)%nat.
Proof. unfold mrank. pose proof (prank_le (mc_phase (ms_c1 s))). pose proof (prank_le (mc_phase (ms_c2 s))). pose proof (krank_le (ms_comp s)). lia. Qed.
Lemma settles cfg n : forall ls s, mrun cfg ls = Some s -> (mrank s <= n)%nat ->
  exists ls' s', Forall internal ls' /\ mrun cfg (ls ++ ls') = Some s' /\ at_rest s'.
Proof.
  assert (RD : forall s, {at_rest s} + {~ at_rest s}).
  { intros s. unfold at_rest. destruct (mc_phase (ms_c1 s)); try (right; intros (H & _); discriminate H).
    destruct (mc_phase (ms_c2 s)); try (right; intros (_ & H & _); discriminate H).
    destruct (ms_comp s); try (right; intros (_ & _ & H); discriminate H). now left. }
  induction n as [|n IH]; intros ls s HR HN; (destruct (RD s) as [R|R]; [exists [], s; rewrite app_nil_r; auto|]);
    destruct (busy_step cfg s R) as (l & HI & s1 & HE); pose proof (mrank_step cfg s l s1 HI HE); [lia|].
  assert (H1 : mrun cfg (ls ++ [l]) = Some s1) by now rewrite mrun_snoc, HR.
  destruct (IH (ls ++ [l]) s1 H1 ltac:(lia)) as (ls' & s' & J1 & J2 & J3). rewrite <- app_assoc in J2.
  exists ([l] ++ ls'), s'. split; [constructor; assumption|]. auto.
Qed.

(** Objects of RTR servers are always visible. *)
Definition all_visible (m : vmap) : Prop := forall k e, In (k, e) m -> m_visible e = true.
Lemma rtr_visible break l : forall c, all_visible (mo_rtr c) -> all_visible (mo_vrps c) ->
  all_visible (mo_rtr (mon_pdus break c l)) /\ all_visible (mo_vrps (mon_pdus break c l)).
Proof.
  induction l as [|[t p] l IH]; intros c H1 H2; [auto|]. unfold mon_pdus. cbn [fold_left fst snd].
  assert (HD : forall f k e, m_visible e = true -> all_visible (mo_rtr (mon_data f k e c)) /\ all_visible (mo_vrps (mon_data f k e c))).
  { intros f k e HE. cbn [mon_data mo_set_rtr mo_rtr mo_vrps]. split; [|exact H2]. destruct (f =? FLAG_ADDED); intros k' e' HI.
    - apply in_gset in HI. destruct HI as [[_ ->]|HI]; [exact HE|now apply (H1 k')].
    - unfold gdel in HI. apply filter_In in HI. now apply (H1 k'). }
  apply IH; destruct p; cbn [mon_handle fst mo_rtr mo_vrps]; auto; now apply HD.
Qed.
