(** Theorems about rtrmon at run time: C69, C72, C76, C81, C82. *)
From Coq Require Import String ZifyBool ZifyNat ZifyN.
From Verif Require Import Lib.Str Spec.MonRun Spec.Wire Proofs.WireP Proofs.SessionP Proofs.MonitorP Proofs.MonitorP2 Proofs.MonProcP Proofs.MonRunP.
From Verif Require Import Props.CacheProps Props.ConnProps Props.ClientProps Props.MonitorProps.
Local Open Scope string_scope.
Local Open Scope list_scope.
Local Open Scope N_scope.
Ltac Zify.zify_post_hook ::= Z.div_mod_to_equations.

(** * C81 The report is the difference of what the sources told *)
(** Whatever the goroutines did in between. *)
Theorem C81_rest : forall cfg ls s p, Forall good_label ls -> mrun cfg ls = Some s -> at_rest s -> ms_pub s = Some p ->
  let m1 := told_map cfg Pri ls in
  let m2 := told_map cfg Sec ls in
  let '(only1, only2, _) := serve_diff s in
  (forall o e, has only1 o e <-> has m1 o e /\ m_visible e = true /\ ~ shown m2 o) /\
  (forall o e, has only2 o e <-> has m2 o e /\ m_visible e = true /\ ~ shown m1 o) /\
  number (pb_diff1 p) (fun o => shown m1 o /\ ~ shown m2 o) /\
  number (pb_diff2 p) (fun o => shown m2 o /\ ~ shown m1 o) /\
  exists clk, In (LPublish clk) ls /\
    map (fun x => fst (fst x)) (pb_counts p) = map (fun k => nth k (k_thresholds cfg) 0%Z)
      (filter (fun k => (k_started cfg <=? clk k - nth k (k_thresholds cfg) 0)%Z) (seq 0 (length (k_thresholds cfg)))) /\
    forall t n1 n2, In (t, n1, n2) (pb_counts p) -> exists k now,
    nth_error (k_thresholds cfg) k = Some t /\ now = clk k /\ (k_started cfg <= now - t)%Z /\
    number n1 (fun o => (exists e, has m1 o e /\ m_visible e = true /\ (m_first e <= now - t)%Z) /\
       forall e, has m2 o e -> m_visible e = false /\ (m_last e <= now - t)%Z) /\
    number n2 (fun o => (exists e, has m2 o e /\ m_visible e = true /\ (m_first e <= now - t)%Z) /\
       forall e, has m1 o e -> m_visible e = false /\ (m_last e <= now - t)%Z).
Proof.
  intros cfg ls s p HG HR HA HP. cbv zeta. destruct (rest_pub cfg ls s p HR HA HP) as (Z1 & (P1 & P2 & clk & PT & P3) & _).
  pose proof (rest_told cfg ls s Pri HR HA) as T1. pose proof (rest_told cfg ls s Sec HR HA) as T2. cbn [ms_c] in T1, T2.
  pose proof (told_source cfg Pri ls HG) as S1. pose proof (told_source cfg Sec ls HG) as S2.
  unfold serve_diff. rewrite HP. destruct Z1 as (_ & _ & Z3 & Z4 & _).
  assert (V1 : values (ms_heap s) (pb_only1 p) = mdiff (told_map cfg Pri ls) (told_map cfg Sec ls)) by (rewrite P1, diff_refs_values, T1, T2; reflexivity).
  assert (V2 : values (ms_heap s) (pb_only2 p) = mdiff (told_map cfg Sec ls) (told_map cfg Pri ls)) by (rewrite P2, diff_refs_values, T1, T2; reflexivity).
  destruct (C52_sets (k_thresholds cfg) (k_started cfg) clk _ _ S1 S2) as (C1 & C2 & C3 & C4).
  rewrite V1, V2, Z3, Z4, <- (values_len (ms_heap s) (pb_only1 p)), <- (values_len (ms_heap s) (pb_only2 p)), V1, V2.
  split; [exact C1|]. split; [exact C2|]. split; [exact C3|]. split; [exact C4|].
  exists clk. split; [exact PT|]. split.
  { rewrite P3. unfold pub_counts. rewrite V1, V2, T1, T2. apply (C52_thresholds (k_thresholds cfg) (k_started cfg) clk). }
  intros t n1 n2 HI. apply (C52_counts (k_thresholds cfg) (k_started cfg) clk _ _ t n1 n2 S1 S2).
  rewrite P3 in HI. unfold pub_counts in HI. rewrite V1, V2, T1, T2 in HI. exact HI.
Qed.
(** Before the first comparison there is no report, and only then. *)
Theorem C81_nothing : forall cfg ls s, mrun cfg ls = Some s -> at_rest s ->
  (ms_pub s = None <-> forall i, delivered cfg i ls = false).
Proof.
  intros cfg ls s HR (R1 & R2 & R3). destruct (reach_ginv cfg ls s HR) as (_ & _ & _ & G4 & _ & G6). unfold kinv in G4. rewrite R3 in G4. split.
  - intros HP i. rewrite HP in G4. apply G4. destruct i; cbn [ms_c]; [now rewrite R1|now rewrite R2].
  - intros HD. destruct (ms_pub s) eqn:E; [|reflexivity]. assert (H : delivered cfg Pri ls || delivered cfg Sec ls = true) by (apply G6; left; congruence).
    rewrite !HD in H. discriminate H.
Qed.
(** It always comes to rest, whatever the schedule: at most 16 steps of its own are possible in
    a row, and while it is not at rest one is possible. *)
Theorem C81_settles : forall cfg ls s, mrun cfg ls = Some s ->
  (exists ls' s', Forall internal ls' /\ mrun cfg (ls ++ ls') = Some s' /\ at_rest s') /\
  (forall ls' s', Forall internal ls' -> mrun cfg (ls ++ ls') = Some s' ->
     (length ls' <= 16)%nat /\ (at_rest s' \/ exists l s'', internal l /\ mrun cfg (ls ++ ls' ++ [l]) = Some s'')).
Proof.
  intros cfg ls s HR. split; [apply (settles cfg (mrank s) ls s HR); lia|]. intros ls' s' HI HR'.
  pose proof (internal_bounded cfg ls ls' s s' HR HI HR'). pose proof (mrank_le s). split; [lia|].
  destruct (mc_phase (ms_c1 s')) eqn:E1; [destruct (mc_phase (ms_c2 s')) eqn:E2; [destruct (ms_comp s') eqn:E3; [left; repeat split; assumption|..]|..]|..];
    right; (destruct (busy_step cfg s') as (l & L1 & s'' & L2); [intros (X1 & X2 & X3); congruence|]);
    exists l, s''; (split; [exact L1|]); rewrite app_assoc, mrun_snoc, HR'; exact L2.
Qed.
(** The primary is a file, the secondary an RTR server. *)
Definition cfgR : mcfg := mkMCfg 1000 [0; 100]%Z 0 (fun i => match i with Pri => true | Sec => false end) (fun _ => false).
Definition cycle (t : Z) : list mlabel := [LGet1; LGet2; LDiff; LPublish (fun _ => t)].
(** The file is read while the comparison of the response is under way. *)
Definition ls81 : list mlabel :=
  [LFetch Pri 100 L1; LAssign Pri 100; LPdu Sec 100 (CacheResponse 1 7); LSend Pri; LGet1; LPdu Sec 101 (ann 1); LPdu Sec 101 (eod 1); LGet2;
   LAssign Sec 102; LDiff; LPublish (fun _ => 102%Z); LSend Sec; LGet1; LGet2; LFetch Pri 300 L2; LDiff; LAssign Pri 300; LPublish (fun k => 301 + Z.of_nat k)%Z; LSend Pri] ++ cycle 400.
Lemma ls81_good : Forall good_label ls81.
Proof. repeat constructor; vm_compute; try reflexivity; intuition discriminate. Qed.
Example C81_case : exists s p, Forall good_label ls81 /\ mrun cfgR ls81 = Some s /\ at_rest s /\ ms_pub s = Some p /\
  nlen (pb_only1 p) = 2 /\ nlen (pb_only2 p) = 1 /\ pb_counts p = [(0%Z, 2, 1); (100%Z, 2, 1)] /\
  delivered cfgR Sec ls81 = true.
Proof.
  eexists. eexists. split; [exact ls81_good|]. split; [vm_compute; reflexivity|]. split; [vm_compute; auto|].
  split; [vm_compute; reflexivity|]. vm_compute. auto.
Qed.
(** Sixteen steps are possible. *)
Example C81_settles_case : exists s s', mrun cfgR [LFetch Pri 100 L1; LAssign Pri 100; LSend Pri; LPdu Sec 100 (eod 1); LFetch Pri 100 L1] = Some s /\
  mrun cfgR ([LFetch Pri 100 L1; LAssign Pri 100; LSend Pri; LPdu Sec 100 (eod 1); LFetch Pri 100 L1] ++
     cycle 100 ++ [LAssign Sec 0; LAssign Pri 0; LSend Sec] ++ cycle 100 ++ [LSend Pri] ++ cycle 101) = Some s' /\ at_rest s' /\ ~ at_rest s.
Proof.
  eexists. eexists. split; [vm_compute; reflexivity|]. split; [vm_compute; reflexivity|]. split; [vm_compute; auto|].
  intros (_ & _ & H). vm_compute in H. discriminate H.
Qed.

(** * C72 diff.json until the next comparison *)
(** The lists keep their entries; an entry can only lose its visibility.
    (Missing: that it does not, see below.) *)
Theorem C72_stays_partial : forall cfg ls ls' s s', mrun cfg ls = Some s -> mrun cfg (ls ++ ls') = Some s' ->
  (forall t, ~ In (LPublish t) ls') ->
  let '(a, b, md) := serve_diff s in
  let '(a', b', md') := serve_diff s' in
  md' = md /\
  Forall2 (fun x y => fst x = fst y /\ dimmed (snd x) (snd y)) a a' /\
  Forall2 (fun x y => fst x = fst y /\ dimmed (snd x) (snd y)) b b' /\
  ((forall i, k_file cfg i = false) -> a' = a /\ b' = b).
Proof.
  intros cfg ls ls' s s' H1 H2 HN.
  assert (HF : Forall no_publish ls').
  { apply Forall_forall. intros l Hl. destruct l; try exact I. now apply (HN clk). }
  destruct (run_evolves cfg ls ls' s s' H1 H2 HF) as [[E1 E2] E3]. unfold serve_diff. rewrite E3.
  destruct (ms_pub s) as [p|] eqn:EP; [|repeat split; constructor].
  destruct (reach_ginv cfg ls s H1) as (_ & _ & G3 & _). rewrite EP in G3. cbn [brefs] in G3.
  assert (HV : forall m, (forall r, In r (refs m) -> (r < length (ms_heap s))%nat) ->
    Forall2 (fun x y => fst x = fst y /\ dimmed (snd x) (snd y)) (values (ms_heap s) m) (values (ms_heap s') m)).
  { induction m as [|[k r] m IH]; intros HB; cbn [values map fst snd]; constructor.
    - cbn [fst snd]. split; [reflexivity|]. apply E2, HB. now left.
    - apply IH. intros q Hq. apply HB. now right. }
  split; [reflexivity|]. split; [apply HV; intros r Hr; apply G3; right; apply in_or_app; now left|].
  split; [apply HV; intros r Hr; apply G3; right; apply in_or_app; now right|].
  intros HK. destruct (run_const cfg ls ls' HK s s' H1 H2) as [_ HD].
  split; apply values_ext; intros r Hr; apply HD, G3; right; apply in_or_app; [now left|now right].
Qed.
(** The next download of a file clears Visible of entries diff.json refers to. *)
Definition cfgFF : mcfg := mkMCfg 1000 [0]%Z 0 (fun _ => true) (fun _ => false).
Theorem C72_stays_refuted : exists ls ls' s s', Forall good_label (ls ++ ls') /\ mrun cfgFF ls = Some s /\ at_rest s /\
  mrun cfgFF (ls ++ ls') = Some s' /\ (forall t, ~ In (LPublish t) ls') /\
  let '(a, _, _) := serve_diff s in
  let '(a', _, _) := serve_diff s' in
  (exists e, has a o1 e /\ m_visible e = true) /\ (exists e, has a' o1 e /\ m_visible e = false).
Proof.
  exists ([LFetch Pri 100 L1; LAssign Pri 100; LSend Pri] ++ cycle 100), [LFetch Pri 200 L2]. eexists. eexists.
  split; [repeat constructor; vm_compute; try reflexivity; intuition discriminate|].
  split; [vm_compute; reflexivity|]. split; [vm_compute; auto|]. split; [vm_compute; reflexivity|].
  split; [intros t [H|[]]; discriminate H|]. cbn [serve_diff ms_pub]. split.
  - exists (mkME 65001 24 (str "10.0.0.0/24") 100 100 true None). split; [|reflexivity].
    exists (str "10.0.0.0/24-24-65001"). split; [vm_compute; tauto|vm_compute; reflexivity].
  - exists (mkME 65001 24 (str "10.0.0.0/24") 100 100 false None). split; [|reflexivity].
    exists (str "10.0.0.0/24-24-65001"). split; [vm_compute; tauto|vm_compute; reflexivity].
Qed.
Example C72_case : exists s s', mrun cfgR ls81 = Some s /\ mrun cfgR (ls81 ++ [LPdu Sec 500 (ann 0); LPdu Sec 500 (eod 2); LFetch Pri 500 L1]) = Some s' /\
  (forall t, ~ In (LPublish t) [LPdu Sec 500 (ann 0); LPdu Sec 500 (eod 2); LFetch Pri 500 L1]) /\ nlen (fst (fst (serve_diff s))) = 2.
Proof.
  eexists. eexists. split; [vm_compute; reflexivity|]. split; [vm_compute; reflexivity|].
  split; [intros t [H|[H|[H|[]]]]; discriminate H|vm_compute; reflexivity].
Qed.

(** * C69 The totals *)
(** The gauge rpki_vrps{type="total"} and the member count of diff.json: the objects visible and,
    with files, those in the grace period.  (Missing: only visible ones, see below.) *)
Theorem C69_totals_partial : forall cfg ls s p, Forall good_label ls -> mrun cfg ls = Some s -> at_rest s -> ms_pub s = Some p ->
  number (pb_total1 p) (fun o => exists e, has (told_map cfg Pri ls) o e) /\ md_count (pb_md1 p) = pb_total1 p /\
  number (pb_total2 p) (fun o => exists e, has (told_map cfg Sec ls) o e) /\ md_count (pb_md2 p) = pb_total2 p /\
  (forall i, number (mc_ingrace (ms_c i s)) (fun o => exists e, has (told_map cfg i ls) o e /\ m_visible e = false)).
Proof.
  intros cfg ls s p HG HR HA HP. destruct (rest_pub cfg ls s p HR HA HP) as ((Z1 & Z2 & _ & _ & Z5 & Z6) & _ & _).
  pose proof (rest_told cfg ls s Pri HR HA) as T1. pose proof (rest_told cfg ls s Sec HR HA) as T2. cbn [ms_c] in T1, T2.
  pose proof (source_minv _ (told_source cfg Pri ls HG)) as S1. pose proof (source_minv _ (told_source cfg Sec ls HG)) as S2.
  assert (N1 : number (pb_total1 p) (fun o => exists e, has (told_map cfg Pri ls) o e)).
  { rewrite Z1, <- (values_len (ms_heap s)), T1. apply eobjs_number; [exact S1|]. intros o. reflexivity. }
  assert (N2 : number (pb_total2 p) (fun o => exists e, has (told_map cfg Sec ls) o e)).
  { rewrite Z2, <- (values_len (ms_heap s)), T2. apply eobjs_number; [exact S2|]. intros o. reflexivity. }
  split; [exact N1|]. split; [congruence|]. split; [exact N2|]. split; [congruence|].
  intros i. pose proof (source_minv _ (told_source cfg i ls HG)) as SI.
  destruct (reach_ginv cfg ls s HR) as (G1 & _). destruct (G1 i) as (_ & _ & C). destruct HA as (R1 & R2 & _).
  assert (EPh : mc_phase (ms_c i s) = MIdle) by (destruct i; assumption). unfold told_map in *.
  destruct (k_file cfg i).
  - unfold finv in C. cbv zeta in C. rewrite EPh in C. destruct C as (_ & _ & _ & _ & _ & _ & _ & _ & _ & _ & C).
    rewrite (C HG). now apply invisible_number.
  - unfold tinv in C. cbv zeta in C. destruct C as (_ & _ & _ & -> & _). exists []. split; [constructor|]. split; [|reflexivity].
    intros o. split; [intros []|]. intros (e & (k & HI & _) & HV).
    destruct (rtr_visible (k_break cfg i) (pdus_of i ls) new_mon) as [_ HA]; [intros ? ? []|intros ? ? []|].
    rewrite (HA k e HI) in HV. discriminate HV.
Qed.
(** So each total is the number of objects shown plus the gauge of the grace period, and it is the number
    shown exactly when that gauge is 0, as it always is for an RTR server. *)
Theorem C69_split_partial : forall cfg ls s p i, Forall good_label ls -> mrun cfg ls = Some s -> at_rest s -> ms_pub s = Some p ->
  let total := match i with Pri => pb_total1 p | Sec => pb_total2 p end in
  exists v, number v (shown (told_map cfg i ls)) /\ total = v + mc_ingrace (ms_c i s) /\
    (number total (shown (told_map cfg i ls)) <-> mc_ingrace (ms_c i s) = 0) /\
    (k_file cfg i = false -> mc_ingrace (ms_c i s) = 0).
Proof.
  intros cfg ls s p i HG HR HA HP. cbv zeta. destruct (C69_totals_partial cfg ls s p HG HR HA HP) as (N1 & _ & N2 & _ & NG).
  specialize (NG i). pose proof (source_minv _ (told_source cfg i ls HG)) as SI.
  set (total := match i with Pri => pb_total1 p | Sec => pb_total2 p end).
  assert (NT : number total (fun o => exists e, has (told_map cfg i ls) o e)) by (unfold total; destruct i; assumption).
  assert (NV : number (nlen (filter (fun x => m_visible (snd x)) (told_map cfg i ls))) (shown (told_map cfg i ls))).
  { apply eobjs_number; [now apply minv_filter|]. intros o. split.
    - intros (e & k & HI & HE). apply filter_In in HI as [HI HV]. exists e. split; [exists k; auto|exact HV].
    - intros (e & (k & HI & HE) & HV). exists e, k. split; [|exact HE]. apply filter_In. split; [exact HI|exact HV]. }
  assert (ET : total = nlen (told_map cfg i ls)).
  { apply (number_unique _ _ _ NT). apply eobjs_number; [exact SI|]. intros o. reflexivity. }
  assert (EG : mc_ingrace (ms_c i s) = nlen (filter invisible (told_map cfg i ls))).
  { exact (number_unique _ _ _ NG (invisible_number _ SI)). }
  assert (EQ : total = nlen (filter (fun x => m_visible (snd x)) (told_map cfg i ls)) + mc_ingrace (ms_c i s)).
  { rewrite ET, EG. clear. induction (told_map cfg i ls) as [|x m IH]; [reflexivity|].
    unfold nlen, invisible in *. cbn [filter]. destruct (m_visible (snd x)); cbn [negb length]; lia. }
  exists (nlen (filter (fun x => m_visible (snd x)) (told_map cfg i ls))). split; [exact NV|]. split; [exact EQ|]. split.
  - split.
    + intros H. pose proof (number_unique _ _ _ H NV). lia.
    + intros H. replace total with (nlen (filter (fun x => m_visible (snd x)) (told_map cfg i ls))) by lia. exact NV.
  - intros HK. destruct NG as (l & _ & HL & ->). destruct l as [|o l]; [reflexivity|].
    destruct (proj1 (HL o) (or_introl eq_refl)) as (e & (k & HI & _) & HV). unfold told_map in HI. rewrite HK in HI.
    destruct (rtr_visible (k_break cfg i) (pdus_of i ls) new_mon) as [_ HX]; [intros ? ? []|intros ? ? []|].
    rewrite (HX k e HI) in HV. discriminate HV.
Qed.
(** Two objects are listed, the total is three: one is gone since the first download. *)
Theorem C69_totals_refuted : exists ls s p, Forall good_label ls /\ mrun cfgFF ls = Some s /\ at_rest s /\ ms_pub s = Some p /\
  rounds_of Pri ls = [(200%Z, L2); (100%Z, L1)] /\ pb_total1 p = 3 /\ md_count (pb_md1 p) = 3 /\
  number 2 (shown (told_map cfgFF Pri ls)).
Proof.
  exists ([LFetch Pri 100 L1; LAssign Pri 100; LSend Pri] ++ cycle 100 ++ [LFetch Pri 200 L2; LAssign Pri 200; LSend Pri] ++ cycle 200).
  eexists. eexists. split; [repeat constructor; vm_compute; try reflexivity; intuition discriminate|].
  split; [vm_compute; reflexivity|]. split; [vm_compute; auto|]. split; [vm_compute; reflexivity|].
  split; [vm_compute; reflexivity|]. split; [vm_compute; reflexivity|]. split; [vm_compute; reflexivity|].
  set (m := told_map _ _ _). vm_compute in m. exists [o2; OK (str "a1b2") 7 [48; 89]].
  split; [repeat constructor; cbn [In]; intuition discriminate|]. split; [|reflexivity].
  intros o. split.
  - intros [<-|[<-|[]]].
    + eexists. split; [eexists; split; [right; right; left; reflexivity|vm_compute; reflexivity]|reflexivity].
    + eexists. split; [eexists; split; [right; left; reflexivity|vm_compute; reflexivity]|reflexivity].
  - intros (e & (k & HI & HE) & HV). unfold m in HI. cbn [In] in HI.
    destruct HI as [HI|[HI|[HI|[]]]]; injection HI as <- <-; try discriminate HV; vm_compute in HE; injection HE as <-; [right; left; reflexivity|left; reflexivity].
Qed.
Example C69_case : exists s p, Forall good_label ls81 /\ mrun cfgR ls81 = Some s /\ at_rest s /\ ms_pub s = Some p /\
  (pb_total1 p, pb_total2 p, mc_ingrace (ms_c1 s), mc_ingrace (ms_c2 s)) = (3, 1, 1, 0).
Proof.
  eexists. eexists. split; [exact ls81_good|]. split; [vm_compute; reflexivity|]. split; [vm_compute; auto|].
  split; vm_compute; reflexivity.
Qed.

(** * C82 Metadata and data belong together *)
(** At rest, and when no response is open.  (Missing: always, see below.) *)
Theorem C82_metadata_partial : forall cfg ls s p i, mrun cfg ls = Some s -> at_rest s -> ms_pub s = Some p ->
  let d := match i with Pri => pb_md1 p | Sec => pb_md2 p end in
  let u := match i with Pri => ms_upd1 s | Sec => ms_upd2 s end in
  (if k_file cfg i
   then md_serial d = 0 /\ md_session d = 0 /\ md_refresh d = 0 /\ md_retry d = 0 /\ md_expire d = 0 /\
        md_last d = match newest (rounds_of i ls) with Some t => t | None => (-6795364578)%Z end
   else let M := told_rtr cfg i ls in
        md_serial d = mo_serial M /\ md_refresh d = mo_refresh M /\ md_retry d = mo_retry M /\ md_expire d = mo_expire M /\
        md_last d = match renewed i ls with Some t => t | None => (-6795364578)%Z end /\
        (closed i ls = true -> md_session d = mo_session M)) /\
  (delivered cfg i ls = true -> u = Some (md_last d)).
Proof.
  intros cfg ls s p i HR HA HP. cbv zeta.
  destruct (rest_pub cfg ls s p HR HA HP) as (_ & _ & K1 & K2). destruct (reach_ginv cfg ls s HR) as (G1 & _ & _ & _ & G5 & _).
  pose proof HA as (R1 & R2 & R3).
  assert (EPh : mc_phase (ms_c i s) = MIdle) by (destruct i; assumption).
  assert (W : waits (mc_phase (ms_c i s)) = true) by now rewrite EPh.
  assert (K : knows ls i (ms_c i s) (mc_vrps (ms_c i s)) (match i with Pri => pb_md1 p | Sec => pb_md2 p end)) by (destruct i; assumption).
  destruct (K W) as (_ & D1 & D2 & D3 & D4 & D5 & D6). destruct (G1 i) as (_ & _ & C). split.
  - destruct (k_file cfg i) eqn:EK.
    + unfold finv in C. cbv zeta in C. rewrite EPh in C. destruct C as (_ & _ & C3 & C4 & C5 & C6 & C7 & _ & _ & C9 & _).
      rewrite D2, D3, D4, D5, D1. do 1 (split; [assumption|]). split; [|auto]. rewrite D6; [exact C4|].
      assert (HN : pdus_of i ls = []).
      { clear - HR EK. revert s HR. induction ls as [|l ls IH] using rev_ind; intros s HR; [reflexivity|].
        rewrite mrun_snoc in HR. destruct (mrun cfg ls) as [s1|] eqn:E; [|discriminate HR]. rewrite pdus_snoc, (IH s1 eq_refl).
        destruct l; try reflexivity. destruct (side_eqb i i0) eqn:ES; [|reflexivity]. assert (i0 = i) by (destruct i, i0; try reflexivity; discriminate ES).
        subst i0. cbn [mstep] in HR. unfold step_pdu in HR. rewrite EK in HR. discriminate HR. }
      unfold closed. now rewrite HN.
    + unfold tinv in C. cbv zeta in C. rewrite EPh in C. destruct C as (_ & C2 & C3 & _ & _ & C6 & C7 & C8).
      rewrite D1, D2, D3, D4, D5. split; [exact C2|]. split; [exact C6|]. split; [exact C7|]. split; [exact C8|].
      split; [exact (run_renewed cfg i EK ls s HR)|]. intros HC. now rewrite (D6 HC).
  - intros HD. pose proof (G5 i) as G. rewrite R3 in G. cbn [kid] in G. specialize (G ltac:(discriminate) W HD). unfold upd in G.
    rewrite G. f_equal. now rewrite D1.
Qed.
(** A comparison started by the other source between the two critical sections of End of Data
    shows the new serial with the old data. *)
Definition cfgRF : mcfg := mkMCfg 1000 [0]%Z 0 (fun i => match i with Pri => false | Sec => true end) (fun _ => false).
Definition ls82 : list mlabel :=
  [LPdu Pri 100 (CacheResponse 1 7); LPdu Pri 100 (ann 1); LPdu Pri 100 (eod 1); LAssign Pri 100; LSend Pri] ++ cycle 100 ++
  [LPdu Pri 200 (CacheResponse 1 7); LPdu Pri 200 (ann 0); LPdu Pri 200 (eod 2); LFetch Sec 200 L2; LAssign Sec 200; LSend Sec] ++ cycle 200.
Theorem C82_serial_refuted : exists s p, Forall good_label ls82 /\ mrun cfgRF ls82 = Some s /\ ms_pub s = Some p /\
  md_serial (pb_md1 p) = 2 /\ shown (fst (fst (serve_diff s))) o1 /\
  forall k, mo_serial (told_rtr cfgRF Pri (firstn k ls82)) = 2 -> ~ shown (told_map cfgRF Pri (firstn k ls82)) o1.
Proof.
  eexists. eexists. split; [repeat constructor; vm_compute; try reflexivity; intuition discriminate|].
  split; [vm_compute; reflexivity|]. split; [reflexivity|]. split; [reflexivity|]. split.
  - eexists. split; [eexists; split; [left; reflexivity|vm_compute; reflexivity]|reflexivity].
  - intros k HK. assert (E : told_map cfgRF Pri (firstn k ls82) = []).
    { destruct (Nat.le_gt_cases 19 k) as [HL|HL]; [rewrite firstn_all2 by exact HL; vm_compute; reflexivity|].
      do 19 (destruct k as [|k]; [vm_compute in HK |- *; first [reflexivity|discriminate HK]|]). lia. }
    rewrite E. intros (e & (x & [] & _) & _).
Qed.
(** The session of a response that has only begun is shown with the data of the one before, and
    at rest. *)
Theorem C82_session_refuted : exists ls s p, Forall good_label ls /\ mrun cfgRF ls = Some s /\ at_rest s /\ ms_pub s = Some p /\
  md_session (pb_md1 p) = 8 /\ shown (fst (fst (serve_diff s))) o1 /\
  pdus_of Pri ls = [(100%Z, CacheResponse 1 7); (100%Z, ann 1); (100%Z, eod 1); (200%Z, CacheResponse 1 8)].
Proof.
  exists ([LPdu Pri 100 (CacheResponse 1 7); LPdu Pri 100 (ann 1); LPdu Pri 100 (eod 1); LAssign Pri 100; LSend Pri; LPdu Pri 200 (CacheResponse 1 8)] ++ cycle 200).
  eexists. eexists. split; [repeat constructor; vm_compute; try reflexivity; intuition discriminate|].
  split; [vm_compute; reflexivity|]. split; [vm_compute; auto|]. split; [reflexivity|]. split; [reflexivity|]. split; [|reflexivity].
  eexists. split; [eexists; split; [left; reflexivity|vm_compute; reflexivity]|reflexivity].
Qed.
Example C82_case : exists s p, mrun cfgR ls81 = Some s /\ at_rest s /\ ms_pub s = Some p /\ closed Sec ls81 = true /\
  delivered cfgR Sec ls81 = true /\ pb_md2 p = mkMD 102 1 7 1 3600 600 7200 /\ md_last (pb_md1 p) = 300%Z.
Proof.
  eexists. eexists. split; [vm_compute; reflexivity|]. split; [vm_compute; auto|]. vm_compute. auto.
Qed.

(** * C76 rtrmon keeps running *)
Lemma mon_hangs break now c p : snd (mon_handle break now c p) = hangs_up break p.
Proof. destruct p; reflexivity. Qed.
Lemma mon_keeps break now ps : forall c, keeps (mon_handle break now) c ps <-> Forall (fun p => hangs_up break p = false) ps.
Proof.
  induction ps as [|p ps IH]; intros c; cbn [keeps]; [split; auto|]. rewrite mon_hangs, IH. split; [intros [A B]; now constructor|].
  intros H. inversion H; subst. auto.
Qed.
Lemma mon_runs break now ps : forall c, run_handler (mon_handle break now) c ps = mon_pdus break c (map (pair now) ps).
Proof. induction ps as [|p ps IH]; intros c; [reflexivity|]. unfold run_handler, mon_pdus in *. cbn [map fold_left fst snd]. apply IH. Qed.
Lemma mon_finished break now q : hangs_up break q = true -> forall ps v c b rest, bytes_ok b ->
  decode_n 64 (S (length ps)) b = Ok (ps ++ [q], rest) -> Forall (fun p => hangs_up break p = false) ps ->
  o_end (start_rw (mon_handle break now) v c b) = Finished.
Proof.
  intros HQ. induction ps as [|p ps IH]; intros v c b rest HB HD HF; rewrite start_rw_step by exact HB.
  - cbn [length decode_n app] in HD. destruct (decode 64 b) as [[x r]| |]; try discriminate HD. cbn [bind fst snd] in HD. injection HD as -> <-.
    cbv zeta. pose proof (mon_hangs break now c q) as HH. rewrite HQ in HH. destruct (mon_handle break now c q) as [c' d]. cbn [snd] in HH.
    subst d. reflexivity.
  - change (length (p :: ps)) with (S (length ps)) in HD. cbn [decode_n app] in HD. destruct (decode 64 b) as [[x r]| |] eqn:ED; try discriminate HD.
    cbn [bind fst snd] in HD. inversion HF as [|? ? F1 F2]; subst. destruct (decode_shorter b x r HB ED) as [HR _].
    fold (decode_n 64 (S (length ps)) r) in HD.
    assert (HD' : exists rest', decode_n 64 (S (length ps)) r = Ok (ps ++ [q], rest') /\ x = p).
    { destruct (decode_n 64 (S (length ps)) r) as [[y r2]| |] eqn:E2; cbn [decode_n] in E2; rewrite E2 in HD; try discriminate HD.
      cbn [bind fst snd] in HD. injection HD as -> -> _. eauto. }
    destruct HD' as (rest' & HD' & ->). cbv zeta. pose proof (mon_hangs break now c p) as HH. rewrite F1 in HH.
    destruct (mon_handle break now c p) as [c' d]. cbn [snd] in HH. subst d. cbn [o_end]. now apply (IH _ _ _ rest').
Qed.
(** Exactly when a round with an RTR server does not end the process, and what it leaves: the
    server was reached and sent, before anything that cannot be decoded and before closing the
    connection, a PDU on which rtrmon itself hangs up.
    (Missing: after any other end of a session it connects again, see below.) *)
Theorem C76_survives_partial : forall break now c a c', (forall b, a = Stream b -> bytes_ok b) ->
  (rtr_round break now c a = Some c' <->
   exists b ps q rest, a = Stream b /\ decode_n 64 (S (length ps)) b = Ok (ps ++ [q], rest) /\
     Forall (fun p => hangs_up break p = false) ps /\ hangs_up break q = true /\
     c' = mon_pdus break c (map (pair now) (ps ++ [q]))).
Proof.
  intros break now c a c' HB. assert (HX : forall b, a = Stream b -> rtr_round break now c a = Some c' ->
   exists ps q rest, decode_n 64 (S (length ps)) b = Ok (ps ++ [q], rest) /\
     Forall (fun p => hangs_up break p = false) ps /\ hangs_up break q = true /\ c' = mon_pdus break c (map (pair now) (ps ++ [q]))).
  { intros b -> HE. cbn [rtr_round] in HE. destruct (C58_session mon (mon_handle break now) 1 c b (HB b eq_refl)) as (rest & S1 & _ & _ & _ & S5 & S6).
    destruct S6 as [(E & qs & q & EQ & K1 & K2)|(e & E & _)]; cbv zeta in HE; rewrite E in HE; [|discriminate HE]. injection HE as <-.
    rewrite EQ in S1, S5. exists qs, q, rest. rewrite app_length, Nat.add_1_r in S1. split; [exact S1|].
    split; [now apply mon_keeps in K1|]. split; [now rewrite mon_hangs in K2|]. now rewrite S5, mon_runs. }
  split.
  - intros HE. destruct a as [|b]; [discriminate HE|]. destruct (HX b eq_refl HE) as (ps & q & rest & H). exists b, ps, q, rest. tauto.
  - intros (b & ps & q & rest & -> & HD & HF & HQ & ->). cbn [rtr_round]. cbv zeta.
    pose proof (mon_finished break now q HQ ps 1 c b rest (HB b eq_refl) HD HF) as HE. rewrite HE. f_equal.
    assert (HS : rtr_round break now c (Stream b) = Some (o_state (start_rw (mon_handle break now) 1 c b)))
      by (cbn [rtr_round]; cbv zeta; now rewrite HE).
    destruct (C58_session mon (mon_handle break now) 1 c b (HB b eq_refl)) as (rest' & S1 & _ & _ & _ & S5 & S6).
    destruct S6 as [(_ & qs & q' & EQ & K1 & K2)|(e & E & _)]; [|congruence]. rewrite S5, EQ, mon_runs. f_equal. f_equal.
    rewrite EQ, app_length, Nat.add_1_r in S1. apply mon_keeps in K1. rewrite mon_hangs in K2.
    clear - HD S1 HF HQ K1 K2. revert ps b HD HF S1. induction qs as [|x qs IH]; intros ps b HD HF S1.
    + destruct ps as [|y ps].
      * cbn [length] in *. rewrite HD in S1. cbn [app] in *. congruence.
      * exfalso. cbn [length decode_n] in *. destruct (decode 64 b) as [[z r]| |]; try discriminate S1. cbn [bind fst snd] in *.
        injection S1 as ->. destruct (bind (decode 64 r) _) as [[w r2]| |]; try discriminate HD. cbn [bind fst snd app] in HD. injection HD as -> _ _.
        inversion HF; subst. congruence.
    + destruct ps as [|y ps].
      * exfalso. cbn [length decode_n] in *. destruct (decode 64 b) as [[z r]| |]; try discriminate HD. cbn [bind fst snd] in *.
        injection HD as ->. destruct (bind (decode 64 r) _) as [[w r2]| |]; try discriminate S1. cbn [bind fst snd app] in S1. injection S1 as -> _ _.
        inversion K1; subst. congruence.
      * inversion HF as [|? ? F1 F2]; subst. inversion K1 as [|? ? G1 G2]; subst. change (length (x :: qs)) with (S (length qs)) in S1.
        change (length (y :: ps)) with (S (length ps)) in HD. remember (S (length qs)) as n1. remember (S (length ps)) as n2. cbn [decode_n] in *.
        destruct (decode 64 b) as [[z r]| |]; try discriminate HD. cbn [bind fst snd] in *.
        destruct (decode_n 64 n1 r) as [[w1 s1]| |] eqn:E1; try discriminate S1. destruct (decode_n 64 n2 r) as [[w2 s2]| |] eqn:E2; try discriminate HD.
        cbn [bind fst snd app] in *. injection S1 as -> -> ->. injection HD as -> -> ->. subst n1 n2. cbn [app]. f_equal.
        now apply (IH G2 ps r).
Qed.
(** A server that is restarted, or that closes an idle connection, ends rtrmon; so does one that
    cannot be reached. *)
Theorem C76_keeps_refuted : exists b ps, bytes_ok b /\ decode_n 64 3 b = Ok (ps, []) /\
  ps = [CacheResponse 1 7; ann 1; eod 1] /\
  (forall now c, rtr_round false now c (Stream b) = None) /\ (forall break now c, rtr_round break now c Unreachable = None).
Proof.
  destruct (encode_all [CacheResponse 1 7; ann 1; eod 1]) as [b| |] eqn:E; try (vm_compute in E; discriminate E).
  exists b, [CacheResponse 1 7; ann 1; eod 1]. vm_compute in E. injection E as <-.
  split; [repeat constructor|]. split; [vm_compute; reflexivity|]. split; [reflexivity|]. split; [|reflexivity].
  intros now c. destruct (rtr_round false now c _) as [c'|] eqn:E; [|reflexivity]. apply C76_survives_partial in E.
  - destruct E as (b & ps & q & rest & EB & HD & HF & HQ & _). injection EB as <-. exfalso.
    destruct ps as [|p1 ps]; [vm_compute in HD; injection HD as <- <-; discriminate HQ|].
    destruct ps as [|p2 ps]; [vm_compute in HD; injection HD as _ <- _; discriminate HQ|].
    destruct ps as [|p3 ps]; [vm_compute in HD; injection HD as _ _ <- _; discriminate HQ|].
    cbn [length] in HD. vm_compute in HD. discriminate HD.
  - intros b [= <-]. repeat constructor.
Qed.
(** A file that cannot be fetched or read is tried again. *)
Theorem C76_file_partial : forall cfg i ls s t r, mrun cfg ls = Some s -> k_file cfg i = true -> mc_phase (ms_c i s) = MIdle ->
  exists s', mrun cfg (ls ++ [LFetch i t r]) = Some s' /\
    (r = FetchError \/ r = BadJson -> s' = s).
Proof.
  intros cfg i ls s t r HR HK HP. rewrite mrun_snoc, HR. cbn [mstep]. unfold step_fetch. rewrite HK, HP.
  destruct r as [| | |vs bs]; eauto.
  - destruct (update_refs _ _ _ _) as [[h m] n]. eexists. split; [reflexivity|]. intros [H|H]; discriminate H.
  - destruct (build_refs _ _ _ _ _ _) as [[h m] n]. eexists. split; [reflexivity|]. intros [H|H]; discriminate H.
Qed.
(** A session with -primary.rtr.break and one ended by an Error Report. *)
Example C76_case : exists b c, encode_all [CacheResponse 1 7; ann 1; eod 1] = Ok b /\
  rtr_rounds true new_mon [(100%Z, Stream b); (200%Z, Stream [1; 10; 0; 2; 0; 0; 0; 16; 0; 0; 0; 0; 0; 0; 0; 0])] = Some c /\
  nlen (mo_vrps c) = 1 /\ mo_serial c = 1.
Proof. eexists. eexists. split; [vm_compute; reflexivity|]. split; [vm_compute; reflexivity|]. vm_compute. auto. Qed.

Print Assumptions C81_rest.
Print Assumptions C81_nothing.
Print Assumptions C81_settles.
Print Assumptions C72_stays_partial.
Print Assumptions C72_stays_refuted.
Print Assumptions C69_totals_partial.
Print Assumptions C69_split_partial.
Print Assumptions C69_totals_refuted.
Print Assumptions C82_metadata_partial.
Print Assumptions C82_serial_refuted.
Print Assumptions C82_session_refuted.
Print Assumptions C76_survives_partial.
Print Assumptions C76_keeps_refuted.
Print Assumptions C76_file_partial.
