(** Theorems about rtrmon: C52 to C55 and C60. *)
From Coq Require Import String ZifyBool ZifyNat ZifyN Permutation Sorted.
From Verif Require Import Lib.Str Spec.Monitor Spec.Input Proofs.FormatP Proofs.DataP Proofs.JsonP Proofs.MonitorP Proofs.MonitorP2.
From Verif Require Import Props.CacheProps Props.ConnProps.
Local Open Scope string_scope.
Local Open Scope list_scope.
Local Open Scope N_scope.
Ltac Zify.zify_post_hook ::= Z.div_mod_to_equations.

(** * C53 Map rebuild contract *)
(** One round, from any map that occurs. *)
Theorem C53_rebuild : forall grace cur vs bs now m n, source cur -> plain_file (Listing vs bs) ->
  build_new_vrp_map grace cur vs bs now = (m, n) ->
  (forall o e e', has m o e -> has m o e' -> e = e') /\
  (forall o, In o (file_objs vs bs) -> exists e, has m o e /\ m_visible e = true /\ m_last e = now /\
     (forall e0, has cur o e0 -> m_visible e0 = true -> m_first e = m_first e0) /\
     (~ shown cur o -> m_first e = now)) /\
  (forall o e, ~ In o (file_objs vs bs) -> (has m o e <->
     exists e0, has cur o e0 /\ (now <= m_last e0 + grace)%Z /\
       e = mkME (m_asn e0) (m_length e0) (m_prefix e0) (m_first e0) (m_last e0) false (m_key e0))) /\
  number n (fun o => exists e, has m o e /\ m_visible e = false).
Proof.
  intros grace cur vs bs now m n HS HP HB. pose proof (source_minv cur HS) as HC. cbn [plain_file] in HP.
  destruct (build_spec grace cur vs bs now HC HP) as (B1 & B2 & B3).
  destruct (listed_filled cur vs bs now HP) as (F1 & F2 & F3).
  rewrite HB in B1, B2, B3. cbn [fst snd] in B1, B2, B3.
  split; [intros o e e'; now apply has_fun|]. split; [|split].
  - intros o HO. pose proof (file_objs_proper vs bs o HP HO) as HPo.
    pose proof (proj1 (listed_in cur vs bs now o HP HPo) HO) as HL.
    specialize (B3 (okey o)). destruct (gget (okey o) (listed_map cur vs bs now)) as [e|] eqn:EL; [|congruence].
    destruct (F2 _ _ EL) as (G1 & G2 & G3). exists e. split; [now apply has_gget|]. split; [exact G3|]. split; [exact G2|].
    rewrite G1. unfold first_seen. split.
    + intros e0 H0 V0. apply has_gget in H0; auto. now rewrite H0, V0.
    + intros HN. rewrite shown_gget in HN by auto. destruct (gget (okey o) cur) as [e0|]; [|reflexivity].
      destruct (m_visible e0); [now contradiction HN|reflexivity].
  - intros o e HO. split.
    + intros HH. pose proof (has_proper m o e B1 HH) as HPo. apply has_gget in HH; auto. rewrite B3 in HH.
      destruct (gget (okey o) (listed_map cur vs bs now)) as [e1|] eqn:EL.
      { exfalso. apply HO. apply (listed_in cur vs bs now o HP HPo). congruence. }
      destruct (gget (okey o) cur) as [e0|] eqn:EC; [|discriminate HH].
      destruct (now - grace <=? m_last e0)%Z eqn:EG; [|discriminate HH]. injection HH as <-.
      exists e0. split; [now apply has_gget|]. split; [lia|reflexivity].
    + intros (e0 & H0 & HT & ->). pose proof (has_proper cur o e0 HC H0) as HPo. apply has_gget; auto.
      rewrite B3. apply has_gget in H0; auto.
      destruct (gget (okey o) (listed_map cur vs bs now)) as [e1|] eqn:EL.
      { exfalso. apply HO. apply (listed_in cur vs bs now o HP HPo). congruence. }
      rewrite H0. replace (now - grace <=? m_last e0)%Z with true by lia. reflexivity.
  - rewrite B2. now apply invisible_number.
Qed.
(** Any number of rounds: for each object, exactly what the listings it was in imply. *)
Theorem C53_history : forall grace h o, Forall (fun x => plain_file (snd x)) h -> proper o ->
  match expected grace (rounds o h) with
  | Some (f, l, v) => exists e, has (after grace h) o e /\ m_first e = f /\ m_last e = l /\ m_visible e = v
  | None => forall e, ~ has (after grace h) o e
  end.
Proof.
  intros grace h o HP HO. destruct (history grace h HP) as [H1 H2]. rewrite <- (H2 o HO).
  destruct (gget (okey o) (after grace h)) as [e|] eqn:E; cbn [content].
  - exists e. split; [now apply has_gget|auto].
  - intros e HH. apply has_gget in HH; auto. congruence.
Qed.
(** Sample files. *)
Definition fv (p : string) (len : N) (asn : string) : vrpjson := mkVJ (str p) len (AsnStr (str asn)) [] None.
Definition fk (asn : N) (ski : string) : brkjson := mkBJ asn None [] [48; 89] (str ski).
Definition o1 : obj := OV (pfx4 167772160 24) 65001 24.
Definition o2 : obj := OV (pfx4 167772416 24) 65002 25.
Definition L1 := Listing [fv "10.0.0.0/24" 24 "AS65001"; fv "10.0.1.0/24" 25 "65002"; fv "10.0.1.0/33" 25 "65002"] [fk 7 "a1b2"].
Definition L2 := Listing [fv "10.0.1.0/24" 25 "65002"] [fk 7 "a1b2"].
(** Listed at 100 and 200, gone at 300 and 400, with a failure in between; back at 500. *)
Example C53_case :
  let h := [(400, NotModified); (350, FetchError); (300, L2); (200, L1); (100, L1)]%Z in
  Forall (fun x => plain_file (snd x)) h /\
  expected 200 (rounds o1 h) = Some (100, 200, false)%Z /\ expected 200 (rounds o2 h) = Some (100, 400, true)%Z /\
  expected 199 (rounds o1 h) = None /\
  expected 199 (rounds o1 ((500%Z, L1) :: h)) = Some (500, 500, true)%Z /\
  snd (build_new_vrp_map 100 (after 100 [(200, L1); (100, L1)]%Z) [fv "10.0.1.0/24" 25 "65002"] [] 300) = 2.
Proof.
  cbv zeta. split; [|vm_compute; auto 10].
  assert (P : plain_ski (str "a1b2")) by (split; vm_compute; intuition discriminate).
  repeat constructor; try exact P; vm_compute; intuition discriminate.
Qed.
(** Identifiers are not checked, and a router key can push a VRP out of the map. *)
Theorem C53_collision_refuted : exists vs bs o,
  In o (file_objs vs bs) /\ proper o /\ forall grace now e, ~ has (fst (build_new_vrp_map grace [] vs bs now)) o e.
Proof.
  exists [fv "10.0.0.0/24" 24 "AS65001"], [mkBJ 24 None [] (str "65001") (str "10.0.0.0/24")], o1.
  split; [left; vm_compute; reflexivity|]. split; [vm_compute; intuition discriminate|].
  intros grace now e (k & HI & HE).
  assert (E : fst (build_new_vrp_map grace [] [fv "10.0.0.0/24" 24 "AS65001"] [mkBJ 24 None [] (str "65001") (str "10.0.0.0/24")] now)
    = [(str "10.0.0.0/24-24-65001", mkME 24 0 [] now now true (Some (mkBJ 24 None [] (str "65001") (str "10.0.0.0/24"))))])
    by (vm_compute; reflexivity).
  rewrite E in HI. destruct HI as [HI|[]]. injection HI as <- <-. discriminate HE.
Qed.

(** * C54 Unchanged-source contract *)
Theorem C54_unchanged : forall grace cur now m n, source cur -> update_current_vrp_map grace cur now = (m, n) ->
  (forall o e e', has m o e -> has m o e' -> e = e') /\
  (forall o e', has m o e' <-> exists e, has cur o e /\
     (if m_visible e then e' = mkME (m_asn e) (m_length e) (m_prefix e) (m_first e) now true (m_key e)
      else e' = e /\ (now <= m_last e + grace)%Z)) /\
  number n (fun o => exists e, has m o e /\ m_visible e = false).
Proof.
  intros grace cur now m n HS HU. pose proof (source_minv cur HS) as HC.
  destruct (update_spec grace cur now HC) as (U1 & U2 & U3). rewrite HU in U1, U2, U3. cbn [fst snd] in *.
  split; [intros o e e'; now apply has_fun|]. split; [|rewrite U2; now apply invisible_number].
  intros o e'. split.
  - intros HH. pose proof (has_proper m o e' U1 HH) as HPo. apply has_gget in HH; auto. rewrite U3 in HH.
    destruct (gget (okey o) cur) as [e|] eqn:E; [|discriminate HH]. exists e. split; [now apply has_gget|].
    unfold refreshed in HH. destruct (m_visible e); [now injection HH as <-|].
    destruct (m_last e <? now - grace)%Z eqn:EL; [discriminate HH|]. injection HH as <-. split; [reflexivity|lia].
  - intros (e & HH & HE). pose proof (has_proper cur o e HC HH) as HPo. apply has_gget; auto. rewrite U3.
    apply has_gget in HH; auto. rewrite HH. unfold refreshed. destruct (m_visible e); [now subst e'|].
    destruct HE as [-> HL]. replace (m_last e <? now - grace)%Z with false by lia. reflexivity.
Qed.
Example C54_case : let m := after 150 [(300, L2); (200, L1)]%Z in
  (nlen m, snd (update_current_vrp_map 150 m 350), nlen (fst (update_current_vrp_map 150 m 350)),
   nlen (fst (update_current_vrp_map 150 m 351))) = (3, 1, 3, 2).
Proof. vm_compute. reflexivity. Qed.

(** * C52 The difference is exact *)
(** The two sets and their sizes, for all maps that occur. *)
Theorem C52_sets : forall thresholds started clk m1 m2, source m1 -> source m2 ->
  let r := compare thresholds started clk m1 m2 in
  (forall o e, has (r_only1 r) o e <-> has m1 o e /\ m_visible e = true /\ ~ shown m2 o) /\
  (forall o e, has (r_only2 r) o e <-> has m2 o e /\ m_visible e = true /\ ~ shown m1 o) /\
  number (r_diff1 r) (fun o => shown m1 o /\ ~ shown m2 o) /\
  number (r_diff2 r) (fun o => shown m2 o /\ ~ shown m1 o).
Proof.
  intros thresholds started clk m1 m2 H1 H2. apply source_minv in H1, H2. cbv zeta. cbn [compare r_only1 r_only2 r_diff1 r_diff2].
  assert (HN : forall a b, minv a -> minv b -> number (nlen (mdiff a b)) (fun o => shown a o /\ ~ shown b o)).
  { intros a b Ha Hb. apply eobjs_number; [now apply minv_mdiff|]. intros o. split.
    - intros (e & HE). apply mdiff_has in HE; auto. destruct HE as (E1 & E2 & E3). split; [exists e; auto|exact E3].
    - intros ((e & E1 & E2) & E3). exists e. apply mdiff_has; auto. }
  split; [intros; now apply mdiff_has|]. split; [intros; now apply mdiff_has|]. split; now apply HN.
Qed.
Lemma combine_nth_in {A} (clk : nat -> A) (l : list Z) b t x : In (t, x) (combine l (map clk (seq b (length l)))) ->
  exists k, nth_error l k = Some t /\ x = clk (b + k)%nat.
Proof.
  revert b. induction l as [|a l IH]; intros b H; [contradiction|]. cbn [length seq map combine] in H. destruct H as [H|H].
  - injection H as <- <-. exists 0%nat. split; [reflexivity|]. now rewrite Nat.add_0_r.
  - destruct (IH (S b) H) as (k & K1 & K2). exists (S k). split; [exact K1|]. rewrite K2. f_equal. lia.
Qed.
Lemma timed_nth clk l t x : In (t, x) (timed clk l) -> exists k, nth_error l k = Some t /\ x = clk k.
Proof. apply (combine_nth_in clk l 0). Qed.
(** The counts, for all maps that occur; [clk] gives the readings of the clock, one per threshold. *)
Theorem C52_counts : forall thresholds started clk m1 m2 t n1 n2, source m1 -> source m2 ->
  In (t, n1, n2) (r_counts (compare thresholds started clk m1 m2)) ->
  exists k now, nth_error thresholds k = Some t /\ now = clk k /\ (started <= now - t)%Z /\
  number n1 (fun o => (exists e, has m1 o e /\ m_visible e = true /\ (m_first e <= now - t)%Z) /\
     forall e, has m2 o e -> m_visible e = false /\ (m_last e <= now - t)%Z) /\
  number n2 (fun o => (exists e, has m2 o e /\ m_visible e = true /\ (m_first e <= now - t)%Z) /\
     forall e, has m1 o e -> m_visible e = false /\ (m_last e <= now - t)%Z).
Proof.
  intros thresholds started clk m1 m2 t n1 n2 H1 H2 HI. apply source_minv in H1, H2. cbn [compare r_counts] in HI.
  apply in_flat_map in HI. destruct HI as ((t' & now) & HT & HI). destruct (started <=? now - t')%Z eqn:E; [|contradiction].
  destruct HI as [HI|[]]. injection HI as <- <- <-. apply timed_nth in HT. destruct HT as (k & K1 & K2).
  exists k, now. split; [exact K1|]. split; [exact K2|]. split; [lia|].
  split; now apply count_number.
Qed.
(** There are counts for exactly the thresholds that reach back no further than the start, in
    their order. *)
Theorem C52_thresholds : forall thresholds started clk m1 m2,
  map (fun x => fst (fst x)) (r_counts (compare thresholds started clk m1 m2)) =
  map (fun k => nth k thresholds 0%Z)
    (filter (fun k => (started <=? clk k - nth k thresholds 0)%Z) (seq 0 (length thresholds))).
Proof.
  intros thresholds started clk m1 m2. cbn [compare r_counts]. unfold timed.
  set (o1 := mdiff m1 m2). set (o2 := mdiff m2 m1). clearbody o1 o2.
  assert (G : forall l b, map (fun x => fst (fst x)) (flat_map (fun '(t, now) => if (started <=? now - t)%Z
      then [(t, count_unmatched o1 m2 (now - t), count_unmatched o2 m1 (now - t))] else [])
      (combine l (map clk (seq b (length l))))) =
    map (fun k => nth k l 0%Z) (filter (fun k => (started <=? clk (b + k)%nat - nth k l 0)%Z) (seq 0 (length l)))).
  { induction l as [|t l IH]; intros b; [reflexivity|]. cbn [length seq map combine flat_map]. rewrite map_app, IH.
    cbn [filter]. change (nth 0 (t :: l) 0%Z) with t. rewrite Nat.add_0_r, <- seq_shift.
    assert (E : forall ks, map (fun k => nth k (t :: l) 0%Z) (filter (fun k => (started <=? clk (b + k)%nat - nth k (t :: l) 0)%Z) (map S ks)) =
      map (fun k => nth k l 0%Z) (filter (fun k => (started <=? clk (S b + k)%nat - nth k l 0)%Z) ks)).
    { induction ks as [|k ks IHk]; [reflexivity|]. cbn [map filter]. change (nth (S k) (t :: l) 0%Z) with (nth k l 0%Z). rewrite Nat.add_succ_r.
      change (S b + k)%nat with (S (b + k)). destruct (started <=? clk (S (b + k)) - nth k l 0)%Z; cbn [map];
        [change (nth (S k) (t :: l) 0%Z) with (nth k l 0%Z)|]; now rewrite IHk. }
    destruct (started <=? clk b - t)%Z; cbn [map app fst]; rewrite E; reflexivity. }
  apply (G thresholds 0%nat).
Qed.
(** Two file sources, with the grace period main sets: the counts are about the listings. *)
Definition lasting (o : obj) (h h' : list (Z * fetched)) (limit : Z) : Prop :=
  present (rounds o h) = true /\ (exists f, since (rounds o h) = Some f /\ (f <= limit)%Z) /\
  present (rounds o h') = false /\ (forall l, last_listed (rounds o h') = Some l -> (l <= limit)%Z).
Lemma rounds_times o h : incl (map fst (rounds o h)) (map fst h).
Proof.
  induction h as [|[t r] h IH]; [apply incl_refl|]. cbn [rounds map fst].
  destruct r; cbn [map fst]; try (apply incl_tl; exact IH); (apply incl_cons; [now left|apply incl_tl; exact IH]).
Qed.
Lemma absent_in rs t : In t (absent rs) -> In t (map fst rs).
Proof.
  induction rs as [|[u []] rs IH]; cbn [absent map fst]; [contradiction|contradiction|]. intros [->|H]; [now left|right; auto].
Qed.
Lemma lasting_entries grace h1 h2 o limit now t : Forall (fun x => plain_file (snd x)) h1 -> Forall (fun x => plain_file (snd x)) h2 ->
  proper o -> limit = (now - t)%Z -> (t <= grace)%Z -> Forall (fun x => (fst x <= now)%Z) h2 ->
  ((exists e, has (after grace h1) o e /\ m_visible e = true /\ (m_first e <= limit)%Z) /\
   forall e, has (after grace h2) o e -> m_visible e = false /\ (m_last e <= limit)%Z) <-> lasting o h1 h2 limit.
Proof.
  intros P1 P2 HO -> HG HT. destruct (history grace h1 P1) as [M1 E1]. destruct (history grace h2 P2) as [M2 E2].
  specialize (E1 o HO). specialize (E2 o HO). split.
  - intros ((e & HH & HV & HF) & HN). apply has_gget in HH; auto. rewrite HH in E1. cbn [content] in E1.
    destruct (expected_vis _ _ _ _ _ (eq_sym E1)) as (V1 & V2 & V3). unfold lasting. split; [congruence|].
    split; [exists (m_first e); auto|].
    destruct (gget (okey o) (after grace h2)) as [e2|] eqn:EG; cbn [content] in E2.
    + destruct (expected_vis _ _ _ _ _ (eq_sym E2)) as (X1 & X2 & X3). apply has_gget in EG; auto.
      destruct (HN e2 EG) as [Y1 Y2]. split; [congruence|]. intros l Hl. assert (l = m_last e2) by congruence. lia.
    + destruct (present (rounds o h2)) eqn:EP.
      * destruct (expected_present grace _ EP) as (f & l & _ & _ & EE). congruence.
      * split; [reflexivity|]. intros l Hl. unfold expected in E2. rewrite EP, Hl in E2.
        destruct (since (rounds o h2)) as [f|] eqn:ES; [|apply since_last in ES; congruence].
        destruct (forallb (fun t0 => (t0 <=? l + grace)%Z) (absent (rounds o h2))) eqn:EA; [discriminate E2|].
        assert (HX : exists u, In u (absent (rounds o h2)) /\ (l + grace < u)%Z).
        { clear - EA. induction (absent (rounds o h2)) as [|u us IH]; [discriminate EA|]. cbn [forallb] in EA.
          destruct (u <=? l + grace)%Z eqn:E; [destruct (IH EA) as (x & X1 & X2); exists x; split; [now right|exact X2]|].
          exists u. split; [now left|lia]. }
        destruct HX as (u & U1 & U2). apply absent_in, rounds_times in U1. apply in_map_iff in U1. destruct U1 as (x & <- & U1).
        rewrite Forall_forall in HT. specialize (HT x U1). lia.
  - intros (L1 & (f & L2 & L3) & L4 & L5). split.
    + destruct (expected_present grace _ L1) as (f' & l' & X1 & X2 & X3). rewrite X3 in E1.
      destruct (gget (okey o) (after grace h1)) as [e|] eqn:EG; [|discriminate E1]. cbn [content] in E1. injection E1 as Y1 Y2 Y3.
      exists e. split; [now apply has_gget|]. split; [exact Y3|]. assert (f = f') by congruence. lia.
    + intros e HH. apply has_gget in HH; auto. rewrite HH in E2. cbn [content] in E2.
      destruct (expected_vis _ _ _ _ _ (eq_sym E2)) as (V1 & V2 & V3). split; [congruence|]. now apply L5.
Qed.
Lemma lasting_proper h1 h2 o limit : Forall (fun x => plain_file (snd x)) h1 -> lasting o h1 h2 limit -> proper o.
Proof.
  intros P1 (HP & _). clear h2 limit. induction h1 as [|[t r] h IH]; [discriminate HP|].
  inversion P1 as [|? ? Q1 Q2]; subst. cbn [snd] in Q1. cbn [rounds] in HP. destruct r as [| | |vs bs]; cbn [present] in HP; auto.
  destruct (in_dec obj_dec o (file_objs vs bs)) as [HI|HI]; [|discriminate HP]. now apply (file_objs_proper vs bs).
Qed.
Lemma number_ext n P Q : (forall o, P o <-> Q o) -> number n P -> number n Q.
Proof. intros H (l & L1 & L2 & L3). exists l. split; [exact L1|]. split; [|exact L3]. intros o. now rewrite L2. Qed.
Theorem C52_history : forall thresholds started clk grace h1 h2 t n1 n2,
  Forall (fun x => plain_file (snd x)) h1 -> Forall (fun x => plain_file (snd x)) h2 ->
  (forall k, Forall (fun x => (fst x <= clk k)%Z) h1) -> (forall k, Forall (fun x => (fst x <= clk k)%Z) h2) -> (t <= grace)%Z ->
  In (t, n1, n2) (r_counts (compare thresholds started clk (after grace h1) (after grace h2))) ->
  exists k now, nth_error thresholds k = Some t /\ now = clk k /\
  number n1 (fun o => lasting o h1 h2 (now - t)) /\ number n2 (fun o => lasting o h2 h1 (now - t)).
Proof.
  intros thresholds started clk grace h1 h2 t n1 n2 P1 P2 T1 T2 HG HI.
  destruct (C52_counts thresholds started clk _ _ t n1 n2 (src_file grace h1 P1) (src_file grace h2 P2) HI) as (k & now & K1 & K2 & _ & N1 & N2).
  exists k, now. split; [exact K1|]. split; [exact K2|]. specialize (T1 k). specialize (T2 k). rewrite <- K2 in T1, T2.
  destruct (history grace h1 P1) as [M1 _]. destruct (history grace h2 P2) as [M2 _].
  split; (eapply number_ext; [|eassumption]); intros o; split; intros H.
  - assert (HO : proper o) by (destruct H as ((e & HH & _) & _); exact (has_proper _ o e M1 HH)).
    exact (proj1 (lasting_entries grace h1 h2 o (now - t) now t P1 P2 HO eq_refl HG T2) H).
  - assert (HO : proper o) by exact (lasting_proper h1 h2 o _ P1 H).
    exact (proj2 (lasting_entries grace h1 h2 o (now - t) now t P1 P2 HO eq_refl HG T2) H).
  - assert (HO : proper o) by (destruct H as ((e & HH & _) & _); exact (has_proper _ o e M2 HH)).
    exact (proj1 (lasting_entries grace h2 h1 o (now - t) now t P2 P1 HO eq_refl HG T1) H).
  - assert (HO : proper o) by exact (lasting_proper h2 h1 o _ P2 H).
    exact (proj2 (lasting_entries grace h2 h1 o (now - t) now t P2 P1 HO eq_refl HG T1) H).
Qed.
(** o1 in the first file only, since 300 on both sides of that; the clock ticks before the last
    threshold, or does not. *)
Example C52_case :
  let h1 := [(600, L1); (100, L1)]%Z in let h2 := [(600, L2); (300, L2); (200, L1)]%Z in
  lasting o1 h1 h2 300 /\
  r_counts (compare [0; 300; 400; 500; 501]%Z 100 (fun k => 600 + Z.of_nat k / 4)%Z (after 500 h1) (after 500 h2))
    = [(0%Z, 1, 0); (300%Z, 1, 0); (400%Z, 1, 0); (500%Z, 0, 0); (501%Z, 0, 0)] /\
  r_counts (compare [0; 300; 400; 500; 501]%Z 100 (fun _ => 600%Z) (after 500 h1) (after 500 h2))
    = [(0%Z, 1, 0); (300%Z, 1, 0); (400%Z, 1, 0); (500%Z, 0, 0)].
Proof.
  cbv zeta. split; [|split; vm_compute; reflexivity]. unfold lasting. split; [vm_compute; reflexivity|].
  split; [exists 100%Z; split; [vm_compute; reflexivity|lia]|]. split; [vm_compute; reflexivity|].
  intros l Hl. vm_compute in Hl. injection Hl as <-. lia.
Qed.
(** The same key in a file and on an RTR server is reported on both sides when the file has
    capital letters. *)
Definition key1 : pdu := RouterKey 1 1 [161; 178] 7 [48; 89].
Definition eod (n : N) : pdu := EndOfData 1 7 n 3600 600 7200.
Theorem C52_case_refuted : exists h l,
  Forall (fun x => plain_file (snd x)) h /\ Forall good_pdu (map snd l) /\
  file_objs [] [fk 7 "A1B2"] = [OK (str "A1B2") 7 [48; 89]] /\
  obj_rid (OK (str "A1B2") 7 [48; 89]) = Some (RK 7 [161; 178] [48; 89]) /\
  map rid_of (pdu_sd key1) = [RK 7 [161; 178] [48; 89]] /\
  h = [(100%Z, Listing [] [fk 7 "A1B2"])] /\ l = [(100%Z, key1); (100%Z, eod 1)] /\
  let r := compare [] 0 (fun _ => 100%Z) (after 100 h) (mo_vrps (mon_pdus false new_mon l)) in
  r_diff1 r = 1 /\ r_diff2 r = 1.
Proof.
  eexists. eexists. do 2 (split; [shelve|]). do 3 (split; [vm_compute; reflexivity|]).
  split; [reflexivity|]. split; [reflexivity|]. vm_compute. auto.
  Unshelve.
  - repeat constructor; vm_compute; intuition discriminate.
  - cbn [map snd]. repeat constructor; vm_compute; try reflexivity.
Qed.
(** An object an RTR source withdrew a second ago counts as if it had never been there: no
    grace period, no time of last sight. *)
Definition ann (f : N) : pdu := IPv4Prefix 1 f 24 65001 (pfx4 167772160 24).
Theorem C52_rtr_withdrawn_refuted : exists l,
  Forall good_pdu (map snd l) /\
  l = [(0%Z, ann 1); (0%Z, eod 1); (999%Z, ann 0); (999%Z, eod 2)] /\
  r_counts (compare [900%Z] 0 (fun _ => 1000%Z) (after 5000 [(1000, L1); (0, L1)]%Z) (mo_vrps (mon_pdus false new_mon l))) = [(900%Z, 3, 0)] /\
  shown (mo_vrps (mon_pdus false new_mon (firstn 2 l))) o1.
Proof.
  eexists. split; [shelve|]. split; [reflexivity|]. split; [vm_compute; reflexivity|].
  eexists. split; [exists (str "10.0.0.0/24-24-65001"); split; [left; vm_compute; reflexivity|vm_compute; reflexivity]|reflexivity].
  Unshelve. cbn [map snd]. repeat constructor; vm_compute; try reflexivity; intuition discriminate.
Qed.
(** With -primary.rtr.break every reconnection restarts the time an object is visible, so a
    lasting difference is never counted. *)
Theorem C52_break_refuted : exists l,
  Forall good_pdu (map snd l) /\
  l = [(0%Z, ann 1); (0%Z, eod 1); (600%Z, ann 1); (600%Z, eod 1); (1200%Z, ann 1); (1200%Z, eod 1)] /\
  r_counts (compare [900%Z] 0 (fun _ => 1200%Z) (mo_vrps (mon_pdus true new_mon l)) (after 5000 [(1200, L2); (0, L2)]%Z)) = [(900%Z, 0, 2)].
Proof.
  eexists. split; [shelve|]. split; [reflexivity|]. vm_compute. reflexivity.
  Unshelve. cbn [map snd]. repeat constructor; vm_compute; try reflexivity; intuition discriminate.
Qed.

(** * C55 Mirroring an RTR server *)
(** All PDUs over all sessions: the map is what applying every record received gives. *)
Theorem C55_stream_partial : forall break l now v sess n r t e, Forall good_pdu (map snd l) ->
  let c := mon_pdus break new_mon (l ++ [(now, EndOfData v sess n r t e)]) in
  mirrors (mo_vrps c) (r_apply (fun _ => False) (flat_map pdu_sd (map snd l))) /\
  mo_serial c = n /\ mo_refresh c = r /\ mo_retry c = t /\ mo_expire c = e /\
  forall o x, has (mo_vrps c) o x -> m_visible x = true /\ m_last x = 0%Z.
Proof.
  intros break l now v sess n r t e HG. cbv zeta. rewrite mon_pdus_app.
  pose proof (mon_stream break l new_mon (fun _ => False) HG rinv_nil) as HR.
  set (c := mon_pdus break new_mon l) in *. cbn.
  split; [now apply rinv_mirrors|]. do 4 (split; [reflexivity|]).
  intros o x (k & HI & HE). destruct HR as ((_ & H2 & _) & _). now apply (H2 k x).
Qed.
(** Between two End of Data the published map stays as it is. *)
Theorem C55_stable : forall break l c, forallb (fun p => negb (get_type p =? PDU_ID_END_OF_DATA)) (map snd l) = true ->
  mo_vrps (mon_pdus break c l) = mo_vrps c /\ mo_serial (mon_pdus break c l) = mo_serial c.
Proof.
  induction l as [|[t p] l IH]; intros c HF; [auto|]. cbn [map snd forallb] in HF. apply andb_true_iff in HF.
  destruct HF as [F1 F2]. unfold mon_pdus. cbn [fold_left fst snd].
  destruct (IH (fst (mon_handle break t c p)) F2) as [I1 I2]. unfold mon_pdus in I1, I2. rewrite I1, I2.
  destruct p; try discriminate F1; cbn; auto.
Qed.
(** Against this server, over one session, polled while at most one serial behind: exactly
    the set published under the monitor's serial.  (Missing: further behind, emptied sets,
    reconnections and cache resets; all false, see below and C12.) *)
Theorem C55_watch_partial : forall cfg s tr keep h c m,
  u16 s -> cfg_version cfg < 256 -> acceptable (accept tr (new_rtr_server cfg s)) 1 -> nlen h < 4294967296 ->
  watched cfg s tr keep h c m ->
  let w := negotiated (new_rtr_server cfg s) 1 in
  exists h1 h2, h = h1 ++ h2 /\
    sdCurrentSerial (run (new_server keep) h1) = mo_serial m /\
    mirrors (mo_vrps m) (told w (keys_off tr cfg) (get_current_sds (run (new_server keep) h1))) /\
    (mo_serial m = sdCurrentSerial (run (new_server keep) h) ->
     mirrors (mo_vrps m) (told w (keys_off tr cfg) (get_current_sds (run (new_server keep) h)))).
Proof.
  intros cfg s tr keep h c m Hs Hb HA HL HW. cbv zeta.
  destruct (watched_winv cfg s tr keep h c m Hs Hb HA HL HW) as (W1 & _ & _ & _ & _ & _ & W7 & h1 & h2 & -> & F1 & F2 & F3 & F4).
  exists h1, h2. split; [reflexivity|]. split; [exact F3|]. rewrite W7. split; [now apply rinv_mirrors|].
  intros HE. apply rinv_mirrors. eapply rinv_eq; [|exact F4]. intros x. unfold told.
  apply Forall_app in W1. destruct W1 as [Wh1 Wh2].
  pose proof (Proofs.CacheP.run_inv (new_server keep) h1 (Proofs.CacheP.inv_new keep) Wh1) as I1.
  destruct (Proofs.CacheP.sync_current (run (new_server keep) h1) h2 I1 Wh2 F2) as [_ S2].
  - unfold nlen in *. rewrite app_length in HL. lia.
  - rewrite <- Proofs.CacheP.run_app. congruence.
  - rewrite Proofs.CacheP.run_app. unfold get_current_sds, as_set. rewrite (S2 x). tauto.
Qed.
(** A server that had one record, then two, then another two; polled in between. *)
Example C55_case : exists c m, watched cfg1 7 TCP 3 [[x1]; [x1; x2]; [x2; x4]] c m /\ mo_serial m = 2 /\ nlen (mo_vrps m) = 2.
Proof.
  assert (W : Forall (Forall wf_sd) [[x1]; [x1; x2]; [x2; x4]]) by (apply wf_sdss_ok; vm_compute; reflexivity).
  inversion W as [|? ? W1 W']; subst. inversion W' as [|? ? W2 W'']; subst. inversion W'' as [|? ? W3 _]; subst.
  eexists. eexists. split.
  - eapply (watch_poll _ _ _ _ _ _ _ 30%Z).
    + apply (watch_update _ _ _ _ [[x1]; [x1; x2]]).
      * eapply (watch_poll _ _ _ _ _ _ _ 20%Z).
        -- apply (watch_update _ _ _ _ [[x1]]).
           ++ eapply (watch_start _ _ _ _ [[x1]] 10%Z).
              ** constructor; [exact W1|constructor].
              ** vm_compute. discriminate.
              ** vm_compute. reflexivity.
           ++ exact W2.
           ++ discriminate.
        -- right. vm_compute. reflexivity.
        -- vm_compute. reflexivity.
      * exact W3.
      * discriminate.
    + right. vm_compute. reflexivity.
    + vm_compute. reflexivity.
  - vm_compute. auto.
Qed.
(** With -primary.rtr.break, or after any other Disconnect by the monitor, the map of the
    previous session is kept: a record withdrawn in between stays for ever. *)
Theorem C55_reconnect_refuted : exists l1 l2,
  Forall good_pdu (map snd (l1 ++ l2)) /\
  l1 = [(0%Z, CacheResponse 1 7); (0%Z, ann 1); (0%Z, eod 1)] /\ l2 = [(600%Z, CacheResponse 1 7); (600%Z, eod 2)] /\
  snd (mon_handle true 0 (mon_pdus true new_mon (firstn 2 l1)) (eod 1)) = true /\
  shown (mo_vrps (mon_pdus true new_mon (l1 ++ l2))) o1 /\
  ~ shown (mo_vrps (mon_pdus true new_mon l2)) o1.
Proof.
  eexists. eexists. split; [shelve|]. split; [reflexivity|]. split; [reflexivity|]. split; [reflexivity|]. split.
  - eexists. split; [exists (str "10.0.0.0/24-24-65001"); split; [left; vm_compute; reflexivity|vm_compute; reflexivity]|reflexivity].
  - intros (e & (k & [] & _) & _).
  Unshelve. cbn [app map snd]. repeat constructor; vm_compute; try reflexivity; intuition discriminate.
Qed.
(** A Cache Reset is ignored: the next query is the same Serial Query, and so on for ever. *)
Theorem C55_cache_reset_refuted : exists h1 h2 m c, let s := run (new_server 3) (h1 ++ h2) in
  Forall (Forall wf_sd) (h1 ++ h2) /\ watched cfg1 7 TCP 3 h1 c m /\
  process (new_rtr_server cfg1 7) s c (mon_poll 1 m) = Ok (c_set_curserial (mo_serial m) c, [Queue (CacheReset 1)]) /\
  (forall break now, mon_handle break now m (CacheReset 1) = (m, false)) /\
  ~ mirrors (mo_vrps m) (as_set (get_current_sds s)).
Proof.
  exists [[x1]; [x2]], [[x1]; [x2]; [x1]; [x2]; [x3]]. eexists. eexists. cbv zeta.
  assert (W : Forall (Forall wf_sd) ([[x1]; [x2]] ++ [[x1]; [x2]; [x1]; [x2]; [x3]])) by (apply wf_sdss_ok; vm_compute; reflexivity).
  split; [exact W|]. split.
  { apply (watch_start _ _ _ _ _ 10%Z).
    - apply Forall_app in W. apply W.
    - vm_compute. discriminate.
    - vm_compute. reflexivity. }
  split; [vm_compute; reflexivity|]. split; [reflexivity|].
  intros H. specialize (H (rid_obj (rid_of x3))). destruct H as [_ H].
  assert (G : exists x, as_set (get_current_sds (run (new_server 3) ([[x1]; [x2]] ++ [[x1]; [x2]; [x1]; [x2]; [x3]]))) x /\ rid_obj x = rid_obj (rid_of x3)).
  { replace (get_current_sds (run (new_server 3) ([[x1]; [x2]] ++ [[x1]; [x2]; [x1]; [x2]; [x3]]))) with [x3] by (vm_compute; reflexivity).
    exists (rid_of x3). split; [now left|reflexivity]. }
  apply H in G. destruct G as (e & (k & HI & HE) & _). vm_compute in HI. destruct HI as [HI|[]]. injection HI as <- <-.
  vm_compute in HE. discriminate HE.
Qed.

(** * C60 Threshold flag *)
Theorem C60_accepts : forall sort value l, sorts_int sort ->
  (thr_set sort value = Some l <->
   exists parts zs, parts <> [] /\ value = join_comma parts /\ Forall2 int_text parts zs /\
     Permutation l zs /\ Sorted Z.le l).
Proof.
  intros sort value l HS. rewrite thr_set_spec. split.
  - intros (parts & zs & H1 & H2 & H3 & ->). exists parts, zs. destruct (HS zs) as [S1 S2]. auto.
  - intros (parts & zs & H1 & H2 & H3 & H4 & H5). exists parts, zs. split; [exact H1|]. split; [exact H2|]. split; [exact H3|].
    destruct (HS zs) as [S1 S2]. apply sorted_perm; auto. transitivity zs; [exact H4|now apply Permutation_sym].
Qed.
Theorem C60_roundtrip : forall sort value l, sorts_int sort -> thr_set sort value = Some l ->
  thr_set sort (thr_string l) = Some l.
Proof.
  intros sort value l HS H. apply (C60_accepts sort value l HS) in H.
  destruct H as (parts & zs & H1 & _ & H3 & H4 & H5). rewrite thr_roundtrip.
  - f_equal. destruct (HS l) as [S1 S2]. now apply sorted_perm.
  - intros ->. apply Permutation_nil in H4. subst zs. inversion H3. subst. now contradiction H1.
  - apply Forall_forall. intros z Hz. eapply Permutation_in in Hz; [|exact H4].
    clear - H3 Hz. induction H3 as [|x y parts zs HI H3 IH]; [contradiction|]. destruct Hz as [->|Hz]; [apply HI|auto].
Qed.
(** The grace period covers every threshold. *)
Theorem C60_grace : forall sort value l grace t, sorts_int sort -> thr_set sort value = Some l -> In t l ->
  (t <= adjust_grace l grace /\ grace <= adjust_grace l grace)%Z.
Proof.
  intros sort value l grace t HS H HT. apply (C60_accepts sort value l HS) in H. destruct H as (_ & _ & _ & _ & _ & _ & H5).
  pose proof (last_max l H5 t HT) as HM. unfold adjust_grace. cbv zeta. destruct (grace <? last l 0)%Z eqn:E; lia.
Qed.
Fixpoint insz (x : Z) (l : list Z) : list Z :=
  match l with [] => [x] | y :: r => if (x <=? y)%Z then x :: l else y :: insz x r end.
Definition isortz (l : list Z) : list Z := fold_right insz [] l.
Lemma isortz_sorts : sorts_int isortz.
Proof.
  assert (HI : forall x l, Permutation (insz x l) (x :: l)).
  { intros x l. induction l as [|y l IH]; [reflexivity|]. cbn [insz]. destruct (x <=? y)%Z; [reflexivity|].
    rewrite IH. apply perm_swap. }
  intros l. induction l as [|x l (P & HS)]; [split; [reflexivity|constructor]|].
  cbn [isortz fold_right]. fold (isortz l). split; [rewrite HI; now constructor|].
  clear P. induction HS as [|y r HS IH HD]; [cbn; auto|]. cbn [insz]. destruct (x <=? y)%Z eqn:E.
  - constructor; [now constructor|]. constructor. lia.
  - constructor; [exact IH|]. destruct r as [|z r]; [cbn; constructor; lia|]. cbn [insz] in *. inversion HD; subst.
    destruct (x <=? z)%Z; constructor; lia.
Qed.
Example C60_case :
  (thr_set isortz (str "600,+60,-1,007"), thr_set isortz (str "1, 2"), thr_set isortz (str "2147483648"), thr_set isortz (str "-2147483648"),
   thr_set isortz [], thr_set isortz (str "1,"), thr_string [-1; 7; 600]%Z)
  = (Some [-1; 7; 60; 600]%Z, None, None, Some [-2147483648]%Z, None, None, str "-1,7,600").
Proof. vm_compute. reflexivity. Qed.

Print Assumptions C53_rebuild.
Print Assumptions C53_history.
Print Assumptions C53_collision_refuted.
Print Assumptions C54_unchanged.
Print Assumptions C52_sets.
Print Assumptions C52_counts.
Print Assumptions C52_thresholds.
Print Assumptions C52_history.
Print Assumptions C52_case_refuted.
Print Assumptions C52_rtr_withdrawn_refuted.
Print Assumptions C52_break_refuted.
Print Assumptions C55_stream_partial.
Print Assumptions C55_stable.
Print Assumptions C55_watch_partial.
Print Assumptions C55_reconnect_refuted.
Print Assumptions C55_cache_reset_refuted.
Print Assumptions C60_accepts.
Print Assumptions C60_roundtrip.
Print Assumptions C60_grace.
