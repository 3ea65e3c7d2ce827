(** Lemmas about the text of diff.json. *)
From Coq Require Import ZifyBool ZifyNat ZifyN Permutation.
From Verif Require Import Spec.DiffJson Proofs.FormatP Proofs.AuthP Proofs.JsonTextP2 Proofs.JsonNumP Proofs.JsonStrP Proofs.JsonFileP Proofs.JsonReadP Proofs.JsonStateP
  Proofs.JsonDumpP Proofs.JsonSlurmP Proofs.JsonPrintP Proofs.MonitorP Proofs.MonitorP2 Proofs.MonProcP Proofs.MonRunP.
From Coq Require Import List.
Local Open Scope string_scope.
Local Open Scope list_scope.
Local Open Scope N_scope.

(** ** Entries can be written *)
Definition mentry_fit (e : mentry) : Prop :=
  is_text (m_prefix e) /\ match m_key e with Some b => brk_fit b | None => True end.
Lemma prefix_text p : is_text (prefix_string p).
Proof. apply text_ascii, prefix_low. Qed.
Lemma mentry_good e : mentry_fit e -> good 2 (mentry_json e).
Proof.
  intros [H1 H2]. unfold mentry_json. apply good_obj.
  do 2 (constructor; [split; [ascii|apply good_num, dec_number]|]). constructor; [split; [ascii|apply good_str; exact H1]|].
  do 2 (constructor; [split; [ascii|apply good_num, zdec_number]|]). constructor; [split; [ascii|exact I]|].
  destruct (m_key e) as [b|]; [|constructor]. constructor; [|constructor]. split; [ascii|]. now apply brk_good.
Qed.
Lemma mdata_good u d : is_text u -> good 1 (mdata_json u d).
Proof.
  intros H. unfold mdata_json. apply good_obj.
  constructor; [split; [ascii|apply good_num, zdec_number]|]. constructor; [split; [ascii|apply good_str; exact H]|].
  repeat (constructor; [split; [ascii|apply good_num, dec_number]|]). constructor.
Qed.
Lemma diff_good u1 u2 md l1 l2 : is_text u1 -> is_text u2 -> Forall mentry_fit l1 -> Forall mentry_fit l2 -> good 4 (diff_json u1 u2 md l1 l2).
Proof.
  intros U1 U2 F1 F2. unfold diff_json. apply good_obj.
  constructor; [split; [ascii|destruct md; [apply (good_le 1 3); [lia|now apply mdata_good]|exact I]]|].
  constructor; [split; [ascii|destruct md; [apply (good_le 1 3); [lia|now apply mdata_good]|exact I]]|].
  constructor; [split; [ascii|]|].
  { apply (Forall_map mentry_json (good 2)). eapply Forall_impl; [|exact F1]. apply mentry_good. }
  constructor; [split; [ascii|]|constructor].
  apply (Forall_map mentry_json (good 2)). eapply Forall_impl; [|exact F2]. apply mentry_good.
Qed.

(** ** All entries came from outside *)
Definition heap_fit (h : heap) : Prop := Forall mentry_fit h.
Lemma deref_fit h r : heap_fit h -> mentry_fit (deref h r).
Proof.
  intros H. unfold deref. destruct (nth_in_or_default r h no_entry) as [HI| ->]; [|split; [constructor|exact I]].
  unfold heap_fit in H. rewrite Forall_forall in H. now apply H.
Qed.
Lemma values_fit h m : heap_fit h -> Forall mentry_fit (map snd (values h m)).
Proof. intros H. unfold values. rewrite map_map. cbn [snd]. induction m; constructor; auto using deref_fit. Qed.
Lemma write_fit h : forall r e, heap_fit h -> mentry_fit e -> heap_fit (write h r e).
Proof.
  induction h as [|x h IH]; intros r e H He; [exact H|]. inversion_clear H as [|? ? H1 H2]. destruct r; cbn [write]; constructor; auto. now apply IH.
Qed.
Definition vfit (m : vmap) : Prop := Forall (fun x => mentry_fit (snd x)) m.
Lemma gset_fit k e m : vfit m -> mentry_fit e -> vfit (gset k e m).
Proof. intros H He. constructor; [exact He|]. unfold gdel. apply Forall_forall. intros x Hx. apply filter_In in Hx. unfold vfit in H. rewrite Forall_forall in H. now apply H. Qed.
Lemma alloc_fit h m h1 m1 : heap_fit h -> vfit m -> alloc h m = (h1, m1) -> heap_fit h1.
Proof. intros H Hm [= <- _]. apply Forall_app. split; [exact H|]. now apply Forall_map. Qed.
Lemma vfit_values h m : heap_fit h -> vfit (values h m).
Proof. intros H. exact (proj1 (Forall_map snd mentry_fit (values h m)) (values_fit h m H)). Qed.
Lemma build_fit grace h cur vs bs now h1 m1 n : heap_fit h -> Forall brk_fit bs -> build_refs grace h cur vs bs now = (h1, m1, n) -> heap_fit h1.
Proof.
  intros H HB. unfold build_refs. cbv zeta.
  assert (V : forall l res, vfit res -> vfit (fold_left (rebuild_vrp (values h cur) now) l res)).
  { induction l as [|v l IH]; intros res HR; [exact HR|]. cbn [fold_left]. apply IH. unfold rebuild_vrp.
    destruct (get_asn2 (vj_asn v)) as [a|]; [|exact HR]. destruct (get_prefix2 v) as [p|]; [|exact HR]. cbv zeta. apply gset_fit; [exact HR|].
    split; [apply prefix_text|exact I]. }
  assert (K : forall l res, Forall brk_fit l -> vfit res -> vfit (fold_left (rebuild_key (values h cur) now) l res)).
  { induction l as [|b l IH]; intros res HL HR; [exact HR|]. inversion_clear HL as [|? ? L1 L2]. cbn [fold_left]. apply IH; [exact L2|].
    unfold rebuild_key. cbv zeta. apply gset_fit; [exact HR|]. split; [constructor|exact L1]. }
  set (res := fold_left (rebuild_key (values h cur) now) bs (fold_left (rebuild_vrp (values h cur) now) vs [])).
  assert (HR : vfit res) by (apply K; [exact HB|]; apply V; constructor).
  destruct (alloc h res) as [h0 m0] eqn:E. pose proof (alloc_fit h res h0 m0 H HR E) as H0. clear E.
  assert (G : forall l st, heap_fit (fst (fst st)) -> heap_fit (fst (fst (fold_left (grace_ref grace now) l st)))).
  { induction l as [|x l IH]; intros [[h' r'] n'] Hh; [exact Hh|]. cbn [fold_left]. apply IH. cbn [fst grace_ref] in *.
    destruct (gget (fst x) r'); [exact Hh|]. destruct (now - grace <=? _)%Z; [|exact Hh]. cbn [fst]. apply write_fit; [exact Hh|].
    destruct (deref_fit h' (snd x) Hh) as [D1 D2]. split; assumption. }
  intros E. specialize (G cur (h0, m0, 0) H0). rewrite E in G. exact G.
Qed.
Lemma update_fit grace h cur now h1 m1 n : heap_fit h -> update_refs grace h cur now = (h1, m1, n) -> heap_fit h1.
Proof.
  intros H. unfold update_refs.
  assert (U : vfit (fst (update_current_vrp_map grace (values h cur) now))).
  { unfold update_current_vrp_map. pose proof (vfit_values h cur H) as HV. clear m1 n h1.
    assert (G : forall l st, vfit l -> vfit (fst st) -> vfit (fst (fold_left (fun (st : vmap * N) (x : bytes * mentry) =>
      let '(res, n) := st in
      let e := snd x in
      if negb (m_visible e) && (m_last e <? now - grace)%Z then st
      else if m_visible e
           then (gset (fst x) (mkME (m_asn e) (m_length e) (m_prefix e) (m_first e) now true (m_key e)) res, n)
           else (gset (fst x) e res, n + 1)) l st))).
    { induction l as [|x l IH]; intros [res k] HL HR; [exact HR|]. inversion_clear HL as [|? ? L1 L2]. cbn [fold_left]. apply IH; [exact L2|].
      cbn [fst] in *. destruct (_ && _)%bool; [exact HR|]. destruct (m_visible (snd x)); cbn [fst]; (apply gset_fit; [exact HR|]); [|exact L1].
      destruct L1 as [D1 D2]. split; assumption. }
    apply G; [exact HV|constructor]. }
  destruct (update_current_vrp_map grace (values h cur) now) as [m k]. cbn [fst] in U. destruct (alloc h m) as [h0 m0] eqn:E. intros [= <- _ _].
  now apply (alloc_fit h m h0 m0).
Qed.
Lemma data_fit f k e h c : heap_fit h -> mentry_fit e -> heap_fit (fst (data_ref f k e h c)).
Proof. intros H He. unfold data_ref. destruct (f =? FLAG_ADDED); [|exact H]. cbn [fst]. apply Forall_app. split; [exact H|]. constructor; [exact He|constructor]. Qed.
Lemma step_fit cfg s l s' : from_outside l -> mstep cfg s l = Some s' -> heap_fit (ms_heap s) -> heap_fit (ms_heap s').
Proof.
  intros HO HS H. destruct l as [i t r|i t p|i t|i| | | |t]; cbn [mstep] in HS.
  - unfold step_fetch in HS. destruct (k_file cfg i); [|discriminate HS]. destruct (mc_phase (ms_c i s)); try discriminate HS.
    destruct r as [| | |vs bs]; try (injection HS as <-; exact H).
    + destruct (update_refs _ _ _ _) as [[h m] n] eqn:E. injection HS as <-. rewrite heap_set. now apply update_fit in E.
    + destruct (build_refs _ _ _ _ _ _) as [[h m] n] eqn:E. injection HS as <-. rewrite heap_set.
      destruct HO as (room & tx & d & R1 & _ & ->). apply reader_read in R1 as (_ & _ & _ & R2). now apply build_fit in E.
  - unfold step_pdu in HS. destruct (k_file cfg i); [discriminate HS|]. destruct (mc_phase (ms_c i s)); try discriminate HS.
    destruct HO as (b & rest & B1 & B2). apply decode_fit in B2 as [B2 _]; [|exact B1].
    assert (X : forall f k e, mentry_fit e -> heap_fit (fst (data_ref f k e (ms_heap s) (ms_c i s)))) by (intros; now apply data_fit).
    assert (E : exists c' h', s' = set_c i c' h' s /\ heap_fit h').
    { destruct p; cbn iota beta in HS; try (injection HS as <-; eexists _, _; split; [reflexivity|exact H]);
      (match type of HS with context [data_ref ?f ?k ?e _ _] => specialize (X f k e); destruct (data_ref f k e (ms_heap s) (ms_c i s)) as [h c] end);
      injection HS as <-; (eexists _, _; split; [reflexivity|]); cbn [fst] in X; apply X; (split; [first [apply prefix_text|constructor]|]); cbn [m_key]; try exact I.
      cbn [entry_fit] in B2. destruct B2 as (P1 & P2 & P3).
      split; [exact P1|]. split; [exact I|]. split; [constructor|]. split; [exact P3|]. now apply hex_text. }
    destruct E as (c' & h' & -> & E). now rewrite heap_set.
  - unfold step_assign in HS. destruct (mc_phase (ms_c i s)); try discriminate HS; injection HS as <-; rewrite heap_set; exact H.
  - unfold step_send in HS. destruct (mc_phase (ms_c i s)); try discriminate HS. destruct (ms_comp s); try discriminate HS. injection HS as <-.
    cbn [set_comp ms_heap]. rewrite heap_set. exact H.
  - unfold step_compare in HS. destruct (ms_comp s); try discriminate HS. injection HS as <-. exact H.
  - unfold step_compare in HS. destruct (ms_comp s); try discriminate HS. injection HS as <-. exact H.
  - unfold step_compare in HS. destruct (ms_comp s); try discriminate HS. injection HS as <-. exact H.
  - unfold step_compare in HS. destruct (ms_comp s); try discriminate HS. injection HS as <-. exact H.
Qed.
Theorem run_fit cfg ls : forall s, Forall from_outside ls -> mrun cfg ls = Some s -> heap_fit (ms_heap s).
Proof.
  induction ls as [|l ls IH] using rev_ind; intros s HF HR.
  - injection HR as <-. constructor.
  - apply Forall_app in HF as [F1 F2]. inversion_clear F2 as [|? ? F3 _]. rewrite mrun_snoc in HR.
    destruct (mrun cfg ls) as [s0|]; [|discriminate HR]. apply (step_fit cfg s0 l s F3 HR). now apply IH.
Qed.
Lemma serve_fit cfg ls s : Forall from_outside ls -> mrun cfg ls = Some s ->
  Forall mentry_fit (map snd (fst (fst (serve_diff s)))) /\ Forall mentry_fit (map snd (snd (fst (serve_diff s)))).
Proof.
  intros HF HR. apply run_fit in HR; [|exact HF]. unfold serve_diff. destruct (ms_pub s); cbn [fst snd]; [split; now apply values_fit|split; constructor].
Qed.
Lemma fit_perm l l' : Permutation l l' -> Forall mentry_fit l' -> Forall mentry_fit l.
Proof. intros HP H. apply Forall_forall. intros x Hx. rewrite Forall_forall in H. apply H. now apply (Permutation_in x HP). Qed.

(** ** Reading members *)
Lemma member_fun name j v v' : member name j v -> member name j v' -> v = v'.
Proof. intros (l & -> & E) (l' & [= <-] & E'). rewrite E in E'. congruence. Qed.
Lemma member_none name j v : member name j v -> no_member name j -> False.
Proof. intros (l & -> & E) (l' & [= <-] & E'). rewrite E in E'. discriminate E'. Qed.
Lemma base64_fun k k' t : bytes_ok k -> bytes_ok k' -> base64 k t -> base64 k' t -> k = k'.
Proof.
  intros H H' E E'. pose proof (base64_unique k t H E) as U. pose proof (base64_unique k (b64std k) H (std_base64 k H)) as V.
  pose proof (base64_unique k' t H' E') as U'. pose proof (base64_unique k' (b64std k') H' (std_base64 k' H')) as V'.
  assert (X : b64std k = b64std k') by congruence. pose proof (b64_back k H). pose proof (b64_back k' H'). congruence.
Qed.
Theorem displays_fun j o o' : displays j o -> displays j o' -> o = o'.
Proof.
  destruct o as [p a m|s a k], o' as [p' a' m'|s' a' k']; cbn [displays].
  - intros (_ & H1 & H2 & t & H3 & H4) (_ & G1 & G2 & t' & G3 & G4). pose proof (member_fun _ _ _ _ H1 G1) as [= E1]. pose proof (member_fun _ _ _ _ H2 G2) as [= E2].
    pose proof (member_fun _ _ _ _ H3 G3) as [= E3]. apply dec_inj in E1, E2. congruence.
  - intros (H & _) (b & G & _). destruct (member_none _ _ _ G H).
  - intros (b & G & _) (H & _). destruct (member_none _ _ _ G H).
  - intros (b & H0 & H1 & H2 & H3 & t & H4 & H5) (b' & G0 & G1 & G2 & G3 & t' & G4 & G5). pose proof (member_fun _ _ _ _ H0 G0) as <-.
    pose proof (member_fun _ _ _ _ H1 G1) as [= E1]. pose proof (member_fun _ _ _ _ H2 G2) as [= E2]. pose proof (member_fun _ _ _ _ H4 G4) as [= <-].
    apply dec_inj in E1. pose proof (base64_fun k k' t H3 G3 H5 G5). congruence.
Qed.

Ltac mem := eexists; split; reflexivity.
Lemma mentry_member e :
  member "asn" (mentry_json e) (JNum (dec (m_asn e))) /\ member "max-length" (mentry_json e) (JNum (dec (m_length e))) /\
  member "prefix" (mentry_json e) (JStr (m_prefix e)) /\ dated (mentry_json e) e /\
  match m_key e with Some b => member "bgpsec" (mentry_json e) (brk_json b) | None => no_member "bgpsec" (mentry_json e) end.
Proof. unfold mentry_json, dated. destruct (m_key e); (split; [mem|]); (split; [mem|]); (split; [mem|]); (split; [split; [mem|split; mem]|mem]). Qed.
Lemma brk_member b : member "asn" (brk_json b) (JNum (dec (bj_asn b))) /\ member "ski" (brk_json b) (JStr (bj_ski b)) /\
  member "pubkey" (brk_json b) (JStr (b64std (bj_pubkey b))).
Proof. unfold brk_json. destruct (bj_expires b), (bj_ta b); (split; [mem|split; mem]). Qed.
Lemma mentry_displays e o : mentry_fit e -> entry_obj e = Some o -> displays (mentry_json e) o /\ dated (mentry_json e) e.
Proof.
  intros [_ HF] HE. destruct (mentry_member e) as (M1 & M2 & M3 & M4 & M5). split; [|exact M4]. unfold entry_obj in HE. destruct (m_key e) as [b|].
  - injection HE as <-. destruct (brk_member b) as (B1 & B2 & B3). destruct HF as (_ & _ & _ & F & _).
    exists (brk_json b). split; [exact M5|]. split; [exact B1|]. split; [exact B2|]. split; [exact F|]. exists (b64std (bj_pubkey b)). split; [exact B3|now apply std_base64].
  - destruct (parse_prefix (m_prefix e)) as [p|] eqn:EP; [|discriminate HE]. injection HE as <-.
    split; [exact M5|]. split; [exact M1|]. split; [exact M2|]. exists (m_prefix e). split; [exact M3|exact EP].
Qed.
Lemma mdata_described u d : described (mdata_json u d) u d.
Proof. unfold described. do 7 (split; [mem|]). mem. Qed.
Lemma diff_member u1 u2 md l1 l2 :
  member "metadata-primary" (diff_json u1 u2 md l1 l2) (match md with Some d => mdata_json u1 (fst d) | None => JNull end) /\
  member "metadata-secondary" (diff_json u1 u2 md l1 l2) (match md with Some d => mdata_json u2 (snd d) | None => JNull end) /\
  member "only-primary" (diff_json u1 u2 md l1 l2) (JArr (map mentry_json l1)) /\
  member "only-secondary" (diff_json u1 u2 md l1 l2) (JArr (map mentry_json l2)).
Proof. unfold diff_json. do 3 (split; [mem|]). mem. Qed.

(** The array made of a map, in any order. *)
Lemma map_shown m l : minv m -> Forall mentry_fit (map snd m) -> Permutation l (map snd m) ->
  exists oes, NoDup (map fst oes) /\ Forall2 (fun j x => displays j (fst x) /\ dated j (snd x)) (map mentry_json l) oes /\
    forall o e, In (o, e) oes <-> has m o e.
Proof.
  intros HM HF HP.
  set (f := fun e => (match entry_obj e with Some o => o | None => OK [] 0 [] end, e)).
  assert (HE : forall e, In e (map snd m) -> exists o, entry_obj e = Some o).
  { intros e HI. apply in_map_iff in HI as ([k e'] & <- & HI). destruct (proj2 HM k e' HI) as (o & _ & _ & HO). exists o. exact HO. }
  exists (map f l). split; [|split].
  - rewrite map_map. assert (X : NoDup (map (fun e => fst (f e)) (map snd m))).
    { assert (Y : map (fun e => fst (f e)) (map snd m) = eobjs m).
      { clear HF HP. unfold eobjs. rewrite map_map. induction m as [|[k e] m IH]; [reflexivity|]. cbn [map flat_map snd].
        destruct (HE e (or_introl eq_refl)) as (o & E). unfold f at 1. rewrite E. cbn [fst app]. f_equal. apply IH.
        - destruct HM as [H1 H2]. apply nodup_keys_cons in H1 as [_ H1]. split; [exact H1|]. intros; apply H2; now right.
        - intros; apply HE; now right. }
      rewrite Y. destruct (eobjs_number m (fun o => exists e, has m o e) HM ltac:(tauto)) as (os & O1 & O2 & O3).
      apply (NoDup_incl_NoDup O1).
      - rewrite <- Y, !map_length. unfold nlen in O3. lia.
      - intros o Ho. apply O2 in Ho. now apply eobjs_in. }
    apply (Permutation_NoDup (Permutation_sym (Permutation_map (fun e => fst (f e)) HP)) X).
  - assert (HL : forall e, In e l -> In e (map snd m)) by (intros e; now apply Permutation_in). clear HP.
    induction l as [|e l IH]; [constructor|]. cbn [map]. constructor; [|apply IH; intros; apply HL; now right].
    pose proof (HL e (or_introl eq_refl)) as HI. destruct (HE e HI) as (o & E). unfold f. rewrite E. cbn [fst snd].
    apply mentry_displays; [|exact E]. rewrite Forall_forall in HF. now apply HF.
  - intros o e. rewrite in_map_iff. split.
    + intros (e' & Hf & HI). unfold f in Hf. assert (e' = e) by congruence. subst e'.
      apply (Permutation_in _ HP) in HI. destruct (HE e HI) as (o' & E). rewrite E in Hf. injection Hf as ->.
      apply in_map_iff in HI as ([k e'] & HX & HI). cbn [snd] in HX. subst e'. exists k. auto.
    + intros (k & HI & E). exists e. unfold f. rewrite E. split; [reflexivity|]. apply (Permutation_in _ (Permutation_sym HP)).
      apply in_map_iff. exists (k, e). auto.
Qed.

(** ** Nothing is lost *)
Lemma zdec_inj z z' : zdec z = zdec z' -> z = z'.
Proof.
  assert (D : forall n r, dec n <> 45 :: r).
  { intros n r E. apply (dec_no_dash n). rewrite E. now left. }
  unfold zdec. destruct (z <? 0)%Z eqn:E, (z' <? 0)%Z eqn:E'; intros H.
  - injection H as H. apply dec_inj in H. lia.
  - symmetry in H. apply D in H. contradiction.
  - apply D in H. contradiction.
  - apply dec_inj in H. lia.
Qed.
Lemma mentry_inj e e' : mentry_fit e -> mentry_fit e' -> mentry_json e = mentry_json e' -> e = e'.
Proof.
  intros [_ F] [_ F'] H. destruct e as [a l p f s v k], e' as [a' l' p' f' s' v' k']. unfold mentry_json in H.
  cbn [m_asn m_length m_prefix m_first m_last m_visible m_key] in *. injection H. intros HK -> HS HFi -> HL HA.
  apply dec_inj in HL, HA. apply zdec_inj in HS, HFi. subst. f_equal.
  destruct k as [b|], k' as [b'|]; try discriminate HK; [|reflexivity]. injection HK as HK.
  pose proof (brk_back b F) as B. pose proof (brk_back b' F') as B'. unfold brk_json in B, B'. rewrite HK in B. congruence.
Qed.
Lemma mentries_inj l : forall l', Forall mentry_fit l -> Forall mentry_fit l' -> map mentry_json l = map mentry_json l' -> l = l'.
Proof.
  induction l as [|e l IH]; intros [|e' l'] F F' H; try discriminate H; [reflexivity|].
  inversion_clear F as [|? ? F1 F2]. inversion_clear F' as [|? ? G1 G2]. injection H as H1 H2. f_equal; [|now apply IH].
  apply mentry_inj; auto. unfold mentry_json. congruence.
Qed.
Lemma mdata_inj u d u' d' : mdata_json u d = mdata_json u' d' -> u = u' /\ d = d'.
Proof.
  destruct d, d'. unfold mdata_json. cbn. intros H. injection H. intros H1 H2 H3 H4 H5 H6 -> H7.
  apply dec_inj in H1, H2, H3, H4, H5, H6. apply zdec_inj in H7. subst. auto.
Qed.
Theorem diff_inj u1 u2 md l1 l2 u1' u2' md' l1' l2' :
  is_text u1 -> is_text u2 -> is_text u1' -> is_text u2' -> Forall mentry_fit l1 -> Forall mentry_fit l2 -> Forall mentry_fit l1' -> Forall mentry_fit l2' ->
  diff_text u1 u2 md l1 l2 = diff_text u1' u2' md' l1' l2' -> md = md' /\ (md = None \/ u1 = u1' /\ u2 = u2') /\ l1 = l1' /\ l2 = l2'.
Proof.
  intros T1 T2 T1' T2' F1 F2 F1' F2' H. unfold diff_text in H.
  pose proof (good_le 4 dmax _ ltac:(rewrite dmax_eq; lia) (diff_good u1 u2 md l1 l2 T1 T2 F1 F2)) as G.
  pose proof (good_le 4 dmax _ ltac:(rewrite dmax_eq; lia) (diff_good u1' u2' md' l1' l2' T1' T2' F1' F2')) as G'.
  apply (print_parse _ [10]) in G; [|reflexivity]. apply (print_parse _ [10]) in G'; [|reflexivity]. rewrite H in G. rewrite G' in G. injection G. clear G G' H.
  intros H2 H1 M2 M1. symmetry in H1, H2. apply mentries_inj in H1; auto. apply mentries_inj in H2; auto.
  assert (X : md = md' /\ (md = None \/ u1 = u1' /\ u2 = u2')).
  { destruct md as [[d1 d2]|], md' as [[d1' d2']|]; cbn [fst snd] in *; try discriminate M1.
    - apply mdata_inj in M1 as [-> ->], M2 as [-> ->]. auto.
    - auto. }
  destruct X. auto.
Qed.
