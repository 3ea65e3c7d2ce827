From Coq Require Import ZArith ZifyBool ZifyNat ZifyN.
From Verif Require Import Model.ConcCache Spec.Sets Spec.History Spec.Overlap Proofs.DataP Proofs.CacheP Proofs.ConnP Proofs.RouterP.
From Coq Require Import List.
Local Open Scope list_scope.
Local Open Scope N_scope.
Ltac Zify.zify_post_hook ::= Z.div_mod_to_equations.

Lemma absorb_apply l : forall R x, In x (absorb R l) <-> r_apply (fun y => In y R) l x.
Proof.
  induction l as [|d l IH]; intros R x; [reflexivity|]. unfold absorb in *. cbn [fold_left]. rewrite IH.
  change (r_apply (fun y => In y R) (d :: l) x) with (r_apply (r_apply1 (fun y => In y R) d) l x).
  apply r_apply_ext. intros y. unfold r_apply1. destruct (get_flag d =? 1); cbn [In]; [intuition auto|].
  split; [intros H; apply in_remove in H; tauto|intros [A B]; now apply in_in_remove].
Qed.
(** A difference applied to what it leads from, or to what it leads to. *)
Lemma diff_again new cur A x : Forall wf_sd new -> Forall wf_sd cur -> (r_eq A (as_set cur) \/ r_eq A (as_set new)) ->
  (r_apply A (the_diff new cur) x <-> In x (ids new)).
Proof.
  intros W1 W2 HA.
  assert (F : flags01 (the_diff new cur)) by (apply (the_diff_for new cur)).
  pose proof (the_diff_result new cur x) as R.
  assert (EQ : forall B, r_eq A B -> (r_apply A (the_diff new cur) x <-> r_apply B (the_diff new cur) x)) by (intros B HB; now apply r_apply_ext).
  destruct HA as [HA|HA]; rewrite (EQ _ HA); [exact R|].
  rewrite r_apply_last by exact F. rewrite r_apply_last in R by exact F.
  destruct (last_flag (the_diff new cur) x); [exact R|reflexivity].
Qed.

Section overlap.
Context (keep : Z).
Let at_ (h : list (list sd)) := run (new_server keep) h.
Definition linked (h : list (list sd)) (lag pend : N) (w : link) : Prop :=
  Forall (Forall wf_sd) h /\ Forall (fun n => n <> []) h /\ lk_cache w = at_ h /\
  match lk_at w with
  | None => True
  | Some n => exists h1 h2 h3, h = h1 ++ h2 ++ h3 /\ sdCurrent (at_ h1) <> [] /\ n = sdCurrentSerial (at_ h1) /\
      count_advances (sdCurrent (at_ h1)) (h2 ++ h3) = lag /\ forall x, In x (lk_set w) <-> In x (ids (sdCurrent (at_ (h1 ++ h2))))
  end /\
  match lk_query w with
  | None => True
  | Some t => exists h4 h5, h = h4 ++ h5 /\ sdCurrent (at_ h4) <> [] /\ count_advances (sdCurrent (at_ h4)) h5 = pend /\
      t = match lk_at w with Some n => TSerial1 n (sdCurrentSerial (at_ h4)) | None => TReset1 (sdCurrentSerial (at_ h4)) end
  end.

Lemma at_inv h : Forall (Forall wf_sd) h -> inv (at_ h).
Proof. intros H. apply run_inv; auto using inv_new. Qed.
Lemma count_snoc s h new : inv s -> Forall (Forall wf_sd) h -> count_advances (sdCurrent s) (h ++ [new]) =
  count_advances (sdCurrent s) h + if advances (sdCurrent (run s h)) new then 1 else 0.
Proof.
  intros Hi Hh. rewrite count_app. f_equal. cbn [count_advances]. rewrite N.add_0_r.
  assert (E : same_set (last_set (sdCurrent s) h) (sdCurrent (run s h))).
  { destruct h as [|n h _] using rev_ind; [intros x; reflexivity|]. unfold last_set. rewrite last_last. apply same_set_sym. now apply run_set. }
  pose proof (count_congr _ _ [new] E) as C. cbn [count_advances] in C. lia.
Qed.

(** ** The three moments *)
Lemma linked_publish h lag pend w new : linked h lag pend w -> Forall wf_sd new -> new <> [] ->
  let k := if advances (sdCurrent (lk_cache w)) new then 1 else 0 in linked (h ++ [new]) (lag + k) (pend + k) (occur w (Publish new)).
Proof.
  intros (W & NE & C & A & Q) Wn Nn k. split; [apply Forall_app; auto|]. split; [apply Forall_app; auto|].
  cbn [occur lk_cache lk_at lk_query lk_set]. split; [rewrite C; unfold at_; rewrite run_app; reflexivity|]. split.
  - destruct (lk_at w) as [n|]; [|exact I]. destruct A as (h1 & h2 & h3 & E & N1 & N2 & N3 & N4).
    exists h1, h2, (h3 ++ [new]). split; [rewrite E, <- !app_assoc; reflexivity|]. split; [exact N1|]. split; [exact N2|]. split; [|exact N4].
    rewrite E in W. apply Forall_app in W as [W1 W2]. rewrite app_assoc, count_snoc by auto using at_inv.
    rewrite N3. unfold k. rewrite C, E. unfold at_. rewrite !run_app. reflexivity.
  - destruct (lk_query w) as [t|]; [|exact I]. destruct Q as (h4 & h5 & E & N1 & N2 & N3).
    exists h4, (h5 ++ [new]). split; [rewrite E, <- app_assoc; reflexivity|]. split; [exact N1|]. split; [|exact N3].
    rewrite E in W. apply Forall_app in W as [W1 W2]. rewrite count_snoc by auto using at_inv.
    rewrite N2. unfold k. rewrite C, E. unfold at_. rewrite !run_app. reflexivity.
Qed.
Lemma linked_arrive h lag pend w : linked h lag pend w ->
  linked h lag (match lk_query w with None => 0 | Some _ => pend end) (occur w Arrive) /\
  lk_at (occur w Arrive) = lk_at w /\ lk_set (occur w Arrive) = lk_set w /\ (sdCurrent (at_ h) <> [] -> lk_query (occur w Arrive) <> None).
Proof.
  intros (W & NE & C & A & Q). cbn [occur]. destruct (lk_query w) as [t|] eqn:EQ.
  { split; [|split; [reflexivity|split; [reflexivity|]]].
    - split; [exact W|]. split; [exact NE|]. split; [exact C|]. split; [exact A|]. rewrite EQ. exact Q.
    - rewrite EQ. discriminate. }
  destruct (sdCurrent (lk_cache w)) as [|d0 l0] eqn:EC.
  - assert (E : tstep (lk_cache w) (match lk_at w with Some n => TSerial n | None => TReset end) = Some (lk_cache w, TNoData)).
    { destruct (lk_at w); cbn [tstep]; unfold get_current_serial; rewrite EC; reflexivity. }
    rewrite E. split; [|split; [reflexivity|split; [reflexivity|]]].
    + split; [exact W|]. split; [exact NE|]. split; [exact C|]. split; [exact A|]. rewrite EQ. exact I.
    + rewrite <- C, EC. contradiction.
  - assert (E : tstep (lk_cache w) (match lk_at w with Some n => TSerial n | None => TReset end) =
      Some (lk_cache w, match lk_at w with Some n => TSerial1 n (sdCurrentSerial (lk_cache w)) | None => TReset1 (sdCurrentSerial (lk_cache w)) end)).
    { destruct (lk_at w); cbn [tstep]; unfold get_current_serial; rewrite EC; reflexivity. }
    rewrite E.
    assert (E2 : exists t, match lk_at w with Some n => TSerial1 n (sdCurrentSerial (lk_cache w)) | None => TReset1 (sdCurrentSerial (lk_cache w)) end = t /\ t <> TNoData)
      by (eexists; split; [reflexivity|]; destruct (lk_at w); discriminate).
    destruct E2 as (t & E2 & NT). rewrite E2.
    assert (E3 : match t with TNoData => w | _ => mkLk (lk_cache w) (Some t) (lk_at w) (lk_set w) end = mkLk (lk_cache w) (Some t) (lk_at w) (lk_set w))
      by (destruct t; try reflexivity; contradiction).
    rewrite E3. split; [|split; [reflexivity|split; [reflexivity|discriminate]]].
    split; [exact W|]. split; [exact NE|]. split; [exact C|]. split; [exact A|]. cbn [lk_query lk_at].
    exists h, []. split; [now rewrite app_nil_r|]. rewrite <- C, EC. split; [discriminate|]. split; [reflexivity|]. symmetry. exact E2.
Qed.
(** The answer to a query for changes. *)
Lemma diff_lagging h1 h2 h3 lag R : let h := h1 ++ h2 ++ h3 in Forall (Forall wf_sd) h -> Forall (fun n => n <> []) h ->
  sdCurrent (at_ h1) <> [] -> count_advances (sdCurrent (at_ h1)) (h2 ++ h3) = lag -> served keep lag ->
  (forall x, In x R <-> In x (ids (sdCurrent (at_ (h1 ++ h2))))) ->
  (exists d, get_sds_serial_diff (at_ h) (sdCurrentSerial (at_ h1)) = Ok d /\ forall x, In x (absorb R d) <-> In x (ids (sdCurrent (at_ h)))) \/
  get_sds_serial_diff (at_ h) (sdCurrentSerial (at_ h1)) = Err tt.
Proof.
  intros h W NE N1 HK HL HR. assert (EH : at_ h = run (at_ h1) (h2 ++ h3)) by (unfold at_, h; now rewrite run_app).
  assert (EH2 : at_ (h1 ++ h2) = run (at_ h1) h2) by (unfold at_; now rewrite run_app).
  unfold h in W, NE. apply Forall_app in W as [W1 W23]. apply Forall_app in NE as [NE1 NE23].
  pose proof (at_inv h1 W1) as HI. set (s1 := at_ h1) in *.
  pose proof W23 as W0. apply Forall_app in W0 as [W2 W3]. pose proof NE23 as NE0. apply Forall_app in NE0 as [NE2 NE3].
  assert (SER : sdCurrentSerial (at_ h) = (sdCurrentSerial s1 + lag) mod 4294967296) by (rewrite EH, <- HK; now apply run_serial).
  assert (U : sdCurrentSerial s1 < 4294967296) by apply HI.
  pose proof (count_app h2 h3 (sdCurrent s1)) as CA.
  assert (K : lag = 0 \/ lag = 1 \/ ((0 < keep < Z.of_N lag)%Z /\ lag < 4294967296)) by (unfold served in HL; lia).
  destruct K as [K|[K|[K1 K2]]].
  - left. exists []. assert (E : at_ h = s1) by (rewrite EH; apply run_no_advance; auto; lia).
    assert (E2 : at_ (h1 ++ h2) = s1) by (rewrite EH2; apply run_no_advance; auto; lia).
    rewrite E. split; [apply serial_diff_cur|]. intros x. cbn [absorb fold_left]. rewrite HR, E2. reflexivity.
  - destruct (N.eq_dec (sdCurrentSerial s1) 4294967295) as [EM|NM].
    { right. apply serial_diff_err. left. rewrite SER, EM, K. reflexivity. }
    left. rewrite K in HK. destruct (run_one (h2 ++ h3) s1 HI W23 N1 NE23 HK) as (n & HN & HA & HE).
    assert (Wn : Forall wf_sd n) by (rewrite Forall_forall in W23; auto).
    exists (the_diff n (sdCurrent s1)). rewrite EH, HE. split; [apply one_behind_is; auto; lia|].
    pose proof (step_set s1 n HI Wn) as SS.
    intros x. rewrite absorb_apply. rewrite (SS x). apply diff_again; [exact Wn|apply HI|].
    assert (C2 : count_advances (sdCurrent s1) h2 = 0 \/ count_advances (sdCurrent s1) h2 = 1) by lia. destruct C2 as [C2|C2].
    + left. intros y. rewrite HR, EH2, (run_no_advance h2 s1) by auto. reflexivity.
    + right. intros y. rewrite HR, EH2.
      assert (EQ : run s1 h2 = run s1 (h2 ++ h3)).
      { rewrite run_app. symmetry. apply run_no_advance; auto using run_inv; [now apply run_nonempty|].
        assert (E : same_set (last_set (sdCurrent s1) h2) (sdCurrent (run s1 h2))).
        { clear - W2 HI. destruct h2 as [|m h _] using rev_ind; [intros z; reflexivity|]. unfold last_set. rewrite last_last. apply same_set_sym. now apply run_set. }
        rewrite <- (count_congr _ _ h3 E). lia. }
      rewrite EQ, HE. apply SS.
  - right. apply serial_diff_err. pose proof (run_bound h (new_server keep)) as B. cbn in B. fold (at_ h) in B. specialize (B ltac:(lia) ltac:(lia)).
    unfold nlen. rewrite SER. destruct (N.lt_ge_cases (sdCurrentSerial s1 + lag) 4294967296) as [L|L].
    + rewrite N.mod_small by lia. right. lia.
    + left. replace (sdCurrentSerial s1 + lag) with ((sdCurrentSerial s1 + lag - 4294967296) + 1 * 4294967296) by lia.
      rewrite N.mod_add by lia. rewrite N.mod_small by lia. lia.
Qed.
Lemma linked_finish h lag pend w : linked h lag pend w -> (lk_query w <> None -> lk_at w <> None -> served keep lag) ->
  linked h (match lk_query w with None => lag | Some _ => pend end) pend (occur w Finish) /\ lk_query (occur w Finish) = None /\
  (lk_query w <> None -> holds (occur w Finish) (sdCurrent (at_ h)) \/ (lk_at (occur w Finish) = None /\ lk_at w <> None /\ lk_set (occur w Finish) = lk_set w)).
Proof.
  intros L HS. pose proof L as (W & NE & C & A & Q). cbn [occur]. destruct (lk_query w) as [t|] eqn:EQ.
  2:{ split; [exact L|]. split; [exact EQ|]. intros []. reflexivity. }
  destruct Q as (h4 & h5 & E & Q1 & Q2 & Q3).
  destruct (lk_at w) as [n|] eqn:EA; subst t; cbn [tstep].
  - destruct A as (h1 & h2 & h3 & E1 & N1 & -> & N3 & N4).
    destruct (diff_lagging h1 h2 h3 lag (lk_set w)) as [(d & D1 & D2)|D]; try rewrite <- E1; auto.
    { apply HS; discriminate. }
    + rewrite <- E1 in D1, D2. rewrite C, D1. split; [|split; [reflexivity|intros _; left; exact D2]].
      split; [exact W|]. split; [exact NE|]. split; [reflexivity|]. split; [|exact I]. cbn [lk_at lk_set].
      exists h4, h5, []. rewrite !app_nil_r, <- E. auto.
    + rewrite <- E1 in D. rewrite C, D. split; [|split; [reflexivity|intros _; right; split; [reflexivity|split; [discriminate|reflexivity]]]].
      split; [exact W|]. split; [exact NE|]. split; [reflexivity|]. split; exact I.
  - assert (HH : forall x, In x (absorb [] (sdCurrent (at_ h))) <-> In x (ids (sdCurrent (at_ h)))).
    { intros x. rewrite absorb_apply. rewrite <- (all_new (sdCurrent (at_ h)) x).
      - apply r_apply_ext. intros y. cbn. tauto.
      - apply (at_inv h W). }
    unfold get_current_sds. rewrite C. split; [|split; [reflexivity|intros _; left; exact HH]].
    split; [exact W|]. split; [exact NE|]. split; [reflexivity|]. split; [|exact I]. cbn [lk_at lk_set].
    exists h4, h5, []. rewrite !app_nil_r, <- E. auto.
Qed.

Lemma linked_elapse l : forall h lag pend w, linked h lag pend w ->
  Forall (fun n => Forall wf_sd n /\ n <> []) (published_sets l) -> each_finish (served keep) w lag pend l ->
  exists lag' pend', linked (h ++ published_sets l) lag' pend' (elapse w l) /\
    forall l2, each_finish (served keep) w lag pend (l ++ l2) -> each_finish (served keep) (elapse w l) lag' pend' l2.
Proof.
  induction l as [|e l IH]; intros h lag pend w L HP HE.
  { exists lag, pend. unfold published_sets. cbn [flat_map]. rewrite app_nil_r. split; [exact L|]. intros l2 H. exact H. }
  cbn [each_finish] in HE. destruct HE as [HE1 HE2].
  assert (ST : exists hn, published_sets (e :: l) = hn ++ published_sets l /\
    linked (h ++ hn) (fst (lag_next w lag pend e)) (snd (lag_next w lag pend e)) (occur w e)).
  { destruct e as [new| |]; cbn [lag_next].
    - exists [new]. split; [reflexivity|]. cbn [fst snd]. inversion HP as [|? ? [H1 H2] _]; subst. now apply linked_publish.
    - exists []. split; [reflexivity|]. rewrite app_nil_r. destruct (linked_arrive h lag pend w L) as [H _]. destruct (lk_query w); exact H.
    - exists []. split; [reflexivity|]. rewrite app_nil_r. destruct (linked_finish h lag pend w L) as [H _].
      + intros Q A. destruct (lk_query w); [|contradiction]. destruct (lk_at w); [exact HE1|contradiction].
      + destruct (lk_query w); exact H. }
  destruct ST as (hn & EP & LN). rewrite EP in HP. apply Forall_app in HP as [_ HP].
  destruct (IH _ _ _ _ LN HP HE2) as (lag' & pend' & L' & G). exists lag', pend'.
  rewrite EP, app_assoc. split; [exact L'|]. intros l2 H. apply G. cbn [app each_finish] in H. apply H.
Qed.
Lemma linked_idle : linked [] 0 0 (idle_link keep).
Proof. split; [constructor|]. split; [constructor|]. split; [reflexivity|]. split; exact I. Qed.

Lemma elapse_app w a b : elapse w (a ++ b) = elapse (elapse w a) b.
Proof. apply fold_left_app. Qed.
Lemma ef_app l1 l2 : forall w lag pend, each_finish (served keep) w lag pend (l1 ++ l2) -> each_finish (served keep) w lag pend l1.
Proof.
  induction l1 as [|e l1 IH]; intros w lag pend H; [exact I|]. cbn [app each_finish] in *. destruct H as [H1 H2]. split; [exact H1|]. now apply IH.
Qed.
(** The answer to a query leaves the router with the newest records, or is a Cache Reset. *)
Theorem answered l : Forall (fun n => Forall wf_sd n /\ n <> []) (published_sets l) ->
  each_finish (served keep) (idle_link keep) 0 0 (l ++ [Finish]) ->
  let w := elapse (idle_link keep) l in let w' := elapse (idle_link keep) (l ++ [Finish]) in
  lk_query w <> None -> holds w' (newest l) \/ (lk_at w' = None /\ lk_at w <> None).
Proof.
  intros HP HE w w' HQ. destruct (linked_elapse l [] 0 0 _ linked_idle HP (ef_app _ _ _ _ _ HE)) as (lag & pend & L & G).
  specialize (G _ HE). cbn [each_finish] in G. destruct G as [G _]. fold w in L, G. cbn [app] in L.
  assert (EW : w' = occur w Finish) by (unfold w', w; rewrite elapse_app; reflexivity). rewrite EW.
  destruct (linked_finish _ lag pend w L) as (_ & _ & H).
  { intros Q A. destruct (lk_query w); [|contradiction]. destruct (lk_at w); [exact G|contradiction]. }
  destruct (H HQ) as [H'|(H1 & H2 & _)]; [left|right; auto].
  intros x. rewrite (H' x). unfold newest. apply (last_run keep). apply L.
Qed.
(** Two polls in a row always do. *)
Theorem two_polls l : Forall (fun n => Forall wf_sd n /\ n <> []) (published_sets l) -> published_sets l <> [] ->
  each_finish (served keep) (idle_link keep) 0 0 (l ++ [Arrive; Finish; Arrive; Finish]) ->
  holds (elapse (idle_link keep) (l ++ [Arrive; Finish; Arrive; Finish])) (newest l).
Proof.
  intros HP HN HE. destruct (linked_elapse l [] 0 0 _ linked_idle HP (ef_app _ _ _ _ _ HE)) as (lag & pend & L & G).
  specialize (G _ HE). cbn [app] in L. rewrite elapse_app. set (w := elapse (idle_link keep) l) in *. set (h := published_sets l) in *.
  assert (NE : sdCurrent (at_ h) <> []).
  { destruct L as (W & NEh & _). pose proof (last_run keep h W) as S. fold (at_ h) in S. intros E. rewrite E in S.
    apply same_set_sym, same_set_nil in S. destruct h as [|a h0 _] using rev_ind; [now apply HN|]. rewrite last_last in S.
    apply Forall_app in NEh as [_ NEh]. inversion NEh; subst. contradiction. }
  assert (FIN : forall w', holds w' (sdCurrent (at_ h)) -> holds w' (newest l)).
  { intros w' H x. rewrite (H x). unfold newest. fold h. apply (last_run keep). apply L. }
  apply FIN. clear FIN.
  cbn [elapse fold_left]. cbn [each_finish] in G.
  destruct G as (_ & G2 & _ & G4 & _).
  destruct (linked_arrive h lag pend w L) as (L1 & A1 & S1 & Q1). specialize (Q1 NE).
  assert (LN1 : lag_next w lag pend Arrive = (lag, match lk_query w with None => 0 | Some _ => pend end)) by (unfold lag_next; destruct (lk_query w); reflexivity).
  rewrite LN1 in *. cbn [fst snd] in *. set (p1 := match lk_query w with None => 0 | Some _ => pend end) in *. set (w1 := occur w Arrive) in *.
  destruct (linked_finish h lag p1 w1 L1) as (L2 & Q2 & H2).
  { intros Q A. destruct (lk_query w1); [|contradiction]. destruct (lk_at w1); [exact G2|contradiction]. }
  assert (LN2 : lag_next w1 lag p1 Finish = (p1, p1)) by (unfold lag_next; destruct (lk_query w1); [reflexivity|contradiction]).
  rewrite LN2 in *. cbn [fst snd] in *. set (w2 := occur w1 Finish) in *.
  assert (L2' : linked h p1 p1 w2) by (destruct (lk_query w1); [exact L2|contradiction]).
  destruct (linked_arrive h p1 p1 w2 L2') as (L3 & A3 & S3 & Q3). specialize (Q3 NE). rewrite Q2 in L3.
  assert (LN3 : lag_next w2 p1 p1 Arrive = (p1, 0)) by (unfold lag_next; rewrite Q2; reflexivity).
  rewrite LN3 in *. cbn [fst snd] in *. set (w3 := occur w2 Arrive) in *.
  destruct (linked_finish h p1 0 w3 L3) as (_ & _ & H4).
  { intros Q A. destruct (lk_query w3); [|contradiction]. destruct (lk_at w3); [exact G4|contradiction]. }
  destruct (H4 Q3) as [H4'|(_ & A4 & S4)]; [exact H4'|].
  destruct (H2 Q1) as [H2'|(A2 & _)]; [|rewrite A3 in A4; contradiction].
  intros x. rewrite S4, S3. apply H2'.
Qed.
End overlap.
