(** Lemmas about the HTTP routes. *)
From Coq Require Import ZArith ZifyBool ZifyNat ZifyN String.
From Verif Require Import Lib.Str Spec.Endpoints.
From Coq Require Import List.
Local Open Scope string_scope.
Local Open Scope list_scope.
Local Open Scope N_scope.

Lemma beqb_refl a : beqb a a = true.
Proof. now apply beqb_eq. Qed.
Lemma beqb_neq a b : beqb a b = false <-> a <> b.
Proof. rewrite <- beqb_eq. destruct (beqb a b); split; congruence. Qed.
Lemma beqb_cons_nil c s : beqb (c :: s) [] = false.
Proof. now apply beqb_neq. Qed.

(** * Text *)
Lemma split_noslash w : ~ In 47 w -> split_slash w = [w].
Proof.
  induction w as [|c w IH]; intros H; [reflexivity|]. cbn [split_slash].
  destruct (c =? 47) eqn:E; [exfalso; apply H; left; lia|]. rewrite IH; [reflexivity|]. intros X; apply H; now right.
Qed.
Lemma split_app w s : ~ In 47 w -> split_slash (w ++ 47 :: s) = w :: split_slash s.
Proof.
  induction w as [|c w IH]; intros H; cbn [app split_slash]; [reflexivity|].
  destruct (c =? 47) eqn:E; [exfalso; apply H; left; lia|]. rewrite IH; [reflexivity|]. intros X; apply H; now right.
Qed.
Definition noslash (w : bytes) : Prop := ~ In 47 w.
Lemma split_path ns tr : Forall noslash ns -> ns <> [] \/ tr = true ->
  split_slash (tl (path_text ns tr)) = ns ++ (if tr then [[]] else []).
Proof.
  unfold path_text. induction ns as [|w ns IH]; intros H H0.
  - destruct H0 as [H0| ->]; [congruence|reflexivity].
  - inversion H as [|? ? Hw Hns]; subst. cbn [map concat app tl].
    destruct ns as [|w' ns'].
    + cbn [map concat app]. rewrite app_nil_r. destruct tr; [|rewrite app_nil_r; apply split_noslash; exact Hw].
      rewrite split_app by exact Hw. reflexivity.
    + cbn [map concat app] in *. rewrite <- app_assoc. cbn [app]. rewrite split_app by exact Hw.
      cbn [tl] in IH. cbn [app]. f_equal. apply IH; [exact Hns|left; discriminate].
Qed.
Lemma unescape_plain s : Forall (fun c => c <> 37) s -> unescape s = Some s.
Proof.
  induction 1 as [|c s Hc _ IH]; [reflexivity|]. cbn [unescape].
  destruct (c =? 37) eqn:E; [lia|]. rewrite IH. reflexivity.
Qed.
Lemma unescape_says q w : says q w -> unescape q = Some w.
Proof.
  induction 1 as [|c s t Hc _ IH|a b x y s t Ha Hb _ IH]; [reflexivity|..]; cbn [unescape].
  - destruct (c =? 37) eqn:E; [lia|]. rewrite IH. reflexivity.
  - rewrite N.eqb_refl, Ha, Hb, IH. reflexivity.
Qed.
Lemma rev_last {A} (l : list A) x : rev (l ++ [x]) = x :: rev l.
Proof. apply rev_unit. Qed.
Lemma slash_end_app s : slash_end (s ++ [47]) = true.
Proof. unfold slash_end. rewrite rev_last. reflexivity. Qed.
Lemma slash_end_last s c : slash_end (s ++ [c]) = (c =? 47).
Proof. unfold slash_end. rewrite rev_last. reflexivity. Qed.
Lemma nonempty_last {A} (l : list A) : l <> [] -> exists l' x, l = l' ++ [x].
Proof. intros H. destruct (exists_last H) as (l' & x & ->). eauto. Qed.
Lemma slash_end_path ns tr : Forall noslash ns -> Forall (fun n => n <> []) ns -> ns <> [] \/ tr = true ->
  slash_end (path_text ns tr) = tr.
Proof.
  intros H1 H2 H3. unfold path_text. destruct tr; [apply slash_end_app|]. rewrite app_nil_r.
  destruct H3 as [H3|H3]; [|discriminate]. destruct (nonempty_last ns H3) as (l & w & ->).
  rewrite map_app, concat_app. cbn [map concat]. rewrite app_nil_r.
  apply Forall_app in H1, H2. destruct H1 as [_ H1], H2 as [_ H2]. inversion H1 as [|? ? H1' _]; inversion H2 as [|? ? H2' _]; subst.
  destruct (nonempty_last w H2') as (w' & c & ->). rewrite app_comm_cons, app_assoc, slash_end_last.
  destruct (c =? 47) eqn:E; [|reflexivity]. exfalso. apply H1'. apply in_or_app. right. left. lia.
Qed.
Lemma neat_noslash n : neat_name n -> noslash n.
Proof. now intros (_ & _ & _ & H). Qed.
Lemma neat_nonempty n : neat_name n -> n <> [].
Proof. now intros (H & _). Qed.
Lemma ok_neat n : name_ok n -> neat_name n.
Proof.
  intros (H1 & H2 & H3 & H4). repeat split; try assumption. intros HI. rewrite Forall_forall in H4.
  destruct (H4 47 HI) as [X _]. congruence.
Qed.
Lemma clean_neat ns : Forall neat_name ns -> forall acc, clean_parts acc ns = rev acc ++ ns.
Proof.
  induction 1 as [|n ns (N1 & N2 & N3 & _) _ IH]; intros acc; cbn [clean_parts]; [now rewrite app_nil_r|].
  apply beqb_neq in N1, N2, N3. rewrite N1, N2, N3. cbn [orb]. rewrite IH. cbn [rev]. rewrite <- app_assoc. reflexivity.
Qed.
Lemma clean_neat_app ns : Forall neat_name ns -> forall acc r, clean_parts acc (ns ++ r) = clean_parts (rev ns ++ acc) r.
Proof.
  induction 1 as [|n ns (N1 & N2 & N3 & _) _ IH]; intros acc r; cbn [app clean_parts rev]; [reflexivity|].
  apply beqb_neq in N1, N2, N3. rewrite N1, N2, N3. cbn [orb]. rewrite IH, <- app_assoc. reflexivity.
Qed.
Lemma path_head ns tr : ns <> [] \/ tr = true -> exists s, path_text ns tr = 47 :: s.
Proof. intros H. destruct ns as [|n ns]; [destruct H as [H| ->]; [congruence|]|]; unfold path_text; cbn; eauto. Qed.
Lemma split_path_all ns tr : Forall noslash ns -> ns <> [] \/ tr = true ->
  split_slash (path_text ns tr) = [] :: ns ++ (if tr then [[]] else []).
Proof.
  intros H1 H2. rewrite <- (split_path ns tr H1 H2). destruct (path_head ns tr H2) as (s & ->). cbn [split_slash tl].
  now rewrite N.eqb_refl.
Qed.
Lemma flat_concat {A B} (f : A -> list B) l : flat_map f l = concat (map f l).
Proof. induction l as [|x l IH]; [reflexivity|]. cbn [flat_map map concat]. now rewrite IH. Qed.
Lemma rooted_clean_path ns tr : Forall neat_name ns -> ns <> [] \/ tr = true ->
  rooted_clean (path_text ns tr) = match ns with [] => [47] | _ => path_text ns false end.
Proof.
  intros H1 H2. unfold rooted_clean. rewrite split_path_all by (try assumption; now apply (Forall_impl _ neat_noslash)).
  change ([] :: ns ++ (if tr then [[]] else [])) with ([[]] ++ (ns ++ (if tr then [[]] else []))).
  cbn [app clean_parts]. change (beqb [] []) with true. cbn [orb]. rewrite clean_neat_app by exact H1. rewrite app_nil_r.
  replace (clean_parts (rev ns) (if tr then [[]] else [])) with ns by (destruct tr; cbn [clean_parts]; change (beqb [] []) with true; cbn [orb clean_parts]; now rewrite rev_involutive).
  destruct ns; [reflexivity|]. rewrite flat_concat. unfold path_text. now rewrite app_nil_r.
Qed.
Lemma clean_path_neat ns tr : Forall neat_name ns -> ns <> [] \/ tr = true -> clean_path (path_text ns tr) = path_text ns tr.
Proof.
  intros H1 H2. unfold clean_path. replace (match path_text ns tr with [] => [47] | c :: _ => if c =? 47 then path_text ns tr else 47 :: path_text ns tr end) with (path_text ns tr)
    by (destruct (path_head ns tr H2) as (s & ->); reflexivity).
  rewrite rooted_clean_path by assumption.
  rewrite slash_end_path; [|eapply Forall_impl; [|exact H1]; apply neat_noslash|eapply Forall_impl; [|exact H1]; apply neat_nonempty|exact H2].
  destruct ns as [|n ns].
  - destruct H2 as [H2| ->]; [congruence|]. reflexivity.
  - destruct tr; cbn [andb]; [|reflexivity].
    replace (beqb (path_text (n :: ns) false) [47]) with false; [cbn [negb]; unfold path_text; now rewrite app_nil_r|].
    symmetry. apply beqb_neq. unfold path_text. inversion H1 as [|? ? Hn _]; subst. destruct Hn as (N1 & _).
    destruct n as [|c n]; [congruence|]. cbn. discriminate.
Qed.
(** Cleaning gives normal forms; paths that are not in normal form change. *)
Lemma split_parts s : Forall noslash (split_slash s).
Proof.
  induction s as [|c s IH]; [repeat constructor; intros []|]. cbn [split_slash]. destruct (c =? 47) eqn:E.
  - constructor; [intros []|exact IH].
  - destruct (split_slash s) as [|w r]; [repeat constructor; intros [X|[]]; lia|].
    inversion IH as [|? ? I1 I2]; subst. constructor; [intros [X|X]; [lia|now apply I1]|exact I2].
Qed.
Lemma clean_parts_neat parts : Forall noslash parts -> forall acc, Forall neat_name acc -> Forall neat_name (clean_parts acc parts).
Proof.
  induction 1 as [|w r Hw _ IH]; intros acc HA; cbn [clean_parts]; [now apply Forall_rev|].
  destruct (beqb w []) eqn:E1; [now apply IH|]. destruct (beqb w (str ".")) eqn:E2; [now apply IH|]. cbn [orb].
  destruct (beqb w (str "..")) eqn:E3; [apply IH; destruct HA; [constructor|assumption]|].
  apply IH. constructor; [|exact HA]. apply beqb_neq in E1, E2, E3. repeat split; assumption.
Qed.
Lemma clean_path_is_neat s : neat (clean_path s).
Proof.
  unfold clean_path. set (s' := match s with [] => [47] | c :: _ => if c =? 47 then s else 47 :: s end).
  unfold rooted_clean. pose proof (clean_parts_neat _ (split_parts s') [] (Forall_nil _)) as HN.
  destruct (clean_parts [] (split_slash s')) as [|w ws] eqn:E.
  - change (beqb [47] [47]) with true. cbn [negb]. rewrite andb_false_r. exists [], true. split; [constructor|]. split; [now right|reflexivity].
  - rewrite flat_concat. destruct (slash_end s' && negb (beqb (concat (map (cons 47) (w :: ws))) [47])).
    + exists (w :: ws), true. split; [exact HN|]. split; [left; discriminate|reflexivity].
    + exists (w :: ws), false. split; [exact HN|]. split; [left; discriminate|]. unfold path_text. now rewrite app_nil_r.
Qed.
Lemma clean_path_fixed s : clean_path s = s <-> neat s.
Proof.
  split.
  - intros <-. apply clean_path_is_neat.
  - intros (qs & tr & H1 & H2 & ->). now apply clean_path_neat.
Qed.
Lemma count_path ns tr : Forall noslash ns ->
  length (filter (N.eqb 47) (path_text ns tr)) = (length ns + (if tr then 1 else 0))%nat.
Proof.
  intros H. unfold path_text. rewrite filter_app, app_length. f_equal; [|now destruct tr].
  induction H as [|w ns Hw _ IH]; [reflexivity|]. cbn [map concat app filter]. rewrite filter_app.
  change (47 =? 47) with true. cbn [length]. rewrite app_length, IH.
  replace (filter (N.eqb 47) w) with (@nil N); [reflexivity|].
  symmetry. clear - Hw. unfold noslash in Hw. induction w as [|c w IH]; [reflexivity|]. cbn [filter].
  destruct (47 =? c) eqn:E; [exfalso; apply Hw; left; lia|]. apply IH. intros X; apply Hw; now right.
Qed.
Lemma path_segs_text qs ws tr : Forall2 says qs ws -> Forall neat_name qs -> qs <> [] \/ tr = true ->
  path_segs (path_text qs tr) = ws ++ (if tr then [[47]] else []).
Proof.
  intros HS HN H0. unfold path_segs. rewrite split_path by (try assumption; now apply (Forall_impl _ neat_noslash)).
  assert (HM : map path_unescape qs = ws).
  { clear - HS. induction HS as [|q w qs ws H _ IH]; [reflexivity|]. cbn [map]. rewrite IH. unfold path_unescape. now rewrite (unescape_says _ _ H). }
  destruct tr.
  - rewrite rev_last, rev_involutive, HM. reflexivity.
  - rewrite !app_nil_r. destruct H0 as [H0|H0]; [|discriminate]. destruct (nonempty_last qs H0) as (l & q & ->).
    apply Forall_app in HN. destruct HN as [_ HN]. inversion HN as [|? ? Hq _]; subst. apply neat_nonempty in Hq.
    rewrite rev_last. destruct q; [congruence|]. reflexivity.
Qed.

(** * Patterns *)
Definition lit (w : bytes) : segment := mkSeg w false false.
Definition tail (tr : bool) : list segment := if tr then [mkSeg [] true true] else [].
Definition segs_of (ns : list bytes) (tr : bool) : list segment := map lit ns ++ tail tr.
Definition pat_of (ns : list bytes) (tr : bool) : pattern := mkPat [] [] (segs_of ns tr).
Lemma index_none f s : Forall (fun c => f c = false) s -> index_of f s = None.
Proof. induction 1 as [|c s H _ IH]; [reflexivity|]. cbn [index_of]. now rewrite H, IH. Qed.
Lemma parse_segs_plain wname ns (tr : bool) : Forall name_ok ns -> parse_segs wname [] (ns ++ (if tr then [[]] else [])) = Some (segs_of ns tr).
Proof.
  unfold segs_of. assert (G : forall seen, Forall name_ok ns -> parse_segs wname seen (ns ++ (if tr then [[]] else [])) = Some (map lit ns ++ tail tr)); [|intros X; now apply G]. induction ns as [|n ns IH]; intros seen H.
  - destruct tr; reflexivity.
  - inversion H as [|? ? (N1 & N2 & N3 & N4) Hns]; subst. cbn [app parse_segs map]. rewrite (proj2 (beqb_neq n [])) by assumption. cbn [andb].
    rewrite index_none by (eapply Forall_impl; [|exact N4]; intros c (_ & X & _); apply N.eqb_neq; congruence).
    rewrite IH by exact Hns. unfold path_unescape. rewrite unescape_plain by (eapply Forall_impl; [|exact N4]; cbn; tauto). reflexivity.
Qed.
Lemma path_bytes (P : N -> Prop) ns tr : P 47 -> Forall (Forall P) ns -> Forall P (path_text ns tr).
Proof.
  intros H0 H. unfold path_text. apply Forall_app. split; [|destruct tr; repeat constructor; exact H0].
  induction H as [|w ns Hw _ IH]; [constructor|]. cbn [map concat]. apply Forall_app. split; [|exact IH]. now constructor.
Qed.
Lemma parse_plain wname s ns tr : plain_path s ns tr -> parse_pattern wname s = Some (pat_of ns tr).
Proof.
  intros (H1 & H2 & ->). unfold parse_pattern. rewrite index_none.
  2: { apply path_bytes; [reflexivity|]. eapply Forall_impl; [|exact H1]. intros n (_ & _ & _ & X). eapply Forall_impl; [|exact X]. intros c (_ & _ & Y1 & Y2 & _). apply N.eqb_neq in Y1, Y2. now rewrite Y1, Y2. }
  cbn [forallb negb]. destruct (path_head ns tr H2) as (s & E). rewrite E. cbn [index_of]. change (47 =? 47) with true.
  cbn [firstn skipn existsb]. change (beqb [] []) with true. cbn [negb andb].
  rewrite <- E, split_path, parse_segs_plain; [|assumption|apply (Forall_impl _ neat_noslash); now apply (Forall_impl _ ok_neat)|assumption].
  reflexivity.
Qed.
Lemma last_multi_of ns tr : last_multi (segs_of ns tr) = tr.
Proof.
  unfold last_multi, segs_of. destruct tr; cbn [tail]; [now rewrite rev_last|]. rewrite app_nil_r.
  destruct ns as [|n ns]; [reflexivity|]. destruct (nonempty_last (n :: ns) ltac:(discriminate)) as (l & w & ->).
  rewrite map_app. cbn [map]. now rewrite rev_last.
Qed.
Lemma compare_loop_plain t1 t2 : forall n1 n2,
  match compare_loop t1 t2 Equivalent (segs_of n1 t1) (segs_of n2 t2) with
  | Equivalent => n1 = n2 /\ t1 = t2
  | Overlaps => False
  | _ => (n1, t1) <> (n2, t2)
  end.
Proof.
  induction n1 as [|a n1 IH]; intros n2; unfold segs_of in *; cbn [map app].
  - destruct n2 as [|b n2]; cbn [map app].
    + destruct t1, t2; cbn; try (split; reflexivity); discriminate.
    + destruct t1; cbn [tail compare_loop].
      * cbn [compare_segs sg_multi lit andb combine_rel]. destruct (map lit n2 ++ tail t2) eqn:E; cbn [combine_rel]; try discriminate.
      * discriminate.
  - destruct n2 as [|b n2]; cbn [map app].
    + destruct t2; cbn [tail compare_loop].
      * cbn [compare_segs sg_multi lit andb combine_rel]. destruct (map lit n1 ++ tail t1) eqn:E; cbn [combine_rel]; try discriminate.
      * discriminate.
    + cbn [compare_loop]. unfold compare_segs at 1. cbn [lit sg_multi sg_wild sg_s andb]. destruct (beqb a b) eqn:E; cbn [combine_rel].
      * apply beqb_eq in E. subst b. specialize (IH n2). destruct (compare_loop t1 t2 Equivalent (map lit n1 ++ tail t1) (map lit n2 ++ tail t2)); try (intros X; apply IH; congruence); [|exact IH]. destruct IH; subst; auto.
      * apply beqb_neq in E. congruence.
Qed.
Lemma conflicts_plain n1 t1 n2 t2 : conflicts (pat_of n1 t1) (pat_of n2 t2) = true <-> (n1, t1) = (n2, t2).
Proof.
  unfold conflicts, pat_of. cbn [pt_host pt_method pt_segs]. change (beqb [] []) with true. change (compare_methods [] []) with Equivalent. cbn [andb combine_rel].
  unfold compare_paths. rewrite !last_multi_of. pose proof (compare_loop_plain t1 t2 n1 n2) as HC. split.
  - destruct (negb (Nat.eqb (length (segs_of n1 t1)) (length (segs_of n2 t2))) && negb t1 && negb t2); [discriminate|].
    destruct (compare_loop t1 t2 Equivalent (segs_of n1 t1) (segs_of n2 t2)); try discriminate; try contradiction. intros _. destruct HC; subst; reflexivity.
  - intros X. injection X as -> ->. rewrite Nat.eqb_refl. cbn [negb andb].
    destruct (compare_loop t2 t2 Equivalent (segs_of n2 t2) (segs_of n2 t2)); try reflexivity; congruence.
Qed.

(** * The tree *)
Section Tree.
Context {H : Type}.
Implicit Type n : node H.
Definition any_of (n : node H) : option (node H) := let '(Node _ _ a _) := n in a.
Definition end_of (n : node H) (tr : bool) : option (pattern * H) := let '(Node l _ _ m) := n in if tr then m else l.
Fixpoint walk (ls : list bytes) (n : node H) : option (node H) :=
  match ls with [] => Some n | s :: r => match find_child s n with Some c => walk r c | None => None end end.
Definition leaf_at (n : node H) (ls : list bytes) (tr : bool) : option (pattern * H) :=
  match walk ls n with Some c => end_of c tr | None => None end.
Definition tame (n : node H) : Prop := forall ls c, walk ls n = Some c -> any_of c = None.
Lemma tame0 : tame node0.
Proof. intros [|s ls] c E; cbn in E; [injection E as <-; reflexivity|]. destruct (beqb s []); discriminate E. Qed.
Lemma tame_any n : tame n -> any_of n = None.
Proof. intros T. exact (T [] n eq_refl). Qed.
Lemma tame_child n s c : tame n -> find_child s n = Some c -> tame c.
Proof. intros T E ls d W. apply (T (s :: ls)). cbn [walk]. now rewrite E. Qed.
Lemma tame_mk n : any_of n = None -> (forall s c, find_child s n = Some c -> tame c) -> tame n.
Proof.
  intros A C [|s ls] c W; cbn [walk] in W; [injection W as <-; exact A|]. destruct (find_child s n) as [d|] eqn:E; [|discriminate W].
  exact (C s d E ls c W).
Qed.
Lemma kid_kid_set k k' c l : kid k' (kid_set k c l) = if beqb k' k then Some c else kid (H := H) k' l.
Proof.
  induction l as [|[x n] l IH]; cbn [kid_set kid].
  - reflexivity.
  - destruct (beqb k x) eqn:E; cbn [kid].
    + apply beqb_eq in E. subst x. destruct (beqb k' k); reflexivity.
    + destruct (beqb k' x) eqn:E'; [|exact IH]. destruct (beqb k' k) eqn:E''; [|reflexivity].
      apply beqb_eq in E', E''. subst. rewrite beqb_refl in E. discriminate E.
Qed.
Lemma with_child_some k f n n' : k <> [] -> with_child k f n = Some n' ->
  exists c, f (match find_child k n with Some c => c | None => node0 end) = Some c /\
    (forall k', find_child k' n' = if beqb k' k then Some c else find_child k' n) /\
    (forall tr, end_of n' tr = end_of n tr) /\ any_of n' = any_of n.
Proof.
  intros HK. destruct n as [l ks a m]. unfold with_child. destruct (f (match find_child k (Node l ks a m) with Some c => c | None => node0 end)) as [c|] eqn:E; [|discriminate].
  cbn [option_map]. rewrite (proj2 (beqb_neq k [])) by exact HK. intros X. injection X as <-. exists c. split; [reflexivity|]. split.
  - intros k'. cbn [find_child]. destruct (beqb k' []) eqn:E'.
    + apply beqb_eq in E'. subst k'. destruct k; [congruence|]. reflexivity.
    + apply kid_kid_set.
  - split; [intros []; reflexivity|reflexivity].
Qed.
Lemma with_child_none k f n : with_child k f n = None -> f (match find_child k n with Some c => c | None => node0 end) = None.
Proof. destruct n as [l ks a m]. unfold with_child. destruct (f _); [discriminate|reflexivity]. Qed.
Lemma leaf_at0 ls tr : leaf_at node0 ls tr = None.
Proof.
  destruct ls as [|s ls]; unfold leaf_at; cbn; [now destruct tr|]. now destruct (beqb s []).
Qed.
Lemma leaf_at_cons n s ls tr : leaf_at n (s :: ls) tr = match find_child s n with Some c => leaf_at c ls tr | None => None end.
Proof. unfold leaf_at. cbn [walk]. destruct (find_child s n); reflexivity. Qed.
Lemma add_segs_plain p h tr : forall ns n, Forall (fun w => w <> []) ns -> tame n -> leaf_at n ns tr = None ->
  exists n', add_segs (segs_of ns tr) p h n = Some n' /\ tame n' /\
    leaf_at n' ns tr = Some (p, h) /\
    (forall ls t, (ls, t) <> (ns, tr) -> leaf_at n' ls t = leaf_at n ls t).
Proof.
  unfold segs_of. induction ns as [|w ns IH]; intros n HN HT HL.
  - cbn [map app]. destruct n as [l ks a m]. destruct tr; cbn [tail add_segs sg_multi].
    + eexists. split; [reflexivity|]. split; [|split; [reflexivity|]].
      * apply tame_mk; [exact (tame_any _ HT)|]. intros s c E. exact (tame_child _ s c HT E).
      * intros [|s ls] t E; [destruct t; [congruence|reflexivity]|]. rewrite !leaf_at_cons. reflexivity.
    + cbn in HL. subst l. eexists. split; [reflexivity|]. split; [|split; [reflexivity|]].
      * apply tame_mk; [exact (tame_any _ HT)|]. intros s c E. exact (tame_child _ s c HT E).
      * intros [|s ls] t E; [destruct t; [reflexivity|congruence]|]. rewrite !leaf_at_cons. reflexivity.
  - inversion HN as [|? ? Hw Hns]; subst. cbn [map app add_segs lit sg_multi sg_wild sg_s].
    set (c0 := match find_child w n with Some c => c | None => node0 end).
    assert (T0 : tame c0) by (unfold c0; destruct (find_child w n) as [c|] eqn:E; [exact (tame_child _ _ _ HT E)|exact tame0]).
    assert (L0 : leaf_at c0 ns tr = None) by (unfold c0; rewrite leaf_at_cons in HL; destruct (find_child w n); [exact HL|apply leaf_at0]).
    destruct (IH c0 Hns T0 L0) as (c & C1 & C2 & C3 & C4).
    destruct (with_child w (add_segs (map lit ns ++ tail tr) p h) n) as [n'|] eqn:E.
    2: { apply with_child_none in E. fold c0 in E. congruence. }
    apply with_child_some in E; [|exact Hw]. destruct E as (c' & E1 & E2 & E3 & E4). fold c0 in E1. rewrite C1 in E1. injection E1 as <-.
    exists n'. split; [reflexivity|]. split; [|split].
    + apply tame_mk; [rewrite E4; exact (tame_any _ HT)|]. intros s d. rewrite E2. destruct (beqb s w); [intros X; injection X as <-; exact C2|].
      intros X. exact (tame_child _ _ _ HT X).
    + rewrite leaf_at_cons, E2, beqb_refl. exact C3.
    + intros [|s ls] t NE.
      * unfold leaf_at. cbn [walk]. apply E3.
      * rewrite !leaf_at_cons, E2. destruct (beqb s w) eqn:EB; [|reflexivity]. apply beqb_eq in EB. subst s.
        rewrite C4 by congruence. unfold c0. destruct (find_child w n); [reflexivity|apply leaf_at0].
Qed.
(** What the tree finds: the exact leaf, or the longest subtree. *)
Lemma match_path_spec : forall segs n, tame n ->
  match match_path segs n with
  | Some x => leaf_at n segs false = Some x \/
      (leaf_at n segs false = None /\ exists a b, segs = a ++ b /\ b <> [] /\ leaf_at n a true = Some x /\
         forall a' b', segs = a' ++ b' -> b' <> [] -> (length a < length a')%nat -> leaf_at n a' true = None)
  | None => leaf_at n segs false = None /\ forall a b, segs = a ++ b -> b <> [] -> leaf_at n a true = None
  end.
Proof.
  induction segs as [|s r IH]; intros n HT.
  - destruct n as [l ks a m]. cbn [match_path]. unfold leaf_at. cbn [walk end_of]. destruct l as [x|]; [now left|]. split; [reflexivity|].
    intros [|] [|] E HB; try discriminate E; congruence.
  - assert (HA := tame_any n HT). assert (M : match_path (s :: r) n = match (match find_child s n with Some c => match_path r c | None => None end) with Some x => Some x | None => end_of n true end).
    { destruct n as [l ks a m]. cbn in HA. subst a. cbn [match_path end_of]. destruct (match find_child s (Node l ks None m) with Some c => match_path r c | None => None end); [reflexivity|]. now destruct (beqb s [47]). }
    rewrite M. rewrite leaf_at_cons. destruct (find_child s n) as [c|] eqn:EC.
    + specialize (IH c (tame_child _ _ _ HT EC)). destruct (match_path r c) as [x|] eqn:EM.
      * destruct IH as [IH|(I1 & a & b & I2 & I3 & I4 & I5)]; [now left|]. right. split; [exact I1|]. exists (s :: a), b.
        split; [cbn; congruence|]. split; [exact I3|]. split; [rewrite leaf_at_cons, EC; exact I4|].
        intros [|s' a'] b' E HB HL; [cbn in HL; lia|]. cbn in E. injection E as <- E. rewrite leaf_at_cons, EC. apply (I5 a' b' E HB). cbn in HL. lia.
      * destruct IH as (I1 & I2). destruct (end_of n true) as [x|] eqn:EE.
        -- right. split; [exact I1|]. exists [], (s :: r). split; [reflexivity|]. split; [discriminate|]. split; [exact EE|].
           intros [|s' a'] b' E HB HL; [cbn in HL; lia|]. cbn in E. injection E as <- E. rewrite leaf_at_cons, EC. exact (I2 a' b' E HB).
        -- split; [exact I1|]. intros [|s' a'] b E HB; [exact EE|]. cbn in E. injection E as <- E. rewrite leaf_at_cons, EC. exact (I2 a' b E HB).
    + destruct (end_of n true) as [x|] eqn:EE.
      * right. split; [reflexivity|]. exists [], (s :: r). split; [reflexivity|]. split; [discriminate|]. split; [exact EE|].
        intros [|s' a'] b' E HB HL; [cbn in HL; lia|]. cbn in E. injection E as <- E. rewrite leaf_at_cons, EC. reflexivity.
      * split; [reflexivity|]. intros [|s' a'] b E HB; [exact EE|]. cbn in E. injection E as <- E. rewrite leaf_at_cons, EC. reflexivity.
Qed.
End Tree.

(** * All routes *)
Definition key (x : route) : list bytes * bool := fst x.
(** The tree under the empty host and the empty method. *)
Definition rooted (t : node page) (b : node page) : Prop :=
  (t = node0 /\ b = node0) \/ t = Node None [] (Some (Node None [] (Some b) None)) None.
Record stores (m : mux page) (routes : list route) : Prop := mkStores {
  st_pats : forall p, In p (mx_pats m) <-> exists x, In x routes /\ p = pat_of (fst (fst x)) (snd (fst x));
  st_base : exists b, rooted (mx_tree m) b /\ tame b /\
    forall ls t y, leaf_at b ls t = Some y <-> exists h, In (ls, t, h) routes /\ y = (pat_of ls t, h) }.
Lemma stores0 : stores mux0 [].
Proof.
  constructor.
  - intros p. split; [intros []|intros (x & [] & _)].
  - exists node0. split; [left; auto|]. split; [exact tame0|]. intros ls t y. rewrite leaf_at0. split; [discriminate|intros (h & [] & _)].
Qed.
Lemma handle_plain wname m routes s ns tr h : stores m routes -> plain_path s ns tr ->
  (In (ns, tr) (map key routes) -> handle wname s h m = None) /\
  (~ In (ns, tr) (map key routes) -> exists m', handle wname s h m = Some m' /\ stores m' ((ns, tr, h) :: routes)).
Proof.
  intros HS HP. pose proof HP as (P1 & P2 & _). unfold handle. rewrite (parse_plain wname s ns tr HP). destruct HS as [S1 (b & B1 & B2 & B3)].
  assert (HC : existsb (conflicts (pat_of ns tr)) (mx_pats m) = true <-> In (ns, tr) (map key routes)).
  { rewrite existsb_exists, in_map_iff. split.
    - intros (p & I1 & I2). apply S1 in I1. destruct I1 as ([[l t] h'] & X1 & ->). cbn [fst snd] in I2. apply conflicts_plain in I2.
      exists (l, t, h'). split; [symmetry; exact I2|exact X1].
    - intros ([[l t] h'] & X1 & X2). exists (pat_of ns tr). split; [|now apply conflicts_plain]. apply S1. exists (l, t, h'). split; [exact X2|].
      cbn in *. injection X1 as -> ->. reflexivity. }
  split.
  - intros HI. apply HC in HI. now rewrite HI.
  - intros HI. destruct (existsb (conflicts (pat_of ns tr)) (mx_pats m)) eqn:E; [exfalso; apply HI, HC; reflexivity|].
    assert (HL : leaf_at b ns tr = None).
    { destruct (leaf_at b ns tr) eqn:EL; [|reflexivity]. apply B3 in EL. destruct EL as (h' & X & _). exfalso. apply HI, in_map_iff. exists (ns, tr, h'). auto. }
    destruct (add_segs_plain (pat_of ns tr) h tr ns b) as (b' & A1 & A2 & A3 & A4); [eapply Forall_impl; [|exact P1]; now intros w (X & _)|exact B2|exact HL|].
    assert (HA : add_pattern (pat_of ns tr) h (mx_tree m) = Some (Node None [] (Some (Node None [] (Some b') None)) None)).
    { unfold add_pattern, pat_of in *. cbn [pt_host pt_method pt_segs]. unfold node0 in *. destruct B1 as [[-> ->]| ->]; unfold with_child; cbn [find_child];
        change (beqb [] []) with true; cbv iota beta; unfold node0 in A1 |- *; repeat (cbn [find_child]; change (beqb [] []) with true; cbv iota beta); rewrite A1; reflexivity. }
    rewrite HA. eexists. split; [reflexivity|]. constructor; cbn [mx_pats mx_tree].
    + intros p. cbn [In]. rewrite S1. split.
      * intros [<- |(x & X1 & X2)]; [exists (ns, tr, h); auto|exists x; auto].
      * intros (x & [<- |X1] & X2); [left; symmetry; exact X2|right; exists x; auto].
    + exists b'. split; [right; reflexivity|]. split; [exact A2|]. intros ls t y.
      destruct (list_eq_dec (list_eq_dec N.eq_dec) ls ns) as [E1|E1]; [destruct (bool_dec t tr) as [E2|E2]|].
      * subst. rewrite A3. cbn [In]. split.
        -- intros X. injection X as <-. exists h. auto.
        -- intros (h' & [X|X] & ->); [congruence|]. exfalso. apply HI, in_map_iff. exists (ns, tr, h'). auto.
      * rewrite A4 by congruence. rewrite B3. cbn [In]. split; intros (h' & X & Y); exists h'; (split; [|exact Y]); [now right|]. destruct X as [X|X]; [congruence|exact X].
      * rewrite A4 by congruence. rewrite B3. cbn [In]. split; intros (h' & X & Y); exists h'; (split; [|exact Y]); [now right|]. destruct X as [X|X]; [congruence|exact X].
Qed.
Lemma handle_all_plain wname l routes : Forall2 (fun x y => plain_path (fst x) (fst (fst y)) (snd (fst y)) /\ snd x = snd y) l routes ->
  forall m done, stores m done ->
  (NoDup (map key done) ->
   (NoDup (map key (rev routes ++ done)) /\ exists m', handle_all wname l m = Some m' /\ stores m' (rev routes ++ done)) \/
   (~ NoDup (map key (rev routes ++ done)) /\ handle_all wname l m = None)).
Proof.
  induction 1 as [|[s h] [[ns tr] h'] l routes (P & E) _ IH]; intros m done HS HD.
  - left. split; [exact HD|]. exists m. split; [reflexivity|exact HS].
  - cbn [fst snd] in P, E. subst h'. cbn [rev handle_all]. rewrite <- app_assoc. cbn [app].
    destruct (handle_plain wname m done s ns tr h HS P) as [H1 H2].
    destruct (in_dec (fun a b : list bytes * bool => ltac:(decide equality; [apply bool_dec|apply (list_eq_dec (list_eq_dec N.eq_dec))])) (ns, tr) (map key done)) as [HI|HI].
    + right. rewrite (H1 HI). split; [|reflexivity]. rewrite map_app. intros X. apply NoDup_remove_2 with (l := map key (rev routes)) in X.
      apply X. apply in_or_app. right. exact HI.
    + destruct (H2 HI) as (m' & E1 & E2). rewrite E1. apply IH; [exact E2|]. cbn [map key fst]. constructor; assumption.
Qed.
(** What a request in normal form gets. *)
Lemma lookup_plain m routes r ws tw : stores m routes -> Forall (fun x => Forall name_ok (fst (fst x))) routes -> NoDup (map key routes) ->
  asked (rq_path r) ws tw -> rq_upath r = path_text ws tw -> expects routes ws tw (find_handler (mx_tree m) r).
Proof.
  intros [_ (b & B1 & B2 & B3)] HR HD (qs & Q1 & Q2 & Q3 & Q4) HU.
  assert (NQ : Forall noslash qs) by (eapply Forall_impl; [|exact Q2]; apply neat_noslash).
  assert (NE : Forall (fun n => n <> []) qs) by (eapply Forall_impl; [|exact Q2]; apply neat_nonempty).
  assert (HLen : length ws = length qs) by (clear - Q1; induction Q1; cbn [length]; congruence).
  assert (HM : forall path, match_root (rq_host r) (rq_method r) path (mx_tree m) = match_path (path_segs path) b).
  { intros path. destruct B1 as [[-> ->]| ->].
    - unfold match_root, match_method. cbn [find_child node0 kid]. change (beqb [] []) with true. cbn iota.
      replace (match_path (path_segs path) node0) with (@None (pattern * page)).
      + destruct (beqb (rq_host r) []), (beqb (rq_method r) (str "HEAD")); reflexivity.
      + destruct (path_segs path) as [|s l]; cbn; [reflexivity|]. destruct (beqb s []), (beqb s [47]); reflexivity.
    - unfold match_root, match_method. cbn [find_child kid]. change (beqb [] []) with true. change (beqb (str "GET") []) with false. cbn iota.
      destruct (beqb (rq_host r) []) eqn:E1, (beqb (rq_method r) []) eqn:E2, (beqb (rq_method r) (str "HEAD")) eqn:E3; cbn iota;
        cbn [find_child kid]; rewrite ?E2; change (beqb [] []) with true; change (beqb (str "GET") []) with false; cbn iota;
        destruct (match_path (path_segs path) b); reflexivity. }
  assert (HO : forall path, other_method (rq_host r) path (mx_tree m) = false).
  { intros path. unfold other_method. destruct B1 as [[-> _]| ->]; cbn [find_child kid node0]; change (beqb [] []) with true; cbn iota;
      destruct (beqb (rq_host r) []); cbn; rewrite ?andb_false_r; reflexivity. }
  assert (HS : path_segs (path_text qs tw) = ws ++ (if tw then [[47]] else [])) by (apply path_segs_text; assumption).
  assert (HS' : path_segs (path_text qs true) = ws ++ [[47]]) by (apply (path_segs_text qs ws true Q1 Q2); now right).
  assert (HX : tw = false -> path_text qs tw ++ [47] = path_text qs true) by (intros ->; unfold path_text; now rewrite app_nil_r).
  assert (HNS : forall ns t h, In (ns, t, h) routes -> ~ In [47] ns).
  { intros ns t h HI X. rewrite Forall_forall in HR. specialize (HR _ HI). cbn in HR. rewrite Forall_forall in HR. destruct (HR _ X) as (_ & _ & _ & Y).
    inversion Y as [|? ? Z _]; subst. destruct Z as [Z _]. congruence. }
  assert (L47 : forall t, leaf_at b (ws ++ [[47]]) t = None).
  { intros t. destruct (leaf_at b (ws ++ [[47]]) t) eqn:E; [|reflexivity]. apply B3 in E. destruct E as (h & I & _). exfalso. apply (HNS _ _ _ I). apply in_or_app. right. now left. }
  unfold find_handler. rewrite HM, HO, Q4, clean_path_neat, slash_end_path by assumption. rewrite beqb_refl. cbn [negb].
  destruct tw.
  - (* with a slash at the end *)
    cbn [negb]. rewrite andb_false_r. cbn [andb]. rewrite HS. pose proof (match_path_spec (ws ++ [[47]]) b B2) as MS.
    destruct (match_path (ws ++ [[47]]) b) as [[p h]|].
    + destruct MS as [MS|(_ & x & y & M1 & M2 & M3 & M4)]; [rewrite L47 in MS; discriminate MS|].
      apply B3 in M3. destruct M3 as (h' & I & X). injection X as -> ->. apply ex_below with (ns := x); [discriminate|exact I|..].
      * destruct (nonempty_last y M2) as (y' & z & ->). rewrite app_assoc in M1. apply app_inj_tail in M1. destruct M1 as [M1 _]. exists y'. auto.
      * intros ns' h2 I2 (rest & R1 & _). destruct (Nat.le_gt_cases (length ns') (length x)) as [L|L]; [exact L|].
        assert (Y : leaf_at b ns' true = Some (pat_of ns' true, h2)) by (apply B3; eauto). rewrite (M4 ns' (rest ++ [[47]])) in Y; [discriminate Y|now rewrite R1, app_assoc|destruct rest; discriminate|exact L].
    + destruct MS as (_ & MS). apply ex_none; [discriminate|]. intros ns h I (rest & R1 & _).
      assert (Y : leaf_at b ns true = Some (pat_of ns true, h)) by (apply B3; eauto). rewrite (MS ns (rest ++ [[47]])) in Y; [discriminate Y|now rewrite R1, app_assoc|destruct rest; discriminate].
  - (* without *)
    rewrite (HX eq_refl), HM, HS', HS, app_nil_r. cbn [negb]. rewrite andb_true_r.
    pose proof (match_path_spec ws b B2) as MS. pose proof (match_path_spec (ws ++ [[47]]) b B2) as MT.
    assert (E2 : exact_match (match_path (ws ++ [[47]]) b) (path_text qs true) = true <-> exists h, In (ws, true, h) routes).
    { destruct (match_path (ws ++ [[47]]) b) as [[p h]|].
      - destruct MT as [MT|(_ & x & y & M1 & M2 & M3 & M4)]; [rewrite L47 in MT; discriminate MT|].
        apply B3 in M3. destruct M3 as (h' & I & X). injection X as -> ->. cbn [exact_match pat_of pt_segs]. rewrite last_multi_of. cbn [negb].
        rewrite slash_end_path by (auto). cbn [negb]. rewrite count_path by exact NQ. unfold segs_of. rewrite app_length, map_length. cbn [tail length].
        destruct (nonempty_last y M2) as (y' & z & ->). rewrite app_assoc in M1. apply app_inj_tail in M1. destruct M1 as [M1 _].
        split.
        + intros E. exists h'. apply Nat.eqb_eq in E. assert (y' = []) by (assert (Z := f_equal (@length bytes) M1); rewrite app_length in Z; destruct y'; [reflexivity|cbn in Z; lia]). subst y'.
          rewrite app_nil_r in M1. subst x. exact I.
        + intros (h2 & I2). apply Nat.eqb_eq. assert (Y : leaf_at b ws true = Some (pat_of ws true, h2)) by (apply B3; eauto).
          destruct (Nat.lt_ge_cases (length x) (length ws)) as [L|L]; [rewrite (M4 ws [[47]]) in Y; [discriminate Y|reflexivity|discriminate|exact L]|].
          assert (Z := f_equal (@length bytes) M1). rewrite app_length in Z. lia.
      - destruct MT as (_ & MT). cbn [exact_match]. split; [discriminate|]. intros (h & I).
        assert (Y : leaf_at b ws true = Some (pat_of ws true, h)) by (apply B3; eauto). rewrite (MT ws [[47]]) in Y; [discriminate Y|reflexivity|discriminate]. }
    assert (HF : forall h, In (ws, false, h) routes -> match_path ws b = Some (pat_of ws false, h)).
    { intros h I. assert (Y : leaf_at b ws false = Some (pat_of ws false, h)) by (apply B3; eauto).
      destruct (match_path ws b) as [x|]; [|destruct MS as [MS _]; congruence]. destruct MS as [MS|(MS & _)]; congruence. }
    destruct (leaf_at b ws false) as [y|] eqn:EF.
    + apply B3 in EF. destruct EF as (h & I & ->). rewrite (HF h I). cbn [exact_match pat_of pt_segs]. rewrite last_multi_of. cbn [negb andb]. now apply ex_exact.
    + assert (NF : forall h', ~ In (ws, false, h') routes) by (intros h' I; assert (Y : leaf_at b ws false = Some (pat_of ws false, h')) by (apply B3; eauto); congruence).
      assert (NX : exact_match (match_path ws b) (path_text qs false) = false).
      { destruct (match_path ws b) as [[p h]|]; [|reflexivity]. destruct MS as [MS|(_ & x & y & M1 & M2 & M3 & M4)]; [congruence|].
        apply B3 in M3. destruct M3 as (h' & I & X). injection X as -> ->. cbn [exact_match pat_of pt_segs]. rewrite last_multi_of. cbn [negb].
        rewrite slash_end_path by assumption. reflexivity. }
      rewrite NX. cbn [negb andb]. destruct (exact_match (match_path (ws ++ [[47]]) b) (path_text qs true)) eqn:EX.
      * destruct (proj1 E2 eq_refl) as (h & I). rewrite HU.
        assert (WN : Forall neat_name ws). { rewrite Forall_forall in HR. specialize (HR _ I). cbn in HR. eapply Forall_impl; [|exact HR]. apply ok_neat. }
        assert (W0 : ws <> [] \/ false = true). { left. destruct Q3 as [Q3|Q3]; [|discriminate]. destruct ws; [destruct qs; [congruence|discriminate HLen]|discriminate]. }
        rewrite clean_path_neat by assumption. replace (path_text ws false ++ [47]) with (path_text ws true) by (unfold path_text; now rewrite app_nil_r).
        now apply ex_slash with (h := h).
      * assert (NT : false = false -> forall t h', ~ In (ws, t, h') routes).
        { intros _ [] h' I; [|exact (NF h' I)]. assert (X : false = true) by (apply E2; eauto). discriminate X. }
        destruct (match_path ws b) as [[p h]|].
        -- destruct MS as [MS|(_ & x & y & M1 & M2 & M3 & M4)]; [congruence|].
           apply B3 in M3. destruct M3 as (h' & I & X). injection X as -> ->. apply ex_below with (ns := x); [exact NT|exact I|exists y; auto|].
           intros ns' h2 I2 (rest & R1 & R2). destruct R2 as [R2|R2]; [|discriminate]. destruct (Nat.le_gt_cases (length ns') (length x)) as [L|L]; [exact L|].
           assert (Y : leaf_at b ns' true = Some (pat_of ns' true, h2)) by (apply B3; eauto). rewrite (M4 ns' rest) in Y; [discriminate Y|exact R1|exact R2|exact L].
        -- destruct MS as (_ & MS). apply ex_none; [exact NT|]. intros ns h I (rest & R1 & R2). destruct R2 as [R2|R2]; [|discriminate].
           assert (Y : leaf_at b ns true = Some (pat_of ns true, h)) by (apply B3; eauto). rewrite (MS ns rest) in Y; [discriminate Y|exact R1|exact R2].
Qed.
(** Other requests are redirected. *)
Lemma untidy (t : node page) r : ~ neat (rq_path r) -> exists p, find_handler t r = Moved p.
Proof.
  intros HN. unfold find_handler. destruct (negb _ && negb _ && _); [eauto|].
  destruct (beqb (clean_path (rq_path r)) (rq_path r)) eqn:E; [|cbn; eauto]. apply beqb_eq in E. apply clean_path_fixed in E. contradiction.
Qed.
