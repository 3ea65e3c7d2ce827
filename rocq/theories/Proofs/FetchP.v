(** Lemmas on downloading. *)
From Coq Require Import ZifyBool ZifyNat ZifyN.
From Verif Require Import Spec.Download Spec.Refresh Model.Trigger.

Lemma put_same {A} (m : bytes -> option A) k a : put m k a k = a.
Proof. unfold put. replace (beqb k k) with true; [reflexivity|]. symmetry. now apply beqb_eq. Qed.
Lemma last_read_app h h' acc : last_read (h ++ h') acc = last_read h' (last_read h acc).
Proof. revert acc. induction h as [|e h IH]; intros acc; [reflexivity|]. cbn. apply IH. Qed.
Lemma beqb_false a b : beqb a b = false <-> a <> b.
Proof.
  destruct (beqb a b) eqn:E.
  - apply beqb_eq in E. split; [discriminate|congruence].
  - split; [|reflexivity]. intros _ ->. rewrite (proj2 (beqb_eq b b) eq_refl) in E. discriminate E.
Qed.

(** What the stored validators are: the last response with status 200 that was not found
    identical had them, and its content was [b]. *)
Definition known (c : fcfg) (s : fstate) (file : bytes) (h : list event) (b : bytes) : Prop :=
  (forall t, f_etags s file = Some t -> t <> [] -> exists e, In e h /\ v_etag (ev_v e) = t /\ v_body (ev_v e) = b) /\
  (forall t, fc_lm c = true -> f_lms s file = Some t -> exists e, In e h /\ v_lm (ev_v e) = Some t /\ v_body (ev_v e) = b).

Lemma known_full c s file h v b x s' r : fetch_http c s file x = (s', r) ->
  answers v (request_of c s file) x -> r = Ok b -> b = v_body v /\ known c s' file (h ++ [(v, x, r)]) b.
Proof.
  intros E HA ->.
  assert (HX : x = Response 200 (v_etag v) (v_lm v) (Some (v_body v))).
  { destruct HA as [| |e l b0 _|n e l b0 H1 H2|]; [reflexivity|..]; cbn in E.
    - destruct (etag_differs _ _ _ _); discriminate E.
    - discriminate E.
    - destruct (n =? 304) eqn:E1; [lia|]. destruct (n =? 200) eqn:E2; [lia|]. discriminate E.
    - discriminate E. }
  subst x. cbn in E. destruct (etag_differs c s file (v_etag v)); [|discriminate E]. injection E as <- <-.
  split; [reflexivity|]. split.
  - cbn. intros t. rewrite put_same. intros [= <-] _. eexists. split; [apply in_or_app; right; now left|]. split; reflexivity.
  - cbn. intros t ->. rewrite put_same. intros E. eexists. split; [apply in_or_app; right; now left|]. split; [exact E|reflexivity].
Qed.
Lemma honest_prefix h e : honest (h ++ [e]) -> honest h.
Proof. intros H h1 e1 h2 e2 h3 ->. apply (H h1 e1 h2 e2 (h3 ++ [e])). rewrite <- !app_assoc. cbn. now rewrite <- app_assoc. Qed.
Lemma honest_last h e0 e : honest (h ++ [e]) -> In e0 h ->
  (v_etag (ev_v e0) = v_etag (ev_v e) -> v_etag (ev_v e0) <> [] -> v_body (ev_v e0) = v_body (ev_v e)) /\
  (forall l1 l2, v_lm (ev_v e0) = Some l1 -> v_lm (ev_v e) = Some l2 -> (l2 <= l1)%Z -> v_body (ev_v e0) = v_body (ev_v e)).
Proof. intros H HI. apply in_split in HI as (a & b & ->). apply (H a e0 b e []). now rewrite <- app_assoc. Qed.
(** One download, not cut off: the known content stays right. *)
Lemma known_step c s file h v b x s' r : fetch_http c s file x = (s', r) -> answers v (request_of c s file) x ->
  honest (h ++ [(v, x, r)]) -> ~ cut x -> known c s file h b ->
  let b' := match r with Ok b1 => b1 | _ => b end in
  known c s' file (h ++ [(v, x, r)]) b' /\ (answered x -> b' = v_body v).
Proof.
  intros E HA HH HC HK. cbv zeta.
  assert (HW : known c s file (h ++ [(v, x, r)]) b).
  { destruct HK as [K1 K2]. split; intros t; [intros H1 H2; destruct (K1 t H1 H2) as (e & H & H')|intros H1 H2; destruct (K2 t H1 H2) as (e & H & H')];
      exists e; (split; [apply in_or_app; now left|exact H']). }
  destruct r as [b1|e1|] eqn:ER.
  - destruct (known_full c s file h v b1 x s' _ E HA eq_refl) as [-> HK']. now split.
  - destruct HA as [| |e l b0 HU|n e l b0 H1 H2|]; cbn in E.
    + unfold etag_differs in E. destruct (fc_etags c) eqn:EE; cbn [negb orb] in E; [|discriminate E].
      destruct (beqb (v_etag v) []) eqn:E1; cbn [orb] in E; [discriminate E|].
      match type of E with context [negb ?q] => destruct q eqn:E2 end; cbn [negb] in E; [|discriminate E]. injection E as <- _. split; [exact HW|]. intros _.
      apply beqb_eq in E2. apply beqb_false in E1. destruct (f_etags s file) as [t|] eqn:EF; [subst t|congruence].
      destruct HK as [K1 _]. destruct (K1 _ EF E1) as (e0 & HI & HT & HB).
      destruct (honest_last _ _ _ HH HI) as [HE _]. cbn in HE. rewrite <- HB. apply HE; congruence.
    + elim HC. now exists (v_etag v), (v_lm v).
    + injection E as <- _. split; [exact HW|]. intros _. destruct HU as [(t & U1 & U2 & U3)|(U1 & t & l0 & U2 & U3 & U4)].
      * cbn in U1. destruct (fc_etags c); [|discriminate U1]. destruct HK as [K1 _]. destruct (K1 t U1 U2) as (e0 & HI & HT & HB).
        destruct (honest_last _ _ _ HH HI) as [HE _]. cbn in HE. rewrite <- HB. apply HE; congruence.
      * cbn in U2. destruct (fc_lm c) eqn:EL; [|discriminate U2]. destruct HK as [_ K2]. destruct (K2 t EL U2) as (e0 & HI & HT & HB).
        destruct (honest_last _ _ _ HH HI) as [_ HE]. cbn in HE. rewrite <- HB. now apply (HE t l0).
    + destruct (n =? 304) eqn:E1; [lia|]. destruct (n =? 200) eqn:E2; [lia|]. injection E as <- _. split.
      * split; intros t; cbn; rewrite put_same; discriminate.
      * intros (n' & e' & l' & b' & [= <- _ _ _] & [->| ->]); lia.
    + injection E as <- _. split; [exact HW|]. intros (? & ? & ? & ? & H & _). discriminate H.
  - exfalso. destruct HA as [| |e l b0 HU|n e l b0 H1 H2|]; cbn in E;
      try destruct b0; repeat match type of E with context [if ?q then _ else _] => destruct q end; discriminate E.
Qed.

(** The last content read is the content the server has, at every download that was answered. *)
Lemma last_current c file h s h1 e b h2 v x r : downloads c file h s -> honest h ->
  h = h1 ++ e :: h2 -> ev_r e = Ok b -> (forall e', In e' h2 -> ~ cut (ev_x e')) ->
  h = (removelast h ++ [(v, x, r)]) -> answered x -> last_read h None = Some (v_body v).
Proof.
  intros HD HH EH ER HC EL HA.
  assert (HI : exists b0, last_read h None = Some b0 /\ known c s file h b0 /\ (forall h0 e0, h = h0 ++ [e0] -> answered (ev_x e0) -> b0 = v_body (ev_v e0))).
  { clear v x r EL HA. revert h2 EH HC. induction HD as [|h0 s v x s' r HD IH HA E]; intros h2 EH HC.
    { destruct h1; discriminate EH. }
    destruct (exists_last (l := e :: h2)) as (q & e' & Eq); [discriminate|]. rewrite Eq, app_assoc in EH.
    apply app_inj_tail in EH as [EH EE]. destruct q as [|z q].
    - injection Eq as <- ->. subst e. cbn in ER. rewrite ER in *.
      destruct (known_full c s file h0 v b x s' _ E HA eq_refl) as [EB HK]. exists b. split; [rewrite last_read_app; reflexivity|].
      split; [exact HK|]. intros h9 e0 E9 _. apply app_inj_tail in E9 as [_ <-]. exact EB.
    - injection Eq as <- ->. subst e'.
      assert (HH0 : honest h0) by (eapply honest_prefix; exact HH).
      destruct (IH HH0 q EH) as (b0 & E0 & HK & _). { intros e' H'. apply HC. apply in_or_app. now left. }
      destruct (known_step c s file h0 v b0 x s' r E HA HH) as [HK' HB]; [apply (HC (v, x, r)); apply in_or_app; right; now left|exact HK|].
      exists (match r with Ok b1 => b1 | _ => b0 end). split.
      + rewrite last_read_app. cbn. rewrite E0. destruct r; reflexivity.
      + split; [exact HK'|]. intros h9 e0 E9 HA9. apply app_inj_tail in E9 as [_ <-]. now apply HB. }
  destruct HI as (b0 & E0 & _ & HL). rewrite E0. f_equal. apply (HL _ _ EL HA).
Qed.

(** After a response that was cut off: with ETags the content is never asked for again while
    the server has it. *)
Lemma stuck c file h0 v x h2 s : fc_etags c = true -> v_etag v <> [] ->
  downloads c file (h0 ++ (v, x, Err ERead) :: h2) s ->
  (forall e, In e h2 -> ev_v e = v /\ ~ failed_status (ev_x e)) ->
  f_etags s file = Some (v_etag v) /\ forall e b, In e h2 -> ev_r e <> Ok b.
Proof.
  intros HC HV HD HE. remember (h0 ++ (v, x, Err ERead) :: h2) as h eqn:EH. revert h2 EH HE.
  induction HD as [|h s v1 x1 s' r HD IH HA E]; intros h2 EH HE; [destruct h0; discriminate EH|].
  destruct (exists_last (l := (v, x, Err ERead : res bytes ferr) :: h2)) as (q & e' & Eq); [discriminate|]. rewrite Eq, app_assoc in EH.
  apply app_inj_tail in EH as [EH EE]. destruct q as [|z q].
  - injection Eq as <- ->. injection EE as -> -> ->. split; [|intros e b []].
    destruct HA as [| |e l b0 HU|n e l b0 H1 H2|]; cbn in E.
    + destruct (etag_differs _ _ _ _); discriminate E.
    + destruct (etag_differs _ _ _ _); [|discriminate E]. injection E as <-. cbn. apply put_same.
    + discriminate E.
    + destruct (n =? 304); [discriminate E|]. destruct (negb (n =? 200)) eqn:E2; [discriminate E|lia].
    + discriminate E.
  - injection Eq as <- ->. subst e'. destruct (IH q EH) as [I1 I2]. { intros e H. apply HE. apply in_or_app. now left. }
    destruct (HE (v1, x1, r)) as [HV1 HF]; [apply in_or_app; right; now left|]. cbn in HV1, HF. subst v1.
    assert (HS : f_etags s' file = Some (v_etag v) /\ forall b, r <> Ok b).
    { destruct HA as [| |e l b0 HU|n e l b0 H1 H2|]; cbn in E.
      1,2: unfold etag_differs in E; rewrite HC, I1, (proj2 (beqb_eq (v_etag v) (v_etag v)) eq_refl), (proj2 (beqb_false (v_etag v) []) HV) in E;
           cbn in E; injection E as <- <-; split; [exact I1|discriminate].
      - injection E as <- <-. split; [exact I1|discriminate].
      - elim HF. now exists n, e, l, b0.
      - injection E as <- <-. split; [exact I1|discriminate]. }
    split; [apply HS|]. intros e b H. apply in_app_or in H as [H|[<-|[]]]; [now apply I2|apply HS].
Qed.

(** * The lock *)
Inductive hold := HNone | HR | HW.
(** Accesses under the lock they need, from holding [h]; at the end nothing is held. *)
Fixpoint locked (h : hold) (p : list op) : bool :=
  match p, h with
  | [], HNone => true
  | [], _ => false
  | ORLock :: p', HNone => locked HR p'
  | ORUnlock :: p', HR => locked HNone p'
  | OLock :: p', HNone => locked HW p'
  | OUnlock :: p', HW => locked HNone p'
  | ORead _ :: p', HR | ORead _ :: p', HW => locked h p'
  | OWrite _ :: p', HW => locked h p'
  | _, _ => false
  end.
Definition isR (h : hold) : bool := match h with HR => true | _ => false end.
Definition isW (h : hold) : bool := match h with HW => true | _ => false end.
Fixpoint count (f : hold -> bool) (l : list hold) : nat :=
  match l with [] => 0%nat | h :: r => ((if f h then 1 else 0) + count f r)%nat end.
Definition linv (s : lstate) (hs : list hold) : Prop :=
  Forall2 (fun h p => locked h p = true) hs (l_ths s) /\ l_readers s = count isR hs /\
  count isW hs = (if l_writer s then 1 else 0)%nat /\ (l_writer s = true -> count isR hs = 0%nat).

Lemma set_nth_f2 {A B} (P : A -> B -> Prop) l m i a b : Forall2 P l m -> P a b -> Forall2 P (set_nth l i a) (set_nth m i b).
Proof.
  intros H HP. revert i. induction H as [|x y l m Hx H IH]; intros i; [constructor|]. destruct i; cbn; constructor; auto.
Qed.
Lemma f2_nth {A B} (P : A -> B -> Prop) l m i b : Forall2 P l m -> nth_error m i = Some b -> exists a, nth_error l i = Some a /\ P a b.
Proof.
  intros H. revert i. induction H as [|x y l m Hx H IH]; intros [|i] E; cbn in *; try discriminate; [|auto].
  injection E as <-. eauto.
Qed.
Lemma count_set f hs i h h' : nth_error hs i = Some h ->
  (count f (set_nth hs i h') + (if f h then 1 else 0) = count f hs + (if f h' then 1 else 0))%nat.
Proof.
  revert i. induction hs as [|x hs IH]; intros [|i] E; cbn in *; try discriminate.
  - injection E as ->. lia.
  - specialize (IH i E). lia.
Qed.
Lemma count_in f hs i h : nth_error hs i = Some h -> f h = true -> (1 <= count f hs)%nat.
Proof.
  revert i. induction hs as [|x hs IH]; intros [|i] E Hf; cbn in *; try discriminate.
  - injection E as ->. rewrite Hf. lia.
  - specialize (IH i E Hf). lia.
Qed.
Lemma count_two f hs i j h h' : i <> j -> nth_error hs i = Some h -> nth_error hs j = Some h' -> f h = true -> f h' = true -> (2 <= count f hs)%nat.
Proof.
  revert i j. induction hs as [|x hs IH]; intros [|i] [|j] Hn E E' Hf Hf'; cbn in *; try discriminate; try congruence.
  - injection E as ->. rewrite Hf. pose proof (count_in f hs j h' E' Hf'). lia.
  - injection E' as ->. rewrite Hf'. pose proof (count_in f hs i h E Hf). lia.
  - assert (i <> j) by congruence. specialize (IH i j H E E' Hf Hf'). lia.
Qed.
Lemma linv_step s hs i s' : linv s hs -> lstep s i = Some s' -> exists hs', linv s' hs'.
Proof.
  intros (HF & H1 & H2 & H3) E. unfold lstep in E. destruct (nth_error (l_ths s) i) as [[|o p]|] eqn:EN; try discriminate E.
  destruct (f2_nth _ _ _ _ _ HF EN) as (h & EH & HL).
  assert (G : forall h' r (w : bool), locked h' p = true ->
    r = (count isR (set_nth hs i h')) -> count isW (set_nth hs i h') = (if w then 1 else 0)%nat -> (w = true -> count isR (set_nth hs i h') = 0%nat) ->
    linv (mkL r w (set_nth (l_ths s) i p)) (set_nth hs i h')).
  { intros h' r w A B C D. split; [now apply set_nth_f2|]. now split. }
  pose proof (fun h' => count_set isR hs i h h' EH) as CR. pose proof (fun h' => count_set isW hs i h h' EH) as CW.
  destruct o; destruct h; cbn in HL; try discriminate HL.
  - destruct (l_writer s) eqn:EW; [discriminate E|]. injection E as <-. exists (set_nth hs i HR). specialize (CR HR). specialize (CW HR). cbn in CR, CW.
    apply G; [exact HL|lia|lia|discriminate].
  - injection E as <-. exists (set_nth hs i HNone). specialize (CR HNone). specialize (CW HNone). cbn in CR, CW.
    apply G; [exact HL|lia| |].
    + destruct (l_writer s); lia.
    + intros EW. specialize (H3 EW). lia.
  - destruct (l_writer s) eqn:EW; [discriminate E|]. destruct (l_readers s =? 0)%nat eqn:E0; [|discriminate E]. injection E as <-.
    exists (set_nth hs i HW). specialize (CR HW). specialize (CW HW). cbn in CR, CW. apply G; [exact HL|lia|lia|intros _; lia].
  - injection E as <-. exists (set_nth hs i HNone). specialize (CR HNone). specialize (CW HNone). cbn in CR, CW.
    pose proof (count_in isW hs i HW EH eq_refl). destruct (l_writer s); [|lia].
    apply G; [exact HL|lia|lia|discriminate].
  - injection E as <-. exists (set_nth hs i HR). specialize (CR HR). specialize (CW HR). cbn in CR, CW.
    apply G; [exact HL|lia| |]; [destruct (l_writer s); lia|]. intros EW. specialize (H3 EW). lia.
  - injection E as <-. exists (set_nth hs i HW). specialize (CR HW). specialize (CW HW). cbn in CR, CW.
    apply G; [exact HL|lia| |]; [destruct (l_writer s); lia|]. intros EW. specialize (H3 EW). lia.
  - injection E as <-. exists (set_nth hs i HW). specialize (CR HW). specialize (CW HW). cbn in CR, CW.
    apply G; [exact HL|lia| |]; [destruct (l_writer s); lia|]. intros EW. specialize (H3 EW). lia.
Qed.
Lemma linv_run s hs l s' : linv s hs -> lrun s l = Some s' -> exists hs', linv s' hs'.
Proof.
  revert s hs. induction l as [|i l IH]; intros s hs HI E; cbn in E; [injection E as <-; eauto|].
  destruct (lstep s i) as [s1|] eqn:E1; [|discriminate E]. destruct (linv_step _ _ _ _ HI E1) as (hs1 & HI1). eauto.
Qed.
Lemma linv_start (ths : list (list op)) : Forall (fun p => locked HNone p = true) ths -> linv (lstart ths) (map (fun _ => HNone) ths).
Proof.
  intros H. split; [|split; [|split; [|discriminate]]]; cbn.
  - induction H; constructor; auto.
  - induction ths; [reflexivity|]. cbn. apply IHths. now inversion H.
  - induction ths; [reflexivity|]. cbn. apply IHths. now inversion H.
Qed.
Lemma linv_no_race s hs : linv s hs -> ~ race s.
Proof.
  intros (HF & H1 & H2 & H3) (i & j & o1 & o2 & p1 & p2 & m & w1 & w2 & Hij & E1 & E2 & A1 & A2 & HWr).
  destruct (f2_nth _ _ _ _ _ HF E1) as (h1 & EH1 & HL1). destruct (f2_nth _ _ _ _ _ HF E2) as (h2 & EH2 & HL2).
  assert (B1 : (w1 = true -> h1 = HW) /\ h1 <> HNone) by (destruct o1, h1; cbn in HL1, A1; try discriminate; split; congruence).
  assert (B2 : (w2 = true -> h2 = HW) /\ h2 <> HNone) by (destruct o2, h2; cbn in HL2, A2; try discriminate; split; congruence).
  destruct B1 as [B1 N1]. destruct B2 as [B2 N2]. destruct HWr as [->| ->].
  - rewrite (B1 eq_refl) in EH1. pose proof (count_in isW hs i HW EH1 eq_refl). destruct (l_writer s); [|lia]. specialize (H3 eq_refl).
    destruct h2; [now elim N2| |].
    + pose proof (count_in isR hs j HR EH2 eq_refl). lia.
    + pose proof (count_two isW hs i j HW HW Hij EH1 EH2 eq_refl eq_refl). lia.
  - rewrite (B2 eq_refl) in EH2. pose proof (count_in isW hs j HW EH2 eq_refl). destruct (l_writer s); [|lia]. specialize (H3 eq_refl).
    destruct h1; [now elim N1| |].
    + pose proof (count_in isR hs i HR EH1 eq_refl). lia.
    + pose proof (count_two isW hs i j HW HW Hij EH1 EH2 eq_refl eq_refl). lia.
Qed.
(** Somebody can go on until all are finished. *)
Lemma linv_progress (s : lstate) hs : linv s hs -> finished s \/ exists (i : nat) s', lstep s i = Some s'.
Proof.
  intros (HF & H1 & H2 & H3).
  destruct (Nat.eq_dec (count isR hs + count isW hs) 0) as [E0|E0].
  - assert (HN : forall i h, nth_error hs i = Some h -> h = HNone).
    { intros i [] E; [reflexivity| |]; [pose proof (count_in isR hs i HR E eq_refl)|pose proof (count_in isW hs i HW E eq_refl)]; lia. }
    assert (HD : finished s \/ exists i o p, nth_error (l_ths s) i = Some (o :: p)).
    { unfold finished. clear -HF. generalize (l_ths s) as ths. intros ths. induction ths as [|[|o p] ths IH].
      - left. intros p [].
      - destruct IH as [IH|(i & o & p & E)]; [left|right]. { intros p [<-|H]; auto. } now exists (S i), o, p.
      - right. now exists 0%nat, o, p. }
    destruct HD as [HD|(i & o & p & EN)]; [now left|]. right. exists i. unfold lstep. rewrite EN.
    destruct (f2_nth _ _ _ _ _ HF EN) as (h & EH & HL). rewrite (HN _ _ EH) in HL.
    destruct (l_writer s) eqn:EW; [lia|]. destruct o; cbn in HL; try discriminate HL; [eauto|].
    replace (l_readers s) with 0%nat by lia. cbn. eauto.
  - right. assert (HD : exists i h, nth_error hs i = Some h /\ h <> HNone).
    { clear -E0. induction hs as [|h hs IH]; [cbn in E0; lia|]. destruct h.
      - destruct IH as (i & h & E & Hh); [cbn in E0; lia|]. now exists (S i), h.
      - exists 0%nat, HR. split; [reflexivity|discriminate].
      - exists 0%nat, HW. split; [reflexivity|discriminate]. }
    destruct HD as (i & h & EH & Hh). exists i. unfold lstep.
    assert (HE : exists p, nth_error (l_ths s) i = Some p /\ locked h p = true).
    { clear -HF EH. revert i EH. induction HF as [|x y l m Hx HF IH]; intros [|i] E; cbn in *; try discriminate; [|auto].
      injection E as <-. eauto. }
    destruct HE as ([|o p] & EN & HL); [destruct h; cbn in HL; try discriminate; now elim Hh|]. rewrite EN.
    destruct o; destruct h; cbn in HL; try discriminate HL; try (now elim Hh); eauto.
Qed.

(** Downloads from a script of versions and exchanges. *)
Fixpoint play (c : fcfg) (file : bytes) (s : fstate) (l : list (version * exchange)) : list event * fstate :=
  match l with
  | [] => ([], s)
  | (v, x) :: l' =>
      let (s1, r) := fetch_http c s file x in
      let (h, s2) := play c file s1 l' in ((v, x, r) :: h, s2)
  end.
Fixpoint script_ok (c : fcfg) (file : bytes) (s : fstate) (l : list (version * exchange)) : Prop :=
  match l with
  | [] => True
  | (v, x) :: l' => answers v (request_of c s file) x /\ script_ok c file (fst (fetch_http c s file x)) l'
  end.
Lemma play_downloads c file l : forall h s, downloads c file h s -> script_ok c file s l ->
  downloads c file (h ++ fst (play c file s l)) (snd (play c file s l)).
Proof.
  induction l as [|[v x] l IH]; intros h s HD HO; cbn; [now rewrite app_nil_r|].
  cbn in HO. destruct HO as [HA HO]. destruct (fetch_http c s file x) as [s1 r] eqn:E. cbn in HO.
  specialize (IH (h ++ [(v, x, r)]) s1 (D_step c file h s v x s1 r HD HA E) HO).
  destruct (play c file s1 l) as [h' s2]. cbn in *. now rewrite <- app_assoc in IH.
Qed.
Lemma script_downloads c file l h : script_ok c file new_fetch l -> fst (play c file new_fetch l) = h -> exists s, downloads c file h s.
Proof. intros HO <-. exists (snd (play c file new_fetch l)). apply (play_downloads c file l []); [constructor|exact HO]. Qed.

(** * Locks of FetchFile *)
Lemma safe ps l s : Forall (fun p => locked HNone p = true) ps -> lrun (lstart ps) l = Some s ->
  ~ race s /\ (finished s \/ exists i s', lstep s i = Some s').
Proof.
  intros H E. destruct (linv_run _ _ l s (linv_start ps H) E) as (hs & HI). split; [now apply (linv_no_race s hs)|now apply (linv_progress s hs)].
Qed.
Lemma ops_locked c file x b : fc_etags c = false -> locked HNone (ops c file x b) = true.
Proof.
  intros H. unfold ops. destruct (is_http file); [|reflexivity]. unfold when. rewrite H. cbn [andb negb orb].
  destruct (fc_lm c); cbn [app locked].
  all: destruct x as [|n e l q]; [reflexivity|]; destruct (n =? 304); [reflexivity|]; destruct (negb (n =? 200)); reflexivity.
Qed.
Lemma ops_local c file x b : is_http file = false -> ops c file x b = [].
Proof. intros H. unfold ops. now rewrite H. Qed.
(** A goroutine with nothing to do stays so. *)
Lemma set_nth_other {A} (l : list A) i j a : i <> j -> nth_error (set_nth l i a) j = nth_error l j.
Proof. revert i j. induction l as [|b l IH]; intros [|i] [|j] H; cbn; auto; congruence. Qed.
Lemma lrun_empty l : forall s s' i, nth_error (l_ths s) i = Some [] -> lrun s l = Some s' -> nth_error (l_ths s') i = Some [].
Proof.
  induction l as [|j l IH]; intros s s' i HN E; cbn in E; [injection E as <-; exact HN|].
  destruct (lstep s j) as [s1|] eqn:E1; [|discriminate E]. apply (IH s1 s' i); [|exact E].
  unfold lstep in E1. destruct (nth_error (l_ths s) j) as [[|o p]|] eqn:EN; try discriminate E1.
  assert (Hij : j <> i) by congruence. pose proof (set_nth_other (l_ths s) j i p Hij) as HS.
  destruct o; repeat match type of E1 with context [if ?q then _ else _] => destruct q end; try discriminate E1; injection E1 as <-; cbn; congruence.
Qed.
Lemma set_nth_len {A} (l : list A) i a : length (set_nth l i a) = length l.
Proof. revert i. induction l as [|b l IH]; intros [|i]; cbn; auto. Qed.
Lemma lrun_len l : forall s s', lrun s l = Some s' -> length (l_ths s') = length (l_ths s).
Proof.
  induction l as [|j l IH]; intros s s' E; cbn in E; [now injection E as <-|].
  destruct (lstep s j) as [s1|] eqn:E1; [|discriminate E]. rewrite (IH s1 s' E).
  unfold lstep in E1. destruct (nth_error (l_ths s) j) as [[|o p]|] eqn:EN; try discriminate E1.
  destruct o; repeat match type of E1 with context [if ?q then _ else _] => destruct q end; try discriminate E1; injection E1 as <-; cbn; apply set_nth_len.
Qed.
Lemma one_url c f1 f2 x1 x2 b1 b2 l s : is_http f1 = false \/ is_http f2 = false ->
  lrun (lstart [ops c f1 x1 b1; ops c f2 x2 b2]) l = Some s -> ~ race s.
Proof.
  intros H E. pose proof (lrun_len _ _ _ E) as HL. cbn in HL.
  assert (HE : exists k, (k < 2)%nat /\ nth_error (l_ths s) k = Some []).
  { destruct H as [H|H]; [exists 0%nat|exists 1%nat]; (split; [lia|]); eapply lrun_empty; try exact E; cbn; now rewrite ops_local. }
  destruct HE as (k & Hk & HN). intros (i & j & o1 & o2 & p1 & p2 & m & w1 & w2 & Hij & E1 & E2 & _).
  assert (i < 2)%nat by (rewrite <- HL; apply nth_error_Some; congruence).
  assert (j < 2)%nat by (rewrite <- HL; apply nth_error_Some; congruence).
  assert (k = i \/ k = j) as [-> | ->] by lia; congruence.
Qed.

(** * Triggers *)
Lemma queue_count ls : forall s s', truns s ls s' ->
  (length (filter is_success ls) + (if t_queued s then 1 else 0) = length (filter is_take ls) + (if t_queued s' then 1 else 0))%nat.
Proof.
  induction ls as [|l ls IH]; intros s s' H; inversion H as [|? ? s1 ? ? HS HR]; subst; [reflexivity|].
  specialize (IH s1 s' HR). inversion HS; subst; cbn in *; lia.
Qed.
Lemma queued_runs ls : forall s s', truns s ls s' -> t_queued s = true ->
  (existsb starts ls = false -> t_queued s' = true) /\
  ((match t_loop s with LSelect => 1 | _ => 2 end <= length (filter of_loop ls))%nat -> existsb starts ls = true).
Proof.
  induction ls as [|l ls IH]; intros s s' H Q; inversion H as [|? ? s1 ? ? HS HR]; subst.
  { split; [auto|]. cbn. destruct (t_loop s'); lia. }
  inversion HS; subst; cbn [starts of_loop existsb filter orb length t_loop t_queued] in *; try (split; [discriminate|reflexivity]).
  - discriminate Q.
  - apply (IH _ s' HR eq_refl).
  - destruct (IH _ s' HR Q) as [I1 I2]. split; [exact I1|]. intros HL. apply I2. cbn. lia.
  - destruct (IH _ s' HR Q) as [I1 I2]. split; [exact I1|]. intros HL. apply I2. cbn. lia.
Qed.
Lemma queued_go s : t_queued s = true -> exists l s3, of_loop l = true /\ l <> TTick /\ l <> THup /\ tstep s l s3.
Proof.
  destruct s as [q lp]. cbn. intros ->.
  destruct lp; [exists TBegin|exists TTake|exists TDone]; eexists; (split; [reflexivity|split; [discriminate|split; [discriminate|constructor]]]).
Qed.
Lemma trigger_served s0 s1 ls s2 : tstep s0 (TCall true) s1 -> truns s1 ls s2 ->
  (existsb starts ls = false -> exists l s3, of_loop l = true /\ l <> TTick /\ l <> THup /\ tstep s2 l s3) /\
  ((2 <= length (filter of_loop ls))%nat -> existsb starts ls = true).
Proof.
  intros HS HR. assert (Q : t_queued s1 = true) by (inversion HS; reflexivity). destruct (queued_runs ls s1 s2 HR Q) as [H1 H2].
  split; [intros E; apply queued_go; auto|]. intros HL. apply H2. destruct (t_loop s1); lia.
Qed.
Lemma trigger_refused s0 s1 ls s2 : tstep s0 (TCall false) s1 -> truns s1 ls s2 ->
  (existsb starts ls = false -> exists l s3, of_loop l = true /\ l <> TTick /\ l <> THup /\ tstep s2 l s3) /\
  ((2 <= length (filter of_loop ls))%nat -> existsb starts ls = true).
Proof.
  intros HS HR. assert (Q : t_queued s1 = true) by (inversion HS; reflexivity). destruct (queued_runs ls s1 s2 HR Q) as [H1 H2].
  split; [intros E; apply queued_go; auto|]. intros HL. apply H2. destruct (t_loop s1); lia.
Qed.

(** * The last content read and the last file decoded *)
Lemma last_ok_read {A} (dec : bytes -> option A) evs : forall start b d,
  last_read evs None = Some b -> dec b = Some d ->
  last_ok dec start (map (fun q : event => match ev_r q with Ok x => Some x | _ => None end) evs) = d.
Proof.
  induction evs as [|q evs IH] using rev_ind; intros start b d HL HD; [discriminate HL|].
  rewrite last_read_app in HL. rewrite map_app.
  assert (HA : forall l1 l2 (a : A), last_ok dec a (l1 ++ l2) = last_ok dec (last_ok dec a l1) l2).
  { induction l1 as [|[z|] l1 IH1]; intros l2 a; cbn; auto. }
  rewrite HA. cbn in *. destruct (ev_r q) as [z|?|] eqn:E; [injection HL as ->; now rewrite HD|now apply (IH start b d)|now apply (IH start b d)].
Qed.
