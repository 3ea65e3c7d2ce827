(** Lemmas for C73 and C74. *)
From Coq Require Import ZifyBool ZifyNat ZifyN String.
From Verif Require Import Lib.Str Model.SshConn Spec.SshSpec Proofs.ConcCacheP.
Local Open Scope string_scope.
Local Open Scope list_scope.
Local Open Scope N_scope.
Ltac Zify.zify_post_hook ::= Z.div_mod_to_equations.

Lemma subsystem_asks r : (is_subsystem r && rq_reply r)%bool = true <-> asks_rtr r.
Proof.
  unfold is_subsystem, asks_rtr. rewrite !andb_true_iff, !beqb_eq.
  change (ssh_string (str "rpki-rtr")) with rpki_rtr. tauto.
Qed.
Definition good (r : creq) : bool := is_subsystem r && rq_reply r.

Lemma times_app o a b : times o (a ++ b) = (times o a + times o b)%nat.
Proof. unfold times. now rewrite filter_app, app_length. Qed.
Lemma set_nth_lt {A} (l : list A) i x y j z : nth_error l i = Some x -> nth_error (set_nth l i y) j = Some z ->
  (j = i /\ z = y) \/ (j <> i /\ nth_error l j = Some z).
Proof.
  intros H G. destruct (Nat.eq_dec i j) as [->|N].
  - left. rewrite set_nth_same in G by (apply nth_error_Some; congruence). injection G as <-. auto.
  - right. rewrite set_nth_other in G by assumption. auto.
Qed.

(** The invariant of a channel. *)
Definition chan_inv (s : sshserver) (i : nat) (c : chan) : Prop :=
  (ch_done c <= length (ch_reqs c))%nat /\
  ((0 < ch_done c)%nat -> (i < sv_next s)%nat /\ ch_type c = str "session") /\
  times (Served i) (sv_log s) = length (filter good (firstn (ch_done c) (ch_reqs c))) /\
  (sv_pc s <> Gone -> forallb good (firstn (ch_done c) (ch_reqs c)) = true).
Definition ssh_inv (s : sshserver) : Prop :=
  (forall i c, nth_error (sv_chans s) i = Some c -> chan_inv s i c) /\
  (forall i, (length (sv_chans s) <= i)%nat -> times (Served i) (sv_log s) = 0%nat) /\
  match sv_pc s with
  | AtRequests i | Serving i => (i < sv_next s)%nat /\ exists c, nth_error (sv_chans s) i = Some c /\ ch_type c = str "session"
  | _ => True
  end /\
  (forall i, In (Served i) (sv_log s) -> (i < length (sv_chans s))%nat) /\
  (sv_next s <= length (sv_chans s))%nat.

Lemma times_pos o l : In o l -> (forall x, out_eqb x x = true) -> (0 < times o l)%nat.
Proof.
  intros H R. unfold times. destruct (filter (out_eqb o) l) as [|a r] eqn:E; [|cbn; lia].
  assert (X : In o (filter (out_eqb o) l)) by (apply filter_In; auto). rewrite E in X. destruct X.
Qed.
Lemma out_eqb_refl x : out_eqb x x = true.
Proof. destruct x; cbn; auto using Nat.eqb_refl. Qed.

Lemma firstn_snoc {A} (l : list A) n x : nth_error l n = Some x -> firstn (S n) l = firstn n l ++ [x].
Proof.
  revert n. induction l as [|y l IH]; intros [|n] H; try discriminate H; cbn in *; [now injection H as ->|]. now rewrite (IH n H).
Qed.
Lemma firstn_app_le {A} (l m : list A) n : (n <= length l)%nat -> firstn n (l ++ m) = firstn n l.
Proof. intros H. rewrite firstn_app. replace (n - length l)%nat with 0%nat by lia. cbn. now rewrite app_nil_r. Qed.

Lemma inv_start : ssh_inv ssh_start.
Proof.
  split; [intros i c H; destruct i; discriminate H|]. split; [reflexivity|]. split; [exact I|].
  split; [intros i []|cbn; lia].
Qed.

(** Changing only the place and the log. *)
Lemma inv_pc s p o : ssh_inv s -> sv_pc s <> Gone ->
  (forall i, times (Served i) o = 0%nat) -> (forall i, ~ In (Served i) o) ->
  match p with
  | AtRequests i | Serving i => (i < sv_next s)%nat /\ exists c, nth_error (sv_chans s) i = Some c /\ ch_type c = str "session"
  | _ => True
  end -> ssh_inv (sv_set_pc p o s).
Proof.
  intros (H1 & H2 & H3 & H4 & H5) HG T N HP. split; [|split; [|split; [|split]]].
  - intros i c Hc. destruct (H1 i c Hc) as (A & B & C & D). unfold chan_inv. cbn [sv_set_pc sv_log sv_next sv_pc].
    rewrite times_app, (T i), Nat.add_0_r. repeat split; auto; apply B; assumption.
  - intros i Hi. cbn [sv_set_pc sv_log]. rewrite times_app, (T i), (H2 i) by exact Hi. reflexivity.
  - exact HP.
  - intros i Hi. cbn [sv_set_pc sv_log] in Hi. apply in_app_or in Hi as [Hi|Hi]; [auto|]. elim (N i Hi).
  - exact H5.
Qed.

(** The client's steps: they change neither place nor log, and the channels only by adding
    requests and closing. *)
Definition grown (s s' : sshserver) : Prop :=
  sv_pc s' = sv_pc s /\ sv_log s' = sv_log s /\ sv_next s' = sv_next s /\
  (length (sv_chans s) <= length (sv_chans s'))%nat /\
  forall i c', nth_error (sv_chans s') i = Some c' ->
    (exists c r, nth_error (sv_chans s) i = Some c /\ ch_type c' = ch_type c /\ ch_done c' = ch_done c /\ ch_reqs c' = ch_reqs c ++ r) \/
    ((length (sv_chans s) <= i)%nat /\ ch_done c' = 0%nat).
Lemma grown_refl s : grown s s.
Proof. repeat split; auto. intros i c H. left. exists c, []. rewrite app_nil_r. auto. Qed.
Lemma grown_set s i c r b ok : nth_error (sv_chans s) i = Some c ->
  grown s (sv_set_chan i (mkChan (ch_type c) ok (ch_reqs c ++ r) (ch_done c) b) s).
Proof.
  intros H. repeat split; cbn [sv_set_chan sv_chans]; [now rewrite set_nth_length|].
  intros j c' Hj. destruct (set_nth_lt _ _ _ _ _ _ H Hj) as [[-> ->]|[_ G]]; left.
  - exists c, r. auto.
  - exists c', []. rewrite app_nil_r. auto.
Qed.
Lemma client_grows s l : own_step l = false -> grown s (ssh_step s l).
Proof.
  destruct l; intros H; try discriminate H; cbn [ssh_step].
  - destruct (sv_ended s); [apply grown_refl|]. repeat split; auto. intros i c' Hc. left. exists c', []. rewrite app_nil_r. auto.
  - destruct (sv_ended s); [apply grown_refl|]. repeat split; cbn [sv_chans]; [rewrite app_length; lia|].
    intros i c' Hc. destruct (Nat.lt_ge_cases i (length (sv_chans s))) as [L|L].
    + left. rewrite nth_error_app1 in Hc by exact L. exists c', []. rewrite app_nil_r. auto.
    + right. split; [exact L|]. rewrite nth_error_app2 in Hc by exact L.
      destruct (i - length (sv_chans s))%nat as [|k]; [injection Hc as <-; reflexivity|destruct k; discriminate Hc].
  - destruct (nth_error (sv_chans s) c) as [ch|] eqn:E; [|apply grown_refl]. destruct (ch_closed ch); [apply grown_refl|].
    now apply grown_set.
  - destruct (nth_error (sv_chans s) c) as [ch|] eqn:E; [|apply grown_refl].
    pose proof (grown_set s c ch [] true (ch_accept ch) E) as G. rewrite app_nil_r in G. exact G.
  - repeat split; cbn [sv_chans]; [now rewrite map_length|].
    intros i c' Hc. rewrite nth_error_map in Hc. destruct (nth_error (sv_chans s) i) as [c|] eqn:E; [|discriminate Hc].
    injection Hc as <-. left. exists c, []. rewrite app_nil_r. auto.
Qed.
Lemma inv_grown s s' : ssh_inv s -> grown s s' -> ssh_inv s'.
Proof.
  intros (H1 & H2 & H3 & H4 & H5) (G1 & G2 & G3 & G4 & G5). split; [|split; [|split; [|split]]].
  - intros i c' Hc. destruct (G5 i c' Hc) as [(c & r & Hc0 & E1 & E2 & E3)|[L D]].
    + destruct (H1 i c Hc0) as (A & B & C & D). unfold chan_inv. rewrite G1, G2, G3, E1, E2, E3, app_length.
      rewrite firstn_app_le by exact A. repeat split; auto; try lia; apply B; assumption.
    + unfold chan_inv. rewrite D, G2, (H2 i L). cbn. repeat split; auto; try lia.
  - intros i L. rewrite G2. apply H2. lia.
  - rewrite G1, G3. destruct (sv_pc s) as [|i|i|]; auto; destruct H3 as [L (c & Hc & T)]; (split; [exact L|]);
      assert (LL : (i < length (sv_chans s'))%nat) by (apply Nat.lt_le_trans with (2 := G4); apply nth_error_Some; congruence);
      destruct (nth_error (sv_chans s') i) as [c'|] eqn:E; try (apply nth_error_None in E; lia); exists c'; (split; [reflexivity|]);
      destruct (G5 i c' E) as [(c0 & r & Hc0 & E1 & _)|[L2 _]];
      try (rewrite Hc in Hc0; injection Hc0 as <-; congruence);
      try (assert (i < length (sv_chans s))%nat by (apply nth_error_Some; congruence); lia).
  - intros i Hi. rewrite G2 in Hi. specialize (H4 i Hi). lia.
  - lia.
Qed.

Lemma inv_step s l : ssh_inv s -> ssh_inv (ssh_step s l).
Proof.
  intros HI. destruct (own_step l) eqn:EO; [|eapply inv_grown; [exact HI|now apply client_grows]].
  destruct l; try discriminate EO; cbn [ssh_step].
  - destruct (sv_pc s) eqn:EP; try exact HI. unfold take_global. destruct (sv_global s) as [|w r] eqn:EG.
    + destruct (sv_ended s); [|exact HI]. apply inv_pc; auto; [congruence|intros i [X|[]]; discriminate X].
    + assert (G : ssh_inv (sv_set_pc AtSelect [if w then Denied else NoReply] s)).
      { apply inv_pc; auto; [congruence|destruct w; reflexivity|intros i [X|[]]; destruct w; discriminate X]. }
      exact G.
  - destruct (sv_pc s) eqn:EP; try exact HI. unfold take_channel.
    destruct (nth_error (sv_chans s) (sv_next s)) as [c|] eqn:EC.
    + set (s1 := mkSsh (sv_pc s) (sv_global s) (sv_chans s) (S (sv_next s)) (sv_ended s) (sv_log s)).
      assert (LL : (sv_next s < length (sv_chans s))%nat) by (apply nth_error_Some; congruence).
      assert (HI1 : ssh_inv s1).
      { destruct HI as (H1 & H2 & H3 & H4 & H5). split; [|split; [|split; [|split]]].
        - intros i ch Hc. destruct (H1 i ch Hc) as (A & B & C & D). repeat split; auto; cbn [s1 sv_next]; destruct (B H); auto; lia.
        - exact H2.
        - cbn [s1 sv_pc]. rewrite EP. exact I.
        - exact H4.
        - cbn [s1 sv_next sv_chans]. lia. }
      assert (EP1 : sv_pc s1 <> Gone) by (cbn [s1 sv_pc]; congruence).
      destruct (beqb (ch_type c) (str "session")) eqn:ET; cbn [negb].
      * destruct (ch_accept c); cbn [negb].
        -- apply inv_pc; auto. cbn [s1 sv_next sv_chans]. split; [lia|]. exists c. split; [exact EC|now apply beqb_eq].
        -- apply inv_pc; auto. intros i [X|[]]; discriminate X.
      * apply inv_pc; auto. intros i [X|[]]; discriminate X.
    + destruct (sv_ended s); [|exact HI]. apply inv_pc; auto; [congruence|intros i [X|[]]; discriminate X].
  - destruct (sv_pc s) as [|i|i|] eqn:EP; try exact HI. unfold take_request.
    destruct (nth_error (sv_chans s) i) as [c|] eqn:EC; [|exact HI].
    destruct (nth_error (ch_reqs c) (ch_done c)) as [r|] eqn:ER.
    + destruct HI as (H1 & H2 & H3 & H4 & H5). rewrite EP in H3. destruct H3 as [L3 (c0 & Hc0 & T0)].
      rewrite EC in Hc0. injection Hc0 as <-.
      destruct (H1 i c EC) as (A & B & C & D). rewrite EP in D. specialize (D ltac:(discriminate)).
      assert (LR : (ch_done c < length (ch_reqs c))%nat) by (apply nth_error_Some; congruence).
      assert (LI : (i < length (sv_chans s))%nat) by (apply nth_error_Some; congruence).
      assert (KEY : forall p o, (good r = true -> o = [Confirmed i; Served i]) -> (good r = false -> o = [Closed] /\ p = Gone) ->
        match p with AtRequests j | Serving j => j = i | _ => True end ->
        ssh_inv (sv_set_pc p o (sv_set_chan i (ch_set_done (S (ch_done c)) c) s))).
      { intros p o O1 O2 HP. split; [|split; [|split; [|split]]].
        - intros j cj Hj. cbn [sv_set_pc sv_set_chan sv_chans] in Hj.
          unfold chan_inv. cbn [sv_set_pc sv_set_chan sv_chans sv_log sv_pc sv_next].
          destruct (set_nth_lt _ _ _ _ _ _ EC Hj) as [[-> ->]|[N G]].
          + cbn [ch_set_done ch_done ch_reqs ch_type]. rewrite (firstn_snoc _ _ _ ER), filter_app, app_length, forallb_app, times_app, C, D.
            cbn [filter forallb]. split; [lia|]. split; [auto|]. destruct (good r) eqn:EG.
            * rewrite O1 by reflexivity. split; [unfold times; cbn; now rewrite Nat.eqb_refl|reflexivity].
            * destruct O2 as [-> ->]; [reflexivity|]. split; [reflexivity|]. intros X. now contradiction X.
          + destruct (H1 j cj G) as (A' & B' & C' & D'). rewrite times_app, C'.
            assert (Z : times (Served j) o = 0%nat).
            { destruct (good r) eqn:EG; [rewrite O1 by reflexivity|destruct O2 as [-> _]; [reflexivity|reflexivity]].
              unfold times. cbn. destruct (Nat.eqb j i) eqn:Q; [apply Nat.eqb_eq in Q; congruence|reflexivity]. }
            rewrite Z. repeat split; auto; try lia; try (apply B'; assumption). intros _. apply D'. rewrite EP. discriminate.
        - intros j Lj. cbn [sv_set_pc sv_set_chan sv_chans sv_log] in *. rewrite set_nth_length in Lj. rewrite times_app, (H2 j Lj).
          destruct (good r) eqn:EG; [rewrite O1 by reflexivity|destruct O2 as [-> _]; [reflexivity|reflexivity]].
          unfold times. cbn. destruct (Nat.eqb j i) eqn:Q; [apply Nat.eqb_eq in Q; lia|reflexivity].
        - cbn [sv_set_pc sv_set_chan sv_chans sv_pc sv_next]. destruct p as [|j|j|]; auto; subst j;
            (split; [exact L3|]); exists (ch_set_done (S (ch_done c)) c); (split; [now apply set_nth_same|exact T0]).
        - intros j Hj. cbn [sv_set_pc sv_set_chan sv_chans sv_log] in *. rewrite set_nth_length. apply in_app_or in Hj as [Hj|Hj]; [auto|].
          destruct (good r) eqn:EG; [rewrite O1 in Hj by reflexivity|destruct O2 as [-> _]; [reflexivity|destruct Hj as [X|[]]; discriminate X]].
          destruct Hj as [X|[X|[]]]; [discriminate X|injection X as <-; exact LI].
        - cbn [sv_set_pc sv_set_chan sv_chans sv_next]. now rewrite set_nth_length. }
      unfold good in KEY. destruct (is_subsystem r); cbn [andb] in KEY.
      * destruct (rq_reply r); apply KEY; auto; intros X; discriminate X.
      * apply KEY; auto; intros X; discriminate X.
    + destruct (ch_closed c); [|exact HI]. apply inv_pc; auto. congruence.
  - destruct (sv_pc s) as [|i|i|] eqn:EP; try exact HI. apply inv_pc; auto; [congruence|].
    destruct HI as (_ & _ & H3 & _). rewrite EP in H3. exact H3.
Qed.
Lemma inv_run l s : ssh_inv s -> ssh_inv (ssh_run s l).
Proof. revert s. induction l as [|x l IH]; intros s H; [exact H|]. apply IH. now apply inv_step. Qed.

(** What one step adds to the log. *)
Inductive block (s : sshserver) : sshserver -> list sshout -> Prop :=
| b_none s' : (sv_pc s' = Gone <-> sv_pc s = Gone) -> sv_next s' = sv_next s -> block s s' []
| b_session s' c : sv_pc s <> Gone -> sv_pc s' <> Gone -> nth_error (sv_chans s) (sv_next s) = Some c -> ch_type c = str "session" ->
    sv_next s' = S (sv_next s) -> block s s' []
| b_reply s' b : sv_pc s <> Gone -> sv_pc s' <> Gone -> sv_next s' = sv_next s -> block s s' [if b : bool then Denied else NoReply]
| b_reject s' c : sv_pc s <> Gone -> sv_pc s' <> Gone -> nth_error (sv_chans s) (sv_next s) = Some c -> ch_type c <> str "session" ->
    sv_next s' = S (sv_next s) -> block s s' [Rejected (sv_next s)]
| b_serve s' i : sv_pc s <> Gone -> sv_pc s' <> Gone -> sv_next s' = sv_next s -> block s s' [Confirmed i; Served i]
| b_close s' : sv_pc s <> Gone -> sv_pc s' = Gone -> sv_next s' = sv_next s -> block s s' [Closed]
| b_close2 s' c : sv_pc s <> Gone -> sv_pc s' = Gone -> nth_error (sv_chans s) (sv_next s) = Some c -> ch_type c = str "session" ->
    sv_next s' = S (sv_next s) -> block s s' [Closed].
Lemma step_block s l : exists o, sv_log (ssh_step s l) = sv_log s ++ o /\ block s (ssh_step s l) o.
Proof.
  destruct (own_step l) eqn:EO.
  - assert (NOP : exists o, sv_log s = sv_log s ++ o /\ block s s o) by (exists []; rewrite app_nil_r; split; [reflexivity|now constructor]).
    destruct l; try discriminate EO; cbn [ssh_step].
    + destruct (sv_pc s) eqn:EP; try exact NOP. unfold take_global. destruct (sv_global s) as [|w r].
      * destruct (sv_ended s); [|exact NOP]. exists [Closed]. split; [reflexivity|]. apply b_close; [congruence|reflexivity|reflexivity].
      * eexists. split; [reflexivity|]. apply b_reply; [congruence|discriminate|reflexivity].
    + destruct (sv_pc s) eqn:EP; try exact NOP. unfold take_channel.
      destruct (nth_error (sv_chans s) (sv_next s)) as [c|] eqn:EC.
      * destruct (beqb (ch_type c) (str "session")) eqn:ET; cbn [negb].
        -- apply beqb_eq in ET. destruct (ch_accept c); cbn [negb].
           ++ exists []. split; [reflexivity|]. apply b_session with (c := c); auto; [congruence|discriminate].
           ++ exists [Closed]. split; [reflexivity|]. apply b_close2 with (c := c); auto. congruence.
        -- exists [Rejected (sv_next s)]. split; [reflexivity|]. apply b_reject with (c := c); auto; [congruence|discriminate|].
           intros X. apply beqb_eq in X. congruence.
      * destruct (sv_ended s); [|exact NOP]. exists [Closed]. split; [reflexivity|]. apply b_close; [congruence|reflexivity|reflexivity].
    + destruct (sv_pc s) as [|i|i|] eqn:EP; try exact NOP. unfold take_request.
      destruct (nth_error (sv_chans s) i) as [c|]; [|exact NOP]. destruct (nth_error (ch_reqs c) (ch_done c)) as [r|].
      * destruct (is_subsystem r); [destruct (rq_reply r)|].
        -- eexists. split; [reflexivity|]. apply b_serve; [congruence|discriminate|reflexivity].
        -- eexists. split; [reflexivity|]. apply b_close; [congruence|reflexivity|reflexivity].
        -- eexists. split; [reflexivity|]. apply b_close; [congruence|reflexivity|reflexivity].
      * destruct (ch_closed c); [|exact NOP]. exists []. split; [reflexivity|]. apply b_none; [cbn; rewrite EP; split; discriminate|reflexivity].
    + destruct (sv_pc s) as [|i|i|] eqn:EP; try exact NOP. exists []. split; [reflexivity|].
      apply b_none; [cbn; rewrite EP; split; discriminate|reflexivity].
  - exists []. rewrite app_nil_r. destruct (client_grows s l EO) as (G1 & G2 & G3 & _). split; [exact G2|].
    apply b_none; [now rewrite G1|exact G3].
Qed.

(** Types of channels do not change. *)
Lemma type_kept s l i c : nth_error (sv_chans s) i = Some c -> exists c', nth_error (sv_chans (ssh_step s l)) i = Some c' /\ ch_type c' = ch_type c.
Proof.
  intros H. destruct (own_step l) eqn:EO.
  - assert (NOP : exists c', nth_error (sv_chans s) i = Some c' /\ ch_type c' = ch_type c) by eauto.
    destruct l; try discriminate EO; cbn [ssh_step]; destruct (sv_pc s) as [|k|k|]; try exact NOP.
    + unfold take_global. destruct (sv_global s); [destruct (sv_ended s)|]; exact NOP.
    + unfold take_channel. destruct (nth_error (sv_chans s) (sv_next s)) as [d|]; [|destruct (sv_ended s); exact NOP].
      destruct (negb _); [exact NOP|]. destruct (negb _); exact NOP.
    + unfold take_request. destruct (nth_error (sv_chans s) k) as [d|] eqn:ED; [|exact NOP].
      destruct (nth_error (ch_reqs d) (ch_done d)) as [r|]; [|destruct (ch_closed d); exact NOP].
      assert (X : exists c', nth_error (set_nth (sv_chans s) k (ch_set_done (S (ch_done d)) d)) i = Some c' /\ ch_type c' = ch_type c).
      { destruct (Nat.eq_dec k i) as [->|N].
        - rewrite set_nth_same by (apply nth_error_Some; congruence). eexists. split; [reflexivity|]. cbn. congruence.
        - rewrite set_nth_other by assumption. eauto. }
      destruct (is_subsystem r); [destruct (rq_reply r)|]; exact X.
  - destruct (client_grows s l EO) as (_ & _ & _ & G4 & G5).
    destruct (nth_error (sv_chans (ssh_step s l)) i) as [c'|] eqn:E.
    + exists c'. split; [reflexivity|]. destruct (G5 i c' E) as [(c0 & r & Hc0 & E1 & _)|[L _]]; [congruence|].
      assert (i < length (sv_chans s))%nat by (apply nth_error_Some; congruence). lia.
    + apply nth_error_None in E. assert (i < length (sv_chans s))%nat by (apply nth_error_Some; congruence). lia.
Qed.

(** The log as a whole. *)
Definition log_inv (s : sshserver) : Prop :=
  (forall l1 i l2, sv_log s = l1 ++ Served i :: l2 -> exists l0, l1 = l0 ++ [Confirmed i]) /\
  (forall l1 l2, sv_log s = l1 ++ Closed :: l2 -> l2 = [] /\ sv_pc s = Gone) /\
  (sv_pc s = Gone -> exists l0, sv_log s = l0 ++ [Closed]) /\
  (forall i, In (Rejected i) (sv_log s) <-> (i < sv_next s)%nat /\ exists c, nth_error (sv_chans s) i = Some c /\ ch_type c <> str "session").
Lemma snoc_split {A} (l : list A) x l1 y l2 : l ++ [x] = l1 ++ y :: l2 ->
  (l2 = [] /\ x = y /\ l1 = l) \/ exists l3, l2 = l3 ++ [x] /\ l = l1 ++ y :: l3.
Proof.
  intros E. destruct (exists_last (l := y :: l2)) as (m & z & Em); [discriminate|].
  destruct l2 as [|a l2].
  - left. apply app_inj_tail in E as [-> ->]. auto.
  - right. destruct (exists_last (l := a :: l2)) as (m2 & z2 & E2); [discriminate|]. rewrite E2 in *.
    change (l1 ++ y :: m2 ++ [z2]) with (l1 ++ (y :: m2) ++ [z2]) in E. rewrite app_assoc in E. apply app_inj_tail in E as [-> ->].
    exists m2. auto.
Qed.
Lemma log_step s l : ssh_inv s -> log_inv s -> log_inv (ssh_step s l).
Proof.
  intros HI (A1 & A2 & A3 & A4). destruct (step_block s l) as (o & EL & B).
  assert (NC : sv_pc s <> Gone -> forall l1 l2, sv_log s <> l1 ++ Closed :: l2).
  { intros HG l1 l2 E. destruct (A2 l1 l2 E). congruence. }
  assert (TT : forall i, (i < sv_next s)%nat ->
    ((exists c, nth_error (sv_chans (ssh_step s l)) i = Some c /\ ch_type c <> str "session") <->
     (exists c, nth_error (sv_chans s) i = Some c /\ ch_type c <> str "session"))).
  { intros i L. destruct HI as (_ & _ & _ & _ & H5). destruct (nth_error (sv_chans s) i) as [c|] eqn:E.
    2: { apply nth_error_None in E. lia. }
    destruct (type_kept s l i c E) as (c' & E' & T). split; intros (d & Hd & Td).
    - exists c. split; [reflexivity|]. congruence.
    - exists c'. split; [exact E'|]. congruence. }
  assert (RJ : forall o', (forall i, ~ In (Rejected i) o') -> sv_next (ssh_step s l) = sv_next s -> sv_log (ssh_step s l) = sv_log s ++ o' ->
    forall i, In (Rejected i) (sv_log (ssh_step s l)) <-> (i < sv_next (ssh_step s l))%nat /\
      exists c, nth_error (sv_chans (ssh_step s l)) i = Some c /\ ch_type c <> str "session").
  { intros o' N EN EL' i. rewrite EL', EN, in_app_iff. specialize (A4 i). specialize (N i). specialize (TT i). tauto. }
  assert (RS : forall o' c, (forall i, ~ In (Rejected i) o') -> sv_next (ssh_step s l) = S (sv_next s) ->
    nth_error (sv_chans s) (sv_next s) = Some c -> ch_type c = str "session" -> sv_log (ssh_step s l) = sv_log s ++ o' ->
    forall i, In (Rejected i) (sv_log (ssh_step s l)) <-> (i < sv_next (ssh_step s l))%nat /\
      exists c, nth_error (sv_chans (ssh_step s l)) i = Some c /\ ch_type c <> str "session").
  { intros o' c N EN EC ET EL' i. rewrite EL', EN, in_app_iff. specialize (A4 i). specialize (N i). specialize (TT i).
    destruct (Nat.eq_dec i (sv_next s)) as [->|NE].
    - split; [intros [X|X]; [apply A4 in X; lia|tauto]|]. intros [_ (d & Hd & Td)].
      destruct (type_kept s l _ _ EC) as (c' & E' & T). congruence.
    - assert (i < S (sv_next s) <-> i < sv_next s)%nat as -> by lia. tauto. }
  pose proof (type_kept s l) as TK.
  destruct B as [s' HG EN|s' c HG HG' EC ET EN|s' b HG HG' EN|s' c HG HG' EC ET EN|s' i HG HG' EN|s' HG HG' EN|s' c HG HG' EC ET EN].
  - split; [|split; [|split]].
    + rewrite EL, app_nil_r. exact A1.
    + rewrite EL, app_nil_r. intros l1 l2 E. destruct (A2 l1 l2 E) as [E1 E2]. tauto.
    + rewrite EL, app_nil_r. tauto.
    + apply RJ with (o' := []); auto.
  - split; [|split; [|split]].
    + rewrite EL, app_nil_r. exact A1.
    + rewrite EL, app_nil_r. intros l1 l2 E. elim (NC HG l1 l2 E).
    + congruence.
    + eapply RS with (o' := []); eauto.
  - split; [|split; [|split]].
    + rewrite EL. intros l1 i l2 E. apply snoc_split in E as [(_ & X & _)|(l3 & -> & E)]; [destruct b; discriminate X|eauto].
    + rewrite EL. intros l1 l2 E. apply snoc_split in E as [(_ & X & _)|(l3 & -> & E)]; [destruct b; discriminate X|]. elim (NC HG _ _ E).
    + congruence.
    + eapply RJ; eauto. intros i [X|[]]; destruct b; discriminate X.
  - split; [|split; [|split]].
    + rewrite EL. intros l1 i l2 E. apply snoc_split in E as [(_ & X & _)|(l3 & -> & E)]; [discriminate X|eauto].
    + rewrite EL. intros l1 l2 E. apply snoc_split in E as [(_ & X & _)|(l3 & -> & E)]; [discriminate X|]. elim (NC HG _ _ E).
    + congruence.
    + intros i. rewrite EL, EN, in_app_iff. specialize (A4 i). specialize (TT i).
      destruct (Nat.eq_dec i (sv_next s)) as [->|NE].
      * split; [|intros _; right; left; reflexivity]. intros _. split; [lia|].
        destruct (TK _ _ EC) as (c' & E' & T). exists c'. split; [exact E'|]. congruence.
      * assert (i < S (sv_next s) <-> i < sv_next s)%nat as -> by lia. split.
        -- intros [X|[X|[]]]; [tauto|injection X as <-; now contradiction NE].
        -- intros X. left. tauto.
  - replace (sv_log s ++ [Confirmed i; Served i]) with ((sv_log s ++ [Confirmed i]) ++ [Served i]) in EL by (rewrite <- app_assoc; reflexivity).
    split; [|split; [|split]].
    + rewrite EL. intros l1 j l2 E. apply snoc_split in E as [(_ & X & E)|(l3 & -> & E)]; [injection X as <-; eauto|].
      apply snoc_split in E as [(_ & X & _)|(l4 & -> & E)]; [discriminate X|eauto].
    + rewrite EL. intros l1 l2 E. apply snoc_split in E as [(_ & X & _)|(l3 & -> & E)]; [discriminate X|].
      apply snoc_split in E as [(_ & X & _)|(l4 & -> & E)]; [discriminate X|]. elim (NC HG _ _ E).
    + congruence.
    + apply RJ with (o' := [Confirmed i; Served i]); [intros j [X|[X|[]]]; discriminate X|exact EN|rewrite EL, <- app_assoc; reflexivity].
  - split; [|split; [|split]].
    + rewrite EL. intros l1 i l2 E. apply snoc_split in E as [(_ & X & _)|(l3 & -> & E)]; [discriminate X|eauto].
    + rewrite EL. intros l1 l2 E. apply snoc_split in E as [(-> & X & _)|(l3 & -> & E)]; [auto|]. elim (NC HG _ _ E).
    + intros _. rewrite EL. eauto.
    + eapply RJ; eauto. intros i [X|[]]; discriminate X.
  - split; [|split; [|split]].
    + rewrite EL. intros l1 i l2 E. apply snoc_split in E as [(_ & X & _)|(l3 & -> & E)]; [discriminate X|eauto].
    + rewrite EL. intros l1 l2 E. apply snoc_split in E as [(-> & X & _)|(l3 & -> & E)]; [auto|]. elim (NC HG _ _ E).
    + intros _. rewrite EL. eauto.
    + eapply RS; eauto. intros i [X|[]]; discriminate X.
Qed.
Lemma log_start : log_inv ssh_start.
Proof.
  split; [intros l1 i l2 E; destruct l1; discriminate E|]. split; [intros l1 l2 E; destruct l1; discriminate E|].
  split; [discriminate|]. intros i. split; [intros []|]. cbn. intros [X _]. lia.
Qed.
Lemma log_run l s : ssh_inv s -> log_inv s -> log_inv (ssh_run s l).
Proof. revert s. induction l as [|x l IH]; intros s H1 H2; [exact H2|]. apply IH; [now apply inv_step|now apply log_step]. Qed.

(** Replies to global requests. *)
Lemma global_step s l : sv_ended s = false -> l <> CEnd -> sv_ended (ssh_step s l) = false /\
  (times Denied (sv_log (ssh_step s l)) + length (filter id (sv_global (ssh_step s l))) =
   times Denied (sv_log s) + length (filter id (sv_global s)) + wanting [l])%nat.
Proof.
  intros HE HN.
  assert (KEY : forall s', sv_ended s' = sv_ended s -> sv_global s' = sv_global s -> (exists o, sv_log s' = sv_log s ++ o /\ times Denied o = 0%nat) ->
    wanting [l] = 0%nat -> sv_ended s' = false /\
    (times Denied (sv_log s') + length (filter id (sv_global s')) =
     times Denied (sv_log s) + length (filter id (sv_global s)) + wanting [l])%nat).
  { intros s' E1 E2 (o & E3 & E4) E5. rewrite E1, E2, E3, times_app, E4, E5. split; [exact HE|lia]. }
  assert (SAME : wanting [l] = 0%nat -> sv_ended s = false /\
    (times Denied (sv_log s) + length (filter id (sv_global s)) =
     times Denied (sv_log s) + length (filter id (sv_global s)) + wanting [l])%nat).
  { intros H. apply KEY; auto. exists []. now rewrite app_nil_r. }
  destruct l; try (now contradiction HN); cbn [ssh_step].
  - rewrite HE. cbn [sv_ended sv_log sv_global]. split; [reflexivity|]. rewrite filter_app, app_length. destruct want; cbn; lia.
  - rewrite HE. apply KEY; auto. exists []. now rewrite app_nil_r.
  - destruct (nth_error _ _) as [ch|]; [destruct (ch_closed ch)|]; now apply SAME.
  - destruct (nth_error _ _) as [ch|]; now apply SAME.
  - destruct (sv_pc s); try (now apply SAME). unfold take_global. destruct (sv_global s) as [|w r] eqn:EG; [rewrite HE, EG; now apply SAME|].
    cbn [sv_ended sv_log sv_global]. split; [exact HE|]. rewrite times_app. destruct w; cbn; lia.
  - destruct (sv_pc s); try (now apply SAME). unfold take_channel. destruct (nth_error _ _) as [ch|].
    + destruct (negb _); [|destruct (negb _)]; apply KEY; auto; eexists; (split; [reflexivity|reflexivity]).
    + rewrite HE. now apply SAME.
  - destruct (sv_pc s) as [|i|i|]; try (now apply SAME). unfold take_request. destruct (nth_error (sv_chans s) i) as [ch|]; [|now apply SAME].
    destruct (nth_error _ _) as [r|].
    + destruct (is_subsystem r); [destruct (rq_reply r)|]; apply KEY; auto; eexists; (split; [reflexivity|reflexivity]).
    + destruct (ch_closed ch); [apply KEY; auto; eexists; (split; [reflexivity|reflexivity])|now apply SAME].
  - destruct (sv_pc s) as [|i|i|]; try (now apply SAME). apply KEY; auto; eexists; (split; [reflexivity|reflexivity]).
Qed.
Lemma global_run l s : sv_ended s = false -> ~ In CEnd l ->
  (times Denied (sv_log (ssh_run s l)) + length (filter id (sv_global (ssh_run s l))) =
   times Denied (sv_log s) + length (filter id (sv_global s)) + wanting l)%nat.
Proof.
  revert s. induction l as [|x l IH]; intros s HE HN; [cbn; lia|].
  destruct (global_step s x HE) as [E1 E2]; [intros ->; apply HN; now left|].
  cbn [ssh_run fold_left]. change (fold_left ssh_step l (ssh_step s x)) with (ssh_run (ssh_step s x) l).
  rewrite IH; [|exact E1|intros X; apply HN; now right]. rewrite E2.
  unfold wanting. cbn [filter]. destruct x as [[|]| | | | | | | |]; cbn; lia.
Qed.

(** After the end of the connection the goroutine finishes. *)
Definition left_reqs (l : list chan) : nat := fold_right (fun c n => (length (ch_reqs c) - ch_done c + n)%nat) 0%nat l.
Definition pc_rank (p : sshpc) : nat := match p with Gone => 0 | AtSelect => 1 | AtRequests _ => 2 | Serving _ => 3 end.
Definition rank (s : sshserver) : nat :=
  (4 * length (sv_global s) + 4 * (length (sv_chans s) - sv_next s) + 3 * left_reqs (sv_chans s) + pc_rank (sv_pc s))%nat.
Lemma left_set l i c d : nth_error l i = Some c -> (length (ch_reqs d) - ch_done d < length (ch_reqs c) - ch_done c)%nat ->
  (left_reqs (set_nth l i d) < left_reqs l)%nat.
Proof.
  revert i. induction l as [|x l IH]; intros [|i] H L; try discriminate H; cbn [set_nth left_reqs fold_right] in *.
  - injection H as ->. unfold left_reqs in *. lia.
  - specialize (IH i H L). unfold left_reqs in *. lia.
Qed.
Lemma own_decreases s l : own_step l = true -> ssh_step s l <> s -> (rank (ssh_step s l) < rank s)%nat.
Proof.
  intros HO HN. destruct l; try discriminate HO; cbn [ssh_step] in *.
  - destruct (sv_pc s) eqn:EP; try (now contradiction HN). unfold take_global in *. destruct (sv_global s) as [|w r] eqn:EG.
    + destruct (sv_ended s); [|now contradiction HN]. unfold rank. cbn [sv_set_pc sv_global sv_chans sv_next sv_pc pc_rank length]. rewrite EP. cbn [pc_rank]. lia.
    + unfold rank. cbn [sv_set_pc sv_global sv_chans sv_next sv_pc pc_rank length]. rewrite EP, EG. cbn [pc_rank length]. lia.
  - destruct (sv_pc s) eqn:EP; try (now contradiction HN). unfold take_channel in *.
    destruct (nth_error (sv_chans s) (sv_next s)) as [c|] eqn:EC.
    + assert (LL : (sv_next s < length (sv_chans s))%nat) by (apply nth_error_Some; congruence).
      unfold rank. destruct (negb _); [|destruct (negb _)]; cbn [sv_set_pc sv_global sv_chans sv_next sv_pc pc_rank]; rewrite EP; cbn [pc_rank]; lia.
    + destruct (sv_ended s); [|now contradiction HN]. unfold rank. cbn [sv_set_pc sv_global sv_chans sv_next sv_pc]. rewrite EP. cbn [pc_rank]. lia.
  - destruct (sv_pc s) as [|i|i|] eqn:EP; try (now contradiction HN). unfold take_request in *.
    destruct (nth_error (sv_chans s) i) as [c|] eqn:EC; [|now contradiction HN].
    destruct (nth_error (ch_reqs c) (ch_done c)) as [r|] eqn:ER.
    + assert (LR : (ch_done c < length (ch_reqs c))%nat) by (apply nth_error_Some; congruence).
      pose proof (left_set (sv_chans s) i c (ch_set_done (S (ch_done c)) c) EC ltac:(cbn; lia)) as L.
      unfold rank. rewrite EP. destruct (is_subsystem r); [destruct (rq_reply r)|];
        cbn [sv_set_pc sv_set_chan sv_global sv_chans sv_next sv_pc pc_rank]; rewrite set_nth_length; lia.
    + destruct (ch_closed c); [|now contradiction HN]. unfold rank. rewrite EP. cbn [sv_set_pc sv_global sv_chans sv_next sv_pc pc_rank]. lia.
  - destruct (sv_pc s) as [|i|i|] eqn:EP; try (now contradiction HN). unfold rank. rewrite EP.
    cbn [sv_set_pc sv_global sv_chans sv_next sv_pc pc_rank]. lia.
Qed.
Lemma effective_bound l s : effective s l -> (length l <= rank s)%nat.
Proof.
  revert s. induction l as [|x l IH]; intros s H; [cbn; lia|]. destruct H as (H1 & H2 & H3).
  specialize (IH _ H3). pose proof (own_decreases s x H1 H2). cbn [length]. lia.
Qed.
