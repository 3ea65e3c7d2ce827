(** Properties C73 and C74: SSH connections and the accept loop. *)
From Coq Require Import ZifyBool ZifyNat ZifyN String.
From Verif Require Import Lib.Str Model.SshConn Spec.SshSpec Proofs.ConcCacheP Proofs.SshConnP.
Local Open Scope string_scope.
Local Open Scope list_scope.
Local Open Scope N_scope.

(** C73 RTR over SSH is the subsystem "rpki-rtr" of a session.  RTR is served exactly once
    for each such request that is taken, after it has been confirmed, and only on channels of
    type "session"; other requests, once taken, end the connection. *)
Theorem C73_served : forall l, let s := ssh_run ssh_start l in
  (forall i c, nth_error (sv_chans s) i = Some c ->
     (ch_done c <= length (ch_reqs c))%nat /\
     (forall good, (forall r, good r = true <-> asks_rtr r) ->
        times (Served i) (sv_log s) = length (filter good (firstn (ch_done c) (ch_reqs c)))) /\
     ((0 < ch_done c)%nat -> ch_type c = str "session") /\
     (forall r, In r (firstn (ch_done c) (ch_reqs c)) -> ~ asks_rtr r -> sv_pc s = Gone)) /\
  (forall l1 i l2, sv_log s = l1 ++ Served i :: l2 ->
     (i < length (sv_chans s))%nat /\ exists l0, l1 = l0 ++ [Confirmed i]).
Proof.
  intros l. cbv zeta. pose proof (inv_run l _ inv_start) as (H1 & H2 & H3 & H4 & H5).
  pose proof (log_run l _ inv_start log_start) as (A1 & _). split.
  - intros i c Hc. destruct (H1 i c Hc) as (A & B & C & D). split; [exact A|]. split; [|split].
    + intros g Hg. rewrite C. f_equal. apply filter_ext. intros r. unfold good.
      pose proof (subsystem_asks r) as Q. specialize (Hg r). destruct (is_subsystem r && rq_reply r)%bool, (g r); intuition.
    + intros L. now apply B.
    + intros r Hr Nr. assert (Dec : sv_pc (ssh_run ssh_start l) = Gone \/ sv_pc (ssh_run ssh_start l) <> Gone)
        by (destruct (sv_pc (ssh_run ssh_start l)); auto; right; discriminate).
      destruct Dec as [E|E]; [exact E|]. specialize (D E). rewrite forallb_forall in D. specialize (D r Hr).
      apply subsystem_asks in D. now contradiction Nr.
  - intros l1 i l2 E. split; [|exact (A1 l1 i l2 E)]. apply H4. rewrite E. apply in_or_app. right. now left.
Qed.
(** Channels of other types are rejected, and no others. *)
Theorem C73_rejected : forall l i, let s := ssh_run ssh_start l in
  In (Rejected i) (sv_log s) <-> (i < sv_next s)%nat /\ exists c, nth_error (sv_chans s) i = Some c /\ ch_type c <> str "session".
Proof. intros l i. cbv zeta. apply (log_run l _ inv_start log_start). Qed.
(** The connection is closed when the goroutine is done, which is the last thing it does;
    and after the end of the connection it does get done: it never makes more than a given
    number of steps, and can always make one until it is done. *)
Theorem C73_closed : forall l, let s := ssh_run ssh_start l in
  (sv_pc s = Gone <-> exists l0, sv_log s = l0 ++ [Closed]) /\
  (forall l1 l2, sv_log s = l1 ++ Closed :: l2 -> l2 = []) /\
  (sv_ended s = true -> (exists n, forall l', effective s l' -> (length l' <= n)%nat) /\
     (sv_pc s <> Gone -> exists x, own_step x = true /\ ssh_step s x <> s)).
Proof.
  intros l. cbv zeta. pose proof (inv_run l _ inv_start) as (H1 & H2 & H3 & H4 & H5).
  pose proof (log_run l _ inv_start log_start) as (_ & A2 & A3 & _).
  split; [split; [exact A3|intros (l0 & E); apply (A2 l0 [] E)]|].
  split; [intros l1 l2 E; apply (A2 l1 l2 E)|]. intros HE. split; [exists (rank (ssh_run ssh_start l)); intros l'; apply effective_bound|].
  set (s := ssh_run ssh_start l) in *. intros HG.
  assert (CL : forall i c, nth_error (sv_chans s) i = Some c -> ch_closed c = true).
  { subst s. clear -HE. revert HE.
    assert (G : forall l s, (sv_ended s = true -> forall i c, nth_error (sv_chans s) i = Some c -> ch_closed c = true) ->
      sv_ended (ssh_run s l) = true -> forall i c, nth_error (sv_chans (ssh_run s l)) i = Some c -> ch_closed c = true).
    2: { intros HE. apply (G l ssh_start); [intros X; discriminate X|exact HE]. }
    clear l. induction l as [|x l IH]; intros s H; [exact H|]. apply IH. clear IH. intros HE i c.
    destruct x; cbn [ssh_step] in *.
    - destruct (sv_ended s) eqn:E; [apply H; auto|discriminate HE].
    - destruct (sv_ended s) eqn:E; [apply H; auto|discriminate HE].
    - destruct (nth_error (sv_chans s) c0) as [ch|] eqn:EC; [|apply H; auto]. destruct (ch_closed ch) eqn:ED; [apply H; auto|].
      cbn [sv_set_chan sv_ended sv_chans] in *. rewrite (H HE _ _ EC) in ED. discriminate ED.
    - destruct (nth_error (sv_chans s) c0) as [ch|] eqn:EC; [|apply H; auto]. cbn [sv_set_chan sv_ended sv_chans] in *.
      intros Hi. destruct (set_nth_lt _ _ _ _ _ _ EC Hi) as [[_ ->]|[_ G]]; [reflexivity|apply (H HE _ _ G)].
    - cbn [sv_chans]. rewrite nth_error_map. destruct (nth_error (sv_chans s) i); [|discriminate]. intros [= <-]. reflexivity.
    - destruct (sv_pc s); try (now apply H). unfold take_global in *. destruct (sv_global s); [destruct (sv_ended s) eqn:E; [now apply H|congruence]|now apply H].
    - destruct (sv_pc s); try (now apply H). unfold take_channel in *. destruct (nth_error (sv_chans s) (sv_next s)).
      + destruct (negb _); [|destruct (negb _)]; now apply H.
      + destruct (sv_ended s) eqn:E; [now apply H|congruence].
    - destruct (sv_pc s) as [|k|k|]; try (now apply H). unfold take_request in *. destruct (nth_error (sv_chans s) k) as [ch|] eqn:EC; [|now apply H].
      destruct (nth_error (ch_reqs ch) (ch_done ch)) as [r|].
      + assert (HE' : sv_ended s = true) by (destruct (is_subsystem r); [destruct (rq_reply r)|]; exact HE).
        assert (G : forall c', nth_error (set_nth (sv_chans s) k (ch_set_done (S (ch_done ch)) ch)) i = Some c' -> ch_closed c' = true).
        { intros c' Hi. destruct (set_nth_lt _ _ _ _ _ _ EC Hi) as [[_ ->]|[_ G]]; [apply (H HE' _ _ EC)|apply (H HE' _ _ G)]. }
        destruct (is_subsystem r); [destruct (rq_reply r)|]; apply G.
      + destruct (ch_closed ch); now apply H.
    - destruct (sv_pc s) as [|k|k|]; now apply H. }
  clear A2 A3. destruct (sv_pc s) as [|i|i|] eqn:EP; [| | |now contradiction HG].
  - exists SGlobal. split; [reflexivity|]. cbn [ssh_step]. rewrite EP. unfold take_global. destruct (sv_global s) as [|w r] eqn:EG.
    + rewrite HE. intros X. apply (f_equal sv_pc) in X. cbn in X. congruence.
    + intros X. apply (f_equal (fun s => length (sv_global s))) in X. cbn [sv_global] in X. rewrite EG in X. cbn in X. lia.
  - exists SRequest. split; [reflexivity|]. cbn [ssh_step]. rewrite EP. destruct H3 as [_ (c & Hc & _)]. unfold take_request. rewrite Hc.
    destruct (nth_error (ch_reqs c) (ch_done c)) as [r|].
    + destruct (is_subsystem r); [destruct (rq_reply r)|]; intros X; apply (f_equal sv_pc) in X; cbn in X; congruence.
    + rewrite (CL i c Hc). intros X. apply (f_equal sv_pc) in X. cbn in X. congruence.
  - exists SReturn. split; [reflexivity|]. cbn [ssh_step]. rewrite EP. intros X. apply (f_equal sv_pc) in X. cbn in X. congruence.
Qed.
(** A client that asks properly is served; one that asks for a shell is not. *)
Definition ask := mkReq (str "subsystem") [0; 0; 0; 8; 114; 112; 107; 105; 45; 114; 116; 114] true.
Example C73_case :
  sv_log (ssh_run ssh_start [COpen (str "x11") true; COpen (str "session") true; SChannel; SChannel; CReq 1 ask; SRequest; CEnd; SReturn; SRequest; SChannel])
    = [Rejected 0; Confirmed 1; Served 1; Closed] /\
  sv_log (ssh_run ssh_start [COpen (str "session") true; SChannel; CReq 0 (mkReq (str "shell") [] true); CReq 0 ask; SRequest; SRequest]) = [Closed] /\
  asks_rtr ask /\ ~ asks_rtr (mkReq (str "shell") [] true).
Proof.
  split; [vm_compute; reflexivity|]. split; [vm_compute; reflexivity|]. split; [repeat split; vm_compute; reflexivity|].
  intros [H _]. vm_compute in H. discriminate H.
Qed.

(** Requests that want a reply get one: refuted.  While RTR is served, global requests (such as
    the keepalives of OpenSSH) are not looked at. *)
Theorem C73_keepalive_refuted : exists l, let s := ssh_run ssh_start l in
  sv_global s = [true] /\ sv_pc s = Serving 0 /\
  forall l', ~ In SReturn l' -> times Denied (sv_log (ssh_run s l')) = 0%nat /\ sv_pc (ssh_run s l') = Serving 0.
Proof.
  exists [COpen (str "session") true; SChannel; CReq 0 ask; SRequest; CGlobal true]. cbv zeta.
  set (s := ssh_run ssh_start _). split; [vm_compute; reflexivity|]. split; [vm_compute; reflexivity|].
  assert (E1 : sv_pc s = Serving 0) by (vm_compute; reflexivity).
  assert (E2 : times Denied (sv_log s) = 0%nat) by (vm_compute; reflexivity). clearbody s.
  intros l'. revert s E1 E2. induction l' as [|x l' IH]; intros s E1 E2 N; [auto|].
  apply IH; [| |intros X; apply N; now right].
  - destruct x; cbn [ssh_step]; rewrite ?E1; try exact E1; try reflexivity.
    + now destruct (sv_ended s).
    + now destruct (sv_ended s).
    + destruct (nth_error _ _) as [ch|]; [destruct (ch_closed ch)|]; exact E1.
    + destruct (nth_error _ _); exact E1.
    + elim N. now left.
  - destruct x; cbn [ssh_step]; rewrite ?E1; try exact E2.
    + now destruct (sv_ended s).
    + now destruct (sv_ended s).
    + destruct (nth_error _ _) as [ch|]; [destruct (ch_closed ch)|]; exact E2.
    + destruct (nth_error _ _); exact E2.
    + elim N. now left.
Qed.
(** What holds: exactly the global requests that want a reply and have been taken got one. *)
Theorem C73_keepalive_partial : forall l, ~ In CEnd l -> let s := ssh_run ssh_start l in
  (times Denied (sv_log s) + length (filter id (sv_global s)) = wanting l)%nat.
Proof. intros l N. exact (global_run l ssh_start eq_refl N). Qed.
Example C73_keepalive_case :
  sv_log (ssh_run ssh_start [CGlobal true; CGlobal false; SGlobal; SGlobal; CGlobal true]) = [Denied; NoReply].
Proof. vm_compute. reflexivity. Qed.

(** C74 Every client gets its turn: over TCP and TLS connections are taken in the order of
    their arrival, and as many turns of the loop as there are connections waiting are
    enough, whatever the clients do. *)
Theorem C74_turn_partial : forall tr l, tr <> SSH ->
  lp_taken (loop_run tr loop_start l) ++ lp_waiting (loop_run tr loop_start l) = arrivals l /\
  forall n, (length (lp_waiting (loop_run tr loop_start l)) <= n)%nat ->
    lp_taken (loop_run tr loop_start (l ++ repeat Loops n)) = arrivals l.
Proof.
  intros tr l HT.
  assert (G : forall l s, lp_pc s = InAccept -> lp_pc (loop_run tr s l) = InAccept /\
    lp_taken (loop_run tr s l) ++ lp_waiting (loop_run tr s l) = lp_taken s ++ lp_waiting s ++ arrivals l).
  { clear l. induction l as [|x l IH]; intros s E; [cbn; now rewrite app_nil_r|].
    cbn [loop_run fold_left]. change (fold_left (loop_step tr) l (loop_step tr s x)) with (loop_run tr (loop_step tr s x) l).
    assert (E' : lp_pc (loop_step tr s x) = InAccept /\
      lp_taken (loop_step tr s x) ++ lp_waiting (loop_step tr s x) = lp_taken s ++ lp_waiting s ++ arrivals [x]).
    { destruct x; cbn [loop_step]; try (split; [exact E|cbn; rewrite ?app_nil_r; reflexivity]).
      rewrite E. destruct (lp_waiting s) as [|i r] eqn:EW; [split; [exact E|rewrite EW; cbn; reflexivity]|].
      destruct tr; try (now contradiction HT); (split; [reflexivity|cbn; rewrite app_nil_r, <- app_assoc; reflexivity]). }
    destruct E' as [E1 E2]. destruct (IH _ E1) as [I1 I2]. split; [exact I1|]. rewrite I2, app_assoc, E2.
    rewrite <- !app_assoc. f_equal. f_equal. destruct x; reflexivity. }
  destruct (G l loop_start eq_refl) as [G1 G2]. split; [exact G2|]. intros n L.
  unfold loop_run. rewrite fold_left_app. fold (loop_run tr loop_start l). set (s := loop_run tr loop_start l) in *. clearbody s.
  cbn [loop_start lp_taken lp_waiting app] in G2. rewrite <- G2. clear G2 G. revert s G1 L.
  induction n as [|n IH]; intros s E L; cbn [repeat fold_left].
  - destruct (lp_waiting s); [now rewrite app_nil_r|cbn in L; lia].
  - cbn [loop_step]. rewrite E. destruct (lp_waiting s) as [|i r] eqn:EW.
    + rewrite (IH s E) by (rewrite EW; cbn; lia). now rewrite EW.
    + cbn [length] in L. destruct tr; try (now contradiction HT); (rewrite IH; [|reflexivity|cbn; lia]); cbn [lp_taken lp_waiting];
        rewrite <- app_assoc; reflexivity.
Qed.
(** Over SSH it is refuted: a client that connects and says nothing keeps all later ones
    from being served, although they have finished their part of the handshake. *)
Theorem C74_ssh_refuted : exists l, In 1%nat (arrivals l) /\ In 1%nat (lp_shook (loop_run SSH loop_start l)) /\
  forall l', ~ In (Shakes 0) l' -> lp_taken (loop_run SSH loop_start (l ++ l')) = [].
Proof.
  exists [Arrives 0; Loops; Arrives 1; Shakes 1]. split; [cbn; tauto|]. split; [cbn; tauto|].
  intros l' N. unfold loop_run. rewrite fold_left_app. set (s := fold_left _ [_; _; _; _] _).
  assert (E : lp_pc s = InHandshake 0 /\ existsb (Nat.eqb 0) (lp_shook s) = false /\ lp_taken s = []) by (repeat split; vm_compute; reflexivity).
  clearbody s. revert s E. induction l' as [|x l' IH]; intros s (E1 & E2 & E3); [exact E3|].
  cbn [fold_left]. apply IH; [intros X; apply N; now right|]. destruct x; cbn [loop_step].
  - repeat split; assumption.
  - repeat split; try assumption. cbn [lp_shook existsb]. rewrite E2.
    destruct i; [elim N; now left|reflexivity].
  - rewrite E1, E2. repeat split; assumption.
Qed.
(** What holds over SSH: with the handshakes of all clients finished, everyone is taken. *)
Theorem C74_ssh_partial : forall l, let s := loop_run SSH loop_start l in
  (forall i, In i (arrivals l) -> In i (lp_shook s)) ->
  exists n, lp_taken (loop_run SSH loop_start (l ++ repeat Loops n)) = arrivals l.
Proof.
  intros l. cbv zeta. intros HS.
  set (hand := fun s => match lp_pc s with InAccept => [] | InHandshake i => [i] end).
  assert (G : forall l s, lp_taken (loop_run SSH s l) ++ hand (loop_run SSH s l) ++ lp_waiting (loop_run SSH s l) =
    lp_taken s ++ hand s ++ lp_waiting s ++ arrivals l).
  { clear. induction l as [|x l IH]; intros s; [cbn; now rewrite app_nil_r|].
    cbn [loop_run fold_left]. change (fold_left (loop_step SSH) l (loop_step SSH s x)) with (loop_run SSH (loop_step SSH s x) l).
    rewrite IH. assert (E : lp_taken (loop_step SSH s x) ++ hand (loop_step SSH s x) ++ lp_waiting (loop_step SSH s x) =
      lp_taken s ++ hand s ++ lp_waiting s ++ arrivals [x]).
    { unfold hand. destruct x; cbn [loop_step]; try (cbn; rewrite ?app_nil_r; reflexivity).
      destruct (lp_pc s) as [|i] eqn:EP; [destruct (lp_waiting s) as [|j r] eqn:EW|destruct (existsb _ _)];
        cbn [lp_pc lp_taken lp_waiting app]; try rewrite EP; try rewrite EW; cbn [arrivals flat_map app]; rewrite ?app_nil_r, <- ?app_assoc; reflexivity. }
    replace (arrivals (x :: l)) with (arrivals [x] ++ arrivals l) by (destruct x; reflexivity).
    rewrite !app_assoc in *. now rewrite E. }
  specialize (G l loop_start). cbn [hand loop_start lp_pc lp_taken lp_waiting app] in G.
  exists (2 * length (arrivals l))%nat. unfold loop_run. rewrite fold_left_app. fold (loop_run SSH loop_start l).
  set (s := loop_run SSH loop_start l) in *. clearbody s. rewrite <- G in HS |- *.
  assert (HS' : forall i, In i (hand s ++ lp_waiting s) -> In i (lp_shook s)) by (intros i Hi; apply HS; apply in_or_app; now right).
  assert (K : forall n s, (forall i, In i (hand s ++ lp_waiting s) -> In i (lp_shook s)) ->
    (length (hand s) + 2 * length (lp_waiting s) <= n)%nat ->
    lp_taken (fold_left (loop_step SSH) (repeat Loops n) s) = lp_taken s ++ hand s ++ lp_waiting s).
  { clear. induction n as [|n IH]; intros s H L.
    - destruct (hand s); [|cbn in L; lia]. destruct (lp_waiting s); [cbn; now rewrite app_nil_r|cbn in L; lia].
    - cbn [repeat fold_left loop_step]. unfold hand in *. destruct (lp_pc s) as [|i] eqn:EP.
      + destruct (lp_waiting s) as [|i r] eqn:EW.
        * rewrite IH; rewrite ?EP, ?EW; cbn; auto; lia.
        * rewrite IH; cbn [lp_pc lp_waiting lp_shook lp_taken app length] in *; auto. lia.
      + assert (X : existsb (Nat.eqb i) (lp_shook s) = true).
        { apply existsb_exists. exists i. split; [apply H; now left|apply Nat.eqb_refl]. }
        rewrite X. rewrite IH; cbn [lp_pc lp_waiting lp_shook lp_taken app length] in *.
        * now rewrite <- app_assoc.
        * intros j Hj. apply H. now right.
        * lia. }
  apply K; [exact HS'|]. rewrite !app_length. unfold hand. destruct (lp_pc s); cbn [length]; lia.
Qed.
(** Exactly, over SSH: those are taken, in the order of their arrival, that come before the
    first client that has not finished its handshake; nobody behind it ever is while it says
    nothing. *)
Theorem C74_ssh_exact_partial : forall l,
  (exists rest, ready l (arrivals l) = lp_taken (loop_run SSH loop_start l) ++ rest) /\
  forall n, (2 * length (arrivals l) <= n)%nat ->
    lp_taken (loop_run SSH loop_start (l ++ repeat Loops n)) = ready l (arrivals l).
Proof.
  intros l.
  set (hand := fun s => match lp_pc s with InAccept => [] | InHandshake i => [i] end).
  set (sh := fun l i => existsb (fun x => match x with Shakes j => Nat.eqb i j | _ => false end) l).
  assert (G : forall l, let s := loop_run SSH loop_start l in
    (forall i, existsb (Nat.eqb i) (lp_shook s) = sh l i) /\ lp_taken s ++ hand s ++ lp_waiting s = arrivals l /\
    (forall i, In i (lp_taken s) -> sh l i = true)).
  { clear l. induction l as [|x l IH] using rev_ind; cbv zeta; [repeat split; intros i []|].
    cbv zeta in IH. unfold loop_run in *. rewrite fold_left_app. cbn [fold_left]. set (s := fold_left (loop_step SSH) l loop_start) in *. clearbody s.
    destruct IH as (A & B & C). assert (SH : forall i, sh (l ++ [x]) i = sh l i || sh [x] i) by (intros i; unfold sh; apply existsb_app).
    assert (AR : arrivals (l ++ [x]) = arrivals l ++ arrivals [x]) by (unfold arrivals; now rewrite flat_map_app).
    rewrite AR, <- B. unfold hand. destruct x as [j|j|]; cbn [loop_step].
    - split; [intros i; rewrite SH; cbn; now rewrite orb_false_r, A|]. split; [cbn; rewrite <- !app_assoc; reflexivity|].
      intros i Hi. rewrite SH, (C i Hi). reflexivity.
    - split; [intros i; rewrite SH; cbn [lp_shook existsb]; unfold sh at 2; cbn [existsb]; rewrite A, orb_false_r; apply orb_comm|]. split; [cbn; now rewrite app_nil_r|].
      intros i Hi. rewrite SH, (C i Hi). reflexivity.
    - assert (SH0 : forall i, sh (l ++ [Loops]) i = sh l i) by (intros i; rewrite SH; apply orb_false_r).
      cbn [arrivals flat_map]. rewrite app_nil_r.
      destruct (lp_pc s) as [|j] eqn:EP; [destruct (lp_waiting s) as [|j r] eqn:EW|destruct (existsb (Nat.eqb j) (lp_shook s)) eqn:EX].
      + rewrite EP, EW. split; [intros i; now rewrite SH0|]. split; [reflexivity|]. intros i Hi. rewrite SH0. auto.
      + cbn [lp_pc lp_taken lp_waiting lp_shook]. split; [intros i; now rewrite SH0|]. split; [reflexivity|]. intros i Hi. rewrite SH0. auto.
      + cbn [lp_pc lp_taken lp_waiting lp_shook]. split; [intros i; now rewrite SH0|]. split; [rewrite <- !app_assoc; reflexivity|].
        intros i Hi. rewrite SH0. apply in_app_or in Hi as [Hi|[<-|[]]]; [auto|]. now rewrite <- A.
      + rewrite EP. split; [intros i; now rewrite SH0|]. split; [reflexivity|]. intros i Hi. rewrite SH0. auto. }
  assert (RA : forall l a b, (forall i, In i a -> sh l i = true) -> ready l (a ++ b) = a ++ ready l b).
  { clear. induction a as [|i a IH]; intros b H; [reflexivity|]. cbn [app ready]. fold (sh l i). rewrite (H i (or_introl eq_refl)). f_equal. apply IH. intros j Hj. apply H. now right. }
  destruct (G l) as (A & B & C). split; [rewrite <- B, RA by exact C; eauto|]. intros n L.
  unfold loop_run. rewrite fold_left_app. fold (loop_run SSH loop_start l). set (s := loop_run SSH loop_start l) in *. clearbody s.
  rewrite <- B, RA by exact C.
  assert (LB : (length (hand s) + 2 * length (lp_waiting s) <= n)%nat).
  { rewrite <- B, !app_length in L. destruct (hand s); cbn [length] in *; lia. }
  clear B C L G RA. revert s A LB. induction n as [|n IH]; intros s A LB.
  - unfold hand in *. destruct (lp_pc s); [|cbn in LB; lia]. destruct (lp_waiting s); [cbn; now rewrite app_nil_r|cbn in LB; lia].
  - cbn [repeat fold_left loop_step]. unfold hand in *. destruct (lp_pc s) as [|i] eqn:EP.
    + destruct (lp_waiting s) as [|i r] eqn:EW.
      * rewrite IH; rewrite ?EP, ?EW; cbn; auto; lia.
      * rewrite IH; cbn [lp_pc lp_taken lp_waiting lp_shook app length] in *; auto; lia.
    + rewrite A. cbn [app ready]. fold (sh l i). destruct (sh l i) eqn:EX.
      * rewrite IH; cbn [lp_pc lp_taken lp_waiting lp_shook app length] in *; [now rewrite <- app_assoc|auto|lia].
      * rewrite app_nil_r. clear -EP A EX. assert (F : loop_step SSH s Loops = s) by (cbn [loop_step]; rewrite EP, A, EX; reflexivity).
        generalize n as m. induction m as [|m IH]; [reflexivity|]. cbn [repeat fold_left]. now rewrite F.
Qed.
Example C74_ssh_exact_case : let l := [Arrives 0; Arrives 1; Shakes 0; Loops; Arrives 2; Shakes 2] in
  arrivals l = [0; 1; 2]%nat /\ ready l (arrivals l) = [0]%nat /\ ready (l ++ [Shakes 1]) (arrivals l) = [0; 1; 2]%nat.
Proof. vm_compute. auto. Qed.
Example C74_case :
  lp_taken (loop_run TLS loop_start [Arrives 0; Loops; Arrives 1; Loops]) = [0; 1]%nat /\
  lp_taken (loop_run SSH loop_start [Arrives 0; Loops; Arrives 1; Shakes 1; Loops; Loops; Loops]) = [] /\
  lp_taken (loop_run SSH loop_start [Arrives 0; Loops; Arrives 1; Shakes 1; Shakes 0; Loops; Loops; Loops]) = [0; 1]%nat.
Proof. vm_compute. auto. Qed.

Print Assumptions C73_served.
Print Assumptions C73_rejected.
Print Assumptions C73_closed.
Print Assumptions C73_keepalive_refuted.
Print Assumptions C73_keepalive_partial.
Print Assumptions C74_turn_partial.
Print Assumptions C74_ssh_refuted.
Print Assumptions C74_ssh_exact_partial.
Print Assumptions C74_ssh_partial.
