(** Properties C24 (second half), C25, C26, C30 to C33 and C63: the whole server, under
    every interleaving of its goroutines. *)
From Coq Require Import ZifyBool ZifyNat ZifyN.
From Verif Require Import Model.Concurrent Spec.Wire Spec.Sets Spec.History Spec.Response Spec.Net
  Proofs.WireP Proofs.DataP Proofs.CacheP Proofs.ConnP Proofs.NetP Proofs.NetP2 Proofs.NetP3 Proofs.NetP4
  Props.CacheProps Props.ConnProps.

Definition after (srv : rtrserver) (sched : list label) : net :=
  match nrun srv empty_net sched with Ok w => w | _ => empty_net end.
Definition runs (srv : rtrserver) (sched : list label) : bool :=
  match nrun srv empty_net sched with Ok _ => true | _ => false end.
Lemma after_ok srv sched : runs srv sched = true -> nrun srv empty_net sched = Ok (after srv sched).
Proof. unfold runs, after. destruct (nrun srv empty_net sched); [reflexivity|discriminate|discriminate]. Qed.
Definition srv1 := new_rtr_server cfg1 7.
Definition many (n : nat) (l : list label) : list label := concat (repeat l n).

(** C24 Nothing follows a fatal error: false in its second half too.  A Reset Query in a
    bad version against a cache of 300 records leaves the reader blocked for good: the
    sender has returned, the channel is full, and no schedule whatsoever unblocks it. *)
Definition big := run (new_server 3) [map (fun i => VRP (pfx4 (N.of_nat i * 256) 24) 64496 24 1) (seq 1 300)].
Definition sched24 := [LAccept TCP; LStart 0; LRead 0 big [5; 2; 0; 0; 0; 0; 0; 8]]
  ++ many 5 [LReader 0] ++ [LSender 0 WAll] ++ many 300 [LReader 0].
Theorem C24_blocked_refuted : exists cfg s sched w k p r,
  nrun (new_rtr_server cfg s) empty_net sched = Ok w /\ nth_error (n_conns w) 0 = Some k /\
  In (bad_version 0) (k_queued k) /\ k_prog k = OPut p :: r /\
  forall sched' w', nrun (new_rtr_server cfg s) w sched' = Ok w' ->
    exists k', nth_error (n_conns w') 0 = Some k' /\ k_prog k' = OPut p :: r /\ k_phase k' = Running.
Proof.
  set (w := after srv1 sched24).
  assert (R : runs srv1 sched24 = true) by (vm_compute; reflexivity). apply after_ok in R.
  assert (HB : match nth_error (n_conns w) 0 with
    | Some k => match k_pc k, k_phase k, k_prog k with
                | SDone, Running, OPut _ :: _ => nlen (k_queue k) =? 256
                | _, _, _ => false end
    | None => false end = true) by (vm_compute; reflexivity).
  assert (HQ : option_map (fun k => hd_error (k_queued k)) (nth_error (n_conns w) 0) = Some (Some (bad_version 0)))
    by (vm_compute; reflexivity).
  fold w in R. clearbody w. destruct (nth_error (n_conns w) 0) as [k|] eqn:E; [|discriminate HB].
  destruct (k_pc k) eqn:E1; try discriminate HB. destruct (k_phase k) eqn:E2; try discriminate HB.
  destruct (k_prog k) as [|[v|p| | |] r] eqn:E3; try discriminate HB.
  exists cfg1, 7, sched24, w, k, p, r. split; [exact R|]. split; [exact E|]. split; [|split; [exact E3|]].
  - cbn [option_map] in HQ. destruct (k_queued k) as [|q l]; cbn [hd_error] in HQ; [discriminate HQ|]. injection HQ as ->. left. reflexivity.
  - intros sched' w' H. destruct (blocked_run _ _ p r _ _ _ _ E ltac:(repeat split; auto; lia) H) as (k' & G1 & G2 & G3 & G4 & G5).
    eauto.
Qed.

(** C25 Connection counter is exact: false.  A Serial Query in a bad version counts its
    client out twice; an SSH connection is counted twice. *)
Definition badserial : bytes := [5; 1; 0; 0; 0; 0; 0; 12; 0; 0; 0; 0].
Theorem C25_refuted :
  (exists cfg s sched w, nrun (new_rtr_server cfg s) empty_net sched = Ok w /\ Forall no_ssh sched /\
     n_clients w = [] /\ n_count w = (-1)%Z) /\
  (exists cfg s sched w, nrun (new_rtr_server cfg s) empty_net sched = Ok w /\
     n_clients w = [0%nat] /\ n_count w = 2%Z).
Proof.
  split.
  - exists cfg1, 7, ([LAccept TCP; LStart 0; LRead 0 (new_server 3) badserial] ++ many 12 [LReader 0]). eexists.
    split; [vm_compute; reflexivity|]. split; [|split; reflexivity].
    repeat (constructor; [discriminate|]). constructor.
  - exists cfg1, 7, [LAccept SSH; LSshBegin 0; LStart 0]. eexists.
    split; [vm_compute; reflexivity|split; reflexivity].
Qed.
(** What holds: without SSH the counter never exceeds the number of listed clients ... *)
Theorem C25_never_over_partial : forall srv sched w, Forall no_ssh sched -> nrun srv empty_net sched = Ok w ->
  (n_count w <= Z.of_nat (length (n_clients w)))%Z.
Proof. intros srv sched w H. apply counter_le; [apply cn_empty|cbn; lia|exact H]. Qed.
Definition sched25n := [LAccept TCP; LAccept TLS; LStart 0; LStart 1; LRead 0 (new_server 3) badserial] ++ many 12 [LReader 0].
Example C25_never_over_case : Forall no_ssh sched25n /\ runs srv1 sched25n = true /\
  (n_clients (after srv1 sched25n), n_count (after srv1 sched25n)) = ([1%nat], 0%Z).
Proof. split; [repeat (constructor; [discriminate|]); constructor|]. split; vm_compute; reflexivity. Qed.
(** ... and it is exact if moreover no Serial Query arrives in a version other than the
    client's.  Missing: SSH and such queries. *)
Theorem C25_exact_partial : forall cfg s sched w, u16 s -> along (new_rtr_server cfg s) steady empty_net sched ->
  nrun (new_rtr_server cfg s) empty_net sched = Ok w -> n_count w = Z.of_nat (length (n_clients w)).
Proof. intros cfg s sched w Hs HA H. exact (proj1 (proj2 (counter_exact cfg s Hs _ _ _ (ex_empty cfg) HA H))). Qed.
Definition sched25 := [LAccept TCP; LStart 0; LAccept TLS; LRead 0 cacheA [1; 2; 0; 0; 0; 0; 0; 8]; LStart 1]
  ++ many 5 [LReader 0; LSender 0 WAll] ++ [LRead 1 cacheA []; LReader 1; LReader 1; LReader 1; LReturn 1].
Fixpoint alongb (srv : rtrserver) (b : net -> label -> bool) (w : net) (sched : list label) : bool :=
  match sched with
  | [] => true
  | l :: r => b w l && match nstep srv w l with Ok w' => alongb srv b w' r | _ => true end
  end.
Lemma alongb_ok srv (P : net -> label -> Prop) b : (forall w l, b w l = true -> P w l) ->
  forall sched w, alongb srv b w sched = true -> along srv P w sched.
Proof.
  intros HP. induction sched as [|l r IH]; intros w H; cbn [alongb along] in *; [exact I|].
  apply andb_prop in H as [H1 H2]. split; [auto|]. intros w' E. rewrite E in H2. auto.
Qed.
Definition steadyb (w : net) (l : label) : bool :=
  match l with
  | LAccept SSH => false
  | LRead i _ chunk => match nth_error (n_conns w) i, decode_bytes 64 chunk with
      | Some k, Ok (SerialQuery v _ _) => ((v =? 0) || (v =? 1)) && (negb (c_versionset (k_cli k)) || (v =? c_version (k_cli k)))
      | _, _ => true end
  | _ => true
  end.
Lemma steadyb_ok w l : steadyb w l = true -> steady w l.
Proof.
  destruct l; cbn [steady steadyb]; try (intros; exact I); [destruct tr; try (intros; exact I); discriminate|].
  intros H1 k v sess n Hk Hd. rewrite Hk, Hd in H1. split; [lia|]. intros Hv. rewrite Hv in H1. cbn in H1. lia.
Qed.
Definition obob (w : net) (l : label) : bool :=
  match l with LAccept _ => forallb (fun k => negb (uncounted k)) (n_conns w) | _ => true end.
Lemma obob_ok w l : obob w l = true -> one_by_one w l.
Proof. destruct l; cbn; auto. Qed.
Example C25_case : along srv1 steady empty_net sched25 /\ runs srv1 sched25 = true /\
  (n_clients (after srv1 sched25), n_count (after srv1 sched25)) = ([0%nat], 1%Z).
Proof. split; [apply (alongb_ok _ _ _ steadyb_ok)|split]; vm_compute; reflexivity. Qed.

(** C26 Connection limit holds: false.  The limit is compared with a counter that is
    only incremented when the connection's goroutine runs; and the counter runs low. *)
Definition cfgMax (m : Z) := mkConfig m 1 false 3 false 0 0 0.
Theorem C26_refuted :
  (exists s sched w, nrun (new_rtr_server (cfgMax 1) s) empty_net sched = Ok w /\ Forall no_ssh sched /\
    n_clients w = [0%nat; 1%nat]) /\
  (* ... and with every connection counted before the next is accepted *)
  (exists s sched w, nrun (new_rtr_server (cfgMax 1) s) empty_net sched = Ok w /\ Forall no_ssh sched /\
    along (new_rtr_server (cfgMax 1) s) one_by_one empty_net sched /\ n_clients w = [1%nat; 2%nat]).
Proof.
  split.
  - exists 7, [LAccept TCP; LAccept TCP; LStart 0; LStart 1]. eexists. split; [vm_compute; reflexivity|].
    split; [|reflexivity]. repeat (constructor; [discriminate|]). constructor.
  - exists 7, ([LAccept TCP; LStart 0; LRead 0 (new_server 3) badserial] ++ many 12 [LReader 0] ++
               [LAccept TCP; LStart 1; LAccept TCP; LStart 2]). eexists. split; [vm_compute; reflexivity|].
    split; [repeat (constructor; [discriminate|]); constructor|]. split; [|reflexivity].
    apply (alongb_ok _ _ _ obob_ok). vm_compute. reflexivity.
Qed.
(** What holds: the limit, where the counter is exact and each accepted connection is
    counted before the next is accepted.  Missing: everything else. *)
Theorem C26_limit_partial : forall cfg s sched w, u16 s -> (0 < cfg_maxConn cfg)%Z ->
  along (new_rtr_server cfg s) (fun w l => steady w l /\ one_by_one w l) empty_net sched ->
  nrun (new_rtr_server cfg s) empty_net sched = Ok w ->
  (Z.of_nat (length (n_clients w)) <= cfg_maxConn cfg)%Z.
Proof.
  intros cfg s sched w Hs Hm HA H.
  assert (HI : lim_inv cfg empty_net) by (split; [apply ex_empty|cbn; lia]).
  destruct (limit_holds cfg s Hs Hm _ _ _ HI HA H) as [_ G]. unfold pending in G. lia.
Qed.
Definition sched26 := [LAccept TCP; LStart 0; LAccept TCP; LStart 1; LRead 0 cacheA []; LReader 0; LReader 0; LAccept TCP; LStart 1].
Example C26_case :
  along (new_rtr_server (cfgMax 1) 7) (fun w l => steady w l /\ one_by_one w l) empty_net sched26 /\
  n_clients (after (new_rtr_server (cfgMax 1) 7) sched26) = [1%nat] /\
  n_clients (after (new_rtr_server (cfgMax 1) 7) (firstn 4 sched26)) = [0%nat].
Proof.
  split; [|split; vm_compute; reflexivity].
  apply (alongb_ok _ _ (fun w l => steadyb w l && obob w l)); [|vm_compute; reflexivity].
  intros w l H. apply andb_prop in H as [H1 H2]. split; [apply steadyb_ok|apply obob_ok]; assumption.
Qed.

(** C30 Session lookup never crashes: false.  With base version 0, not enforced, a
    client's version is 1 for a moment while its first query is handled; a notification
    that looks up its session id then crashes the server. *)
Theorem C30_refuted : exists cfg s sched, u16 s /\ cfg_version cfg = 0 /\ Forall lab_ok sched /\
  nrun (new_rtr_server cfg s) empty_net sched = Panic.
Proof.
  exists cfg0, 7, [LAccept TCP; LStart 0; LRead 0 (new_server 3) [1; 2; 0; 0; 0; 0; 0; 8]; LReader 0; LNotify 5; LNotifier].
  split; [unfold u16; lia|]. split; [reflexivity|]. split; [|vm_compute; reflexivity].
  repeat constructor.
Qed.
(** What holds: with base version 1 or with enforcement nothing in the server panics,
    under any schedule.  Missing: base version 0 without enforcement. *)
Theorem C30_no_panic_partial : forall cfg s sched, u16 s -> cfg_version cfg < 256 ->
  1 <= cfg_version cfg \/ cfg_enforce cfg = true -> Forall lab_ok sched ->
  exists w, nrun (new_rtr_server cfg s) empty_net sched = Ok w.
Proof.
  intros cfg s sched Hs Hb HB HL. destruct (no_panic cfg s Hs Hb HB sched empty_net (ninv_empty cfg) HL) as (w & H & _).
  eauto.
Qed.
Example C30_case : runs srv1 [LAccept TCP; LStart 0; LRead 0 (new_server 3) [1; 2; 0; 0; 0; 0; 0; 8]; LReader 0; LNotify 5; LNotifier; LNotifier] = true.
Proof. vm_compute. reflexivity. Qed.

(** C31 In-order, loss-free delivery. *)
Theorem C31_delivery : forall srv w i k, nreach srv w -> nth_error (n_conns w) i = Some k ->
  (exists rest, wire_of (k_queued k) = k_wire k ++ rest) /\
  nlen (k_queue k) <= 256 /\
  (k_up k = true -> exists sent, k_wire k = wire_of sent /\ k_queued k = sent ++ in_hand k ++ k_queue k) /\
  (k_up k = true -> k_pc k = SParked -> k_wire k = wire_of (k_queued k)).
Proof.
  intros srv w i k [sched H] Hk. destruct (fifo_run _ _ _ H _ _ Hk) as (F1 & F2 & sent & F3 & F4 & n & F5).
  split; [|split; [exact F2|split]].
  - exists (skipn n (wire_of sent) ++ wire_of (in_hand k ++ k_queue k)).
    rewrite F3, wire_of_app, F5, app_assoc, firstn_skipn. reflexivity.
  - intros HU. exists sent. split; auto.
  - intros HU HP. rewrite F3, (F1 HP), (F4 HU). unfold in_hand. rewrite HP. cbn. now rewrite app_nil_r.
Qed.
Definition sched31 := [LAccept TCP; LStart 0; LSender 0 WAll; LRead 0 cacheA [1; 2; 0; 0; 0; 0; 0; 8]; LNotify 9; LNotifier;
  LReader 0; LReader 0; LReader 0; LNotifier; LNotifier] ++ many 4 [LReader 0; LSender 0 WAll].
Example C31_case : exists k, nth_error (n_conns (after srv1 sched31)) 0 = Some k /\ k_up k = true /\
  map get_type (k_queued k) = [3; 0; 4; 9; 6; 7] /\ length (k_wire k) = 8%nat /\ length (k_queue k) = 4%nat.
Proof. eexists. split; [vm_compute; reflexivity|]. vm_compute. auto. Qed.

(** C32 Disconnect always ends the sender: false.  If Disconnect runs between the
    sender's test of c.connected and its select, the send on quit finds no receiver, and
    the sender waits for ever: the connection is never closed. *)
Definition sched32 := [LAccept TCP; LStart 0; LSender 0 WAll; LRead 0 cacheA []; LReader 0; LReader 0; LReader 0; LReturn 0; LSender 0 WAll].
Theorem C32_refuted : exists cfg s sched w, nrun (new_rtr_server cfg s) empty_net sched = Ok w /\
  (exists k, nth_error (n_conns w) 0 = Some k /\ k_phase k = Ended) /\
  forall sched' w', nrun (new_rtr_server cfg s) w sched' = Ok w' ->
    exists k', nth_error (n_conns w') 0 = Some k' /\ k_phase k' = Ended /\ k_pc k' = SParked.
Proof.
  set (w := after srv1 sched32).
  assert (R : runs srv1 sched32 = true) by (vm_compute; reflexivity). apply after_ok in R. fold w in R.
  assert (HO : orphan w 0).
  { split; [split; vm_compute; auto|]. eexists. split; [vm_compute; reflexivity|]. vm_compute. auto. }
  exists cfg1, 7, sched32, w. split; [exact R|]. split.
  - destruct HO as (_ & k & G1 & G2 & _). eauto.
  - intros sched' w' H. destruct (orphan_run _ _ _ _ _ HO H) as (_ & k & G1 & G2 & G3 & G4). eauto.
Qed.
(** What holds: in every other position of the sender, at most three more of its steps
    end it.  Missing: the position just before the select with an empty channel. *)
Theorem C32_ends_partial : forall srv w i k r, nreach srv w -> nth_error (n_conns w) i = Some k ->
  k_prog k = OQuit :: r -> ~ (k_pc k = SEnter /\ k_queue k = []) ->
  forall sched w', nrun srv w (LReader i :: sched) = Ok w' -> (3 <= sender_steps i sched)%nat ->
  exists k', nth_error (n_conns w') i = Some k' /\ k_pc k' = SDone.
Proof. exact quit_leaving. Qed.
Definition sched32b := [LAccept TCP; LStart 0; LSender 0 WAll; LSender 0 WAll; LNotify 5; LNotifier; LNotifier; LNotifier;
  LRead 0 cacheA []; LReader 0; LReader 0].
Example C32_case : exists k r, nth_error (n_conns (after srv1 sched32b)) 0 = Some k /\ k_prog k = OQuit :: r /\
  ~ (k_pc k = SEnter /\ k_queue k = []) /\ k_pc k <> SDone.
Proof.
  eexists; eexists. split; [vm_compute; reflexivity|]. split; [reflexivity|]. split; [intros [H _]; discriminate H|discriminate].
Qed.

(** C33 One stuck client does not block updates: false.  A client that does not read
    blocks its sender in Write; once 256 more PDUs are queued for it the notifier blocks
    too, and the clients after it in the list hear nothing. *)
Definition round33 (n : N) := LNotify n :: many 7 [LNotifier] ++ many 3 [LSender 1 WAll].
Definition sched33 := [LAccept TCP; LAccept TCP; LStart 0; LStart 1; LSender 0 WAll] ++ round33 0 ++ [LSender 0 WAll]
  ++ many 256 (round33 1) ++ [LNotify 2; LNotifier; LNotifier].
Theorem C33_refuted : exists cfg s sched w p serial,
  nrun (new_rtr_server cfg s) empty_net sched = Ok w /\ n_clients w = [0%nat; 1%nat] /\
  n_notif w = NPut p serial 0 [1%nat] /\
  (exists k, nth_error (n_conns w) 1 = Some k /\ room k) /\
  forall sched' w', (forall o, ~ In (LSender 0 o) sched') -> nrun (new_rtr_server cfg s) w sched' = Ok w' ->
    n_notif w' = NPut p serial 0 [1%nat].
Proof.
  set (w := after srv1 sched33).
  assert (R : runs srv1 sched33 = true) by (vm_compute; reflexivity). apply after_ok in R. fold w in R.
  assert (HN : n_notif w = NPut (SerialNotify 0 7 2) 2 0 [1%nat]) by (vm_compute; reflexivity).
  assert (HC : n_clients w = [0%nat; 1%nat]) by (vm_compute; reflexivity).
  assert (HB : match nth_error (n_conns w) 0, nth_error (n_conns w) 1 with
    | Some k, Some k1 => match k_pc k, k_phase k with SWrite _, Running => (nlen (k_queue k) =? 256) && (nlen (k_queue k1) <? 256) | _, _ => false end
    | _, _ => false end = true) by (vm_compute; reflexivity).
  clearbody w. destruct (nth_error (n_conns w) 0) as [k|] eqn:E; [|discriminate HB].
  destruct (nth_error (n_conns w) 1) as [k1|] eqn:E1; [|discriminate HB].
  destruct (k_pc k) as [| | | |q|] eqn:EP; try discriminate HB. destruct (k_phase k) eqn:EH; try discriminate HB.
  exists cfg1, 7, sched33, w, (SerialNotify 0 7 2), 2. split; [exact R|]. split; [exact HC|]. split; [exact HN|].
  split; [exists k1; split; [exact E1|right; lia]|].
  intros sched' w' HL H.
  assert (HS : stuck (SerialNotify 0 7 2) 2 0 [1%nat] w).
  { split; [exact HN|]. exists k, q. split; [exact E|]. split; [exact EP|]. split; [lia|]. left; exact EH. }
  exact (proj1 (stuck_run _ _ _ _ _ _ _ _ HS HL H)).
Qed.
(** What holds: with room on the channel of every client, the notifier finishes within
    three steps per client and one more, each listed client gets exactly one Serial
    Notify, and nobody else gets anything.  Missing: full channels. *)
Theorem C33_completes_partial : forall cfg s w serial, u16 s -> cfg_version cfg < 256 ->
  NoDup (n_clients w) -> n_notif w = NIdle ->
  (forall i, In i (n_clients w) -> exists k, nth_error (n_conns w) i = Some k /\ room k /\ k_ver k <= cfg_version cfg) ->
  exists w', nrun (new_rtr_server cfg s) w (LNotify serial :: repeat LNotifier (3 * length (n_clients w) + 1)) = Ok w' /\
    n_notif w' = NIdle /\ n_clients w' = n_clients w /\
    forall i, match nth_error (n_conns w) i, nth_error (n_conns w') i with
              | Some k, Some k' => (In i (n_clients w) -> notified s serial k k') /\ (~ In i (n_clients w) -> k' = k)
              | None, None => True
              | _, _ => False
              end.
Proof.
  intros cfg s w serial Hs Hb ND HI HR.
  destruct (notify_completes cfg s serial Hs Hb (n_clients w) (mkNet (n_count w) (n_clients w) (n_conns w) (NLoop serial (n_clients w)))
    ND eq_refl HR) as (w' & E1 & E2 & E3 & _ & E5).
  exists w'. split; [|split; [exact E2|split; [exact E3|exact E5]]].
  cbn [nrun nstep bind]. rewrite HI. cbn [bind]. exact E1.
Qed.
Definition sched33b := [LAccept TCP; LStart 0; LAccept SSH; LSshBegin 1; LAccept TCP; LStart 1; LRead 0 cacheA [0; 2; 0; 0; 0; 0; 0; 8]; LReader 0; LSender 0 WAll; LSender 0 WAll].
Example C33_case : NoDup (n_clients (after srv1 sched33b)) /\ n_clients (after srv1 sched33b) = [0%nat; 1%nat] /\
  forall i, In i (n_clients (after srv1 sched33b)) -> exists k, nth_error (n_conns (after srv1 sched33b)) i = Some k /\ room k /\ k_ver k <= cfg_version cfg1.
Proof.
  assert (E : n_clients (after srv1 sched33b) = [0%nat; 1%nat]) by (vm_compute; reflexivity). rewrite E.
  split; [repeat constructor; cbn; intuition discriminate|]. split; [reflexivity|].
  intros i [<-|[<-|[]]]; (eexists; split; [vm_compute; reflexivity|]; split; [right; vm_compute; reflexivity|vm_compute; discriminate]).
Qed.

(** C63 A Serial Notify carries the session id of its version: false.  The two reads of
    the client's version in NotifyClientsLatest can differ while the version is being
    negotiated. *)
Definition sched63 := [LAccept TCP; LStart 0; LNotify 5; LNotifier; LRead 0 cacheA [1; 2; 0; 0; 0; 0; 0; 8]; LReader 0; LNotifier; LNotifier].
Theorem C63_refuted : exists cfg s sched w k v sess n,
  u16 s /\ nrun (new_rtr_server cfg s) empty_net sched = Ok w /\ nth_error (n_conns w) 0 = Some k /\
  In (SerialNotify v sess n) (k_queued k) /\ sess <> session_of s v.
Proof.
  exists cfg1, 7, sched63. eexists. eexists. exists 1, 7, 5. split; [unfold u16; lia|]. split; [vm_compute; reflexivity|].
  split; [reflexivity|]. split; [left; reflexivity|]. vm_compute. discriminate.
Qed.
(** What holds: whenever the version of the client being notified does not change
    between those two reads. *)
Theorem C63_matching_partial : forall cfg s sched w p serial i rest, u16 s -> cfg_version cfg < 256 ->
  along (new_rtr_server cfg s) no_change empty_net sched -> nrun (new_rtr_server cfg s) empty_net sched = Ok w ->
  n_notif w = NPut p serial i rest -> exists v n, p = SerialNotify v (session_of s v) n.
Proof.
  intros cfg s sched w p serial i rest Hs Hb HA H HN.
  pose proof (matching_run cfg s Hs Hb sched empty_net w I HA H) as HM. unfold matching in HM. rewrite HN in HM. exact HM.
Qed.
Definition sched63b := [LAccept TCP; LStart 0; LRead 0 cacheA [0; 2; 0; 0; 0; 0; 0; 8]; LReader 0; LNotify 5; LNotifier; LNotifier].
Example C63_case : along srv1 no_change empty_net sched63b /\ n_notif (after srv1 sched63b) = NPut (SerialNotify 0 7 5) 5 0 [].
Proof.
  split; [|vm_compute; reflexivity]. unfold sched63b.
  repeat (cbn [along]; split; [vm_compute; exact I|intros w; vm_compute; injection 1 as <-]). exact I.
Qed.

Print Assumptions C24_blocked_refuted.
Print Assumptions C25_refuted.
Print Assumptions C25_never_over_partial.
Print Assumptions C25_exact_partial.
Print Assumptions C26_refuted.
Print Assumptions C26_limit_partial.
Print Assumptions C30_refuted.
Print Assumptions C30_no_panic_partial.
Print Assumptions C31_delivery.
Print Assumptions C32_refuted.
Print Assumptions C32_ends_partial.
Print Assumptions C33_refuted.
Print Assumptions C33_completes_partial.
Print Assumptions C63_refuted.
Print Assumptions C63_matching_partial.
