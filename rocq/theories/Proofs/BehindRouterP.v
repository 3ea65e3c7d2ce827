(** Routers that are some changes behind. *)
From Coq Require Import ZArith ZifyBool ZifyNat ZifyN.
From Verif Require Import Model.Conn Spec.Sets Spec.History Spec.Response Spec.Router Spec.Behind Proofs.DataP Proofs.CacheP Proofs.ConnP Props.ConnProps Proofs.RouterP Proofs.BehindP.
From Coq Require Import List.
Local Open Scope list_scope.
Local Open Scope N_scope.

Lemma digest_only l : forall R R', NoDup (ids l) -> flags01 l -> digest R l = Some R' -> diff_for (fun x => In x R) l.
Proof.
  induction l as [|d l IH]; intros R R' ND F H; [split; [exact F|split; intros e []]|].
  inversion ND as [|? ? NI ND']; subst. cbn [digest] in H.
  assert (NE : forall e, In e l -> rid_of e <> rid_of d) by (intros e HE E; apply NI; rewrite <- E; now apply in_ids).
  assert (F' : flags01 l) by (intros e HE; apply F; now right).
  destruct (get_flag d =? 1) eqn:EF; destruct (mem (rid_of d) R) eqn:M; try discriminate H.
  - destruct (IH _ _ ND' F' H) as (_ & A & W). split; [exact F|]. split.
    + intros e [<-|HE] FE; [intros X; apply mem_spec in X; congruence|]. intros X. apply (A e HE FE). now right.
    + intros e [<-|HE] FE; [lia|]. destruct (W e HE FE) as [X|X]; [|exact X]. exfalso. apply (NE e HE). now symmetry.
  - destruct (IH _ _ ND' F' H) as (_ & A & W). split; [exact F|]. split.
    + intros e [<-|HE] FE; [lia|]. intros X. apply (A e HE FE). apply in_in_remove; auto.
    + intros e [<-|HE] FE; [now apply mem_spec|]. specialize (W e HE FE). now apply in_remove in W as [W _].
Qed.

Section late.
Variables (cfg : config) (s v : N) (tr : transport) (keep : Z).
Hypotheses (Hs : u16 s) (Hb : cfg_version cfg < 256) (Hv : v <= cfg_version cfg).
Let srv := new_rtr_server cfg s.
Let nk := keys_off tr cfg.
(** The answer to a router that can be given a diff. *)
Lemma poll_diff h c r q d : Forall (Forall wf_sd) h -> good srv tr v c -> let cache := run (new_server keep) h in
  sdCurrent cache <> [] -> ro_at r = Some (session_of s v, q) -> q < 4294967296 -> get_sds_serial_diff cache q = Ok d ->
  exists c', poll srv v cache c r = match digest (ro_set r) (filter (may_send v nk) d) with
    | Some R => Some (c', mkRo (Some (session_of s v, sdCurrentSerial cache)) R)
    | None => None
    end.
Proof.
  intros Hh G cache Hne HR U E. pose proof G as (GR & GC & GA).
  destruct (C20_serial cfg s tr keep h c v (session_of s v) q Hs Hb Hh GR GC GA) as (c' & a & HP & HV & HX).
  fold srv cache in HP, HV, HX. assert (NV : negotiated (new_rtr_server cfg s) v = v) by (unfold negotiated; cbn; lia). fold srv in NV. rewrite NV in *. unfold get_current_sds in *.
  exists c'. unfold poll, ask at 1, question. rewrite HR, HP.
  destruct HX as [(HN & _)|(_ & HC & HX)]; [now contradiction HN|].
  assert (EA : a = map Queue (response v (session_of s v) (sdCurrentSerial cache) (timer (cfg_refresh cfg) 3600) (timer (cfg_retry cfg) 600) (timer (cfg_expire cfg) 7200) nk d)).
  { destruct HX as [(HN & _)|[(_ & HY & _)|(d' & _ & HD & ->)]]; [contradiction| |rewrite E in HD; now injection HD as <-].
    exfalso. assert (get_sds_serial_diff cache q = Err tt) by (apply serial_diff_err; destruct HY; [now left|right; lia]). congruence. }
  rewrite EA, sent_queue, hear_response by now rewrite HR. rewrite HR. destruct (digest _ _); reflexivity.
Qed.
(** When that sets it right. *)
Lemma told_right (old new : rid -> Prop) (R : list rid) d (t : rid -> nat) : (forall x, {old x} + {~ old x}) -> (forall x, {new x} + {~ new x}) ->
  (forall x, In x R <-> okr v nk x = true /\ old x) -> NoDup (ids d) -> flags01 d ->
  (forall x, (gives d x 1 <-> (0 < t x)%nat /\ new x) /\ (gives d x 0 <-> t x = 1%nat /\ ~ new x)) ->
  ((exists R', digest R (filter (may_send v nk) d) = Some R' /\ forall x, In x R' <-> okr v nk x = true /\ new x) <->
   forall x, okr v nk x = true -> (old x -> new x -> t x = 0%nat) /\ (~ old x -> new x -> t x <> 0%nat) /\ (old x -> ~ new x -> t x = 1%nat) /\ (~ old x -> ~ new x -> t x <> 1%nat)).
Proof.
  intros DO DN HR ND F G.
  assert (ND' : NoDup (ids (filter (may_send v nk) d))) by now apply ids_filter_sub.
  assert (F' : flags01 (filter (may_send v nk) d)) by (intros e HE; apply filter_In in HE as [HE _]; auto).
  assert (A : forall x, r_apply old d x <-> if Nat.eqb (t x) 0 then old x else new x \/ t x <> 1%nat /\ old x).
  { intros x. destruct (G x) as [G1 G0]. apply told_set; auto. }
  split.
  - intros (R' & E & H) x O. pose proof (digest_only _ _ _ ND' F' E) as DF. destruct (digest_ok _ _ ND' DF) as (R2 & E2 & H2). rewrite E in E2. injection E2 as <-.
    specialize (H2 x). rewrite H in H2. rewrite (may_apply v nk d old _ HR x), A in H2. destruct DF as (_ & DA & DW). destruct (G x) as [[_ G1] [_ G0]].
    assert (K1 : (0 < t x)%nat -> new x -> ~ old x).
    { intros T N B. destruct (G1 (conj T N)) as (e & E1 & E2 & E3). apply (DA e); [apply filter_In; split; [exact E1|rewrite may_okr, E2; exact O]|exact E3|]. rewrite E2. now apply HR. }
    assert (K0 : t x = 1%nat -> ~ new x -> old x).
    { intros T N. destruct (G0 (conj T N)) as (e & E1 & E2 & E3). assert (X : In (rid_of e) R) by (apply (DW e); [apply filter_In; split; [exact E1|rewrite may_okr, E2; exact O]|exact E3]).
      rewrite E2 in X. now apply HR in X. }
    destruct (Nat.eqb (t x) 0) eqn:T; [apply Nat.eqb_eq in T|apply Nat.eqb_neq in T]; rewrite ?T in *.
    + split; [auto|]. split; [tauto|]. split; [|discriminate]. intros B N. exfalso. apply N. apply H2. auto.
    + split; [intros B N; exfalso; apply K1; [lia|exact N|exact B]|]. split; [auto|]. split.
      * intros B N. destruct (Nat.eq_dec (t x) 1) as [X|X]; [exact X|]. exfalso. apply N. apply H2. auto.
      * intros B N X. apply B. now apply K0.
  - intros H. assert (DF : diff_for (fun x => In x R) (filter (may_send v nk) d)).
    { split; [exact F'|]. split; intros e HE FE; apply filter_In in HE as [HE M]; rewrite may_okr in M; destruct (G (rid_of e)) as [[G1 _] [G0 _]]; destruct (H (rid_of e) M) as (H1 & H2 & H3 & H4).
      - destruct G1 as [T N]; [exists e; auto|]. intros X. apply HR in X as [_ X]. specialize (H1 X N). lia.
      - destruct G0 as [T N]; [exists e; auto|]. apply HR. split; [exact M|]. destruct (DO (rid_of e)) as [B|B]; [exact B|]. now contradiction (H4 B N). }
    destruct (digest_ok _ _ ND' DF) as (R' & E & H2). exists R'. split; [exact E|]. intros x. rewrite (H2 x), (may_apply v nk d old _ HR x), A.
    split; intros [O X]; (split; [exact O|]); destruct (H x O) as (K1 & K2 & K3 & K4).
    + destruct (DN x) as [N|N]; [exact N|]. destruct (Nat.eqb (t x) 0) eqn:T; [apply Nat.eqb_eq in T; specialize (K3 X N); lia|].
      destruct X as [X|[X1 X2]]; [exact X|]. now contradiction X1; apply K3.
    + destruct (Nat.eqb (t x) 0) eqn:T; [apply Nat.eqb_eq in T|now left]. destruct (DO x) as [B|B]; [exact B|]. now contradiction (K2 B X).
Qed.
End late.

Lemma play_updates srv tr v ns : forall w, play srv tr v w (map Update ns) = Some (mkWo (run (wo_cache w) ns) (wo_conn w) (wo_router w)).
Proof. induction ns as [|n ns IH]; intros w; [destruct w; reflexivity|]. cbn [map play happens]. rewrite IH. reflexivity. Qed.

Theorem router_behind cfg s v tr keep l ns : u16 s -> cfg_version cfg < 256 -> v <= cfg_version cfg -> acceptable (accept tr (new_rtr_server cfg s)) v ->
  Forall (fun n => Forall wf_sd n /\ NoDup (ids n) /\ n <> []) (updates l ++ ns) -> updates l <> [] -> timely keep [] None (l ++ [Poll]) ->
  changing (latest l :: ns) -> sdCurrentSerial (run (new_server keep) (updates l)) + nlen ns < 4294967296 ->
  let old := latest l in let new := last ns old in
  (exists w, play (new_rtr_server cfg s) tr v (start (new_rtr_server cfg s) tr keep) (l ++ [Poll] ++ map Update ns ++ [Poll]) = Some w /\ in_sync v (keys_off tr cfg) (wo_router w) new) <->
  (0 < keep < Z.of_nat (length ns))%Z \/
  forall x, carried v (keys_off tr cfg) x = true -> set_right (mem x (ids old)) (mem x (ids new)) (flips x (recent (length ns) (old :: ns))).
Proof.
  intros Hs Hb Hv HA HU HNE HT HC HM old new. apply Forall_app in HU as [HU HUn].
  assert (EU : updates (l ++ [Poll]) = updates l) by (unfold updates; rewrite flat_map_app; cbn; apply app_nil_r).
  destruct (tracks_play cfg s v tr keep Hs Hb Hv HA (l ++ [Poll]) [] [] None _ (tracks_start cfg s v tr keep HA) ltac:(now rewrite EU) HT) as (w & HP & T).
  cbn [app] in T. rewrite EU in T.
  assert (NL : last (updates l) [] <> []).
  { destruct (updates l) as [|n h _] using rev_ind; [contradiction|]. rewrite last_last. apply Forall_app in HU as [_ HU]. inversion HU as [|? ? (_ & _ & H) _]. exact H. }
  rewrite (lag_poll l [] [] None eq_refl) in T by exact NL. destruct T as (Hh & Hd & HF & EW & _ & HG & h1 & h2 & EH & T). cbv zeta in T. destruct T as (T1 & T2 & T3 & T4).
  set (h := updates l) in *. assert (Hh0 := Hh). rewrite EH in Hh0. apply Forall_app in Hh0 as [Hh1 Hh2]. assert (HF0 := HF). rewrite EH in HF0. apply Forall_app in HF0 as [_ HF2].
  assert (E : run (new_server keep) h = run (new_server keep) h1) by (rewrite EH, run_app; apply run_no_advance; auto; apply run_inv; auto using inv_new).
  rewrite <- E in T1, T3, T4. clear h1 h2 EH T2 Hh1 Hh2 HF2 E.
  assert (Wn : Forall (Forall wf_sd) ns) by (eapply Forall_impl; [|exact HUn]; intros a (X & _); exact X).
  assert (Dn : Forall (fun n => NoDup (ids n)) ns) by (eapply Forall_impl; [|exact HUn]; intros a (_ & X & _); exact X).
  assert (Fn : Forall (fun n => n <> []) ns) by (eapply Forall_impl; [|exact HUn]; intros a (_ & _ & X); exact X).
  assert (Wa : Forall (Forall wf_sd) (h ++ ns)) by (apply Forall_app; auto). assert (Da : Forall (fun n => NoDup (ids n)) (h ++ ns)) by (apply Forall_app; auto).
  set (s1 := run (new_server keep) h) in *. assert (HI : inv s1) by (apply run_inv; auto using inv_new).
  assert (EC : run s1 ns = run (new_server keep) (h ++ ns)) by (symmetry; apply run_app).
  assert (NEW : same_set (sdCurrent (run s1 ns)) new).
  { rewrite EC. eapply same_set_trans; [now apply last_run|]. unfold new, old, latest. fold h.
    destruct ns as [|n r _] using rev_ind; [rewrite app_nil_r; apply same_set_refl|]. rewrite app_assoc, !last_last. apply same_set_refl. }
  assert (OLD : same_set (sdCurrent s1) old) by now apply last_run.
  assert (HNE2 : sdCurrent (run s1 ns) <> []) by now apply run_nonempty.
  assert (U : sdCurrentSerial s1 < 4294967296) by apply HI.
  rewrite app_assoc, play_app, HP, play_app, play_updates. unfold play, happens. cbn [wo_cache wo_conn wo_router]. rewrite EW.
  pose proof (behind keep h ns Wa NL Fn HC HM) as B. cbv zeta in B. fold s1 in B. fold (latest l) in B. fold old in B. fold new in B.
  destruct (_ && _)%Z eqn:KE.
  - split; [intros _; left; lia|]. intros _.
    destruct (poll_synced cfg s v tr keep Hs Hb Hv h ns (wo_conn w) (wo_router w) (nlen ns) Wa Da Fn HG T1 T3 T4) as (c' & r' & PP & _ & _ & PS).
    + apply changing_count; auto. eapply changing_congr; [apply same_set_sym; exact OLD|exact HC].
    + right. unfold nlen in *. lia.
    + rewrite EC, PP. eexists. split; [reflexivity|]. intros x. cbn [wo_router]. rewrite PS, <- EC, (NEW x). split.
      * intros [O I]. apply ids_in in I as (d & I & <-). exists d. rewrite may_okr. auto.
      * intros (d & I & M & <-). rewrite may_okr in M. split; [exact M|]. now apply in_ids.
  - destruct B as (d & ED & FD & ND & G). specialize (ND Da). rewrite EC in ED, HNE2.
    destruct (poll_diff cfg s v tr keep Hs Hb Hv (h ++ ns) (wo_conn w) (wo_router w) _ d Wa HG HNE2 T3 U ED) as (c' & PP). rewrite EC, PP.
    pose proof (told_right cfg v tr Hb Hv (as_set old) (as_set new) (ro_set (wo_router w)) d (fun x => flips x (recent (length ns) (old :: ns)))
      (fun x => in_dec rid_dec x (ids old)) (fun x => in_dec rid_dec x (ids new)) ltac:(intros x; unfold as_set; rewrite <- (OLD x); apply T4) ND FD G) as TR. unfold as_set in TR.
    assert (SR : (forall x, okr v (keys_off tr cfg) x = true -> (In x (ids old) -> In x (ids new) -> flips x (recent (length ns) (old :: ns)) = 0%nat) /\ (~ In x (ids old) -> In x (ids new) -> flips x (recent (length ns) (old :: ns)) <> 0%nat) /\
        (In x (ids old) -> ~ In x (ids new) -> flips x (recent (length ns) (old :: ns)) = 1%nat) /\ (~ In x (ids old) -> ~ In x (ids new) -> flips x (recent (length ns) (old :: ns)) <> 1%nat)) <->
      forall x, carried v (keys_off tr cfg) x = true -> set_right (mem x (ids old)) (mem x (ids new)) (flips x (recent (length ns) (old :: ns)))).
    { split; intros H x O; specialize (H x O); unfold set_right, mem in *; destruct (in_dec rid_dec x (ids old)), (in_dec rid_dec x (ids new)); tauto. }
    rewrite <- SR, <- TR. clear SR TR. split.
    + intros (w' & E1 & E2). right. destruct (digest _ _) as [R|]; [|discriminate E1]. exists R. split; [reflexivity|]. injection E1 as <-. intros x. cbn [wo_router ro_set in_sync] in E2. rewrite (E2 x). split.
      * intros (e & I & M & <-). rewrite may_okr in M. split; [exact M|]. now apply in_ids.
      * intros [O I]. apply ids_in in I as (e & I & <-). exists e. rewrite may_okr. auto.
    + intros [X|(R & ER & HR)]; [lia|]. rewrite ER. eexists. split; [reflexivity|]. intros x. cbn [wo_router ro_set]. rewrite (HR x). split.
      * intros [O I]. apply ids_in in I as (e & I & <-). exists e. rewrite may_okr. auto.
      * intros (e & I & M & <-). rewrite may_okr in M. split; [exact M|]. now apply in_ids.
Qed.
