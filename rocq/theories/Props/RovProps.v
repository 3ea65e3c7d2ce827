(** Properties C97 and C98: routes while a response is applied record by record. *)
From Coq Require Import String ZifyBool ZifyNat ZifyN.
From Verif Require Import Lib.Str Model.Conn Model.Process Spec.Sets Spec.History Spec.Response Spec.Input Spec.Router Spec.Rov
  Proofs.DataP Proofs.CacheP Proofs.ConnP Proofs.ProcessP Proofs.RouterP Proofs.RovP Props.CacheProps Props.ConnProps Props.InputProps Props.RouterProps.
From Coq Require Import List.
Local Open Scope string_scope.
Local Open Scope list_scope.
Local Open Scope N_scope.

(** C97 Updates do not disturb routes.  The full statement: when a router polls and applies the
    answer record by record, a route that is valid (invalid, not found) by RFC 6811 before and
    after is so at every point in between. *)
Definition C97_statement : Prop := forall cfg s v tr keep l w sess n c' ps, u16 s -> cfg_version cfg < 256 -> v <= cfg_version cfg ->
  acceptable (accept tr (new_rtr_server cfg s)) v -> Forall (Forall wf_sd) (updates l) ->
  play (new_rtr_server cfg s) tr v (start (new_rtr_server cfg s) tr keep) l = Some w -> ro_at (wo_router w) = Some (sess, n) ->
  process (new_rtr_server cfg s) (wo_cache w) (wo_conn w) (SerialQuery v sess n) = Ok (c', map Queue ps) ->
  steady (fun x => In x (ro_set (wo_router w))) v ps.

(** What holds: for routers that are at most one serial behind. *)
Theorem C97_steady_partial : forall cfg s v tr keep l w sess n c' ps, u16 s -> cfg_version cfg < 256 -> v <= cfg_version cfg ->
  acceptable (accept tr (new_rtr_server cfg s)) v -> Forall (Forall wf_sd) (updates l) ->
  play (new_rtr_server cfg s) tr v (start (new_rtr_server cfg s) tr keep) l = Some w -> ro_at (wo_router w) = Some (sess, n) ->
  sdCurrentSerial (wo_cache w) = n \/ sdCurrentSerial (wo_cache w) = n + 1 ->
  process (new_rtr_server cfg s) (wo_cache w) (wo_conn w) (SerialQuery v sess n) = Ok (c', map Queue ps) ->
  steady (fun x => In x (ro_set (wo_router w))) v ps.
Proof.
  intros cfg s v tr keep l w sess n c' ps Hs Hb Hv HA HU HP HR HN HQ.
  destruct (play_sane cfg s v tr keep Hs Hb Hv HA l [] (start (new_rtr_server cfg s) tr keep) w HU eq_refl) as (HC & [(G1 & G2 & G3) _]); [|exact HP|].
  { split; [|exact I]. apply (tracks_start cfg s v tr keep HA). }
  cbn [app] in HC. apply adds_first_steady. rewrite HC in *.
  destruct (C20_serial cfg s tr keep (updates l) (wo_conn w) v sess n Hs Hb HU G1 G2 G3) as (c2 & a & E & _ & H). rewrite HQ in E. injection E as _ <-.
  rewrite negotiated_v in H by assumption.
  assert (HI : forall x y : list pdu, map Queue x = map Queue y -> x = y).
  { clear. induction x as [|p x IH]; intros [|q y] E; try discriminate E; [reflexivity|]. cbn [map] in E. injection E as -> E. f_equal. now apply IH. }
  assert (A0 : adds_first []) by (exists [], []; repeat split; try constructor; intros x []).
  destruct H as [(_ & H & _)|(_ & _ & [(_ & H)|[(_ & _ & H)|(d & _ & HD & H)]])].
  - destruct ps as [|p1 [|p2 [|p3 ps]]]; discriminate H.
  - change [Queue (no_data v)] with (map Queue [no_data v]) in H. apply HI in H as ->. exact A0.
  - change [Queue (CacheReset v)] with (map Queue [CacheReset v]) in H. apply HI in H as ->. exact A0.
  - apply HI in H as ->. rewrite records_response. apply adds_first_filter. apply (near_diff _ n d (run_last_adds keep _ HU) HN HD).
Qed.
(** The maximum length of a ROA is changed: the new VRP comes first, the old one goes after it. *)
Definition y16 := VRP (pfx4 167837696 16) 2 16 1.
Definition y24 := VRP (pfx4 167837696 16) 2 24 1.
Definition route16 : route := mkRt (pfx4 167837696 16) 2.
Lemma own_route p a m b : p_bits p = Some b -> b <= m -> a <> 0 -> authorises (RV p a m) (mkRt p a).
Proof. intros H1 H2 H3. split; [intros x _ H; exact H|]. split; [reflexivity|]. split; [exact H3|]. exists b. auto. Qed.
Definition upd97 : list event := [Update [y16; x1]; Poll; Update [x1; y24]].
Example C97_case : exists w c', play (new_rtr_server cfg1 7) TCP 1 (start (new_rtr_server cfg1 7) TCP 3) upd97 = Some w /\
  ro_at (wo_router w) = Some (107, 0) /\ sdCurrentSerial (wo_cache w) = 0 + 1 /\
  process (new_rtr_server cfg1 7) (wo_cache w) (wo_conn w) (SerialQuery 1 107 0) =
    Ok (c', map Queue [CacheResponse 1 107; IPv4Prefix 1 1 24 2 (pfx4 167837696 16); IPv4Prefix 1 0 16 2 (pfx4 167837696 16); EndOfData 1 107 1 3600 900 7200]) /\
  valid (fun x => In x (ro_set (wo_router w))) route16.
Proof.
  eexists _, _. split; [vm_compute; reflexivity|]. split; [vm_compute; reflexivity|]. split; [vm_compute; reflexivity|]. split; [vm_compute; reflexivity|].
  exists (RV (pfx4 167837696 16) 2 16). split; [vm_compute; tauto|]. apply (own_route _ _ _ 16); [reflexivity|lia|lia].
Qed.
(** False: three serials behind the old VRP goes before the new one comes, and the route of its
    holder is without authorisation in between. *)
Definition upd97b : list event := [Update [y16; x1]; Poll; Update [y16; x1; x2]; Update [x1; x2]; Update [x1; x2; y24]].
Theorem C97_order_refuted : ~ C97_statement.
Proof.
  intros H. destruct (play (new_rtr_server cfg1 7) TCP 1 (start (new_rtr_server cfg1 7) TCP 9) upd97b) as [w|] eqn:E; [|vm_compute in E; discriminate E].
  assert (HU : Forall (Forall wf_sd) (updates upd97b)) by (do 4 (constructor; [apply wf_sds_ok; vm_compute; reflexivity|]); constructor).
  destruct (process (new_rtr_server cfg1 7) (wo_cache w) (wo_conn w) (SerialQuery 1 107 0)) as [[c' a]| |] eqn:EP;
    [|vm_compute in E; injection E as <-; vm_compute in EP; discriminate EP..].
  assert (EA : a = map Queue [CacheResponse 1 107; IPv4Prefix 1 0 16 2 (pfx4 167837696 16); IPv4Prefix 1 1 24 2 (pfx4 167837696 16); EndOfData 1 107 3 3600 900 7200]).
  { vm_compute in E. injection E as <-. vm_compute in EP. injection EP as _ <-. vm_compute. reflexivity. }
  subst a. assert (RS : ro_set (wo_router w) = ids [x1; y16]) by (vm_compute in E; injection E as <-; vm_compute; reflexivity).
  assert (RA : ro_at (wo_router w) = Some (107, 0)) by (vm_compute in E; injection E as <-; vm_compute; reflexivity).
  destruct (H cfg1 7 1 TCP 9%Z upd97b w 107 0 c' _ eq_refl eq_refl ltac:(discriminate) acceptable1 HU E RA EP route16 1%nat) as [HS _]. rewrite RS in HS.
  destruct HS as (x & HX & HA).
  - exists (RV (pfx4 167837696 16) 2 16). split; [right; now left|]. apply (own_route _ _ _ 16); [reflexivity|lia|lia].
  - exists (RV (pfx4 167837696 16) 2 24). split; [vm_compute; tauto|]. apply (own_route _ _ _ 16); [reflexivity|lia|lia].
  - vm_compute in HX. destruct HX as (N1 & [HX|[HX|[]]]); [|congruence]. subst x. destruct HA as (_ & HA & _). discriminate HA.
Qed.
Example C97_order_case : exists w, play (new_rtr_server cfg1 7) TCP 1 (start (new_rtr_server cfg1 7) TCP 9) (upd97b ++ [Poll]) = Some w /\
  ro_set (wo_router w) = ids [y24; x1].
Proof. eexists. split; vm_compute; reflexivity. Qed.

(** C98 Loading does not make routes invalid.  The full statement: while a router that starts from
    nothing applies the answer to its Reset Query record by record, a route that is valid in the
    end is at no point invalid. *)
Definition loads (sort : list sd -> list sd) (l : list (Z * list vrpjson * list brkjson)) : list (list sd) :=
  map (fun x => let '(vrps, brks, _, _) := process_data sort (fst (fst x)) (snd (fst x)) (snd x) in vrps ++ brks) l.
Definition C98_statement : Prop := forall sort ll keep cfg s tr c v c' ps t k, sorts sort ->
  Forall (fun x => Forall wf_vj (snd (fst x)) /\ Forall wf_bj (snd x)) ll ->
  u16 s -> cfg_version cfg < 256 -> v <= cfg_version cfg -> reach (new_rtr_server cfg s) tr c -> c_connected c = true -> acceptable c v ->
  process (new_rtr_server cfg s) (run (new_server keep) (loads sort ll)) c (ResetQuery v) = Ok (c', map Queue ps) ->
  valid (after_all (fun _ => False) v ps) t -> ~ invalid (after_some (fun _ => False) v ps k) t.

(** What holds: after the first load, for routes that all covering VRPs of the longest prefix
    authorise. *)
Theorem C98_load_partial : forall sort x keep cfg s tr c v c' ps t k, sorts sort ->
  Forall wf_vj (snd (fst x)) -> Forall wf_bj (snd x) ->
  u16 s -> cfg_version cfg < 256 -> v <= cfg_version cfg -> reach (new_rtr_server cfg s) tr c -> c_connected c = true -> acceptable c v ->
  process (new_rtr_server cfg s) (run (new_server keep) (loads sort [x])) c (ResetQuery v) = Ok (c', map Queue ps) ->
  firmly (after_all (fun _ => False) v ps) t -> ~ invalid (after_some (fun _ => False) v ps k) t.
Proof.
  intros sort [[now vs] bs] keep cfg s tr c v c' ps t k HS HV HB Hs Hb Hv Hr Hc HA HP. cbn [fst snd] in *. unfold loads in HP. cbn [map fst snd] in HP.
  pose proof (C35_first_load_partial sort now vs bs keep cfg s tr c v c' ps HS HV HB Hs Hb Hr Hc HA) as HL.
  pose proof (process_vrps sort now vs bs HS HV) as HW.
  destruct (process_data sort now vs bs) as [[[vrps brks] c4] c6] eqn:EP. specialize (HL HP). destruct HW as (_ & _ & _ & HW & _).
  apply longest_firm; [exact HL|].
  assert (Hbrk : brks = brk_loop now bs).
  { unfold process_data in EP. destruct (vrp_loop now vs) as [[[o se] k4] k6]. now injection EP as _ <- _ _. }
  assert (Hall : Forall (Forall wf_sd) [vrps ++ brks]).
  { constructor; [|constructor]. apply Forall_app. split; [exact HW|]. rewrite Hbrk. now apply brk_loop_wf. }
  destruct (C19_reset cfg s tr keep [vrps ++ brks] c v Hs Hb Hall Hr Hc HA) as (c2 & E & _). rewrite HP in E. injection E as _ E.
  rewrite negotiated_v in E by assumption.
  assert (HI : forall x y : list pdu, map Queue x = map Queue y -> x = y).
  { clear. induction x as [|p x IH]; intros [|q y] E; try discriminate E; [reflexivity|]. cbn [map] in E. injection E as -> E. f_equal. now apply IH. }
  apply HI in E. subst ps. destruct (is_nil _); [constructor|]. rewrite records_response.
  assert (IV : inv (run (new_server keep) [vrps ++ brks])) by (apply run_inv; auto using inv_new).
  apply Forall_forall. intros d HD. apply filter_In in HD as [HD _]. destruct IV as (_ & F & _). now apply F.
Qed.
Lemma agree_lt w b x y : forallb (fun i => Bool.eqb (N.testbit x (w - 1 - N.of_nat i)) (N.testbit y (w - 1 - N.of_nat i))) (seq 0 (N.to_nat b)) = true ->
  b <= w -> bits_agree w b x y.
Proof.
  intros H HB i Hi. rewrite forallb_forall in H. specialize (H (N.to_nat (w - 1 - i))). rewrite N2Nat.id in H. replace (w - 1 - (w - 1 - i)) with i in H by lia.
  apply Bool.eqb_prop, H, in_seq. lia.
Qed.
Lemma covers4 x b y b' : b <= b' -> b <= 32 -> bits_agree 32 b x y -> covers (mkPrefix (A4 x) (Some b)) (mkPrefix (A4 y) (Some b')).
Proof. intros H1 H2 HA [|z|z] _ HI; try destruct HI. cbn [in_prefix p_addr p_bits] in *. intros i Hi. rewrite (HA i Hi). apply HI. lia. Qed.
Definition vs98 : list vrpjson := [ej "10.0.0.0/8" 8 "1" None; ej "10.1.0.0/16" 24 "2" None; ej "2001:db8::/32" 48 "3" None].
Example C98_case : exists c' ps, process (new_rtr_server cfg1 7) (run (new_server 3) (loads isort [(0%Z, vs98, [])])) est1 (ResetQuery 1) = Ok (c', map Queue ps) /\
  Forall wf_vj vs98 /\ List.length ps = 5%nat /\ firmly (after_all (fun _ => False) 1 ps) route16.
Proof.
  eexists _, [CacheResponse 1 107; IPv6Prefix 1 1 48 3 (mkPrefix (A6 42540766411282592856903984951653826560) (Some 32));
    IPv4Prefix 1 1 24 2 (pfx4 167837696 16); IPv4Prefix 1 1 8 1 (pfx4 167772160 8); EndOfData 1 107 0 3600 900 7200].
  split; [vm_compute; reflexivity|]. split; [repeat constructor|]. split; [reflexivity|]. exists (pfx4 167837696 16), 2, 24. split; [vm_compute; tauto|].
  split; [apply (own_route _ _ _ 16); [reflexivity|lia|lia]|]. intros p a m HX HC. vm_compute in HX.
  destruct HX as [HX|[HX|[HX|[]]]]; injection HX as -> -> ->; [right; vm_compute; reflexivity|left; apply (own_route _ _ _ 16); [reflexivity|lia|lia]|].
  exfalso. apply (HC (A4 167837696)); [vm_compute; reflexivity|]. cbn. intros i _. reflexivity.
Qed.
(** False if there is another VRP for the same prefix that comes first. *)
Definition vs98b : list vrpjson := [ej "10.1.0.0/16" 16 "2" None; ej "10.1.0.0/16" 24 "1" None].
Theorem C98_same_prefix_refuted : ~ C98_statement.
Proof.
  intros H. destruct (process (new_rtr_server cfg1 7) (run (new_server 3) (loads isort [(0%Z, vs98b, [])])) est1 (ResetQuery 1)) as [[c' a]| |] eqn:E;
    [|vm_compute in E; discriminate E..].
  assert (EA : a = map Queue [CacheResponse 1 107; IPv4Prefix 1 1 24 1 (pfx4 167837696 16); IPv4Prefix 1 1 16 2 (pfx4 167837696 16); EndOfData 1 107 0 3600 900 7200]).
  { vm_compute in E. injection E as _ <-. vm_compute. reflexivity. }
  subst a. apply (H isort [(0%Z, vs98b, [])] 3%Z cfg1 7 TCP est1 1 c' _ route16 1%nat) in E; auto using isort_sorts, est1_reach; try reflexivity; try discriminate.
  - apply E. split.
    + exists (RV (pfx4 167837696 16) 1 24). split; [vm_compute; tauto|]. intros x _ HX. exact HX.
    + intros (x & HX & HA). vm_compute in HX. destruct HX as [->|[]]. destruct HA as (_ & HA & _). discriminate HA.
  - constructor; [|constructor]. split; repeat constructor.
  - split; [now right|reflexivity].
  - exists (RV (pfx4 167837696 16) 2 16). split; [vm_compute; tauto|]. apply (own_route _ _ _ 16); [reflexivity|lia|lia].
Qed.
(** After an update it is false of the other routes too: the VRP of 10.1.0.0/16, new in the second
    file, is sent after that of 10.0.0.0/8. *)
Theorem C98_update_refuted : exists ll keep c c' ps t k,
  Forall (fun x => Forall wf_vj (snd (fst x)) /\ Forall wf_bj (snd x)) ll /\
  reach (new_rtr_server cfg1 7) TCP c /\ c_connected c = true /\ acceptable c 1 /\
  process (new_rtr_server cfg1 7) (run (new_server keep) (loads isort ll)) c (ResetQuery 1) = Ok (c', map Queue ps) /\
  firmly (after_all (fun _ => False) 1 ps) t /\ invalid (after_some (fun _ => False) 1 ps k) t.
Proof.
  exists [(0%Z, [ej "10.0.0.0/8" 8 "1" None], []); (0%Z, [ej "10.0.0.0/8" 8 "1" None; ej "10.1.0.0/16" 24 "2" None], [])], 3%Z, est1. eexists.
  exists [CacheResponse 1 107; IPv4Prefix 1 1 8 1 (pfx4 167772160 8); IPv4Prefix 1 1 24 2 (pfx4 167837696 16); EndOfData 1 107 1 3600 900 7200], route16, 1%nat.
  split; [constructor; [|constructor; [|constructor]]; (split; repeat constructor)|]. split; [apply est1_reach|]. split; [reflexivity|].
  split; [split; [now right|reflexivity]|]. split; [vm_compute; reflexivity|]. split.
  - exists (pfx4 167837696 16), 2, 24. split; [vm_compute; tauto|]. split; [apply (own_route _ _ _ 16); [reflexivity|lia|lia]|].
    intros p a m HX HC. vm_compute in HX. destruct HX as [HX|[HX|[]]]; injection HX as -> -> ->; [left; apply (own_route _ _ _ 16); [reflexivity|lia|lia]|right; vm_compute; reflexivity].
  - split.
    + exists (RV (pfx4 167772160 8) 1 8). split; [vm_compute; tauto|]. apply covers4; [lia|lia|]. apply agree_lt; [vm_compute; reflexivity|lia].
    + intros (x & HX & HA). vm_compute in HX. destruct HX as [->|[]]. destruct HA as (_ & HA & _). discriminate HA.
Qed.

Print Assumptions C97_steady_partial.
Print Assumptions C97_order_refuted.
Print Assumptions C98_load_partial.
Print Assumptions C98_same_prefix_refuted.
Print Assumptions C98_update_refuted.
