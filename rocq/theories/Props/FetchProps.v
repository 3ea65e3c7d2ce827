(** Properties C50, C51, C67, C68: downloads and triggers. *)
From Coq Require Import ZifyBool ZifyNat ZifyN String.
From Verif Require Import Lib.Str Spec.Download Model.Trigger Spec.Refresh Proofs.FetchP Proofs.FetchP2 Proofs.StateP Props.CacheProps Props.InputProps Props.StateProps.
Local Open Scope string_scope.
Local Open Scope list_scope.
Local Open Scope N_scope.

Definition url : bytes := str "https://example.net/rpki.json".
Definition fcfg1 : fcfg := mkFC true true.
Definition ver1 : version := mkV [1] (str "v1") (Some 100%Z).
Definition ver2 : version := mkV [2] (str "v2") (Some 200%Z).
Definition full (v : version) : exchange := Response 200 (v_etag v) (v_lm v) (Some (v_body v)).
Definition half (v : version) : exchange := Response 200 (v_etag v) (v_lm v) None.
Definition unchanged : exchange := Response 304 [] None None.
Ltac tag304 := apply A_304; left; exists (str "v1"); split; [vm_compute; reflexivity|split; [discriminate|reflexivity]].
Ltac time304 := apply A_304; right; split; [now left|]; exists 100%Z, 100%Z; split; [vm_compute; reflexivity|split; [reflexivity|lia]].

(** C50 A failed download is retried: false.  The ETag is stored before the content is read:
    after a response that broke off, the content is not read as long as the server has that
    version, whatever it answers. *)
Theorem C50_stuck_refuted : forall c file h0 v x h2 s, fc_etags c = true -> v_etag v <> [] ->
  downloads c file (h0 ++ (v, x, Err ERead) :: h2) s ->
  (forall e, In e h2 -> ev_v e = v /\ ~ failed_status (ev_x e)) ->
  forall e b, In e h2 -> ev_r e <> Ok b.
Proof. intros c file h0 v x h2 s HC HV HD HE. exact (proj2 (stuck c file h0 v x h2 s HC HV HD HE)). Qed.
(** One that answers 304, and one that ignores the condition and sends all of it again. *)
Example C50_stuck_case : exists s, downloads fcfg1 url
  [(ver1, half ver1, Err ERead); (ver1, unchanged, Err ENotModified); (ver1, full ver1, Err EIdentical); (ver1, unchanged, Err ENotModified)] s.
Proof.
  apply script_downloads with (l := [(ver1, half ver1); (ver1, unchanged); (ver1, full ver1); (ver1, unchanged)]); [|vm_compute; reflexivity].
  split; [apply A_cut|]. split; [now tag304|]. split; [apply A_full|]. split; [now tag304|exact I].
Qed.
(** The same with Last-Modified only, when the server uses it. *)
Theorem C50_lastmod_refuted : exists s, downloads (mkFC false true) url
  [(ver1, half ver1, Err ERead); (ver1, unchanged, Err ENotModified); (ver1, unchanged, Err ENotModified)] s.
Proof.
  apply script_downloads with (l := [(ver1, half ver1); (ver1, unchanged); (ver1, unchanged)]); [|vm_compute; reflexivity].
  split; [apply A_cut|]. split; [now time304|]. split; [now time304|exact I].
Qed.
(** What holds: without both conditions every complete response is used, whatever happened
    before ... *)
Theorem C50_plain_partial : forall s file e l b,
  snd (fetch_http (mkFC false false) s file (Response 200 e l (Some b))) = Ok b /\
  request_of (mkFC false false) s file = mkRq None None.
Proof. intros s file e l b. split; reflexivity. Qed.
(** ... after a failure with an HTTP error status the next request is unconditional and the next
    complete response is used ... *)
Theorem C50_error_partial : forall c s file n e l b e' l' b', n <> 200 -> n <> 304 ->
  let s' := fst (fetch_http c s file (Response n e l b)) in
  request_of c s' file = mkRq None None /\ snd (fetch_http c s' file (Response 200 e' l' (Some b'))) = Ok b'.
Proof.
  intros c s file n e l b e' l' b' H1 H2. cbn. destruct (n =? 304) eqn:E1; [lia|]. destruct (n =? 200) eqn:E2; [lia|]. cbn.
  unfold request_of, etag_differs. cbn. rewrite !put_same. split; [now destruct (fc_etags c), (fc_lm c)|].
  destruct (beqb e' []) eqn:E3; [rewrite orb_true_r; reflexivity|]. now rewrite orb_true_r.
Qed.
(** A version is read and its ETag stored, then there is a 503: the condition is gone. *)
Example C50_error_case : let s := fst (fetch_http fcfg1 new_fetch url (full ver1)) in
  request_of fcfg1 s url <> mkRq None None /\
  request_of fcfg1 (fst (fetch_http fcfg1 s url (Response 503 [] None None))) url = mkRq None None.
Proof. vm_compute. split; [discriminate|reflexivity]. Qed.
(** ... and, with a server whose validators tell versions apart, once a response was read completely
    and until one is cut off, the last content read is what the server has, at every answer:
    no update is missed because of the conditions. *)
Theorem C50_current_partial : forall c file h s h1 e b h2 h' v x r, downloads c file h s -> honest h ->
  h = h1 ++ e :: h2 -> ev_r e = Ok b -> (forall e', In e' h2 -> ~ cut (ev_x e')) ->
  h = h' ++ [(v, x, r)] -> answered x -> last_read h None = Some (v_body v).
Proof.
  intros c file h s h1 e b h2 h' v x r HD HH E1 ER HC E2. apply (last_current c file h s h1 e b h2 v x r HD HH E1 ER HC).
  rewrite E2 at 2. now rewrite removelast_last.
Qed.
Definition history50 : list event :=
  [(ver1, full ver1, Ok [1]); (ver1, unchanged, Err ENotModified); (ver2, NoResponse, Err ENoResponse); (ver2, full ver2, Ok [2]);
   (ver2, full ver2, Err EIdentical)].
Example C50_case : (exists s, downloads fcfg1 url history50 s) /\ honest history50 /\ last_read history50 None = Some [2].
Proof.
  split; [|split; [|reflexivity]].
  - apply script_downloads with (l := [(ver1, full ver1); (ver1, unchanged); (ver2, NoResponse); (ver2, full ver2); (ver2, full ver2)]);
      [|vm_compute; reflexivity].
    split; [apply A_full|]. split; [now tag304|]. split; [apply A_none|]. split; [apply A_full|]. split; [apply A_full|exact I].
  - assert (HV : forall e, In e history50 -> ev_v e = ver1 \/ ev_v e = ver2).
    { intros e [<-|[<-|[<-|[<-|[<-|[]]]]]]; cbn; auto. }
    intros h1 e1 h2 e2 h3 E.
    assert (H1 : In e1 history50) by (rewrite E; apply in_or_app; right; now left).
    assert (H2 : In e2 history50) by (rewrite E; apply in_or_app; right; right; apply in_or_app; right; now left).
    assert (HO : ~ (ev_v e1 = ver2 /\ ev_v e2 = ver1)).
    { intros [A1 A2]. assert (HS : forall a e b, history50 = a ++ e :: b -> ev_v e = ver2 -> forall e', In e' b -> ev_v e' = ver2).
      { intros [|q0 [|q1 [|q2 [|q3 [|q4 a]]]]] e0 b0 E0 A0 e' H'; cbn in E0.
        all: try (injection E0; clear E0; intros; subst; cbn in A0; try discriminate A0).
        - destruct H' as [<-|[<-|[]]]; reflexivity.
        - destruct H' as [<-|[]]; reflexivity.
        - destruct H'.
        - destruct a; discriminate. }
      specialize (HS h1 e1 (h2 ++ e2 :: h3) E A1 e2). rewrite A2 in HS. assert (HN : ver1 = ver2) by (apply HS, in_or_app; right; now left). discriminate HN. }
    destruct (HV _ H1) as [A1|A1], (HV _ H2) as [A2|A2]; try (elim HO; now split); rewrite A1, A2; cbn;
      (split; [intros E1 _; try reflexivity; discriminate E1|]); intros l1 l2 [= <-] [= <-] HL; try reflexivity; lia.
Qed.

(** C51 A triggered update is carried out.  After the answer "success" the loop is never
    stuck, and before its second step a refresh has started. *)
Theorem C51_carried_out : forall ls0 s0 s1 ls s2, truns tinit ls0 s0 -> tstep s0 (TCall true) s1 -> truns s1 ls s2 ->
  (existsb starts ls = false -> exists l s3, of_loop l = true /\ l <> TTick /\ l <> THup /\ tstep s2 l s3) /\
  ((2 <= length (filter of_loop ls))%nat -> existsb starts ls = true).
Proof. intros ls0 s0 s1 ls s2 _. apply trigger_served. Qed.
(** The answer is "error" only when an earlier trigger is still waiting; that one's refresh
    starts after this answer as well. *)
Theorem C51_refused : forall ls0 s0 s1 ls s2, truns tinit ls0 s0 -> tstep s0 (TCall false) s1 -> truns s1 ls s2 ->
  (existsb starts ls = false -> exists l s3, of_loop l = true /\ l <> TTick /\ l <> THup /\ tstep s2 l s3) /\
  ((2 <= length (filter of_loop ls))%nat -> existsb starts ls = true).
Proof. intros ls0 s0 s1 ls s2 _. apply trigger_refused. Qed.
(** At most one trigger is queued. *)
Theorem C51_one_queued : forall ls s, truns tinit ls s ->
  length (filter is_success ls) = (length (filter is_take ls) + (if t_queued s then 1 else 0))%nat.
Proof. intros ls s H. pose proof (queue_count ls tinit s H) as E. cbn in E. lia. Qed.
(** The answer is always given, without waiting. *)
Theorem C51_answered : forall s, exists b s', tstep s (TCall b) s'.
Proof. intros [[] l]; [exists false|exists true]; eexists; constructor. Qed.
Example C51_case : exists s0 s1 s2, truns tinit [TBegin; TTick; TCall true; TCall false; TDone] s0 /\ t_queued s0 = true /\
  tstep s0 TTake s1 /\ tstep s1 (TCall true) s2 /\ truns s2 [TDone; TTake] (mkT false LBusy).
Proof. do 3 eexists. split; [repeat econstructor|]. split; [reflexivity|]. repeat econstructor. Qed.

(** C67 Downloads in parallel are safe: false.  With ETags, the comparison with the stored
    one reads the map without the lock while the other download may be writing to it. *)
Definition surl : bytes := str "https://example.net/slurm.json".
Theorem C67_race_refuted : exists c f1 f2 x1 x2 l s, f1 <> f2 /\
  lrun (lstart [ops c f1 x1 false; ops c f2 x2 false]) l = Some s /\ race s.
Proof.
  exists fcfg1, url, surl, (full ver1), (full ver2), [0; 0; 0; 0; 1; 1; 1; 1; 1; 1]%nat. eexists.
  split; [discriminate|]. split; [vm_compute; reflexivity|].
  exists 0%nat, 1%nat, (ORead false), (OWrite false). do 5 eexists.
  split; [discriminate|]. split; [reflexivity|]. split; [reflexivity|]. split; [reflexivity|]. split; [reflexivity|now right].
Qed.
(** What holds: without ETags, however many downloads run there is no race and no deadlock. *)
Theorem C67_no_etags_partial : forall c ps l s, fc_etags c = false ->
  (forall p, In p ps -> exists file x same, p = ops c file x same) ->
  lrun (lstart ps) l = Some s -> ~ race s /\ (finished s \/ exists i s', lstep s i = Some s').
Proof.
  intros c ps l s HC HP HR. apply (safe ps l s); [|exact HR]. apply Forall_forall. intros p Hp.
  destruct (HP p Hp) as (f & x & b & ->). now apply ops_locked.
Qed.
(** With ETags: when all but one of the files are local (stayrtr has at most two). *)
Theorem C67_one_url_partial : forall c f1 f2 x1 x2 b1 b2 l s, is_http f1 = false \/ is_http f2 = false ->
  lrun (lstart [ops c f1 x1 b1; ops c f2 x2 b2]) l = Some s -> ~ race s.
Proof. exact one_url. Qed.
(** Exactly: two downloads can meet at the maps if and only if one of them compares ETags while
    the other stores; and they never wait for one another for ever. *)
Theorem C67_exact_partial : forall c f1 f2 x1 x2 b1 b2,
  ((exists l s, lrun (lstart [ops c f1 x1 b1; ops c f2 x2 b2]) l = Some s /\ race s) <->
   (compares c f1 x1 /\ stores c f2 x2 b2) \/ (compares c f2 x2 /\ stores c f1 x1 b1)) /\
  (forall l s, lrun (lstart [ops c f1 x1 b1; ops c f2 x2 b2]) l = Some s -> finished s \/ exists i s', lstep s i = Some s').
Proof.
  intros c f1 f2 x1 x2 b1 b2.
  assert (L : Forall (fun p => lax HNone p = true) [ops c f1 x1 b1; ops c f2 x2 b2]) by (repeat constructor; apply ops_lax).
  pose proof (linv2_start _ L) as LS. split; [split|].
  - intros (l & s & R & HR). destruct (linv2_run _ _ _ _ _ LS R) as (hs & HI).
    destruct (linv2_race _ _ _ HI HR) as (i & j & p & q & m & Hij & Ei & Ej & B & W).
    assert (LI : (i < 2)%nat) by (apply (proj1 (nth_error_Some [ops c f1 x1 b1; ops c f2 x2 b2] i)); congruence).
    assert (LJ : (j < 2)%nat) by (apply (proj1 (nth_error_Some [ops c f1 x1 b1; ops c f2 x2 b2] j)); congruence).
    destruct i as [|[|i]], j as [|[|j]]; try lia; try congruence; cbn in Ei, Ej; injection Ei as <-; injection Ej as <-.
    + apply ops_bare in B as (-> & B). apply ops_written in W. auto.
    + apply ops_bare in B as (-> & B). apply ops_written in W. auto.
  - intros [(A & B)|(A & B)]; apply stores_ops in B.
    + apply (compares_ops _ _ _ b1) in A. exact (proj1 (meet _ _ A B)).
    + apply (compares_ops _ _ _ b2) in A. exact (proj2 (meet _ _ A B)).
  - intros l s R. destruct (linv2_run _ _ _ _ _ LS R) as (hs & HI). exact (linv2_progress _ _ _ HI).
Qed.
Example C67_exact_case : compares fcfg1 url (full ver1) /\ stores fcfg1 surl (full ver2) false /\ ~ stores fcfg1 surl (full ver2) true /\
  stores fcfg1 surl (Response 500 [] None None) true /\ ~ compares fcfg1 surl (Response 500 [] None None).
Proof.
  split; [do 2 (split; [reflexivity|]); do 3 eexists; split; [reflexivity|discriminate]|].
  split; [split; [reflexivity|]; do 4 eexists; split; [reflexivity|]; split; [discriminate|auto]|].
  split; [intros (_ & st & et & lm & b & X & _ & Y); injection X as <- <- <- <-; destruct (Y eq_refl) as [Z|[Z|Z]]; discriminate Z|].
  split; [split; [reflexivity|]; do 4 eexists; split; [reflexivity|]; split; discriminate|].
  intros (_ & _ & et & lm & b & X & _). discriminate X.
Qed.
Example C67_case : exists s, lrun (lstart [ops (mkFC false true) url (full ver1) false; ops (mkFC false true) surl (Response 500 [] None None) false])
  [0; 1; 0; 1; 0; 1; 0; 0; 0; 1; 1; 1; 1; 0; 0; 0]%nat = Some s /\ finished s.
Proof. eexists. split; [vm_compute; reflexivity|]. intros p [<-|[<-|[]]]; reflexivity. Qed.

(** C68 What is served follows the web server.  With conditional requests, SLURM, expiry:
    after a download that was answered the records served are those of the version the
    server has now.  Missing: see C46 and C50. *)
Definition obtained (r : res bytes ferr) : option bytes := match r with Ok b => Some b | _ => None end.
Theorem C68_end_to_end_partial : forall e c fc file h i evs fs v x r d h1 e0 b h2 h',
  wf_env e -> ordered_h (h ++ [i]) ->
  no_collision e (files (h ++ [i])) -> no_collision e (slurm_files c (h ++ [i])) ->
  (forall h1 h2, h ++ [i] = h1 ++ h2 -> no_dup_keys (st_slurm (after e c h1)) (st_data (after e c h1))) ->
  downloads fc file evs fs -> honest evs -> files (h ++ [i]) = map (fun q => obtained (ev_r q)) evs ->
  evs = h1 ++ e0 :: h2 -> ev_r e0 = Ok b -> (forall e', In e' h2 -> ~ cut (ev_x e')) ->
  evs = h' ++ [(v, x, r)] -> answered x ->
  e_decode e (v_body v) = Some d -> rl_roa d <> None -> recent e c (i_now i) d ->
  let sl := last_ok (fun x => option_map Some (e_dslurm e x)) None (slurm_files c (h ++ [i])) in
  forall y, served (after e c (h ++ [i])) y <-> content (i_proc i) sl d y.
Proof.
  intros e c fc file h i evs fs v x r d h1 e0 b h2 h' HE HO N1 N2 HK HD HH HF E1 ER HC E2 HA Hdec HR HT. cbv zeta.
  pose proof (C50_current_partial fc file evs fs h1 e0 b h2 h' v x r HD HH E1 ER HC E2 HA) as HL.
  destruct (history e c (h ++ [i]) HE N1 N2) as (D1 & _ & D3 & _). unfold some_slurm in D3. rewrite <- D3.
  assert (ED : st_data (after e c (h ++ [i])) = d).
  { rewrite D1, HF. apply (last_ok_read (e_decode e) evs empty_list (v_body v) d HL Hdec). }
  rewrite <- ED in HR, HT |- *. now apply C46_current_partial.
Qed.
Definition evs68 : list event := [(ver1, full ver1, Ok [1]); (ver1, unchanged, Err ENotModified); (ver2, full ver2, Ok [2])].
Definition hist68 : list input := [at_h 1 [1]; mkIn (hour 2) None None].
Example C68_case : (exists fs, downloads fcfg1 url evs68 fs) /\ files (hist68 ++ [at_h 3 [2]]) = map (fun q => obtained (ev_r q)) evs68 /\
  e_decode env43 (v_body ver2) = Some (listing 1 [rv] [rk]) /\
  get_current_sds (st_server (after env43 cfgN hist68)) = [VRP (pfx4 167837696 16) 2 24 1; VRP (pfx4 167772160 8) 1 8 1] /\
  get_current_sds (st_server (after env43 cfgN (hist68 ++ [at_h 3 [2]]))) = [VRP (pfx4 167772160 8) 1 8 1; BgpsecKey 7 [171] [1; 2] 1].
Proof.
  split; [|split; [reflexivity|split; [reflexivity|split; vm_compute; reflexivity]]].
  apply script_downloads with (l := [(ver1, full ver1); (ver1, unchanged); (ver2, full ver2)]); [|vm_compute; reflexivity].
  split; [apply A_full|]. split; [now tag304|]. split; [apply A_full|exact I].
Qed.
Lemma honest_pairs h : ForallOrdPairs (fun e1 e2 =>
    (v_etag (ev_v e1) = v_etag (ev_v e2) -> v_etag (ev_v e1) <> [] -> v_body (ev_v e1) = v_body (ev_v e2)) /\
    (forall l1 l2, v_lm (ev_v e1) = Some l1 -> v_lm (ev_v e2) = Some l2 -> (l2 <= l1)%Z -> v_body (ev_v e1) = v_body (ev_v e2))) h -> honest h.
Proof.
  intros H h1 e1 h2 e2 h3 ->. induction h1 as [|a h1 IH]; cbn in H; inversion H as [|? ? F R]; subst; [|auto].
  rewrite Forall_forall in F. apply F. apply in_or_app. right. now left.
Qed.
(** False in full: after a download of the second version that broke off, the server truthfully
    answers that its second version has not changed, and the first is served. *)
Definition evs68b : list event := [(ver1, full ver1, Ok [1]); (ver2, half ver2, Err ERead); (ver2, unchanged, Err ENotModified)].
Theorem C68_end_to_end_refuted : exists e c fc file h i evs fs h' v x r d y,
  wf_env e /\ ordered_h (h ++ [i]) /\ downloads fc file evs fs /\ honest evs /\
  files (h ++ [i]) = map (fun q => obtained (ev_r q)) evs /\ evs = h' ++ [(v, x, r)] /\ answered x /\
  e_decode e (v_body v) = Some d /\ rl_roa d <> None /\ recent e c (i_now i) d /\ slurm_files c (h ++ [i]) = [] /\
  served (after e c (h ++ [i])) y /\ ~ content (i_proc i) None d y.
Proof.
  assert (HD : exists fs, downloads fcfg1 url evs68b fs).
  { apply script_downloads with (l := [(ver1, full ver1); (ver2, half ver2); (ver2, unchanged)]); [|vm_compute; reflexivity].
    split; [apply A_full|]. split; [apply A_cut|]. split; [|exact I].
    apply A_304; left; exists (str "v2"); split; [vm_compute; reflexivity|split; [discriminate|reflexivity]]. }
  destruct HD as [fs HD]. exists env43, cfgN, fcfg1, url, hist68, (mkIn (hour 3) None None), evs68b, fs.
  exists [(ver1, full ver1, Ok [1]); (ver2, half ver2, Err ERead)], ver2, unchanged, (Err ENotModified), (listing 1 [rv] [rk]), idw.
  split; [wf_sample|]. split; [apply ordered_three; cbn; lia|]. split; [exact HD|].
  split; [|split; [reflexivity|split; [reflexivity|split; [exists 304, [], None, None; auto|]]]].
  - apply honest_pairs. repeat constructor; cbn; intros; try discriminate; try reflexivity; repeat match goal with H : Some _ = Some _ |- _ => injection H as <- end; try lia.
  - split; [reflexivity|]. split; [discriminate|]. split; [discriminate|]. split; [reflexivity|]. split; [apply servedb_ok; vm_compute; reflexivity|].
    intros [(v & p & a & [<-|[]] & (H1 & H2 & H3 & H4) & E)|(b & k & _ & _ & _ & E)]; discriminate E.
Qed.
Print Assumptions C50_stuck_refuted.
Print Assumptions C50_lastmod_refuted.
Print Assumptions C50_plain_partial.
Print Assumptions C50_error_partial.
Print Assumptions C50_current_partial.
Print Assumptions C51_carried_out.
Print Assumptions C51_refused.
Print Assumptions C51_one_queued.
Print Assumptions C51_answered.
Print Assumptions C67_race_refuted.
Print Assumptions C67_no_etags_partial.
Print Assumptions C67_one_url_partial.
Print Assumptions C67_exact_partial.
Print Assumptions C68_end_to_end_partial.
Print Assumptions C68_end_to_end_refuted.
