(** Properties C43 to C49 and C65: the refresh of the data. *)
From Coq Require Import String ZifyBool ZifyNat ZifyN Permutation.
From Verif Require Import Lib.Str Model.State Spec.Refresh Proofs.FormatP Proofs.DataP Proofs.CacheP Proofs.JsonP
  Model.Concurrent Spec.Net Proofs.NetP4 Proofs.ProcessP Proofs.SlurmP Proofs.StateP Props.CacheProps Props.InputProps.
Local Open Scope string_scope.
Local Open Scope list_scope.
Local Open Scope N_scope.

(** A sample environment: files are looked up in a table, the hash is the identity, times are
    written as one number, in hours. *)
Fixpoint assoc {A} (l : list (bytes * A)) (x : bytes) : option A :=
  match l with [] => None | (k, a) :: r => if beqb k x then Some a else assoc r x end.
Definition hour (n : Z) : Z := (n * 3600 * second)%Z.
Definition hours (b : bytes) : option Z := match b with [n] => Some (hour (Z.of_N n)) | _ => None end.
Definition sample_env (tab : list (bytes * rpkilist)) (stab : list (bytes * slurm)) : env :=
  mkEnv isort (fun x => x) (assoc tab) (assoc stab) hours.
Lemma assoc_in {A} (l : list (bytes * A)) x a : assoc l x = Some a -> In a (map snd l).
Proof.
  induction l as [|[k b] l IH]; cbn [assoc map]; [discriminate|]. destruct (beqb k x).
  - intros [= <-]. now left.
  - intros H. right. now apply IH.
Qed.
Lemma sample_wf tab stab : Forall wf_list (map snd tab) -> Forall wf_slurm (map snd stab) -> wf_env (sample_env tab stab).
Proof.
  intros H1 H2. split; [apply isort_sorts|]. rewrite Forall_forall in H1, H2. split; intros x d E; apply assoc_in in E; auto.
Qed.
Lemma sample_nc tab stab l : no_collision (sample_env tab stab) l.
Proof. intros x y _ _ E. exact E. Qed.
Ltac wf_sample := apply sample_wf; repeat constructor; cbn; try lia.

Definition rv : vrpjson := ej "10.0.0.0/8" 8 "1" None.
Definition rw : vrpjson := ej "10.1.0.0/16" 24 "2" (Some 36000%Z).
Definition rk : brkjson := bj 7 "ab" None.
Definition idv : rid := RV (pfx4 167772160 8) 1 8.
Definition idw : rid := RV (pfx4 167837696 16) 2 24.
Definition listing (build : N) (vs : list vrpjson) (bs : list brkjson) : rpkilist := mkRL [build] None (Some vs) 4 bs 4.
Definition at_h (n : Z) (f : bytes) : input := mkIn (hour n) (Some f) None.
Definition cfgS : scfg := mkSC true true true true.
Definition servedb (s : state) (x : rid) : bool := mem x (ids (get_current_sds (st_server s))).
Lemma servedb_ok s x : servedb s x = true -> served s x.
Proof. apply mem_in. Qed.
Lemma servedb_no s x : servedb s x = false -> ~ served s x.
Proof. apply mem_not. Qed.
Local Notation in_turn i := ((i_got i <= i_now i <= i_proc i)%Z /\ (i_proc i <= i_late i)%Z).
Lemma ordered_two a b : in_turn a -> in_turn b -> (i_late a <= i_got b)%Z -> ordered_h [a; b].
Proof.
  intros A B H. split; [repeat (constructor; [assumption|]); constructor|].
  intros [|x [|y h1]] i j h2 E; try discriminate E; [now injection E as -> -> _|destruct h1; discriminate E].
Qed.
Lemma ordered_three a b c : in_turn a -> in_turn b -> in_turn c -> (i_late a <= i_got b)%Z -> (i_late b <= i_got c)%Z -> ordered_h [a; b; c].
Proof.
  intros A B C H1 H2. split; [repeat (constructor; [assumption|]); constructor|].
  intros [|x [|y [|z h1]]] i j h2 E; try discriminate E; [now injection E as -> -> _|now injection E as _ -> -> _|destruct h1; discriminate E].
Qed.

(** C43 A successful refresh publishes exactly the file.  Missing: the file must have a list of VRPs. *)
Theorem C43_publishes_partial : forall e c h i, wf_env e ->
  no_collision e (files (h ++ [i])) -> no_collision e (slurm_files c (h ++ [i])) ->
  (h = [] \/ news e c h i) ->
  let d := last_ok (e_decode e) empty_list (files (h ++ [i])) in
  let sl := last_ok (fun x => option_map Some (e_dslurm e x)) None (slurm_files c (h ++ [i])) in
  rl_roa d <> None -> recent e c (i_now i) d ->
  forall x, served (after e c (h ++ [i])) x <-> content (i_proc i) sl d x.
Proof.
  intros e c h i HE N1 N2 HN. cbv zeta. destruct (history e c (h ++ [i]) HE N1 N2) as (D1 & _ & D3 & _).
  unfold some_slurm in D3. rewrite <- D1, <- D3. intros HR HC. rewrite after_snoc in *.
  apply refresh_publishes; [exact HE| |split; [exact HR|now apply recent_check]].
  destruct HN as [->|HN]; [now right|]. destruct h as [|j h]; [now right|]. left.
  apply news_fetch; auto. discriminate.
Qed.
Definition env43 := sample_env [([1], listing 0 [rv; rw] []); ([2], listing 1 [rv] [rk])]
  [([9], mkSlurm [mkPF (str "10.1.0.0/16") None] [] [] [])].
Example C43_case : wf_env env43 /\ news env43 cfgS [at_h 1 [1]] (mkIn (hour 2) (Some [2]) (Some [9])) /\
  servedb (after env43 cfgS [at_h 1 [1]]) idw = true /\
  get_current_sds (st_server (after env43 cfgS [at_h 1 [1]; mkIn (hour 2) (Some [2]) (Some [9])])) =
  [VRP (pfx4 167772160 8) 1 8 1; BgpsecKey 7 [171] [1; 2] 1].
Proof.
  split; [wf_sample|]. split; [left; exists [2], (listing 1 [rv] [rk]); repeat split; discriminate|].
  split; vm_compute; reflexivity.
Qed.
(** A file without (or with a null) list of VRPs is accepted but not published: what was served
    before goes on being served, and its router keys are ignored. *)
Definition env43n := sample_env [([1], listing 0 [rv] []); ([2], mkRL [1] None None 0 [rk] 0)] [].
Theorem C43_null_refuted : exists e c h i x y, wf_env e /\ news e c h i /\
  (forall l, no_collision e l) /\
  let d := last_ok (e_decode e) empty_list (files (h ++ [i])) in
  recent e c (i_now i) d /\
  served (after e c (h ++ [i])) x /\ ~ content (i_proc i) None d x /\
  content (i_proc i) None d y /\ ~ served (after e c (h ++ [i])) y.
Proof.
  exists env43n, cfgS, [at_h 1 [1]], (at_h 2 [2]), idv, (RK 7 [171] [1; 2]).
  split; [wf_sample|]. split; [left; exists [2], (mkRL [1] None None 0 [rk] 0); repeat split; discriminate|].
  split; [apply sample_nc|]. cbv zeta.
  split; [intros _; exists (hour 1); split; [reflexivity|vm_compute; discriminate]|].
  split; [apply servedb_ok; vm_compute; reflexivity|]. split; [|split].
  - intros [(v & p & a & [] & _)|(b & k & _ & _ & _ & E)]. discriminate E.
  - right. exists rk, [171]. split; [now left|]. split; [exact I|]. split; [|reflexivity].
    split; [repeat constructor; cbv; reflexivity|vm_compute; reflexivity].
  - apply servedb_no. vm_compute. reflexivity.
Qed.

(** C44 A failed refresh changes nothing, except that records that expired are dropped. *)
Theorem C44_quiet : forall e c h i, wf_env e -> ordered_h (h ++ [i]) -> h <> [] ->
  no_collision e (files (h ++ [i])) -> no_collision e (slurm_files c (h ++ [i])) ->
  ~ news e c h i ->
  let s := after e c h in let s' := after e c (h ++ [i]) in
  st_data s' = st_data s /\ st_slurm s' = st_slurm s /\
  (forall x, served s' x -> served s x) /\
  (forall x, served s x -> ~ served s' x ->
     (exists t, (t <= i_proc i)%Z /\ content t (st_slurm s) (st_data s) x) /\ ~ content (i_proc i) (st_slurm s) (st_data s) x) /\
  (same_served s s' -> st_server s' = st_server s).
Proof.
  intros e c h i HE HO Hh N1 N2 HN. cbv zeta. rewrite after_snoc. apply quiet; auto.
  apply not_true_is_false. intros E. apply HN. now apply news_fetch.
Qed.
(** Nothing fetched, an undecodable file, the same file again: [rw] expires in the meantime. *)
Example C44_case : wf_env env43 /\
  ~ news env43 cfgS [at_h 1 [1]; at_h 2 [7]] (mkIn (hour 11) None None) /\
  servedb (after env43 cfgS [at_h 1 [1]; at_h 2 [7]]) idw = true /\
  servedb (after env43 cfgS [at_h 1 [1]; at_h 2 [7]; mkIn (hour 11) None None]) idw = false /\
  servedb (after env43 cfgS [at_h 1 [1]; at_h 2 [7]; mkIn (hour 11) None None]) idv = true.
Proof.
  split; [wf_sample|]. split.
  - intros [(x & d & E & _)|(_ & _ & x & d & E & _)]; discriminate E.
  - repeat split; vm_compute; reflexivity.
Qed.

(** C45 Stale data is dropped: false.  With an unchanged file the time check only stops the
    reload; the old data stay. *)
Definition env45 := sample_env [([1], listing 0 [rv; rw] []); ([2], listing 2 [rv] [])] [].
Theorem C45_unchanged_refuted : exists e c h i b x, wf_env e /\ sc_check c = true /\ ordered_h (h ++ [i]) /\
  built e (st_data (after e c (h ++ [i]))) = Some b /\ (b + day < i_now i)%Z /\
  content (i_proc i) (st_slurm (after e c (h ++ [i]))) (st_data (after e c (h ++ [i]))) x /\
  served (after e c (h ++ [i])) x.
Proof.
  exists env45, cfgS, [at_h 1 [1]], (at_h 100 [1]), (hour 0), idv. split; [wf_sample|]. split; [reflexivity|].
  split; [apply ordered_two; cbn; lia|]. split; [vm_compute; reflexivity|]. split; [vm_compute; reflexivity|].
  split; [|apply servedb_ok; vm_compute; reflexivity].
  left. exists rv, (pfx4 167772160 8), 1. split; [left; reflexivity|]. split; [|reflexivity].
  apply conv_spec. vm_compute. reflexivity.
Qed.
(** Files that give their time as "generated" are not dropped either, even when a new file
    arrives that is too old: exported has no build time. *)
Definition gen (g : Z) (vs : list vrpjson) : rpkilist := mkRL [] (Some g) (Some vs) 0 [] 0.
Definition env45g := sample_env [([1], gen 0 [rv]); ([2], gen 7200 [rv; rw])] [].
Theorem C45_generated_refuted : exists e c h i b b' x, wf_env e /\ sc_check c = true /\ ordered_h (h ++ [i]) /\ news e c h i /\
  built e (st_data (after e c h)) = Some b /\ (b + day < i_now i)%Z /\
  built e (st_data (after e c (h ++ [i]))) = Some b' /\ (b' + day < i_now i)%Z /\
  served (after e c (h ++ [i])) x.
Proof.
  exists env45g, cfgS, [at_h 1 [1]], (at_h 100 [2]), 0%Z, (hour 2), idv. split; [wf_sample|]. split; [reflexivity|].
  split; [apply ordered_two; cbn; lia|]. split; [left; exists [2], (gen 7200 [rv; rw]); repeat split; discriminate|].
  split; [vm_compute; reflexivity|]. split; [vm_compute; reflexivity|]. split; [vm_compute; reflexivity|].
  split; [vm_compute; reflexivity|]. apply servedb_ok. vm_compute. reflexivity.
Qed.
(** What holds: nothing stale is ever newly published ... *)
Theorem C45_published_partial : forall e c h i, wf_env e ->
  ~ same_served (after e c h) (after e c (h ++ [i])) -> (exists x, served (after e c (h ++ [i])) x) ->
  recent e c (i_now i) (st_data (after e c (h ++ [i]))).
Proof. intros e c h i HE. rewrite after_snoc. now apply changed_recent. Qed.
(** ... and when a new file or SLURM file arrives, the current file is too old and the build time of
    the last change is as well, everything is dropped. *)
Theorem C45_drop_partial : forall e c h i b t, wf_env e -> h <> [] ->
  no_collision e (files (h ++ [i])) -> no_collision e (slurm_files c (h ++ [i])) -> news e c h i ->
  let s' := after e c (h ++ [i]) in
  sc_check c = true -> rl_roa (st_data s') <> None -> built e (st_data s') = Some b -> (b + day < i_now i)%Z ->
  exported_build e (after e c h) = Some t -> (t + day < i_late i)%Z ->
  forall x, ~ served s' x.
Proof.
  intros e c h i b t HE Hh N1 N2 HN. cbv zeta. rewrite after_snoc. intros HC HR HB HL HX HT x Hx.
  destruct (too_old_dropped e c h i t HE Hh) as [E _]; auto.
  - now apply news_fetch.
  - unfold time_check. change build_time with built. rewrite HC, HB. change hours24 with day. destruct (b + day <? i_now i)%Z eqn:E; [reflexivity|lia].
  - unfold served in Hx. rewrite E in Hx. destruct Hx.
Qed.
Example C45_case : wf_env env45 /\ news env45 cfgS [at_h 1 [1]] (at_h 30 [2]) /\
  exported_build env45 (after env45 cfgS [at_h 1 [1]]) = Some (hour 0) /\
  built env45 (st_data (after env45 cfgS [at_h 1 [1]; at_h 30 [2]])) = Some (hour 2) /\
  servedb (after env45 cfgS [at_h 1 [1]]) idv = true /\ servedb (after env45 cfgS [at_h 1 [1]; at_h 30 [2]]) idv = false.
Proof.
  split; [wf_sample|]. split; [left; exists [2], (listing 2 [rv] []); repeat split; discriminate|].
  repeat split; vm_compute; reflexivity.
Qed.

(** C46 Expired records are withdrawn: false.  With time checking on, an old unchanged file
    stops the reload, and with it the withdrawal of expired records ... *)
Theorem C46_stale_refuted : exists e c h i x, wf_env e /\ ordered_h (h ++ [i]) /\
  (forall h1 h2, h ++ [i] = h1 ++ h2 -> no_dup_keys (st_slurm (after e c h1)) (st_data (after e c h1))) /\
  served (after e c (h ++ [i])) x /\ ~ content (i_proc i) (st_slurm (after e c (h ++ [i]))) (st_data (after e c (h ++ [i]))) x.
Proof.
  exists env45, cfgS, [at_h 1 [1]], (at_h 30 [1]), idw. split; [wf_sample|]. split; [apply ordered_two; cbn; lia|].
  split.
  { intros [|a [|b [|z h1]]] h2 E; try discriminate E; [constructor|injection E as <- _; constructor|injection E as <- <- _; constructor]. }
  split; [apply servedb_ok; vm_compute; reflexivity|].
  change (st_slurm (after env45 cfgS ([at_h 1 [1]] ++ [at_h 30 [1]]))) with (@None slurm).
  change (st_data (after env45 cfgS ([at_h 1 [1]] ++ [at_h 30 [1]]))) with (listing 0 [rv; rw] []).
  intros [(v & p & a & [<-|[<-|[]]] & (H1 & H2 & H3 & H4) & E)|(b & k & [] & _)].
  - discriminate E.
  - vm_compute in H4. elim H4. reflexivity.
Qed.
(** ... and the reload takes the data for unchanged when the number of records is, which is
    not enough when a router key is listed twice. *)
Definition env46 := sample_env [([1], listing 0 [rw] [rk]); ([2], listing 0 [rw] [rk; rk])] [].
Definition cfgN : scfg := mkSC true false false false.
Theorem C46_duplicate_refuted : exists e c h i x, wf_env e /\ ordered_h (h ++ [i]) /\ sc_check c = false /\
  served (after e c (h ++ [i])) x /\ ~ content (i_proc i) (st_slurm (after e c (h ++ [i]))) (st_data (after e c (h ++ [i]))) x.
Proof.
  exists env46, cfgN, [at_h 1 [1]; at_h 2 [2]], (at_h 30 [2]), idw. split; [wf_sample|]. split; [apply ordered_three; cbn; lia|].
  split; [reflexivity|]. split; [apply servedb_ok; vm_compute; reflexivity|].
  change (st_slurm (after env46 cfgN ([at_h 1 [1]; at_h 2 [2]] ++ [at_h 30 [2]]))) with (@None slurm).
  change (st_data (after env46 cfgN ([at_h 1 [1]; at_h 2 [2]] ++ [at_h 30 [2]]))) with (listing 0 [rw] [rk; rk]).
  intros [(v & p & a & [<-|[]] & (H1 & H2 & H3 & H4) & E)|(b & k & _ & _ & _ & E)].
  - vm_compute in H4. elim H4. reflexivity.
  - discriminate E.
Qed.
(** What holds: with a list of VRPs, a recent file and no router key listed twice, exactly the
    records that are not expired are served after every refresh. *)
Theorem C46_current_partial : forall e c h i, wf_env e -> ordered_h (h ++ [i]) ->
  (forall h1 h2, h ++ [i] = h1 ++ h2 -> no_dup_keys (st_slurm (after e c h1)) (st_data (after e c h1))) ->
  let s' := after e c (h ++ [i]) in
  rl_roa (st_data s') <> None -> recent e c (i_now i) (st_data s') ->
  forall x, served s' x <-> content (i_proc i) (st_slurm s') (st_data s') x.
Proof. intros e c h i HE HO HN. cbv zeta. intros HR HC. apply current_exact; auto. split; [exact HR|now apply recent_check]. Qed.
Example C46_case :
  servedb (after env46 cfgN [at_h 1 [1]; at_h 9 [1]]) idw = true /\ servedb (after env46 cfgN [at_h 1 [1]; at_h 11 [1]]) idw = false /\
  (forall h1 h2, [at_h 1 [1]] ++ [at_h 11 [1]] = h1 ++ h2 -> no_dup_keys (st_slurm (after env46 cfgN h1)) (st_data (after env46 cfgN h1))).
Proof.
  split; [vm_compute; reflexivity|]. split; [vm_compute; reflexivity|].
  intros [|a [|b [|z h1]]] h2 E; try discriminate E; [constructor|injection E as <- _|injection E as <- <- _];
    (constructor; [intros []|constructor]).
Qed.
(** The clock moves during a refresh: a VRP that expires between the time check and processData is
    left out; data that become a day old in between are served all the same. *)
Example C46_readings_case : let i := mkTurn (hour 9) (hour 9) (hour 11) (hour 12) (Some [1]) None in
  let j := mkTurn (hour 23) (hour 24) (hour 25) (hour 25) (Some [1]) None in
  ordered_h ([at_h 1 [1]] ++ [i]) /\ servedb (after env46 cfgN ([at_h 1 [1]] ++ [i])) idw = false /\
  ordered_h ([at_h 1 [1]] ++ [j]) /\ recent env45 cfgS (i_now j) (st_data (after env45 cfgS ([at_h 1 [1]] ++ [j]))) /\
  servedb (after env45 cfgS ([at_h 1 [1]] ++ [j])) idv = true.
Proof.
  cbv zeta. split; [apply ordered_two; cbn; lia|]. split; [vm_compute; reflexivity|]. split; [apply ordered_two; cbn; lia|].
  split; [apply recent_check; vm_compute; reflexivity|vm_compute; reflexivity].
Qed.

(** C47 Re-reading identical data is silent. *)
Theorem C47_silent : forall e c h i, wf_env e -> let s := after e c h in let s' := after e c (h ++ [i]) in
  rl_roa (st_data s') <> None -> recent e c (i_now i) (st_data s') ->
  (forall x, served s x <-> content (i_proc i) (st_slurm s') (st_data s') x) ->
  st_server s' = st_server s /\ snd (turn e c h i) = [].
Proof.
  intros e c h i HE. cbv zeta. rewrite after_snoc. intros HR HC. apply silent; [exact HE|].
  split; [exact HR|now apply recent_check].
Qed.
(** The same records, in another order, another build time and with one listed twice. *)
Definition env47 := sample_env [([1], listing 0 [rv; rw] [rk]); ([2], listing 3 [rw; rv; rw] [rk])] [].
Example C47_case : wf_env env47 /\ news env47 cfgS [at_h 1 [1]] (at_h 5 [2]) /\ recent env47 cfgS (hour 5) (listing 3 [rw; rv; rw] [rk]) /\
  serial_of (after env47 cfgS [at_h 1 [1]; at_h 5 [2]]) = 0 /\ turn env47 cfgS [at_h 1 [1]] (at_h 5 [2]) = (after env47 cfgS [at_h 1 [1]; at_h 5 [2]], []).
Proof.
  split; [wf_sample|]. split; [left; exists [2], (listing 3 [rw; rv; rw] [rk]); repeat split; discriminate|].
  split; [intros _; exists (hour 3); split; [reflexivity|vm_compute; discriminate]|]. split; vm_compute; reflexivity.
Qed.

(** C48 Every change is notified: false.  Dropping stale data is not. *)
Theorem C48_drop_refuted : exists e c h i, wf_env e /\ sc_notify c = true /\ ordered_h (h ++ [i]) /\
  ~ same_served (after e c h) (after e c (h ++ [i])) /\ serial_of (after e c h) <> serial_of (after e c (h ++ [i])) /\
  snd (turn e c h i) = [].
Proof.
  exists env45, cfgS, [at_h 1 [1]], (at_h 30 [2]). split; [wf_sample|]. split; [reflexivity|].
  split; [apply ordered_two; cbn; lia|]. split.
  - intros HS. assert (H : served (after env45 cfgS [at_h 1 [1]]) idv) by (apply servedb_ok; vm_compute; reflexivity).
    apply HS in H. revert H. apply servedb_no. vm_compute. reflexivity.
  - split; vm_compute; [discriminate|reflexivity].
Qed.
(** What holds: with a recent file a refresh that changes the served set announces the new serial
    once, any other announces nothing ... *)
Theorem C48_announced_partial : forall e c h i, wf_env e -> let s' := after e c (h ++ [i]) in
  recent e c (i_now i) (st_data s') ->
  (same_served (after e c h) s' -> snd (turn e c h i) = []) /\
  (~ same_served (after e c h) s' -> snd (turn e c h i) = if sc_notify c then [serial_of s'] else []).
Proof.
  intros e c h i HE. cbv zeta. rewrite after_snoc. intros HR. destruct (notices e c h i HE HR) as [H1 H2].
  split; [intros HS; now apply H1|exact H2].
Qed.
(** ... and without a recent file nothing is announced ... *)
Theorem C48_quiet_partial : forall e c h i, wf_env e -> ~ recent e c (i_now i) (st_data (after e c (h ++ [i]))) ->
  snd (turn e c h i) = [].
Proof. intros e c h i HE. rewrite after_snoc. now apply not_recent_quiet. Qed.
(** ... and an announcement reaches every connected client as exactly one Serial Notify
    with that serial and the session id of its version, if there is room in its channel. *)
Theorem C48_delivered_partial : forall e c h i cfg s w n, In n (snd (turn e c h i)) ->
  u16 s -> cfg_version cfg < 256 -> NoDup (n_clients w) -> n_notif w = NIdle ->
  (forall j, In j (n_clients w) -> exists k, nth_error (n_conns w) j = Some k /\ room k /\ k_ver k <= cfg_version cfg) ->
  exists w', nrun (new_rtr_server cfg s) w (LNotify n :: repeat LNotifier (3 * length (n_clients w) + 1)) = Ok w' /\
    n_notif w' = NIdle /\
    forall j, match nth_error (n_conns w) j, nth_error (n_conns w') j with
              | Some k, Some k' => (In j (n_clients w) -> notified s n k k') /\ (~ In j (n_clients w) -> k' = k)
              | None, None => True
              | _, _ => False
              end.
Proof.
  intros e c h i cfg s w n _ Hs Hb ND HI HR.
  destruct (notify_completes cfg s n Hs Hb (n_clients w) (mkNet (n_count w) (n_clients w) (n_conns w) (NLoop n (n_clients w)))
    ND eq_refl HR) as (w' & E1 & E2 & _ & _ & E5).
  exists w'. split; [|split; [exact E2|exact E5]]. cbn [nrun nstep bind]. rewrite HI. cbn [bind]. exact E1.
Qed.
Example C48_case : wf_env env43 /\ snd (turn env43 cfgS [at_h 1 [1]] (mkIn (hour 2) (Some [2]) (Some [9]))) = [1] /\
  serial_of (after env43 cfgS [at_h 1 [1]; mkIn (hour 2) (Some [2]) (Some [9])]) = 1 /\
  recent env43 cfgS (hour 2) (listing 1 [rv] [rk]).
Proof.
  split; [wf_sample|]. split; [vm_compute; reflexivity|]. split; [vm_compute; reflexivity|].
  intros _. exists (hour 1). split; [reflexivity|vm_compute; discriminate].
Qed.

(** C49 The HTTP export matches what is served: false after a drop ... *)
Definition env49 := sample_env [([1], listing 0 [rv] [])]
  [([8], mkSlurm [] [] [mkPA (str "10.2.0.0/16") 3 16%Z []] []);
   ([9], mkSlurm [] [] [mkPA (str "10.0.0.0/8") 1 8%Z []; mkPA (str "10.2.0.0/16") 3 16%Z []] [])].
Theorem C49_drop_refuted : exists e c h x, wf_env e /\ stable e c /\
  (forall t, listed (t / second) (exported_roa (after e c h)) (exported_brk (after e c h)) x) /\ ~ served (after e c h) x.
Proof.
  exists env45, (mkSC true true true false), [at_h 1 [1]; at_h 30 [2]], idv. split; [wf_sample|]. split; [now left|]. split.
  - intros t. change (exported_roa _) with [rv; rw]. left. exists rv, (pfx4 167772160 8), 1. split; [now left|]. split; [|reflexivity].
    apply conv_spec. unfold conv. vm_compute. reflexivity.
  - apply servedb_no. vm_compute. reflexivity.
Qed.
(** ... and when a reloaded SLURM file, whose data turn out to be the same, is appended into the
    spare room behind the decoded list that exported also points to. *)
Theorem C49_alias_refuted : exists e c h x, wf_env e /\ ordered_h h /\ sc_check c = false /\
  served (after e c h) x /\ (forall t, ~ listed t (exported_roa (after e c h)) (exported_brk (after e c h)) x).
Proof.
  exists env49, (mkSC true false true true), [mkIn (hour 1) (Some [1]) (Some [8]); mkIn (hour 2) (Some [1]) (Some [9])],
    (RV (pfx4 167903232 16) 3 16).
  split; [wf_sample|]. split; [apply ordered_two; cbn; lia|]. split; [reflexivity|].
  split; [apply servedb_ok; vm_compute; reflexivity|]. intros t.
  set (vs := exported_roa _). set (bs := exported_brk _). vm_compute in vs, bs. subst bs.
  intros [(v & p & a & HIn & (H1 & H2 & H3 & H4) & E)|(b & k & [] & _)].
  unfold vs in HIn. destruct HIn as [<-|[<-|[]]]; injection E as _ <- _; vm_compute in H2; discriminate H2.
Qed.
(** What holds: if the SLURM file is not reloaded or decoded lists have no spare room, then
    either nothing is served and nothing exported, or the export read at the time of the last
    change is what is served, or (with time checking) everything was dropped. *)
Theorem C49_export_partial : forall e c h, wf_env e -> sc_slurm_refresh c = false \/ no_spare e ->
  ((forall x, ~ served (after e c h) x) /\ exported_roa (after e c h) = [] /\ exported_brk (after e c h) = []) \/
  (exists h1 i h2, last_change e c h h1 i h2 /\
     forall x, served (after e c h) x <-> listed (i_proc i / second) (exported_roa (after e c h)) (exported_brk (after e c h)) x) \/
  (sc_check c = true /\ forall x, ~ served (after e c h) x).
Proof. exact export_history. Qed.
Definition cfgF : scfg := mkSC true false true false.
Definition h49 : list input := [mkIn (hour 1) (Some [1]) (Some [9]); mkIn (hour 11) (Some [1]) None; at_h 12 [7]].
Example C49_case : wf_env env43 /\ (sc_slurm_refresh cfgF = false \/ no_spare env43) /\
  exported_roa (after env43 cfgF h49) = [rv] /\
  get_current_sds (st_server (after env43 cfgF h49)) = [VRP (pfx4 167772160 8) 1 8 1] /\
  exported_roa (after env43 cfgN [at_h 1 [1]; at_h 11 [1]]) = [rv; rw] /\
  get_current_sds (st_server (after env43 cfgN [at_h 1 [1]; at_h 11 [1]])) = [VRP (pfx4 167772160 8) 1 8 1].
Proof. split; [wf_sample|]. split; [now left|]. repeat split; vm_compute; reflexivity. Qed.

(** C65 Confirmed data is not dropped: false.  A file that lists the same records with a newer
    build time does not update the build time the drop looks at. *)
Definition env65 := sample_env [([1], listing 0 [rv; rw] []); ([2], listing 20 [rv; rw] []); ([3], listing 1 [rv] [])] [].
Definition cfgT : scfg := mkSC true true false false.
Theorem C65_confirmed_refuted : exists e c h j i x b, wf_env e /\ ordered_h (h ++ [j; i]) /\
  built e (st_data (after e c (h ++ [j]))) = Some b /\ (i_now i <= b + day)%Z /\
  served (after e c (h ++ [j])) x /\
  (forall y, served (after e c (h ++ [j])) y <-> content (i_proc j) None (st_data (after e c (h ++ [j]))) y) /\
  content (i_proc i) None (st_data (after e c (h ++ [j]))) x /\
  (forall y, ~ served (after e c (h ++ [j; i])) y).
Proof.
  exists env65, cfgT, [at_h 1 [1]], (at_h 9 [2]), (at_h 30 [3]), idv, (hour 20).
  split; [wf_sample|]. split; [apply ordered_three; cbn; lia|]. split; [vm_compute; reflexivity|].
  split; [vm_compute; discriminate|]. split; [apply servedb_ok; vm_compute; reflexivity|]. split; [|split].
  - intros y. change (@None slurm) with (st_slurm (after env65 cfgT ([at_h 1 [1]] ++ [at_h 9 [2]]))).
    apply C46_current_partial; [wf_sample|apply ordered_two; cbn; lia| |discriminate|].
    + intros [|a [|b [|z h1]]] h2 E; try discriminate E; [constructor|injection E as <- _; constructor|injection E as <- <- _; constructor].
    + intros _. exists (hour 20). split; [vm_compute; reflexivity|vm_compute; discriminate].
  - left. exists rv, (pfx4 167772160 8), 1. split; [left; reflexivity|]. split; [|reflexivity].
    apply conv_spec. vm_compute. reflexivity.
  - intros y H. unfold served in H. revert H. vm_compute. intros [].
Qed.
(** What holds: nothing is dropped while the file whose records were last published is less than
    24 hours old, nor without time checking. *)
Theorem C65_kept_partial : forall e c h i, wf_env e ->
  (forall t, exported_build e (after e c h) = Some t -> (i_late i <= t + day)%Z) \/ sc_check c = false ->
  forall x, served (after e c h) x -> ~ served (after e c (h ++ [i])) x ->
  recent e c (i_now i) (st_data (after e c (h ++ [i]))) /\
  ~ content (i_proc i) (st_slurm (after e c (h ++ [i]))) (st_data (after e c (h ++ [i]))) x.
Proof. intros e c h i HE HX x. rewrite after_snoc. now apply kept. Qed.
Example C65_case : wf_env env65 /\ exported_build env65 (after env65 cfgT [at_h 1 [1]]) = Some (hour 0) /\
  servedb (after env65 cfgT [at_h 1 [1]; at_h 23 [3]]) idv = true /\ servedb (after env65 cfgT [at_h 1 [1]; at_h 23 [3]]) idw = false.
Proof. split; [wf_sample|]. repeat split; vm_compute; reflexivity. Qed.
Print Assumptions C43_publishes_partial.
Print Assumptions C43_null_refuted.
Print Assumptions C44_quiet.
Print Assumptions C45_unchanged_refuted.
Print Assumptions C45_generated_refuted.
Print Assumptions C45_published_partial.
Print Assumptions C45_drop_partial.
Print Assumptions C46_stale_refuted.
Print Assumptions C46_duplicate_refuted.
Print Assumptions C46_current_partial.
Print Assumptions C47_silent.
Print Assumptions C48_drop_refuted.
Print Assumptions C48_announced_partial.
Print Assumptions C48_quiet_partial.
Print Assumptions C48_delivered_partial.
Print Assumptions C49_drop_refuted.
Print Assumptions C49_alias_refuted.
Print Assumptions C49_export_partial.
Print Assumptions C65_confirmed_refuted.
Print Assumptions C65_kept_partial.
