(** Property C96: from the files to the router. *)
From Coq Require Import String ZifyBool ZifyNat ZifyN.
From Verif Require Import Lib.Str Model.JsonFile Model.Chain Model.Conn Spec.Chain Spec.Sets Spec.History Spec.Response Spec.Refresh Spec.Router Spec.EndToEnd
  Spec.Rfc8259 Spec.JsonSame
  Proofs.DataP Proofs.CacheP Proofs.ConnP Proofs.StateP Proofs.ChainP Proofs.JsonFileP Proofs.JsonStateP Proofs.JsonFloatP Proofs.JsonPrintP Proofs.RouterP Proofs.EndToEndP Proofs.RefillDaemonP
  Props.CacheProps Props.ConnProps Props.InputProps Props.StateProps Props.ChainProps Props.JsonProps Props.RouterProps.
From Coq Require Import List.
Local Open Scope string_scope.
Local Open Scope list_scope.
Local Open Scope N_scope.

(** C96 From the file to the router.  The full statement: after a poll the router holds the records
    that the last readable file and SLURM file stand for, as far as its connection may carry
    them. *)
Definition C96_statement : Prop := forall e c cfg s v tr l h i, wf_env e -> u16 s -> cfg_version cfg < 256 -> v <= cfg_version cfg ->
  acceptable (accept tr (new_rtr_server cfg s)) v -> turns l = h ++ [i] -> ordered_h (turns l) ->
  no_collision e (files (turns l)) -> no_collision e (slurm_files c (turns l)) ->
  let d := last_ok (e_decode e) empty_list (files (turns l)) in
  let sl := last_ok (fun x => option_map Some (e_dslurm e x)) None (slurm_files c (turns l)) in
  rl_roa d <> None -> recent e c (i_now i) d ->
  exists w, dplay e c (new_rtr_server cfg s) tr v (dstart (new_rtr_server cfg s) tr) (l ++ [Ask]) = Some w /\
    forall x, In x (ro_set (da_router w)) <-> allowed v (keys_off tr cfg) x /\ content (i_proc i) sl d x.

(** What holds: if the router polls after every refresh, there is always something to serve and no
    router key is listed twice. *)
Theorem C96_router_partial : forall e c cfg s v tr l h i, wf_env e -> u16 s -> cfg_version cfg < 256 -> v <= cfg_version cfg ->
  acceptable (accept tr (new_rtr_server cfg s)) v -> turns l = h ++ [i] -> ordered_h (turns l) ->
  no_collision e (files (turns l)) -> no_collision e (slurm_files c (turns l)) ->
  prompt None (l ++ [Ask]) -> never_empty e c (turns l) -> keys_once e c (turns l) ->
  let d := last_ok (e_decode e) empty_list (files (turns l)) in
  let sl := last_ok (fun x => option_map Some (e_dslurm e x)) None (slurm_files c (turns l)) in
  rl_roa d <> None -> recent e c (i_now i) d ->
  exists w, dplay e c (new_rtr_server cfg s) tr v (dstart (new_rtr_server cfg s) tr) (l ++ [Ask]) = Some w /\
    forall x, In x (ro_set (da_router w)) <-> allowed v (keys_off tr cfg) x /\ content (i_proc i) sl d x.
Proof.
  intros e c cfg s v tr l h i HE Hs Hb Hv HA HT HO N1 N2 HP HN HK. cbv zeta. intros HR HC.
  destruct (router_served e c cfg s v tr l HE Hs Hb Hv HA) as (w & W1 & _ & W2); auto; [rewrite HT; destruct h; discriminate|].
  destruct (history e c (turns l) HE N1 N2) as (D1 & _ & D3 & _). unfold some_slurm in D3.
  exists w. split; [exact W1|]. intros x. rewrite W2, <- D1, <- D3. rewrite <- D1 in HR, HC. rewrite HT in *.
  pose proof (C46_current_partial e c h i HE HO HK HR HC x) as E. tauto.
Qed.

(** With a file in JSON and no SLURM: the router holds exactly the VRPs and router keys the text
    lists that are valid and not expired - whatever the order of its members, whatever else it
    says, however it is written. *)
Theorem C96_text_partial : forall room e c cfg s v tr l h i t n o o' fmt m roa brk,
  sorts (e_sort e) -> reads_text room e -> sc_slurm c = false ->
  u16 s -> cfg_version cfg < 256 -> v <= cfg_version cfg -> acceptable (accept tr (new_rtr_server cfg s)) v ->
  turns l = h ++ [i] -> ordered_h (turns l) -> no_collision e (files (turns l)) ->
  prompt None (l ++ [Ask]) -> never_empty e c (turns l) -> keys_once e c (turns l) ->
  i_file i = Some t -> (n <= N.to_nat 10000)%nat -> json_doc n (JObj o) t -> JObj o' = list_json fmt m (Some roa) brk -> same (JObj o) (JObj o') ->
  meta_fit m -> Forall (vrp_fit fmt) roa -> Forall brk_fit brk ->
  (forall d, rl_gen d = md_gen m -> rl_build d = md_build m -> recent e c (i_now i) d) ->
  exists w, dplay e c (new_rtr_server cfg s) tr v (dstart (new_rtr_server cfg s) tr) (l ++ [Ask]) = Some w /\
    forall x, In x (ro_set (da_router w)) <-> allowed v (keys_off tr cfg) x /\ listed (i_proc i / 1000000000) roa brk x.
Proof.
  intros room e c cfg s v tr l h i t n o o' fmt m roa brk HS HR HC Hs Hb Hv HA HT HO N1 HP HN HK HI Hn HD HJ HM M1 M2 M3 HG.
  pose proof (C92_meaning_partial n o o' t room fmt m roa brk Hn HD HJ HM M1 M2 M3) as ER. destruct HR as [R1 R2].
  assert (EL : last_ok (e_decode e) empty_list (files (turns l)) = mkRL (md_build m) (md_gen m) (Some (map again roa)) (room (List.length roa)) brk (room (List.length brk))).
  { rewrite HT. unfold files. rewrite map_app, last_ok_app. cbn [map last_ok]. rewrite HI. cbn [last_ok]. now rewrite R1, ER. }
  assert (ES : slurm_files c (turns l) = []) by (unfold slurm_files; now rewrite HC).
  pose proof (C96_router_partial e c cfg s v tr l h i (reads_wf room e HS (conj R1 R2)) Hs Hb Hv HA HT HO N1) as G. cbv zeta in G. rewrite EL, ES in G.
  destruct G as (w & W1 & W2); auto; [intros a b []|discriminate|]. exists w. split; [exact W1|]. intros x. rewrite W2. cbn [last_ok content rl_brk]. unfold roa_of. cbn [rl_roa].
  rewrite listed_again; [tauto|]. apply Forall_forall. intros u Hu. rewrite Forall_forall in M2. specialize (M2 u Hu). destruct M2 as (_ & A & B & _). split; [exact A|].
  destruct (vj_asn u); try exact I. exact B.
Qed.

(** A file, a poll, a second file with a router key, a new connection, a poll. *)
Definition meta96 : meta := mkMeta 2 1 (str "2024") (Some 7%Z) 0 0.
Definition json96 : json := list_json exact_fmt meta96 (Some roa92) [key20].
Definition file2 : bytes := print json96 ++ [10].
Definition file0 : bytes := q "{'roas':[]}".
Definition fileV : bytes := q "{'roas':[{'prefix':'10.0.0.0/8','maxLength':8,'asn':1}]}".
Definition fileW : bytes := q "{'roas':[{'prefix':'10.1.0.0/16','maxLength':24,'asn':2}]}".
Definition day96 : list devent := [Turn (at_h 1 fileV); Ask; Turn (at_h 2 file2); Again].
Lemma text_nc l : no_collision text_env l.
Proof. intros x y _ _ E. exact E. Qed.
Lemma never_two e c a b : (exists x, served (State.after e c [a]) x) -> (exists x, served (State.after e c [a; b]) x) -> never_empty e c [a; b].
Proof. intros H1 H2 [|x [|y h1]] i h2 E; [now injection E as <- _|now injection E as <- <- _|destruct h1; discriminate E]. Qed.
Lemma once_two e c a b : (forall h, In h [[]; [a]; [a; b]] -> no_dup_keys (st_slurm (State.after e c h)) (st_data (State.after e c h))) -> keys_once e c [a; b].
Proof.
  intros H [|x [|y [|z h1]]] h2 E; apply H; [now left| | |destruct h1; discriminate E].
  - injection E as <- _. right. now left.
  - injection E as <- <- _. right. right. now left.
Qed.
Example C96_text_case : turns day96 = [at_h 1 fileV] ++ [at_h 2 file2] /\ ordered_h (turns day96) /\
  prompt None (day96 ++ [Ask]) /\ never_empty text_env cfgN (turns day96) /\ keys_once text_env cfgN (turns day96) /\
  json_doc 3 json96 file2 /\ meta_fit meta96 /\ Forall (vrp_fit exact_fmt) roa92 /\ Forall brk_fit [key20] /\
  option_map (fun w => ro_set (da_router w)) (dplay text_env cfgN (new_rtr_server cfg1 7) TCP 1 (dstart (new_rtr_server cfg1 7) TCP) (day96 ++ [Ask])) =
    Some [RK 9 (map N.of_nat (seq 0 20)) [1; 2; 3; 4]; idw; idv].
Proof.
  destruct C92_meaning_case as (M1 & M2 & M3 & _).
  split; [reflexivity|]. split; [apply ordered_two; cbn; lia|]. split; [vm_compute; intuition discriminate|].
  split; [apply never_two; (exists idv; apply servedb_ok; vm_compute; reflexivity)|].
  split; [apply once_two; intros h [<-|[<-|[<-|[]]]]; vm_compute; repeat constructor; intros []|].
  split; [apply print_doc; [now apply list_good|exact nl_ws]|]. do 3 (split; [assumption|]). vm_compute. reflexivity.
Qed.

(** False: two refreshes between polls. *)
Theorem C96_behind_refuted : ~ C96_statement.
Proof.
  intros H. destruct (H text_env cfgN cfg1 7 1 TCP [Turn (at_h 1 fileV); Ask; Turn (at_h 2 file1); Turn (at_h 3 fileW)] [at_h 1 fileV; at_h 2 file1] (at_h 3 fileW)) as (w & HP & HS).
  - apply (reads_wf (fun _ => 0%nat)); apply text_env_reads.
  - reflexivity.
  - reflexivity.
  - discriminate.
  - exact acceptable1.
  - reflexivity.
  - apply ordered_three; cbn; lia.
  - apply text_nc.
  - apply text_nc.
  - vm_compute. discriminate.
  - discriminate.
  - vm_compute in HP. injection HP as <-. specialize (HS idv). cbn [da_router ro_set] in HS. destruct HS as [HS _].
    destruct HS as [_ HS]; [vm_compute; tauto|]. 
    change (content (i_proc (at_h 3 fileW)) None (match reader (fun _ => 0%nat) fileW with Some d => d | None => empty_list end) idv) in HS.
    destruct HS as [(u & p & asn & HU & _ & E)|(b & ski & _ & _ & _ & E)]; [|discriminate E].
    vm_compute in HU. destruct HU as [<-|[]]. discriminate E.
Qed.
(** False too when the file lists nothing any more: the router keeps all it has. *)
Theorem C96_emptied_refuted : exists e c cfg s v tr l h i, wf_env e /\ u16 s /\ cfg_version cfg < 256 /\ v <= cfg_version cfg /\
  acceptable (accept tr (new_rtr_server cfg s)) v /\ turns l = h ++ [i] /\ ordered_h (turns l) /\
  no_collision e (files (turns l)) /\ prompt None (l ++ [Ask]) /\ i_file i = Some file0 /\ st_data (State.after e c (turns l)) = mkRL [] None (Some []) 0 [] 0 /\
  exists w, dplay e c (new_rtr_server cfg s) tr v (dstart (new_rtr_server cfg s) tr) (l ++ [Ask]) = Some w /\ ro_set (da_router w) = [idv].
Proof.
  exists text_env, cfgN, cfg1, 7, 1, TCP, [Turn (at_h 1 fileV); Ask; Turn (at_h 2 file0)], [at_h 1 fileV], (at_h 2 file0).
  split; [apply (reads_wf (fun _ => 0%nat)); apply text_env_reads|]. do 2 (split; [reflexivity|]). split; [discriminate|]. split; [exact acceptable1|].
  split; [reflexivity|]. split; [apply ordered_two; cbn; lia|]. split; [apply text_nc|]. split; [vm_compute; intuition discriminate|].
  split; [reflexivity|]. split; [vm_compute; reflexivity|]. eexists. split; vm_compute; reflexivity.
Qed.

(** Indeed whatever came before, as long as nothing is served no poll changes the router. *)
Theorem C96_kept_refuted : forall e c cfg s v tr l w, wf_env e -> u16 s -> cfg_version cfg < 256 -> v <= cfg_version cfg ->
  acceptable (accept tr (new_rtr_server cfg s)) v ->
  dplay e c (new_rtr_server cfg s) tr v (dstart (new_rtr_server cfg s) tr) l = Some w -> (forall x, ~ served (State.after e c (turns l)) x) ->
  forall k, exists w', dplay e c (new_rtr_server cfg s) tr v (dstart (new_rtr_server cfg s) tr) (l ++ repeat Ask k) = Some w' /\
    da_router w' = da_router w.
Proof. exact asks_empty. Qed.
Example C96_kept_case : let l := [Turn (at_h 1 fileV); Ask; Turn (at_h 2 file0)] in
  exists w, dplay text_env cfgN (new_rtr_server cfg1 7) TCP 1 (dstart (new_rtr_server cfg1 7) TCP) l = Some w /\
    get_current_sds (st_server (State.after text_env cfgN (turns l))) = [] /\ ro_set (da_router w) = [idv].
Proof. eexists. split; [vm_compute; reflexivity|]. split; vm_compute; reflexivity. Qed.

(** And when a later file lists something again: a router that polled before the store was emptied
    (and whether it polls in between or not) then holds both the old records and the new ones ... *)
Theorem C96_refilled_refuted : forall e c cfg s v tr l quiet i0 i1, wf_env e -> u16 s -> cfg_version cfg < 256 -> v <= cfg_version cfg ->
  acceptable (accept tr (new_rtr_server cfg s)) v ->
  turns l <> [] -> never_empty e c (turns l) -> keys_once e c (turns l) -> prompt None (l ++ [Ask]) -> Forall (fun x => x = Ask \/ x = Again) quiet ->
  (forall x, ~ served (State.after e c (turns l ++ [i0])) x) -> (exists x, served (State.after e c (turns l ++ [i0; i1])) x) ->
  no_dup_keys (st_slurm (State.after e c (turns l ++ [i0; i1]))) (st_data (State.after e c (turns l ++ [i0; i1]))) ->
  serial_of (State.after e c (turns l)) < 4294967290 ->
  (forall x, served (State.after e c (turns l)) x -> ~ served (State.after e c (turns l ++ [i0; i1])) x) ->
  exists w, dplay e c (new_rtr_server cfg s) tr v (dstart (new_rtr_server cfg s) tr) (l ++ [Ask; Turn i0] ++ quiet ++ [Turn i1; Ask]) = Some w /\
    forall x, In x (ro_set (da_router w)) <-> allowed v (keys_off tr cfg) x /\
      (served (State.after e c (turns l)) x \/ served (State.after e c (turns l ++ [i0; i1])) x).
Proof.
  intros e c cfg s v tr l quiet i0 i1 HE Hs Hb Hv HA HT HN HK HP HQ H0 H1 K1 HS.
  apply (ask_refilled e c cfg s v tr l quiet i0 i1 HE Hs Hb Hv HA HT HN HK HP HQ H0 H1 K1 HS).
Qed.
(** ... or, if one of the old records that it was sent is listed again, is announced what it has
    (error 7 of RFC 8210).  This is what happens after the data were found too old (C45) and a
    new file with mostly the same content arrives. *)
Theorem C96_twice_refuted : forall e c cfg s v tr l quiet i0 i1, wf_env e -> u16 s -> cfg_version cfg < 256 -> v <= cfg_version cfg ->
  acceptable (accept tr (new_rtr_server cfg s)) v ->
  turns l <> [] -> never_empty e c (turns l) -> keys_once e c (turns l) -> prompt None (l ++ [Ask]) -> Forall (fun x => x = Ask \/ x = Again) quiet ->
  (forall x, ~ served (State.after e c (turns l ++ [i0])) x) ->
  no_dup_keys (st_slurm (State.after e c (turns l ++ [i0; i1]))) (st_data (State.after e c (turns l ++ [i0; i1]))) ->
  serial_of (State.after e c (turns l)) < 4294967290 ->
  (exists x, allowed v (keys_off tr cfg) x /\ served (State.after e c (turns l)) x /\ served (State.after e c (turns l ++ [i0; i1])) x) ->
  dplay e c (new_rtr_server cfg s) tr v (dstart (new_rtr_server cfg s) tr) (l ++ [Ask; Turn i0] ++ quiet ++ [Turn i1; Ask]) = None.
Proof.
  intros e c cfg s v tr l quiet i0 i1 HE Hs Hb Hv HA HT HN HK HP HQ H0 K1 HS HX.
  assert (H1 : exists x, served (State.after e c (turns l ++ [i0; i1])) x) by (destruct HX as (x & _ & _ & HX); eauto).
  now apply (ask_refilled e c cfg s v tr l quiet i0 i1 HE Hs Hb Hv HA HT HN HK HP HQ H0 H1 K1 HS).
Qed.
(** The file with nothing, a poll, a new connection; then the file with another VRP, or the first
    file again. *)
Example C96_refilled_case : let go := dplay text_env cfgN (new_rtr_server cfg1 7) TCP 1 (dstart (new_rtr_server cfg1 7) TCP) in
  let l := [Turn (at_h 1 fileV)] ++ [Ask; Turn (at_h 2 file0)] ++ [Ask; Again; Ask] in
  get_current_sds (st_server (State.after text_env cfgN (turns l))) = [] /\ serial_of (State.after text_env cfgN (turns [Turn (at_h 1 fileV)])) = 0 /\
  option_map (fun w => ro_set (da_router w)) (go (l ++ [Turn (at_h 3 fileW); Ask])) = Some [idw; idv] /\
  ids (get_current_sds (st_server (State.after text_env cfgN [at_h 1 fileV; at_h 2 file0; at_h 3 fileV]))) = [idv] /\
  option_map (fun w => ro_set (da_router w)) (go (l ++ [Turn (at_h 3 fileV)])) = Some [idv] /\ go (l ++ [Turn (at_h 3 fileV); Ask]) = None.
Proof. do 5 (split; [vm_compute; reflexivity|]). vm_compute. reflexivity. Qed.

(** C45 seen from the router: even when the daemon finds out that the data are too old and empties
    its store "to avoid routing on stale data" (stayrtr.go:612-619), a router that goes on polling
    is told "no data" each time and goes on routing on them (until its own Expire Interval ends,
    see C107_dropped; [router] has no timers). *)
Theorem C45_router_refuted : forall e c cfg s v tr l h i b t w, wf_env e -> u16 s -> cfg_version cfg < 256 -> v <= cfg_version cfg ->
  acceptable (accept tr (new_rtr_server cfg s)) v -> turns l = h ++ [i] -> h <> [] ->
  no_collision e (files (h ++ [i])) -> no_collision e (slurm_files c (h ++ [i])) -> news e c h i ->
  sc_check c = true -> rl_roa (st_data (State.after e c (h ++ [i]))) <> None ->
  built e (st_data (State.after e c (h ++ [i]))) = Some b -> (b + day < i_now i)%Z ->
  exported_build e (State.after e c h) = Some t -> (t + day < i_late i)%Z ->
  dplay e c (new_rtr_server cfg s) tr v (dstart (new_rtr_server cfg s) tr) l = Some w ->
  (forall x, ~ served (State.after e c (turns l)) x) /\
  forall k, exists w', dplay e c (new_rtr_server cfg s) tr v (dstart (new_rtr_server cfg s) tr) (l ++ repeat Ask k) = Some w' /\
    da_router w' = da_router w.
Proof.
  intros e c cfg s v tr l h i b t w HE Hs Hb Hv HA HT Hh N1 N2 HN HC HR HB HL HX HY HP.
  assert (E : forall x, ~ served (State.after e c (turns l)) x) by (rewrite HT; now apply (C45_drop_partial e c h i b t)).
  split; [exact E|]. now apply asks_empty.
Qed.
(** The case of C45_case with a router that has polled in between: at thirty hours the store is
    emptied, after three more polls the router still has both VRPs. *)
Example C45_router_case : let l := [Turn (at_h 1 [1]); Ask; Turn (at_h 30 [2])] in
  no_collision env45 (files (turns l)) /\ no_collision env45 (slurm_files cfgS (turns l)) /\ (hour 0 + day < hour 30)%Z /\ (hour 2 + day < hour 30)%Z /\
  exists w, dplay env45 cfgS (new_rtr_server cfg1 7) TCP 1 (dstart (new_rtr_server cfg1 7) TCP) (l ++ repeat Ask 3) = Some w /\
    get_current_sds (st_server (State.after env45 cfgS (turns l))) = [] /\ ro_set (da_router w) = [idv; idw].
Proof.
  cbv zeta. do 2 (split; [intros x y _ _ E; exact E|]). do 2 (split; [reflexivity|]). eexists. split; [vm_compute; reflexivity|]. split; vm_compute; reflexivity.
Qed.

Print Assumptions C96_router_partial.
Print Assumptions C96_text_partial.
Print Assumptions C96_behind_refuted.
Print Assumptions C96_emptied_refuted.
Print Assumptions C96_kept_refuted.
Print Assumptions C96_refilled_refuted.
Print Assumptions C96_twice_refuted.
Print Assumptions C45_router_refuted.
