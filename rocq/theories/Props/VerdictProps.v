(** Property C117: routes are judged as file and local exceptions say. *)
From Coq Require Import String ZifyBool ZifyNat ZifyN.
From Verif Require Import Lib.Str Model.JsonFile Model.Chain Model.Conn Spec.Chain Spec.Sets Spec.History Spec.Response Spec.Input Spec.Refresh Spec.Router Spec.Rov Spec.EndToEnd
  Spec.Rfc8259 Spec.Rfc8416 Spec.JsonSame Spec.Auth Spec.Exceptions
  Proofs.DataP Proofs.CacheP Proofs.ConnP Proofs.StateP Proofs.ChainP Proofs.JsonStrP Proofs.JsonNumP Proofs.JsonFileP Proofs.JsonStateP Proofs.JsonFloatP Proofs.JsonPrintP Proofs.RouterP Proofs.EndToEndP Proofs.ExceptionsP
  Props.CacheProps Props.ConnProps Props.InputProps Props.StateProps Props.ChainProps Props.JsonProps Props.RouterProps Props.EndToEndProps.
From Coq Require Import List.
Local Open Scope string_scope.
Local Open Scope list_scope.
Local Open Scope N_scope.

(** C117 Routes are judged as file and local exceptions say.  A router that connects after any
    number of refreshes and asks for everything holds the records of the last readable file that
    no filter of the last readable SLURM file matches, and the assertions of the latter; so by
    RFC 6811 every route is valid, invalid or not found exactly as by those. *)
Theorem C117_records : forall e c cfg s v tr h i, wf_env e -> u16 s -> cfg_version cfg < 256 -> v <= cfg_version cfg ->
  acceptable (accept tr (new_rtr_server cfg s)) v -> ordered_h (h ++ [i]) ->
  no_collision e (files (h ++ [i])) -> no_collision e (slurm_files c (h ++ [i])) -> keys_once e c (h ++ [i]) ->
  let d := last_ok (e_decode e) empty_list (files (h ++ [i])) in
  let sl := last_ok (fun x => option_map Some (e_dslurm e x)) None (slurm_files c (h ++ [i])) in
  rl_roa d <> None -> recent e c (i_now i) d -> match sl with Some x => readable x | None => True end ->
  exists cl r, poll (new_rtr_server cfg s) v (st_server (State.after e c (h ++ [i]))) (accept tr (new_rtr_server cfg s)) fresh_router = Some (cl, r) /\
    (forall x, In x (ro_set r) <-> allowed v (keys_off tr cfg) x /\ due (i_proc i / 1000000000) sl (roa_of d) (rl_brk d) x) /\
    alike (fun x => In x (ro_set r)) (due (i_proc i / 1000000000) sl (roa_of d) (rl_brk d)).
Proof.
  intros e c cfg s v tr h i HE Hs Hb Hv HA HO N1 N2 HK. cbv zeta. intros HR HC HX.
  destruct (newcomer e c cfg s v tr (h ++ [i]) HE Hs Hb Hv HA HK) as (cl & r & E & HS).
  destruct (history e c (h ++ [i]) HE N1 N2) as (D1 & _ & D3 & _). unfold some_slurm in D3.
  pose proof (after_inv e c (h ++ [i]) HE) as (_ & _ & HW).
  assert (G : forall x, In x (ro_set r) <-> allowed v (keys_off tr cfg) x /\
    due (i_proc i / 1000000000) (last_ok (fun x => option_map Some (e_dslurm e x)) None (slurm_files c (h ++ [i])))
      (roa_of (last_ok (e_decode e) empty_list (files (h ++ [i])))) (rl_brk (last_ok (e_decode e) empty_list (files (h ++ [i])))) x).
  { intros x. rewrite HS. rewrite <- D1, <- D3. rewrite <- D1 in HR, HC. rewrite <- D3 in HX.
    rewrite (C46_current_partial e c h i HE HO HK HR HC x). rewrite content_due; [reflexivity|]. destruct (st_slurm _); [split; [exact HW|exact HX]|exact I]. }
  exists cl, r. split; [exact E|]. split; [exact G|]. apply alike_vrps. intros p a m. rewrite (G (RV p a m)). cbn [allowed]. tauto.
Qed.

(** With the two files as JSON texts. *)
Theorem C117_texts : forall room e c cfg s v tr h i t n o o' fmt m roa brk hs u n' q q' b64 pf bf pa ba,
  sorts (e_sort e) -> reads_text room e ->
  u16 s -> cfg_version cfg < 256 -> v <= cfg_version cfg -> acceptable (accept tr (new_rtr_server cfg s)) v ->
  ordered_h (h ++ [i]) -> no_collision e (files (h ++ [i])) -> no_collision e (slurm_files c (h ++ [i])) -> keys_once e c (h ++ [i]) ->
  (* the file *)
  i_file i = Some t -> (n <= N.to_nat 10000)%nat -> json_doc n (JObj o) t -> JObj o' = list_json fmt m (Some roa) brk -> same (JObj o) (JObj o') ->
  meta_fit m -> Forall (vrp_fit fmt) roa -> Forall brk_fit brk ->
  (forall d, rl_gen d = md_gen m -> rl_build d = md_build m -> recent e c (i_now i) d) ->
  (* the SLURM file *)
  slurm_files c (h ++ [i]) = hs ++ [Some u] -> (n' <= N.to_nat 10000)%nat -> json_doc n' (JObj q) u -> JObj q' = slurm_doc b64 pf bf pa ba -> same (JObj q) (JObj q') ->
  (forall k, bytes_ok k -> base64 k (b64 k)) ->
  Forall pfilter_ok pf -> Forall bfilter_ok bf -> Forall passert_ok pa -> Forall bassert_ok ba ->
  let sl := mkSlurm (map fst pf) (map fst bf) pa (map fst ba) in readable sl ->
  exists cl r, poll (new_rtr_server cfg s) v (st_server (State.after e c (h ++ [i]))) (accept tr (new_rtr_server cfg s)) fresh_router = Some (cl, r) /\
    (forall x, In x (ro_set r) <-> allowed v (keys_off tr cfg) x /\ due (i_proc i / 1000000000) (Some sl) roa brk x) /\
    alike (fun x => In x (ro_set r)) (due (i_proc i / 1000000000) (Some sl) roa brk).
Proof.
  intros room e c cfg s v tr h i t n o o' fmt m roa brk hs u n' q q' b64 pf bf pa ba HS HR Hs Hb Hv HA HO N1 N2 HK
    HI Hn HD HJ HM M1 M2 M3 HG HU Hn' HD' HJ' HM' H64 P1 P2 P3 P4. cbv zeta. intros HX.
  pose proof (C92_meaning_partial n o o' t room fmt m roa brk Hn HD HJ HM M1 M2 M3) as ER. destruct HR as [R1 R2].
  pose proof (C91_partial n' u q q' b64 pf bf pa ba Hn' HD' HJ' HM' H64 P1 P2 P3 P4) as ES.
  assert (EL : last_ok (e_decode e) empty_list (files (h ++ [i])) = mkRL (md_build m) (md_gen m) (Some (map again roa)) (room (List.length roa)) brk (room (List.length brk))).
  { unfold files. rewrite map_app, last_ok_app. cbn [map last_ok]. rewrite HI. cbn [last_ok]. now rewrite R1, ER. }
  assert (EU : last_ok (fun x => option_map Some (e_dslurm e x)) None (slurm_files c (h ++ [i])) = Some (mkSlurm (map fst pf) (map fst bf) pa (map fst ba))).
  { rewrite HU, last_ok_app. cbn [last_ok]. rewrite R2, ES. reflexivity. }
  pose proof (C117_records e c cfg s v tr h i (reads_wf room e HS (conj R1 R2)) Hs Hb Hv HA HO N1 N2 HK) as G. cbv zeta in G. rewrite EL, EU in G.
  destruct G as (cl & r & W1 & W2 & _); [discriminate|now apply HG|exact HX|].
  exists cl, r. split; [exact W1|].
  assert (E : forall x, In x (ro_set r) <-> allowed v (keys_off tr cfg) x /\ due (i_proc i / 1000000000) (Some (mkSlurm (map fst pf) (map fst bf) pa (map fst ba))) roa brk x).
  { intros x. rewrite W2. unfold roa_of. cbn [rl_roa rl_brk due]. rewrite listed_again; [reflexivity|].
    apply Forall_forall. intros w Hw. rewrite Forall_forall in M2. specialize (M2 w Hw). destruct M2 as (_ & A & B & _). split; [exact A|].
    destruct (vj_asn w); try exact I. exact B. }
  split; [exact E|]. apply alike_vrps. intros p a k. rewrite (E (RV p a k)). cbn [allowed]. tauto.
Qed.

(** What that means for a route: with an assertion for its prefix and origin it is valid; if all
    records of the file that cover it are filtered and no assertion covers it, it is not found. *)
Theorem C117_exceptions : forall now s roa brk,
  (forall p asn m b, included s (RV p asn m) -> p_bits p = Some b -> asn <> 0 -> valid (due now (Some s) roa brk) (mkRt p asn)) /\
  (forall t, (forall x, listed now roa brk x -> covering x t -> excluded s x) -> (forall x, included s x -> ~ covering x t) ->
     not_found (due now (Some s) roa brk) t).
Proof.
  intros now s roa brk. split.
  - intros p asn m b HI HB HN. exists (RV p asn m). split; [right; exact HI|]. split; [intros a _ H; exact H|]. split; [reflexivity|]. split; [exact HN|].
    exists b. split; [exact HB|]. cbn [included] in HI. destruct HI as (a & b' & _ & _ & HB' & _ & _ & -> & _). rewrite HB in HB'. injection HB' as <-. lia.
  - intros t H1 H2 (x & [[HL HX]|HI] & HC); [apply HX; now apply H1|now apply (H2 x HI)].
Qed.

(** A SLURM file as a text. *)
Definition doc117 : json := slurm_doc b64std pf91 bf91 pa91 ba91.
Definition sl117 : slurm := mkSlurm (map fst pf91) (map fst bf91) pa91 (map fst ba91).
Definition in117 : input := mkIn (hour 2) (Some file2) (Some (print doc117 ++ [10])).
Definition cfg117 : scfg := State.mkSC true false true true.
Lemma doc117_doc : json_doc 4 doc117 (print doc117 ++ [10]).
Proof.
  apply print_doc; [|exact nl_ws]. 
  assert (B : forall k, is_text (b64std k)) by (intros k; apply text_ascii; eapply Forall_impl; [|apply b64std_chars]; cbn beta; tauto).
  unfold doc117, slurm_doc, pf91, bf91, pa91, ba91. cbn [map]. apply good_obj.
  constructor; [split; [ascii|apply (good_num 3 (dec 1)), dec_number]|].
  assert (P : forall k n, is_text k -> Forall (fun kv => is_text (fst kv) /\ JsonFileP.good n (snd kv)) (maybe_str "prefix" k)) by (intros k n H; unfold maybe_str; destruct k; [apply Forall_nil|constructor; [split; [ascii|apply good_str; exact H]|constructor]]).
  assert (M : forall k n, is_text k -> Forall (fun kv => is_text (fst kv) /\ JsonFileP.good n (snd kv)) (maybe_str "comment" k)) by (intros k n H; unfold maybe_str; destruct k; [apply Forall_nil|constructor; [split; [ascii|apply good_str; exact H]|constructor]]).
  assert (A : forall k n, Forall (fun kv => is_text (fst kv) /\ JsonFileP.good n (snd kv)) (maybe_num "asn" k)) by (intros k n; unfold maybe_num; destruct k; [constructor; [split; [ascii|apply good_num, dec_number]|constructor]|apply Forall_nil]).
  assert (J : forall n l, Forall (JsonFileP.good n) l -> JsonFileP.good (S n) (JArr l)) by (intros n l H; exact H).
  assert (O : forall n a b, is_text (fst a) -> is_text (fst b) -> JsonFileP.good n (snd a) -> JsonFileP.good n (snd b) -> JsonFileP.good (S n) (JObj [a; b])).
  { intros n a b H1 H2 H3 H4. apply good_obj. apply Forall_cons; [auto|]. apply Forall_cons; [auto|apply Forall_nil]. }
  apply Forall_cons; [split; [ascii|]|apply Forall_cons; [split; [ascii|]|apply Forall_nil]]; cbn [snd]; (apply O; [ascii|ascii|cbn [snd]; apply J|cbn [snd]; apply J]).
  - apply Forall_cons; [|apply Forall_cons; [|apply Forall_nil]]; apply good_obj; cbn [fst snd pf_prefix pf_asn];
      (apply Forall_app; split; [apply P; ascii|apply Forall_app; split; [apply A|apply M; ascii]]).
  - apply Forall_cons; [|apply Forall_nil]. apply good_obj. cbn [fst snd bf_asn bf_ski]. apply Forall_app. split; [apply A|]. apply Forall_app. split; [|apply M; ascii].
    apply Forall_cons; [split; [ascii|apply good_str, B]|apply Forall_nil].
  - apply Forall_cons; [|apply Forall_cons; [|apply Forall_nil]]; apply good_obj; cbn [fst snd pa_asn pa_prefix pa_maxlen pa_comment app];
      (apply Forall_cons; [split; [ascii|apply good_num, dec_number]|]; apply Forall_cons; [split; [ascii|apply good_str; ascii]|]; apply Forall_app; split; [|apply M; ascii]).
    + apply Forall_cons; [split; [ascii|apply good_num, zdec_number]|apply Forall_nil].
    + apply Forall_nil.
  - apply Forall_cons; [|apply Forall_nil]. apply good_obj. cbn [fst snd ba_asn ba_ski ba_key app]. apply Forall_cons; [split; [ascii|apply good_num, dec_number]|].
    apply Forall_cons; [split; [ascii|apply good_str, B]|]. apply Forall_cons; [split; [ascii|apply good_str, B]|]. apply M. ascii.
Qed.
Example C117_case : ordered_h [at_h 1 fileV; in117] /\ keys_once text_env cfg117 [at_h 1 fileV; in117] /\
  json_doc 3 json96 file2 /\ slurm_files cfg117 [at_h 1 fileV; in117] = [None] ++ [Some (print doc117 ++ [10])] /\ json_doc 4 doc117 (print doc117 ++ [10]) /\
  readable sl117 /\
  option_map (fun w => ro_set (snd w)) (poll (new_rtr_server cfg1 7) 1 (st_server (State.after text_env cfg117 [at_h 1 fileV; in117])) (accept TCP (new_rtr_server cfg1 7)) fresh_router) =
    Some [RK 7 ski20 [1; 2; 3; 4]; RK 9 (map N.of_nat (seq 0 20)) [1; 2; 3; 4]; RV (pfx4 168296448 16) 6 16; RV (pfx4 168361984 16) 5 24; idv].
Proof.
  split; [apply ordered_two; cbn; lia|]. split; [apply once_two; intros h [<-|[<-|[<-|[]]]]; vm_compute;
    [apply NoDup_nil|apply NoDup_nil|apply NoDup_cons; [intros [H|[]]; discriminate H|apply NoDup_cons; [intros []|apply NoDup_nil]]]|].
  split; [destruct C92_meaning_case as (M1 & M2 & M3 & _); apply print_doc; [now apply list_good|exact nl_ws]|].
  split; [reflexivity|]. split; [exact doc117_doc|]. split.
  { split; [intros f [<-|[<-|[]]]; [right; vm_compute; discriminate|left; reflexivity]|intros a [<-|[<-|[]]]; reflexivity]. }
  vm_compute. reflexivity.
Qed.

Print Assumptions C117_records.
Print Assumptions C117_texts.
Print Assumptions C117_exceptions.
