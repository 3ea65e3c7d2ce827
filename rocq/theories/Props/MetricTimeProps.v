(** Property C105: the metrics about downloads and times. *)
From Coq Require Import String ZifyBool ZifyNat ZifyN.
From Verif Require Import Lib.Str Model.MetricTimes Spec.Requests Proofs.CacheP Proofs.StateP Proofs.MetricTimesP
  Props.CacheProps Props.InputProps Props.StateProps.
From Coq Require Import List.
Local Open Scope string_scope.
Local Open Scope list_scope.
Local Open Scope N_scope.

(** C105 The metrics about downloads and times say what their descriptions promise: rpki_refresh is
    the time of the last successful request for a URL, refresh_requests_total the number of
    answers by status code, rpki_change the time of the last change. *)
Definition C105_statement : Prop := forall c l file,
  rm_refresh (snd (downloads c l)) file = last_success file l /\
  forall code, rm_requests (snd (downloads c l)) file (Z.of_N code) = answers file code l.

(** False: whatever is downloaded with whatever outcome, neither is ever set.  FetchFile gives the
    status code and the flag only together with an error, and with an error both callers return
    before they look at them. *)
Theorem C105_never_refuted : forall c l file code,
  rm_refresh (snd (downloads c l)) file = None /\ rm_requests (snd (downloads c l)) file code = 0.
Proof. intros c l file code. rewrite downloads_nothing. split; reflexivity. Qed.
(** A file that is there, is unchanged, and a web server in trouble. *)
Definition url : bytes := str "https://rpki.example/vrps.json".
Definition day105 : list download :=
  [mkDl url (hour 1) (Response 200 (str "v1") None (Some (str "{}"))) None; mkDl url (hour 2) (Response 304 [] None None) None;
   mkDl url (hour 3) (Response 200 (str "v1") None (Some (str "{}"))) None; mkDl url (hour 4) (Response 503 [] None None) None].
Example C105_never_case : is_http url = true /\ last_success url day105 = Some 10800%Z /\ answers url 200 day105 = 2 /\ answers url 304 day105 = 1 /\ answers url 503 day105 = 1.
Proof. repeat split; vm_compute; reflexivity. Qed.
Theorem C105_refuted : ~ C105_statement.
Proof.
  intros H. destruct (H (mkFC true true) day105 url) as [H1 _]. rewrite (proj1 (C105_never_refuted _ _ _ 0%Z)) in H1. vm_compute in H1. discriminate H1.
Qed.

(** rpki_change is not the time of the last change either: here a VRP expires ten hours after the
    file was read and is withdrawn, and the gauge goes on showing the time of the file.  (Nor is it
    set when everything is dropped, as C80 says of the others.) *)
Theorem C105_change_refuted : exists e c h h1 i h2 t, wf_env e /\ ordered_h h /\ last_change e c h h1 i h2 /\
  get_current_sds (st_server (after e c h)) <> [] /\ change_after e c h = Some t /\ (t < unix (i_got i))%Z.
Proof.
  exists env45, cfgN, [at_h 1 [1]; at_h 11 [1]], [at_h 1 [1]], (at_h 11 [1]), [], 3600%Z.
  split; [wf_sample|]. split; [apply ordered_two; cbn; lia|]. split.
  { split; [reflexivity|]. split; [|intros [|? ?] ? ? E; discriminate E]. intros H. apply (servedb_no (after env45 cfgN ([at_h 1 [1]] ++ [at_h 11 [1]])) idw).
    - vm_compute. reflexivity.
    - exact (proj1 (H idw) (servedb_ok (after env45 cfgN [at_h 1 [1]]) idw ltac:(vm_compute; reflexivity))). }
  split; [vm_compute; discriminate|]. split; vm_compute; reflexivity.
Qed.
(** What holds: whenever anything is served, rpki_change is the time at which the file that was
    current at the last change was first read. *)
Theorem C105_change_partial : forall e c h, wf_env e -> no_collision e (files h) -> no_collision e (slurm_files c h) ->
  get_current_sds (st_server (after e c h)) <> [] ->
  exists h1 i h2 a j b, last_change e c h h1 i h2 /\ last_new e (h1 ++ [i]) a j b /\ change_after e c h = Some (unix (i_got j)).
Proof. exact change_spec. Qed.
(** Two files; the second is read twice, then cannot be fetched; at hour 20 it is still served. *)
Example C105_change_case : let h := [at_h 1 [1]; at_h 2 [2]; at_h 3 [2]; mkIn (hour 20) None None] in
  wf_env env45 /\ get_current_sds (st_server (after env45 cfgN h)) <> [] /\
  map (fun n => change_after env45 cfgN (firstn n h)) [0; 1; 2; 3; 4]%nat = [None; Some 3600; Some 7200; Some 7200; Some 7200]%Z.
Proof. cbv zeta. split; [wf_sample|]. split; [vm_compute; discriminate|]. vm_compute. reflexivity. Qed.
(** The model of what FetchFile returns is that of C50, C67 and C68 with the code and flag added. *)
Theorem C105_returns : forall c s file web disk,
  snd (fetch_file c s file web disk) =
  match fr_err (fetch_ret c s file web disk), fr_data (fetch_ret c s file web disk) with
  | Some x, _ => Err x | None, Some b => Ok b | None, None => Panic end.
Proof. exact fetch_ret_same. Qed.
Example C105_returns_case : let web := fun (_ : bytes) (_ : request) => Response 200 (str "v1") None (Some (str "{}")) in
  snd (fetch_file (mkFC true true) new_fetch url web (fun _ => None)) = Ok (str "{}") /\
  fetch_ret (mkFC true true) new_fetch url web (fun _ => None) = mkRet (Some (str "{}")) (-1) false None /\
  fetch_ret (mkFC true true) (fst (downloads (mkFC true true) day105)) url (fun _ _ => Response 404 [] None None) (fun _ => None) =
    mkRet None 404 true (Some (EStatus 404)).
Proof. repeat split; vm_compute; reflexivity. Qed.

Print Assumptions C105_never_refuted.
Print Assumptions C105_refuted.
Print Assumptions C105_change_refuted.
Print Assumptions C105_change_partial.
Print Assumptions C105_returns.
