(** Property C119: a new file reaches every router. *)
From Coq Require Import String ZArith ZifyBool ZifyNat ZifyN.
From Verif Require Import Lib.Str Model.Concurrent Model.JsonFile Spec.Sets Spec.History Spec.Input Spec.Refresh Spec.Response Spec.Router Spec.Rov Spec.EndToEnd Spec.Exceptions Spec.Net Spec.Conversation
  Spec.Answered Spec.Reached Spec.Isolated Spec.Follow Spec.Converge Spec.NewFile
  Proofs.DataP Proofs.CacheP Proofs.ConnP Proofs.StateP Proofs.RouterP Proofs.EndToEndP Proofs.ExceptionsP Proofs.NewFileP
  Props.CacheProps Props.ConnProps Props.StateProps Props.JsonProps Props.RouterProps Props.EndToEndProps Props.VerdictProps Props.ConcProps Props.IsolatedProps Props.ConvergeProps.
From Coq Require Import List.
Local Open Scope list_scope.
Local Open Scope N_scope.

(** C119 A new file reaches every router.  The daemon has refreshed any number of times and refreshes
    once more, and this time notifies.  As long as the routers listed stay connected and read and the
    goroutines get turns, there is a moment when every listed router that has polled after every
    refresh so far has been sent a Serial Notify with the new serial number.  It then sends, after
    waiting as long as it likes, a Serial Query; if it reads, there is a moment, whatever else
    happens, when it has exactly the records that may be sent to it of what is due: those of the last
    readable file that no filter of the last readable SLURM file matches, and the assertions of the
    latter; and judges every route by them.  (As in C95 and C96 there is always something to serve; as
    in C46 no router key is listed twice.) *)
Theorem C119_file_reaches_routers : forall e c cfg s h i n sched w w0, let srv := new_rtr_server cfg s in
  wf_env e -> u16 s -> cfg_version cfg < 256 -> h <> [] ->
  ordered_h (h ++ [i]) -> no_collision e (files (h ++ [i])) -> no_collision e (slurm_files c (h ++ [i])) -> never_empty e c (h ++ [i]) -> keys_once e c (h ++ [i]) ->
  let d := last_ok (e_decode e) empty_list (files (h ++ [i])) in
  let sl := last_ok (fun x => option_map Some (e_dslurm e x)) None (slurm_files c (h ++ [i])) in
  let now := (i_proc i / 1000000000)%Z in
  rl_roa d <> None -> recent e c (i_now i) d -> match sl with Some x => readable x | None => True end ->
  snd (turn e c h i) = [n] -> serial_of (State.after e c h) < 4294967295 ->
  nrun srv empty_net sched = Ok w -> n_notif w = NIdle -> (forall j k, In j (n_clients w) -> nth_error (n_conns w) j = Some k -> staying k) ->
  nstep srv w (LNotify n) = Ok w0 ->
  forall rs w', Forall (turn_all (n_clients w)) rs -> nrun srv w0 (concat rs) = Ok w' -> (patience w <= length rs)%nat ->
  exists r1 r2 w1, concat rs = r1 ++ r2 /\ nrun srv w0 r1 = Ok w1 /\ n_notif w1 = NIdle /\
    forall j v tr, In j (n_clients w) -> keeps_up e c srv h sched w j v tr ->
    exists r, told w1 j = told w j ++ [SerialNotify v (session_of s v) n] /\
      listen v fresh_router [] (sent_on w1 j) = Some r /\ ro_at r = Some (session_of s v, serial_of (State.after e c h)) /\
      (forall x, In x (ro_set r) <-> allowed v (keys_off tr cfg) x /\ served (State.after e c h) x) /\
      forall wait w2 k2 chunk w3 k3, waits j wait -> nrun srv w1 wait = Ok w2 -> nth_error (n_conns w2) j = Some k2 -> written k2 ->
      bytes_for chunk (question v r) -> nstep srv w2 (LRead j (st_server (State.after e c (h ++ [i]))) chunk) = Ok w3 -> nth_error (n_conns w3) j = Some k3 ->
      forall rs2 w'', Forall (turn_each j) rs2 -> nrun srv w3 (concat rs2) = Ok w'' -> (outstanding k3 0 + 4 * notifier_steps (concat rs2) <= length rs2)%nat ->
      exists q1 q2 w4 r4, concat rs2 = q1 ++ q2 /\ nrun srv w3 q1 = Ok w4 /\
        listen v fresh_router [] (sent_on w4 j) = Some r4 /\ ro_at r4 = Some (session_of s v, n) /\
        (forall x, In x (ro_set r4) <-> allowed v (keys_off tr cfg) x /\ due now sl (roa_of d) (rl_brk d) x) /\
        alike (fun x => In x (ro_set r4)) (due now sl (roa_of d) (rl_brk d)).
Proof.
  intros e c cfg s h i n sched w w0 srv HE Hs Hb HNE HO N1 N2 HN HK d sl now HR HC HX HT HM HW ND ST H0 rs w' HTA HRS HL.
  assert (HNh : never_empty e c h) by (intros h1 j h2 E; apply (HN h1 j (h2 ++ [i])); rewrite E, <- app_assoc; reflexivity).
  assert (HKh : keys_once e c h) by (intros h1 h2 E; apply (HK h1 (h2 ++ [i])); now rewrite E, <- app_assoc).
  destruct (feeds_ex e c h HE [] HNh HKh) as (us & FE). destruct (feeds_run e c h [] us FE) as [FU FR]. cbn [app] in FR. change (st_server (State.after e c [])) with (new_server 3) in FR.
  destruct (turn_tells e c h i HE) as (m & M1 & M2 & M3); [apply (HN h i []); reflexivity|apply (HK (h ++ [i]) []); now rewrite app_nil_r|rewrite HT; discriminate|].
  rewrite HT in M3. injection M3 as EN.
  assert (CA : st_server (State.after e c (h ++ [i])) = run (new_server 3) (concat us ++ [m])) by (rewrite M2, FR; symmetry; apply run_app).
  assert (UN : concat us <> []).
  { intros E. rewrite E in FR. destruct h as [|j h'] using rev_ind; [now apply HNE|]. destruct (HNh h' j [] eq_refl) as (x & X). unfold served in X. rewrite FR in X. exact X. }
  assert (FU' : Forall (fun n => Forall wf_sd n /\ NoDup (ids n) /\ n <> []) (concat us ++ [m])) by (apply Forall_app; split; [exact FU|constructor; [exact M1|constructor]]).
  assert (FW : Forall (Forall wf_sd) (concat us ++ [m])) by (eapply Forall_impl; [|exact FU']; intros a (A & _); exact A).
  assert (FW1 : Forall (Forall wf_sd) (concat us)) by (apply Forall_app in FW; tauto).
  change (serial_of (State.after e c h)) with (sdCurrentSerial (st_server (State.after e c h))) in *. rewrite FR in HM.
  pose proof (C118_change_reaches_routers cfg s 3 (concat us) m sched w w0 Hs Hb FU' UN HM HW ND ST) as G. cbv zeta in G. rewrite <- CA, <- EN in G.
  destruct (G H0 rs w' HTA HRS HL) as (r1 & r2 & w1 & A & B & C & D). clear G.
  exists r1, r2, w1. do 3 (split; [assumption|]). intros j v tr Hj HU. apply (keeps_up_follows e c srv h us sched w j v tr FE) in HU.
  destruct (D j v tr Hj HU) as (r & R1 & R2 & R3 & R4 & R5). exists r. split; [exact R1|]. split; [exact R2|]. split; [rewrite FR; exact R3|].
  assert (SYNC : forall q H, Forall (Forall wf_sd) H -> in_sync v (keys_off tr cfg) q (last H []) ->
    forall x, In x (ro_set q) <-> allowed v (keys_off tr cfg) x /\ In x (ids (sdCurrent (run (new_server 3) H)))).
  { intros q H HF S x. rewrite (S x). rewrite (last_run 3 H HF x), <- okr_allowed. split.
    - intros (a & I1 & I2 & <-). rewrite may_okr in I2. split; [exact I2|now apply in_ids].
    - intros [I1 I2]. apply ids_in in I2 as (a & I2 & <-). exists a. rewrite may_okr. auto. }
  split; [intros x; unfold served, get_current_sds; rewrite FR; now apply SYNC|].
  intros wait w2 k2 chunk w3 k3 V1 V2 V3 V4 V5 V6 V7 rs2 w'' V8 V9 V10.
  destruct (R5 wait w2 k2 chunk w3 k3 V1 V2 V3 V4 V5 V6 V7 rs2 w'' V8 V9 V10) as (q1 & q2 & w4 & r4 & Q1 & Q2 & Q3 & Q4 & Q5).
  exists q1, q2, w4, r4. do 4 (split; [assumption|]).
  destruct (history e c (h ++ [i]) HE N1 N2) as (D1 & _ & D3 & _). unfold some_slurm in D3. pose proof (after_inv e c (h ++ [i]) HE) as (_ & _ & HWS).
  assert (E : forall x, In x (ro_set r4) <-> allowed v (keys_off tr cfg) x /\ due now sl (roa_of d) (rl_brk d) x).
  { intros x. rewrite (SYNC r4 (concat us ++ [m]) FW) by (rewrite last_last; exact Q5). rewrite <- CA.
    change (In x (ids (sdCurrent (st_server (State.after e c (h ++ [i])))))) with (served (State.after e c (h ++ [i])) x).
    subst d sl. rewrite <- D1, <- D3. rewrite <- D1 in HR, HC. rewrite <- D3 in HX.
    rewrite (C46_current_partial e c h i HE HO HK HR HC x). rewrite content_due; [reflexivity|]. destruct (st_slurm _); [split; [exact HWS|exact HX]|exact I]. }
  split; [exact E|]. apply alike_vrps. intros p a k. rewrite (E (RV p a k)). cbn [allowed]. tauto.
Qed.

(** Two routers, of version 0 over TLS and of version 1 over TCP, have the first file; the second file
    comes with the SLURM file of C117.  A third connection comes during the notification. *)
Definition first119 : server := Eval vm_compute in st_server (State.after text_env cfg117 [at_h 1 fileV]).
Definition second119 : server := Eval vm_compute in st_server (State.after text_env cfg117 [at_h 1 fileV; in117]).
Lemma first119_eq : st_server (State.after text_env cfg117 [at_h 1 fileV]) = first119.
Proof. vm_compute. reflexivity. Qed.
Lemma second119_eq : st_server (State.after text_env cfg117 [at_h 1 fileV; in117]) = second119.
Proof. vm_compute. reflexivity. Qed.
Definition begin119 := [LAccept TLS; LStart 0; LAccept TCP; LStart 1; LRead 0 first119 [0; 2; 0; 0; 0; 0; 0; 8]; LRead 1 first119 reset_query] ++ many 6 (IsolatedProps.turns 0 ++ IsolatedProps.turns 1).
Definition told119 := ConcProps.after srv1 (begin119 ++ LNotify 1 :: concat rounds118).
Lemma keeps_up119 : let w := ConcProps.after srv1 begin119 in
  keeps_up text_env cfg117 srv1 [at_h 1 fileV] begin119 w 0 0 TLS /\ keeps_up text_env cfg117 srv1 [at_h 1 fileV] begin119 w 1 1 TCP.
Proof.
  intros w. split.
  - eexists _, [Turn (at_h 1 fileV)]. split; [vm_compute; reflexivity|]. split; [reflexivity|]. split; [split; [reflexivity|split; [reflexivity|vm_compute; reflexivity]]|].
    split; [discriminate|]. split; [unfold acceptable, accept; cbn; repeat split; try discriminate; auto|]. split; [reflexivity|]. split; [cbn; tauto|].
    assert (X : arrives srv1 0 empty_net begin119 = [(first119, [0; 2; 0; 0; 0; 0; 0; 8])]) by (vm_compute; reflexivity). rewrite X, <- first119_eq. clear X.
    apply Da_turn. eapply (Da_once text_env cfg117 srv1 TLS 0 (mkDa [at_h 1 fileV] (accept TLS srv1) fresh_router) [0; 2; 0; 0; 0; 0; 0; 8]);
      [split; [discriminate|reflexivity]|cbn [da_turns]; rewrite first119_eq; vm_compute; reflexivity|now left|]. apply Da_nil.
  - eexists _, [Turn (at_h 1 fileV)]. split; [vm_compute; reflexivity|]. split; [reflexivity|]. split; [split; [reflexivity|split; [reflexivity|vm_compute; reflexivity]]|].
    split; [discriminate|]. split; [exact acceptable1|]. split; [reflexivity|]. split; [cbn; tauto|].
    assert (X : arrives srv1 1 empty_net begin119 = [(first119, reset_query)]) by (vm_compute; reflexivity). rewrite X, <- first119_eq. clear X.
    apply Da_turn. eapply (Da_once text_env cfg117 srv1 TCP 1 (mkDa [at_h 1 fileV] (accept TCP srv1) fresh_router) reset_query);
      [split; [discriminate|reflexivity]|cbn [da_turns]; rewrite first119_eq; vm_compute; reflexivity|now left|]. apply Da_nil.
Qed.
Example C119_case : let w := ConcProps.after srv1 begin119 in let h := [at_h 1 fileV] in
  ordered_h (h ++ [in117]) /\ never_empty text_env cfg117 (h ++ [in117]) /\ keys_once text_env cfg117 (h ++ [in117]) /\ readable sl117 /\
  snd (turn text_env cfg117 h in117) = [1] /\ sdCurrentSerial first119 = 0 /\
  runs srv1 begin119 = true /\ n_clients w = [0; 1]%nat /\ n_notif w = NIdle /\ (forall j k, In j (n_clients w) -> nth_error (n_conns w) j = Some k -> staying k) /\
  runs srv1 (begin119 ++ LNotify 1 :: concat rounds118) = true /\ (patience w <= length rounds118)%nat /\
  map (fun k => map get_type (k_queued k)) (n_conns told119) = [[3; 4; 7; 0]; [3; 4; 7; 0]; []] /\
  (exists w3 k3, nstep srv1 told119 (LRead 1 second119 (serial_query 0)) = Ok w3 /\ nth_error (n_conns w3) 1 = Some k3 /\
    (outstanding k3 0 + 4 * notifier_steps (concat again118) <= length again118)%nat /\
    match nrun srv1 w3 (concat again118) with Ok w4 => option_map ro_set (listen 1 fresh_router [] (sent_on w4 1)) | _ => None end =
      Some [RK 7 ski20 [1; 2; 3; 4]; RK 9 (map N.of_nat (seq 0 20)) [1; 2; 3; 4]; RV (pfx4 168296448 16) 6 16; RV (pfx4 168361984 16) 5 24; idv]).
Proof.
  intros w h. split; [apply ordered_two; cbn; lia|].
  split; [apply never_two; [exists idv|exists idv]; apply servedb_ok; vm_compute; reflexivity|].
  destruct C117_case as (_ & K & _ & _ & _ & R & _). split; [exact K|]. split; [exact R|]. split; [vm_compute; reflexivity|]. split; [vm_compute; reflexivity|].
  split; [vm_compute; reflexivity|].
  assert (C : n_clients w = [0; 1]%nat) by (vm_compute; reflexivity). split; [exact C|]. split; [vm_compute; reflexivity|]. rewrite C. split.
  { intros i k Hi Hk.
    assert (X : forallb (fun j => match nth_error (n_conns w) j with
      | Some k => k_flag k && k_up k && forallb (fun o => match o with OFlag => false | _ => true end) (k_prog k) | None => true end) [0; 1]%nat = true) by (vm_compute; reflexivity).
    rewrite forallb_forall in X. specialize (X i Hi). rewrite Hk in X. apply andb_prop in X as [X X3]. apply andb_prop in X as [X1 X2].
    split; [exact X1|]. split; [exact X2|]. intros F. rewrite forallb_forall in X3. specialize (X3 _ F). discriminate X3. }
  split; [vm_compute; reflexivity|]. split; [apply Nat.leb_le; vm_compute; reflexivity|]. split; [vm_compute; reflexivity|].
  eexists _, _. split; [vm_compute; reflexivity|]. split; [vm_compute; reflexivity|].
  split; [apply Nat.leb_le; vm_compute; reflexivity|]. vm_compute. reflexivity.
Qed.

Print Assumptions C119_file_reaches_routers.
