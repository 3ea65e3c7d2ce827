(** Property C118: a change of the data reaches every router. *)
From Coq Require Import ZArith ZifyBool ZifyNat ZifyN.
From Verif Require Import Model.Concurrent Spec.Sets Spec.History Spec.Response Spec.Router Spec.Net Spec.Conversation Spec.Answered Spec.Reached Spec.Isolated Spec.Follow Spec.Converge
  Proofs.DataP Proofs.CacheP Proofs.ConnP Proofs.ConcCacheP Proofs.NetP Proofs.ConversationP Proofs.AnsweredP Proofs.IsolatedP Proofs.ReachedP Proofs.RouterP Proofs.FollowP Proofs.ConvergeP
  Props.CacheProps Props.ConnProps Props.RouterProps Props.ConcProps Props.IsolatedProps.
Local Open Scope list_scope.
Local Open Scope N_scope.

(** C118 A change reaches every router.  The data changes and NotifyClientsLatest is called.  As long as
    the routers listed stay connected and read and the goroutines get turns, there is a moment when
    every listed router that has polled as in C95 and been answered has been sent a Serial Notify in
    its version and session with the new serial number, and has the records from before.  Each then
    sends, after waiting as long as it likes, a Serial Query with what it has; if it reads, there is a
    moment, whatever else happens, when it has exactly the new records that may be sent to it.  One
    question is enough: there is no Cache Reset on the way.  (The serial number does not wrap with
    this change; if it does, a router is sent a Cache Reset, C01.) *)
Theorem C118_change_reaches_routers : forall cfg s keep h new sched w w0, let srv := new_rtr_server cfg s in u16 s -> cfg_version cfg < 256 ->
  Forall (fun n => Forall wf_sd n /\ NoDup (ids n) /\ n <> []) (h ++ [new]) -> h <> [] ->
  let old := run (new_server keep) h in let cache := run (new_server keep) (h ++ [new]) in sdCurrentSerial old < 4294967295 ->
  nrun srv empty_net sched = Ok w -> n_notif w = NIdle -> (forall i k, In i (n_clients w) -> nth_error (n_conns w) i = Some k -> staying k) ->
  nstep srv w (LNotify (sdCurrentSerial cache)) = Ok w0 ->
  forall rs w', Forall (turn_all (n_clients w)) rs -> nrun srv w0 (concat rs) = Ok w' -> (patience w <= length rs)%nat ->
  exists r1 r2 w1, concat rs = r1 ++ r2 /\ nrun srv w0 r1 = Ok w1 /\ n_notif w1 = NIdle /\
    forall i v tr, In i (n_clients w) -> follows srv keep h sched w i v tr ->
    exists r, told w1 i = told w i ++ [SerialNotify v (session_of s v) (sdCurrentSerial cache)] /\
      listen v fresh_router [] (sent_on w1 i) = Some r /\ ro_at r = Some (session_of s v, sdCurrentSerial old) /\ in_sync v (keys_off tr cfg) r (last h []) /\
      forall wait w2 k2 chunk w3 k3, waits i wait -> nrun srv w1 wait = Ok w2 -> nth_error (n_conns w2) i = Some k2 -> written k2 ->
      bytes_for chunk (question v r) -> nstep srv w2 (LRead i cache chunk) = Ok w3 -> nth_error (n_conns w3) i = Some k3 ->
      forall rs2 w'', Forall (turn_each i) rs2 -> nrun srv w3 (concat rs2) = Ok w'' -> (outstanding k3 0 + 4 * notifier_steps (concat rs2) <= length rs2)%nat ->
      exists q1 q2 w4 r4, concat rs2 = q1 ++ q2 /\ nrun srv w3 q1 = Ok w4 /\
        listen v fresh_router [] (sent_on w4 i) = Some r4 /\ ro_at r4 = Some (session_of s v, sdCurrentSerial cache) /\ in_sync v (keys_off tr cfg) r4 new.
Proof.
  intros cfg s keep h new sched w w0 srv Hs Hb HU HN old cache HM HR ND ST H0 rs w' HTA HRS HL.
  destruct (converges cfg s keep h new sched w w0 Hs Hb HU HN HM HR ND ST H0 rs w' HTA HRS HL) as (r1 & r2 & w1 & A & B & C & D).
  exists r1, r2, w1. do 3 (split; [assumption|]). intros i v tr Hi (k & l & Hk & KT & KW & Hv & HA & EL & HT & HK).
  destruct (D i k v tr l _ Hi Hk Hv HA EL HT HK KT KW eq_refl) as (k1 & r & K1 & K2 & K3 & K4 & K5 & K6 & K7).
  exists r. unfold told. rewrite K1, Hk. do 4 (split; [assumption|]). exact K7.
Qed.

(** Two routers, of version 0 over TLS and of version 1 over TCP, and a third connection that comes
    during the notification.  The second router waits until the first has asked again. *)
Definition begin118 := [LAccept TLS; LStart 0; LAccept TCP; LStart 1; LRead 0 (day116 1) [0; 2; 0; 0; 0; 0; 0; 8]; LRead 1 (day116 1) reset_query] ++ many 6 (turns 0 ++ turns 1).
Definition rounds118 := let both := [LReader 0; LSender 0 WAll; LReader 1; LSender 1 WAll] in
  repeat (LNotifier :: both) 4 ++ [both ++ [LNotifier; LAccept TCP; LStart 2]] ++ repeat (both ++ [LReader 2; LNotifier]) 60.
Definition told118 := after srv1 (begin118 ++ LNotify 1 :: concat rounds118).
Definition wait118 := [LRead 0 (day116 2) [0; 1; 0; 7; 0; 0; 0; 12; 0; 0; 0; 0]; LReader 0; LSender 0 WAll].
Definition again118 := repeat [LSender 1 WAll; LReader 0; LSender 0 WAll; LReader 1; LNotifier] 3 ++ repeat [LSender 1 WAll; LReader 1; LReader 0; LSender 0 WAll] 60.
Lemma rounds118_fair : Forall (turn_all [0; 1]%nat) rounds118.
Proof.
  apply Forall_forall. intros r Hr. unfold rounds118 in Hr. cbv zeta in Hr. rewrite !in_app_iff in Hr.
  destruct Hr as [Hr|[Hr|Hr]]; [apply repeat_spec in Hr|destruct Hr as [Hr|[]]; symmetry in Hr|apply repeat_spec in Hr]; rewrite Hr; clear Hr r; cbn [app].
  all: split; [|split; [repeat (first [left; reflexivity|right])|intros n X; repeat (destruct X as [X|X]; [discriminate X|]); exact X]].
  all: intros i [<-|[<-|[]]]; (split; [repeat (first [left; reflexivity|right])|split; [repeat (first [left; reflexivity|right])|]]).
  all: repeat (apply Forall_cons; [cbv beta iota; first [exact I|intros _; exact eq_refl|intros X; discriminate X]|]). all: apply Forall_nil.
Qed.
Lemma again118_fair : Forall (turn_each 1) again118.
Proof.
  apply Forall_forall. intros r Hr. unfold again118 in Hr. rewrite !in_app_iff in Hr.
  destruct Hr as [Hr|Hr]; [apply repeat_spec in Hr; subst r|apply repeat_spec in Hr; subst r];
    (split; [repeat (first [left; reflexivity|right])|split; [repeat (first [left; reflexivity|right])|
      repeat (apply Forall_cons; [cbv beta iota; first [exact I|discriminate|intros _; reflexivity|intros X; discriminate X]|]); apply Forall_nil]]).
Qed.
Lemma follows118 : let w := after srv1 begin118 in
  follows srv1 3 [[x1; x4]] begin118 w 0 0 TLS /\ follows srv1 3 [[x1; x4]] begin118 w 1 1 TCP.
Proof.
  intros w. split.
  - eexists _, [Update [x1; x4]]. split; [vm_compute; reflexivity|]. split; [reflexivity|]. split; [split; [reflexivity|split; [reflexivity|vm_compute; reflexivity]]|].
    split; [discriminate|]. split; [unfold acceptable, accept; cbn; repeat split; try discriminate; auto|]. split; [reflexivity|]. split; [cbn; tauto|].
    apply As_update. settle. eapply As_once; [split; [discriminate|reflexivity]|vm_compute; reflexivity|now left|]. apply As_nil.
  - eexists _, [Update [x1; x4]]. split; [vm_compute; reflexivity|]. split; [reflexivity|]. split; [split; [reflexivity|split; [reflexivity|vm_compute; reflexivity]]|].
    split; [discriminate|]. split; [exact acceptable1|]. split; [reflexivity|]. split; [cbn; tauto|].
    apply As_update. settle. eapply As_once; [split; [discriminate|reflexivity]|vm_compute; reflexivity|now left|]. apply As_nil.
Qed.
Example C118_case : let w := after srv1 begin118 in
  runs srv1 begin118 = true /\ n_clients w = [0; 1]%nat /\ n_notif w = NIdle /\ (forall i k, In i (n_clients w) -> nth_error (n_conns w) i = Some k -> staying k) /\
  sdCurrentSerial (day116 1) = 0 /\ sdCurrentSerial (day116 2) = 1 /\
  runs srv1 (begin118 ++ LNotify 1 :: concat rounds118) = true /\ (patience w <= length rounds118)%nat /\
  map (fun k => map get_type (k_queued k)) (n_conns told118) = [[3; 4; 7; 0]; [3; 4; 9; 7; 0]; []] /\
  (exists w2 w3 k2 k3, waits 1 wait118 /\ nrun srv1 told118 wait118 = Ok w2 /\ nth_error (n_conns w2) 1 = Some k2 /\ written k2 /\
    nstep srv1 w2 (LRead 1 (day116 2) (serial_query 0)) = Ok w3 /\ nth_error (n_conns w3) 1 = Some k3 /\
    (outstanding k3 0 + 4 * notifier_steps (concat again118) <= length again118)%nat /\
    match nrun srv1 w3 (concat again118) with
    | Ok w4 => (option_map ro_set (listen 0 fresh_router [] (sent_on w4 0)), option_map ro_set (listen 1 fresh_router [] (sent_on w4 1)))
    | _ => (None, None) end = (Some (ids [x3]), Some (ids [x3; x4]))).
Proof.
  intros w. split; [vm_compute; reflexivity|].
  assert (C : n_clients w = [0; 1]%nat) by (vm_compute; reflexivity). split; [exact C|]. split; [vm_compute; reflexivity|]. rewrite C. split.
  { intros i k Hi Hk.
    assert (X : forallb (fun j => match nth_error (n_conns w) j with
      | Some k => k_flag k && k_up k && forallb (fun o => match o with OFlag => false | _ => true end) (k_prog k) | None => true end) [0; 1]%nat = true) by (vm_compute; reflexivity).
    rewrite forallb_forall in X. specialize (X i Hi). rewrite Hk in X. apply andb_prop in X as [X X3]. apply andb_prop in X as [X1 X2].
    split; [exact X1|]. split; [exact X2|]. intros F. rewrite forallb_forall in X3. specialize (X3 _ F). discriminate X3. }
  split; [vm_compute; reflexivity|]. split; [vm_compute; reflexivity|]. split; [vm_compute; reflexivity|].
  split; [apply Nat.leb_le; vm_compute; reflexivity|]. split; [vm_compute; reflexivity|].
  eexists _, _, _, _. split; [repeat (apply Forall_cons; [first [exact I|discriminate]|]); apply Forall_nil|].
  split; [vm_compute; reflexivity|]. split; [vm_compute; reflexivity|]. split; [split; [reflexivity|split; [reflexivity|vm_compute; reflexivity]]|].
  split; [vm_compute; reflexivity|]. split; [vm_compute; reflexivity|].
  split; [apply Nat.leb_le; vm_compute; reflexivity|]. vm_compute. reflexivity.
Qed.

Print Assumptions C118_change_reaches_routers.
