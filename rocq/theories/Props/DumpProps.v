(** The exact form of C57: when a dump of a server with data succeeds. *)
From Coq Require Import ZArith ZifyBool ZifyNat ZifyN.
From Verif Require Import Model.Rtrdump Model.Conn Spec.Wire Spec.Collect Spec.Sets Spec.Response Spec.History
  Proofs.DataP Proofs.WireP Proofs.WireP2 Proofs.ConnP Proofs.CacheP Proofs.SessionP Proofs.DumpP Proofs.DumpP2
  Props.CacheProps Props.ConnProps Props.ClientProps.
From Coq Require Import List.
Import ListNotations.
Local Open Scope N_scope.

(** C57, exactly: the dump of a server that has data succeeds if and only if every router
    key the server sends fits the wire format (key_fits); then the file has exactly what
    the server has, and otherwise there is no file at all.  The keys the server does not
    send, because of the version or of -disable.bgpsec, do not matter.  (Missing: a
    server without data; keys of four gigabytes.) *)
Theorem C57_exact_partial : forall cfg s tr keep h f v,
  u16 s -> cfg_version cfg < 256 -> cfg_refresh cfg < 2 ^ 32 -> cfg_retry cfg < 2 ^ 32 -> cfg_expire cfg < 2 ^ 32 ->
  Forall (Forall wf_sd) h ->
  let srv := new_rtr_server cfg s in
  let cache := run (new_server keep) h in
  let cur := get_current_sds cache in
  let w := negotiated srv v in
  let sent := filter (may_send w (keys_off tr cfg)) cur in
  cur <> [] -> Forall (fun d => match d with BgpsecKey _ _ k _ => 32 + nlen k < 2 ^ 32 | _ => True end) cur ->
  f_serial f = false -> dump_version f = Some v -> acceptable (accept tr srv) v ->
  exists q c' a b,
    encode (dump_query f v) = Ok q /\
    on_read srv cache (accept tr srv) q = Ok (c', a, false) /\
    encode_all (queued a) = Ok b /\ bytes_ok b /\
    forall rest, bytes_ok rest ->
      (~ Forall key_fits sent -> dump_main v (b ++ rest) = None) /\
      (Forall key_fits sent -> exists d, dump_main v (b ++ rest) = Some d /\
         d_session d = session_of s w /\ d_serial d = sdCurrentSerial cache /\
         d_count d = nlen (vrp_ids cur) /\
         map file_vrp (fst (reread d)) = map Some (vrp_ids cur) /\
         map file_key (snd (reread d)) = map Some (key_ids w (keys_off tr cfg) cur)).
Proof.
  intros cfg s tr keep h f v Hs Hc Hr1 Hr2 Hr3 Hh. cbv zeta. intros HN HBd Hfs Hfv HA.
  set (srv := new_rtr_server cfg s) in *. set (cache := run (new_server keep) h) in *.
  assert (Hv : v = 0 \/ v = 1) by apply HA.
  unfold dump_query. rewrite Hfs. unfold cs_send. cbn [set_version].
  assert (HWQ : wf_pdu (ResetQuery v)) by (cbn; unfold u8; lia).
  destruct (roundtrip (ResetQuery v) [] HWQ I ltac:(constructor)) as (q & HQ & HD). cbn [normal] in HD.
  destruct (C19_reset cfg s tr keep h (accept tr srv) v Hs Hc Hh) as (c' & HP & _ & _);
    [apply reach_accept|destruct tr; unfold accept; destruct (s_enforce srv), (s_disableBGPSec srv); reflexivity|exact HA|].
  cbv zeta in HP. fold srv cache in HP.
  replace (is_nil (get_current_sds cache)) with false in HP by (destruct (get_current_sds cache); [congruence|reflexivity]).
  set (w := negotiated srv v) in *.
  assert (Hw : u8 w) by (unfold w, negotiated, u8; lia).
  assert (HT : forall x d, x < 2 ^ 32 -> d < 2 ^ 32 -> u32 (timer x d)).
  { intros x d G1 G2. unfold timer. change (2 ^ 32) with 4294967296 in *. unfold u32. destruct (x =? 0); assumption. }
  pose proof (run_inv (new_server keep) h (inv_new keep) Hh) as (HI1 & _ & HI3). fold cache in HI1, HI3.
  assert (HSU : u16 (session_of s w)) by (unfold session_of, u16; lia).
  set (cur := get_current_sds cache) in *.
  set (t1 := timer (cfg_refresh cfg) 3600) in *. set (t2 := timer (cfg_retry cfg) 600) in *.
  set (t3 := timer (cfg_expire cfg) 7200) in *.
  assert (HT1 : u32 t1) by (apply HT; [assumption|reflexivity]).
  assert (HT2 : u32 t2) by (apply HT; [assumption|reflexivity]).
  assert (HT3 : u32 t3) by (apply HT; [assumption|reflexivity]).
  pose proof (handed_sent w (keys_off tr cfg) cur Hw HI1 HBd) as HH.
  set (ds := filter writes (map (data_pdu w) (filter (may_send w (keys_off tr cfg)) cur))) in *.
  assert (HHA : Forall handed (answer w (session_of s w) (sdCurrentSerial cache) t1 t2 t3 ds)).
  { unfold answer. apply Forall_app. split; [constructor; [|constructor]; split; [split; assumption|split; [left; exact I|exact I]]|].
    apply Forall_app. split; [exact HH|]. constructor; [|constructor]. split; [repeat (split; [assumption|]); assumption|split; [left; exact I|exact I]]. }
  destruct (handed_all _ HHA) as (b & HB & HBok).
  exists q, c'. eexists. exists b. split; [exact HQ|]. split.
  { unfold on_read. destruct q as [|q0 q']; [apply (f_equal (fun x => match x with Ok l => length l | _ => O end)) in HQ; discriminate HQ|].
    unfold decode_bytes. rewrite app_nil_r in HD. rewrite HD. cbn [bind fst]. rewrite HP. cbn [bind fst snd]. reflexivity. }
  split.
  { rewrite queued_map. rewrite encode_all_writes. rewrite <- HB. f_equal. unfold response, answer.
    rewrite !filter_app. reflexivity. }
  split; [exact HBok|]. intros rest HRest. split.
  - intros HF. destruct (first_misfit (filter (may_send w (keys_off tr cfg)) cur)) as [G|(l1 & d & l2 & E & F1 & F2)]; [contradiction|].
    assert (IN : forall x, In x (l1 ++ d :: l2) -> may_send w (keys_off tr cfg) x = true /\ In x cur) by (intros x Hx; rewrite <- E in Hx; apply filter_In in Hx; tauto).
    assert (HM : may_send w (keys_off tr cfg) d = true) by (apply IN; apply in_or_app; right; left; reflexivity).
    destruct (misfit_pdu w _ d HM F2) as (W1 & W2).
    assert (Hl1 : filter (may_send w (keys_off tr cfg)) l1 = l1).
    { assert (G : forall x, In x l1 -> may_send w (keys_off tr cfg) x = true) by (intros x Hx; apply IN; apply in_or_app; now left).
      clear -G. induction l1 as [|x l IH]; [reflexivity|]. cbn [filter]. rewrite (G x (or_introl eq_refl)), IH; [reflexivity|]. intros y Hy. apply G. now right. }
    assert (HW1 : Forall wf_sd l1).
    { rewrite Forall_forall in HI1. apply Forall_forall. intros x Hx. apply HI1. apply IN. apply in_or_app. now left. }
    destruct (data_sent w (keys_off tr cfg) l1 Hw HW1) as (D1 & D2 & D3 & _); [now rewrite Hl1|]. rewrite Hl1 in D1, D2, D3.
    assert (ED : ds = filter writes (map (data_pdu w) l1) ++ data_pdu w d :: filter writes (map (data_pdu w) l2)).
    { unfold ds. rewrite E, map_app, filter_app. cbn [map filter]. now rewrite W1. }
    rewrite ED in HH. apply Forall_app in HH as (_ & HH). inversion HH as [|? ? K1 K2]; subst.
    refine (dump_fails v w (session_of s w) _ (data_pdu w d) (filter writes (map (data_pdu w) l2) ++ [EndOfData w (session_of s w) (sdCurrentSerial cache) t1 t2 t3])
      b rest Hw HSU D1 D2 D3 K1 W2 _ HRest _).
    + apply Forall_app. split; [exact K2|]. unfold answer in HHA. apply Forall_app in HHA as (_ & HHA). apply Forall_app in HHA as (_ & HHA). exact HHA.
    + rewrite <- HB. unfold answer. rewrite ED, <- app_assoc. reflexivity.
  - intros HF. destruct (data_sent w (keys_off tr cfg) cur Hw HI1 HF) as (D1 & D2 & D3 & D4 & D5). fold ds in D1, D2, D3, D4, D5.
    destruct (dump_response v w (session_of s w) (sdCurrentSerial cache) t1 t2 t3 ds b Hw HSU HI3 HT1 HT2 HT3 D1 D2 D3 HB)
      as (d & R0 & R1 & R2 & R3 & R4 & R5).
    exists d. rewrite <- D4, <- D5. auto 10.
Qed.
(** One server, asked in version 0 and in version 1: the key of three bytes is sent, and in
    the way, only in version 1. *)
Definition h57 := [[x1; BgpsecKey 64499 (repeat 7 20) [48; 89; 1] 1]].
Example C57_exact_case : let cur := get_current_sds (run (new_server 3) h57) in let srv := new_rtr_server cfg1 7 in
  Forall (Forall wf_sd) h57 /\ cur <> [] /\
  dump_version (mkDF false 0 0 1) = Some 1 /\ acceptable (accept TCP srv) 1 /\ negotiated srv 1 = 1 /\ ~ Forall key_fits (filter (may_send 1 (keys_off TCP cfg1)) cur) /\
  dump_version (mkDF false 0 0 0) = Some 0 /\ acceptable (accept TCP srv) 0 /\ negotiated srv 0 = 0 /\ Forall key_fits (filter (may_send 0 (keys_off TCP cfg1)) cur).
Proof.
  cbv zeta. split; [apply wf_sdss_ok; vm_compute; reflexivity|]. split; [vm_compute; discriminate|]. split; [reflexivity|].
  split; [split; [right; reflexivity|vm_compute; discriminate]|]. split; [reflexivity|].
  split; [intros H; change (Forall key_fits [x1; BgpsecKey 64499 (repeat 7 20) [48; 89; 1] 1]) in H; apply Forall_inv_tail, Forall_inv in H; destruct (H eq_refl) as [G _]; vm_compute in G; apply G; reflexivity|].
  split; [reflexivity|]. split; [split; [left; reflexivity|vm_compute; discriminate]|]. split; [reflexivity|].
  change (Forall key_fits [x1]). constructor; [exact I|constructor].
Qed.

Print Assumptions C57_exact_partial.
