(** Properties C19 to C24 and C27 to C29: one client connection. *)
From Coq Require Import String ZifyBool ZifyNat ZifyN.
From Verif Require Import Lib.Str Model.Conn Spec.Sets Spec.History Spec.Response Spec.Wire
  Proofs.DataP Proofs.CacheP Proofs.ConnP Props.CacheProps.
Local Open Scope list_scope.
Local Open Scope N_scope.

(** Sample configurations and caches. *)
Definition cfg1 := mkConfig 0 1 false 3 false 0 900 0.
Definition cfg0 := mkConfig 0 0 false 3 false 0 0 0.
Definition cfgNoKeys := mkConfig 0 1 false 3 true 0 0 0.
Definition cacheA := run (new_server 3) [[x1]; [x1; x4; x3]].
Definition est1 := c_set_version 1 (accept TCP (new_rtr_server cfg1 7)).
Lemma est1_reach : reach (new_rtr_server cfg1 7) TCP est1.
Proof.
  apply (reach_pdu _ _ (accept TCP (new_rtr_server cfg1 7)) (new_server 3) (ResetQuery 1) est1
    [Queue (no_data 1)]).
  - apply reach_accept.
  - reflexivity.
  - vm_compute. reflexivity.
Qed.

(** C19 Reset Query response shape. *)
Theorem C19_reset : forall cfg s tr keep h c v,
  u16 s -> cfg_version cfg < 256 -> Forall (Forall wf_sd) h ->
  reach (new_rtr_server cfg s) tr c -> c_connected c = true -> acceptable c v ->
  let cache := run (new_server keep) h in
  let w := negotiated (new_rtr_server cfg s) v in
  exists c', process (new_rtr_server cfg s) cache c (ResetQuery v) =
    Ok (c', map Queue
      (if is_nil (get_current_sds cache) then [no_data w]
       else response w (session_of s w) (sdCurrentSerial cache)
              (timer (cfg_refresh cfg) 3600) (timer (cfg_retry cfg) 600) (timer (cfg_expire cfg) 7200)
              (keys_off tr cfg) (get_current_sds cache)))
    /\ c_version c' = w /\ c_connected c' = true.
Proof.
  intros cfg s tr keep h c v Hs Hb Hh Hr Hc HA. cbv zeta.
  pose proof (reach_cinv cfg s tr c Hs Hb Hr) as HI.
  destruct (process_ok cfg s tr (run (new_server keep) h) c (ResetQuery v) Hs HI HA) as (c4 & HE & B1 & B2 & B3 & HI4).
  cbn [get_version] in B1. exists c4. split; [|split; [exact B1|congruence]].
  rewrite <- HE. cbn [pass_simple_handler].
  rewrite (request_cache_eq cfg s tr) by (auto; apply run_inv; auto using inv_new).
  rewrite B1. unfold get_current_sds, negotiated. cbn [new_rtr_server baseVersion].
  destruct (sdCurrent (run (new_server keep) h)); reflexivity.
Qed.
Example C19_case : exists c', process (new_rtr_server cfg1 7) cacheA est1 (ResetQuery 1) =
  Ok (c', map Queue [CacheResponse 1 107; IPv4Prefix 1 1 24 64496 (pfx4 3221225984 24);
     RouterKey 1 1 (repeat 7 20) 64499 [48; 89; 1; 2];
     IPv6Prefix 1 1 48 64498 (mkPrefix (A6 42540766411282592856903984951653826560) (Some 32));
     EndOfData 1 107 1 3600 900 7200]).
Proof. eexists. vm_compute. reflexivity. Qed.

(** C20 Serial Query decision. *)
Theorem C20_serial : forall cfg s tr keep h c v sess q,
  u16 s -> cfg_version cfg < 256 -> Forall (Forall wf_sd) h ->
  reach (new_rtr_server cfg s) tr c -> c_connected c = true -> acceptable c v ->
  let cache := run (new_server keep) h in
  let w := negotiated (new_rtr_server cfg s) v in
  exists c' a, process (new_rtr_server cfg s) cache c (SerialQuery v sess q) = Ok (c', a) /\ c_version c' = w /\
  ((sess <> session_of s w /\ a = [Queue (corrupt_data w); Disc] /\ c_connected c' = false)
   \/ (sess = session_of s w /\ c_connected c' = true /\
       ((get_current_sds cache = [] /\ a = [Queue (no_data w)])
        \/ (get_current_sds cache <> [] /\
            (sdCurrentSerial cache < q \/ q + nlen (sdListDiff cache) < sdCurrentSerial cache) /\
            a = [Queue (CacheReset w)])
        \/ (exists d, get_current_sds cache <> [] /\ get_sds_serial_diff cache q = Ok d /\
            a = map Queue (response w sess (sdCurrentSerial cache)
              (timer (cfg_refresh cfg) 3600) (timer (cfg_retry cfg) 600) (timer (cfg_expire cfg) 7200)
              (keys_off tr cfg) d))))).
Proof.
  intros cfg s tr keep h c v sess q Hs Hb Hh Hr Hc HA. cbv zeta.
  pose proof (reach_cinv cfg s tr c Hs Hb Hr) as HI.
  set (cache := run (new_server keep) h).
  destruct (process_ok cfg s tr cache c (SerialQuery v sess q) Hs HI HA) as (c4 & HE & B1 & B2 & B3 & HI4).
  cbn [get_version] in B1. cbn [pass_simple_handler] in HE.
  pose proof (request_new_version_eq cfg s tr cache c4 sess q Hs Hb HI4) as HR.
  cbv zeta in HR. rewrite HR in HE by (intros d; now apply serial_diff_wf). clear HR.
  rewrite <- HE, B1. unfold negotiated, get_current_sds. cbn [new_rtr_server baseVersion].
  destruct (sess =? session_of s (N.min v (cfg_version cfg))) eqn:ES; cbn [negb].
  - exists c4. eexists. split; [reflexivity|]. split; [exact B1|]. right. split; [lia|]. split; [congruence|].
    destruct (sdCurrent cache) as [|x l] eqn:EC; [left; auto|].
    destruct (serial_diff_cases cache q) as [(_ & E)|[(H & E)|(_ & _ & d & _ & E)]]; rewrite E.
    + right. right. exists []. split; [discriminate|]. auto.
    + right. left. split; [discriminate|]. split; [lia|reflexivity].
    + right. right. exists d. split; [discriminate|]. auto.
  - exists (c_set_disconnected c4). eexists. split; [reflexivity|]. split; [exact B1|]. left.
    split; [lia|]. split; reflexivity.
Qed.
Example C20_case : exists c', process (new_rtr_server cfg1 7) cacheA est1 (SerialQuery 1 107 0) =
  Ok (c', map Queue [CacheResponse 1 107; RouterKey 1 1 (repeat 7 20) 64499 [48; 89; 1; 2];
     IPv6Prefix 1 1 48 64498 (mkPrefix (A6 42540766411282592856903984951653826560) (Some 32));
     EndOfData 1 107 1 3600 900 7200]).
Proof. eexists. vm_compute. reflexivity. Qed.
Example C20_case_reset : exists c', process (new_rtr_server cfg1 7) cacheA est1 (SerialQuery 1 107 5) =
  Ok (c', [Queue (CacheReset 1)]).
Proof. eexists. vm_compute. reflexivity. Qed.

(** C21 Router keys go only to clients that may have them: holds for version 0 clients
    on every transport, and with DisableBGPSec over TCP and TLS ... *)
Theorem C21_router_keys_partial : forall cfg s tr cache c p c' a q,
  u16 s -> cfg_version cfg < 256 -> reach (new_rtr_server cfg s) tr c -> c_connected c = true ->
  process (new_rtr_server cfg s) cache c p = Ok (c', a) ->
  In (Queue q) a -> get_type q = PDU_ID_ROUTER_KEY ->
  c_version c' <> 0 /\ get_version q <> 0 /\ (tr <> SSH -> cfg_disableBGPSec cfg = false).
Proof.
  intros cfg s tr cache c p c' a q Hs Hb Hr Hc HP Hq Ht.
  pose proof (reach_cinv cfg s tr c Hs Hb Hr) as HI.
  destruct (process_total cfg s tr cache c p Hs Hb HI) as (c2 & a2 & E & HI2 & H1 & H2 & H3 & H4 & H5).
  rewrite HP in E. inversion E; subst c2 a2.
  destruct (H2 q Hq Ht) as [G1 G2]. pose proof (H1 q Hq) as G3.
  split; [exact G1|]. split; [congruence|].
  destruct tr; cbn in G2; auto. intros G. now contradiction G.
Qed.
Example C21_case_keys : exists c' a, reach (new_rtr_server cfg1 7) TCP est1 /\ process (new_rtr_server cfg1 7) cacheA est1 (ResetQuery 1) = Ok (c', a) /\
  In (Queue (RouterKey 1 1 (repeat 7 20) 64499 [48; 89; 1; 2])) a /\ c_version c' = 1 /\ cfg_disableBGPSec cfg1 = false.
Proof.
  eexists. eexists. split; [exact est1_reach|]. split; [vm_compute; reflexivity|]. split; [cbn; tauto|]. split; reflexivity.
Qed.
(** ... but over SSH DisableBGPSec is ignored. *)
Theorem C21_ssh_refuted : exists cfg s cache p c' a q,
  u16 s /\ cfg_disableBGPSec cfg = true /\
  process (new_rtr_server cfg s) cache (accept SSH (new_rtr_server cfg s)) p = Ok (c', a) /\
  In (Queue q) a /\ get_type q = PDU_ID_ROUTER_KEY.
Proof.
  exists cfgNoKeys, 7, cacheA, (ResetQuery 1). eexists _, _. exists (RouterKey 1 1 (repeat 7 20) 64499 [48; 89; 1; 2]).
  split; [reflexivity|]. split; [reflexivity|]. split; [vm_compute; reflexivity|].
  split; [cbn; tauto|reflexivity].
Qed.
Example C21_case_tcp : exists c', process (new_rtr_server cfgNoKeys 7) cacheA (accept TLS (new_rtr_server cfgNoKeys 7)) (ResetQuery 1) =
  Ok (c', map Queue [CacheResponse 1 107; IPv4Prefix 1 1 24 64496 (pfx4 3221225984 24);
     IPv6Prefix 1 1 48 64498 (mkPrefix (A6 42540766411282592856903984951653826560) (Some 32));
     EndOfData 1 107 1 3600 600 7200]).
Proof. eexists. vm_compute. reflexivity. Qed.

(** C22 Responses are in the negotiated version. *)
Theorem C22_version : forall cfg s tr cache c p,
  u16 s -> cfg_version cfg < 256 -> reach (new_rtr_server cfg s) tr c -> c_connected c = true ->
  exists c' a, process (new_rtr_server cfg s) cache c p = Ok (c', a) /\
    c_version c' <= cfg_version cfg /\
    forall q, In (Queue q) a -> get_version q = c_version c'.
Proof.
  intros cfg s tr cache c p Hs Hb Hr Hc. pose proof (reach_cinv cfg s tr c Hs Hb Hr) as HI.
  destruct (process_total cfg s tr cache c p Hs Hb HI) as (c2 & a2 & E & HI2 & H1 & _).
  exists c2, a2. split; [exact E|]. split; [apply HI2|exact H1].
Qed.
Example C22_case : exists c', process (new_rtr_server cfg0 7) cacheA (accept TCP (new_rtr_server cfg0 7)) (ResetQuery 1) =
  Ok (c', map Queue [CacheResponse 0 7; IPv4Prefix 0 1 24 64496 (pfx4 3221225984 24);
     IPv6Prefix 0 1 48 64498 (mkPrefix (A6 42540766411282592856903984951653826560) (Some 32));
     EndOfData 0 7 1 3600 600 7200]).
Proof. eexists. vm_compute. reflexivity. Qed.

(** C23 Version negotiation: the first acceptable version, lowered to the server's, is
    fixed; PDUs in another version get error 4 and a disconnection. *)
Theorem C23_negotiation : forall cfg s tr cache c p,
  u16 s -> cfg_version cfg < 256 -> reach (new_rtr_server cfg s) tr c -> c_connected c = true ->
  exists c' a, process (new_rtr_server cfg s) cache c p = Ok (c', a) /\
    (* once set the version never changes *)
    (c_versionset c = true -> c_versionset c' = true /\ c_version c' = c_version c) /\
    (* it is set by the first PDU in a supported version *)
    (c_versionset c = false -> get_version p = 0 \/ get_version p = 1 ->
       c_versionset c' = true /\ c_version c' = N.min (get_version p) (cfg_version cfg)) /\
    (* everything else is refused *)
    ((c_versionset c = true /\ get_version p <> c_version c) \/ 1 < get_version p ->
       c_connected c' = false /\ c_versionset c' = c_versionset c /\ c_version c' = c_version c /\
       exists rest, a = Queue (bad_version (c_version c)) :: Disc :: rest).
Proof.
  intros cfg s tr cache c p Hs Hb Hr Hc. pose proof (reach_cinv cfg s tr c Hs Hb Hr) as HI.
  destruct (process_total cfg s tr cache c p Hs Hb HI) as (c2 & a2 & E & HI2 & H1 & H2 & H3 & H4 & H5).
  exists c2, a2. split; [exact E|]. split; [exact H3|]. split.
  - intros HF HV. apply H4. split; [tauto|]. congruence.
  - intros HB. apply H5. intros [G1 G2]. destruct HB as [[G3 G4]|G3]; [auto|lia].
Qed.
Example C23_case_first : exists c', process (new_rtr_server cfg0 7) cacheA (accept TCP (new_rtr_server cfg0 7)) (SerialQuery 1 7 1) =
  Ok (c', [Queue (CacheResponse 0 7); Queue (EndOfData 0 7 1 3600 600 7200)]) /\
  c_versionset (accept TCP (new_rtr_server cfg0 7)) = false /\ c_versionset c' = true /\ c_version c' = 0.
Proof. eexists. split; [vm_compute; reflexivity|]. repeat split. Qed.
(** With EnforceVersion the version is the server's from the start. *)
Theorem C23_enforced : forall cfg s tr c, u16 s -> cfg_version cfg < 256 -> cfg_enforce cfg = true ->
  reach (new_rtr_server cfg s) tr c -> c_versionset c = true /\ c_version c = cfg_version cfg.
Proof.
  intros cfg s tr c Hs Hb He Hr. destruct (reach_cinv cfg s tr c Hs Hb Hr) as (_ & _ & _ & _ & H & _). auto.
Qed.
Example C23_case : exists c', process (new_rtr_server cfg1 7) (new_server 3) est1 (ResetQuery 0) =
  Ok (c', [Queue (bad_version 1); Disc; Queue (no_data 1)]).
Proof. eexists. vm_compute. reflexivity. Qed.

(** The PDU types of a version, RFC 6810 section 5 and RFC 8210 section 5: the check of the
    library that the server makes of clients told to enforce their version. *)
Definition version_types (v : N) : list N :=
  match v with 0 => [0; 1; 2; 3; 4; 6; 7; 8; 10] | 1 => [0; 1; 2; 3; 4; 6; 7; 8; 9; 10] | _ => [] end.
Theorem C23_pdu_types : forall p v, is_correct_pdu_version p v = true <-> In (get_type p) (version_types v).
Proof.
  intros p v. unfold is_correct_pdu_version. destruct (1 <? v) eqn:E.
  - split; [discriminate|]. destruct v as [|[|[]|]]; try lia; intros [].
  - destruct (N.eq_dec v 0) as [->|N0]; [|assert (v = 1) as -> by lia].
    + destruct p; vm_compute; split; intros H; solve [reflexivity|discriminate H|repeat (first [left; reflexivity|right])|repeat (destruct H as [H|H]; [discriminate H|]); destruct H].
    + destruct p; vm_compute; split; intros H; solve [reflexivity|repeat (first [left; reflexivity|right])].
Qed.
Example C23_case_types : is_correct_pdu_version (RouterKey 0 1 [] 1 []) 0 = false /\ is_correct_pdu_version (RouterKey 1 1 [] 1 []) 1 = true /\ is_correct_pdu_version (ResetQuery 2) 2 = false.
Proof. repeat split. Qed.

(** C24 Nothing follows a fatal error: refuted, the query in the wrong version is still
    answered in full after the error and the disconnection. *)
Theorem C24_refuted : exists cfg s c cache p c' a1 e a2,
  u16 s /\ reach (new_rtr_server cfg s) TCP c /\ c_connected c = true /\
  process (new_rtr_server cfg s) cache c p = Ok (c', a1 ++ [Queue e] ++ a2) /\ fatal e /\
  exists q, In (Queue q) a2.
Proof.
  exists cfg1, 7, est1, cacheA, (ResetQuery 0). eexists _, [], (bad_version 1), _.
  split; [reflexivity|]. split; [exact est1_reach|]. split; [reflexivity|].
  split; [vm_compute; reflexivity|]. split; [right; reflexivity|].
  eexists. right. left. reflexivity.
Qed.
(** What holds: PDUs in the negotiated version; and once the connection is marked down
    no further PDU is looked at.  (Missing: a query in a wrong version.) *)
Theorem C24_fatal_last_partial : forall cfg s tr cache c p c' a e,
  u16 s -> cfg_version cfg < 256 -> reach (new_rtr_server cfg s) tr c -> c_connected c = true ->
  acceptable c (get_version p) ->
  process (new_rtr_server cfg s) cache c p = Ok (c', a) -> In (Queue e) a -> fatal e ->
  a = [Queue e; Disc] /\ forall reads, session (new_rtr_server cfg s) c' reads = Ok (c', []).
Proof.
  intros cfg s tr cache c p c' a e Hs Hb Hr Hc HA HP He Hf.
  pose proof (reach_cinv cfg s tr c Hs Hb Hr) as HI.
  destruct (process_ok cfg s tr cache c p Hs HI HA) as (c4 & HE & _). rewrite HP in HE.
  destruct (pass_fatal _ _ _ _ _ _ HE e He Hf) as [H1 H2]. split; [exact H1|].
  intros reads. now apply session_down.
Qed.
Example C24_case : exists c', process (new_rtr_server cfg1 7) cacheA est1 (SerialQuery 1 108 0) =
  Ok (c', [Queue (corrupt_data 1); Disc]).
Proof. eexists. vm_compute. reflexivity. Qed.

(** C27 TCP segmentation does not matter: refuted.  Two queries in one segment are
    answered once ... *)
Theorem C27_refuted : exists cfg s cache c stream cut1 cut2,
  u16 s /\ reach (new_rtr_server cfg s) TCP c /\ concat cut1 = stream /\ concat cut2 = stream /\
  Forall (fun b => b <> [] /\ bytes_ok b /\ nlen b <= 8000) (cut1 ++ cut2) /\
  forall c1 a1 c2 a2,
    session (new_rtr_server cfg s) c (map (pair cache) cut1) = Ok (c1, a1) ->
    session (new_rtr_server cfg s) c (map (pair cache) cut2) = Ok (c2, a2) -> a1 <> a2.
Proof.
  exists cfg1, 7, (new_server 3), est1. eexists.
  exists [[1; 2; 0; 0; 0; 0; 0; 8]; [1; 2; 0; 0; 0; 0; 0; 8]], [[1; 2; 0; 0; 0; 0; 0; 8; 1; 2; 0; 0; 0; 0; 0; 8]].
  split; [reflexivity|]. split; [exact est1_reach|]. split; [reflexivity|]. split; [reflexivity|].
  split.
  - repeat constructor; try discriminate.
  - intros c1 a1 c2 a2 H1 H2. vm_compute in H1, H2. inversion H1. inversion H2. discriminate.
Qed.
(** ... and in general everything after the first PDU of a read is dropped. *)
Theorem C27_dropped : forall srv cache c p b rest,
  wf_pdu p -> sendable p -> encode p = Ok b -> bytes_ok rest ->
  on_read srv cache c (b ++ rest) = on_read srv cache c b.
Proof.
  intros srv cache c p b rest Hw Hs He Hr. rewrite (on_read_trailing srv cache c p b rest) by assumption.
  pose proof (on_read_trailing srv cache c p b [] Hw Hs He (Forall_nil _)) as E.
  rewrite app_nil_r in E. now rewrite E.
Qed.
Example C27_dropped_case : encode (SerialQuery 1 107 9) = Ok [1; 1; 0; 107; 0; 0; 0; 12; 0; 0; 0; 9] /\
  exists c', on_read (new_rtr_server cfg1 7) cacheA est1 ([1; 1; 0; 107; 0; 0; 0; 12; 0; 0; 0; 9] ++ [1; 2; 0; 0; 0; 0; 0; 8]) =
  Ok (c', [Queue (CacheReset 1)], false).
Proof. split; [vm_compute; reflexivity|]. eexists. vm_compute. reflexivity. Qed.
(** A PDU cut in two disconnects. *)
Theorem C27_fragment : forall srv cache c p b k,
  wf_pdu p -> sendable p -> encode p = Ok b -> (k < List.length b)%nat ->
  exists stop, on_read srv cache c (firstn k b) = Ok (c_set_disconnected c, [Disc], stop).
Proof.
  intros srv cache c p b k Hw Hs He Hk.
  assert (HB : bytes_ok (firstn k b)).
  { apply bytes_ok_firstn. now apply (Proofs.WireP2.encode_bytes_ok p). }
  unfold on_read, decode_bytes. destruct (firstn k b) as [|x l] eqn:E; [eexists; reflexivity|].
  pose proof (Proofs.WireP2.prefix_no_decode p b k Hw Hs He Hk) as HN. rewrite E in HN.
  pose proof (Proofs.WireP.decode_no_panic _ HB) as HP.
  destruct (decode 64 (x :: l)) as [[q r]|e|]; [exfalso; now apply (HN (q, r))| |contradiction].
  eexists. reflexivity.
Qed.
Example C27_fragment_case : encode (SerialQuery 1 107 9) = Ok [1; 1; 0; 107; 0; 0; 0; 12; 0; 0; 0; 9] /\
  on_read (new_rtr_server cfg1 7) cacheA est1 (firstn 11 [1; 1; 0; 107; 0; 0; 0; 12; 0; 0; 0; 9]) = Ok (c_set_disconnected est1, [Disc], false) /\
  c_connected est1 = true /\ c_connected (c_set_disconnected est1) = false.
Proof. repeat split; vm_compute; reflexivity. Qed.
(** What holds: when every read returns one whole PDU, the answers are those to the PDU
    sequence.  (Missing: any other segmentation.) *)
Theorem C27_aligned_partial : forall srv l c reads,
  Forall2 (fun r cp => fst r = fst cp /\ encode (snd cp) = Ok (snd r) /\ wf_pdu (snd cp) /\ sendable (snd cp)) reads l ->
  session srv c reads = session_pdus srv c l.
Proof. exact session_aligned. Qed.
Example C27_case : exists c', session (new_rtr_server cfg1 7) est1
    [(new_server 3, [1; 2; 0; 0; 0; 0; 0; 8]); (cacheA, [1; 1; 0; 107; 0; 0; 0; 12; 0; 0; 0; 9]); (cacheA, [1; 2; 0])] =
  Ok (c', [Queue (no_data 1); Queue (CacheReset 1); Disc]).
Proof. eexists. vm_compute. reflexivity. Qed.

(** C28 Timers are the configured ones. *)
Theorem C28_timers : forall cfg s tr cache c p c' a v sess n r t e,
  u16 s -> cfg_version cfg < 256 -> reach (new_rtr_server cfg s) tr c -> c_connected c = true ->
  process (new_rtr_server cfg s) cache c p = Ok (c', a) ->
  In (Queue (EndOfData v sess n r t e)) a ->
  r = timer (cfg_refresh cfg) 3600 /\ t = timer (cfg_retry cfg) 600 /\ e = timer (cfg_expire cfg) 7200.
Proof.
  intros cfg s tr cache c p c' a v sess n r t e Hs Hb Hr Hc HP Hq.
  pose proof (reach_cinv cfg s tr c Hs Hb Hr) as HI.
  assert (HG : forall c4 c5 a5, cinv cfg tr c4 ->
    pass_simple_handler (new_rtr_server cfg s) cache c4 p = Ok (c5, a5) ->
    In (Queue (EndOfData v sess n r t e)) a5 ->
    r = timer (cfg_refresh cfg) 3600 /\ t = timer (cfg_retry cfg) 600 /\ e = timer (cfg_expire cfg) 7200).
  { intros c4 c5 a5 HI4 H1 H2. exact (pass_eod _ _ _ _ _ _ _ _ _ _ _ _ _ _ HI4 H1 H2). }
  destruct (acceptable_dec c (get_version p)) as [HA|HA].
  - destruct (process_ok cfg s tr cache c p Hs HI HA) as (c4 & HE & B1 & B2 & B3 & HI4).
    rewrite HP in HE. eapply HG; eauto.
  - destruct (process_bad cfg s tr cache c p Hs HI HA) as (c4 & HE & B1 & B2 & B3 & HI4).
    destruct (pass_total cfg s tr cache c4 p Hs Hb HI4) as (c5 & a5 & HP5 & _).
    rewrite HP5 in HE. cbn [bind fst snd] in HE. rewrite HP in HE. inversion HE; subst.
    destruct Hq as [Hq|[Hq|Hq]]; [discriminate|discriminate|]. eapply HG; eauto.
Qed.
Example C28_case : In (Queue (EndOfData 1 107 1 3600 900 7200))
  match process (new_rtr_server cfg1 7) cacheA est1 (ResetQuery 1) with Ok (_, a) => a | _ => [] end.
Proof. vm_compute. tauto. Qed.

(** C29 Session identifiers: one per version, distinct. *)
Theorem C29_sessions : forall cfg s, u16 s -> cfg_version cfg < 256 ->
  (forall v, v <= cfg_version cfg -> @get_session_id Empty_set (new_rtr_server cfg s) v = Ok (session_of s v)) /\
  (forall v w, v <= cfg_version cfg -> w <= cfg_version cfg -> session_of s v = session_of s w -> v = w) /\
  (forall v, session_of s v < 65536).
Proof.
  intros cfg s Hs Hb. split; [|split].
  - intros v Hv. unfold get_session_id. now rewrite sess_nth.
  - intros v w Hv Hw E. apply session_of_inj in E; lia.
  - intros v. unfold session_of. apply N.mod_lt. lia.
Qed.
Example C29_case : (session_of 65500 0, session_of 65500 1) = (65500, 64).
Proof. reflexivity. Qed.

Print Assumptions C19_reset.
Print Assumptions C20_serial.
Print Assumptions C21_router_keys_partial.
Print Assumptions C21_ssh_refuted.
Print Assumptions C22_version.
Print Assumptions C23_negotiation.
Print Assumptions C23_enforced.
Print Assumptions C23_pdu_types.
Print Assumptions C24_refuted.
Print Assumptions C24_fatal_last_partial.
Print Assumptions C27_refuted.
Print Assumptions C27_dropped.
Print Assumptions C27_fragment.
Print Assumptions C27_aligned_partial.
Print Assumptions C28_timers.
Print Assumptions C29_sessions.
