(** Properties C56 to C58: the client library and rtrdump. *)
From Coq Require Import ZifyBool ZifyNat ZifyN.
From Verif Require Import Model.Rtrdump Model.Conn Spec.Sets Spec.History Spec.Response Spec.Wire Spec.Collect
  Proofs.WireP Proofs.WireP2 Proofs.DataP Proofs.CacheP Proofs.ConnP Proofs.SessionP Proofs.DumpP
  Props.CacheProps Props.ConnProps.

(** C58 Client sessions only ever downgrade.  For every handler, every stream of bytes and
    every version asked for: the PDUs handed to the handler are the PDUs of the stream, in
    order and from the first one; the version is the one asked for until a version 0 PDU
    is received and 0 from then on; and the session ends only with the first Disconnect of the
    handler or the first PDU that cannot be decoded. *)
Theorem C58_session : forall H (handle : H -> pdu -> H * bool) v h b, bytes_ok b ->
  let r := start_rw handle v h b in
  let ps := map snd (o_trace r) in
  exists rest,
    decode_n 64 (length ps) b = Ok (ps, rest) /\ bytes_ok rest /\
    (forall i u p, nth_error (o_trace r) i = Some (u, p) -> u = version_after v (firstn (S i) ps)) /\
    o_version r = version_after v ps /\
    o_state r = run_handler handle h ps /\
    ((o_end r = Finished /\ exists qs q, ps = qs ++ [q] /\ keeps handle h qs /\
        snd (handle (run_handler handle h qs) q) = true)
     \/ (exists e, o_end r = Failed e /\ decode 64 rest = Err e /\ keeps handle h ps)).
Proof. intros H handle v h b HB. apply (session_shape handle (S (length b))); [exact HB|lia]. Qed.
(** A handler that asks to end at the first End of Data: what follows is not looked at. *)
Example C58_session_case :
  let b := [1; 3; 0; 7; 0; 0; 0; 8] ++ [0; 7; 0; 7; 0; 0; 0; 12; 0; 0; 0; 9] ++ [1; 2] in
  let r := start_rw dump_handle 1 empty_dump b in
  bytes_ok b /\ o_trace r = [(1, CacheResponse 1 7); (0, EndOfData 0 7 9 0 0 0)] /\ o_version r = 0 /\ o_end r = Finished /\
  decode_n 64 2 b = Ok ([CacheResponse 1 7; EndOfData 0 7 9 0 0 0], [1; 2]).
Proof. cbv zeta. split; [apply bytes_okb_ok; reflexivity|]. repeat split; vm_compute; reflexivity. Qed.
Theorem C58_monotone : forall H (handle : H -> pdu -> H * bool) v h b i j u p u' p', bytes_ok b ->
  let r := start_rw handle v h b in
  (i <= j)%nat -> nth_error (o_trace r) i = Some (u, p) -> nth_error (o_trace r) j = Some (u', p') ->
  o_version r <= u' /\ u' <= u /\ u <= v /\ (u' <> u -> u = 1 /\ u' = 0 /\ v = 1).
Proof.
  intros H handle v h b i j u p u' p' HB. cbv zeta. intros HL Hi Hj.
  destruct (C58_session H handle v h b HB) as (rest & _ & _ & HV & HF & _).
  pose proof (HV i u p Hi) as Ei. pose proof (HV j u' p' Hj) as Ej.
  set (ps := map snd (o_trace (start_rw handle v h b))) in *.
  assert (L1 : u' <= u).
  { rewrite Ei, Ej. replace (firstn (S i) ps) with (firstn (S i) (firstn (S j) ps)).
    - apply version_after_le.
    - rewrite firstn_firstn. f_equal. lia. }
  split; [rewrite HF, Ej; apply version_after_le|]. split; [exact L1|].
  assert (L2 : u <= v /\ (u <> v -> u = 0 /\ v = 1)).
  { rewrite Ei. unfold version_after. destruct (v =? 1) eqn:E; cbn [andb]; [|lia].
    destruct (existsb _ _); lia. }
  assert (L3 : u' <> v -> u' = 0 /\ v = 1).
  { rewrite Ej. unfold version_after. destruct (v =? 1) eqn:E; cbn [andb]; [|lia].
    destruct (existsb _ _); lia. }
  lia.
Qed.
(** A downgrade in the middle of a stream that then breaks off. *)
Example C58_case :
  start_rw dump_handle 1 empty_dump
    ([1; 3; 0; 7; 0; 0; 0; 8] ++ [0; 3; 0; 7; 0; 0; 0; 8] ++ [1; 3; 0; 8; 0; 0; 0; 8] ++ [1; 7; 0]) =
  mkOut [(1, CacheResponse 1 7); (0, CacheResponse 0 7); (0, CacheResponse 1 8)] 0 empty_dump (Failed EIO).
Proof. vm_compute. reflexivity. Qed.

(** C56 rtrdump records exactly the announced data.  A complete response that only announces
    (what a Reset Query is answered with, C19): the file written lists exactly its records, in
    order, with its session and serial, whatever follows in the stream.
    (Missing: responses with withdrawals, and responses without End of Data, see below.) *)
Theorem C56_reset_partial : forall v0 v sess serial r t e data b rest,
  u8 v -> u16 sess -> u32 serial -> u32 r -> u32 t -> u32 e ->
  Forall wf_pdu data -> Forall sendable data -> forallb is_data data = true -> bytes_ok rest ->
  announced data = data ->
  encode_all (answer v sess serial r t e data) = Ok b ->
  exists d, dump_main v0 (b ++ rest) = Some d /\ d_session d = sess /\ d_serial d = serial /\
    d_count d = nlen (flat_map vrp_of (announced data)) /\
    map file_vrp (fst (reread d)) = map Some (flat_map vrp_of (announced data)) /\
    map file_key (snd (reread d)) = map Some (flat_map key_of (announced data)).
Proof.
  intros v0 v sess serial r t e data b rest Hv Hs Hn Hr Ht He HW HS HD HR HA HE. rewrite HA.
  destruct (dump_response v0 v sess serial r t e data b Hv Hs Hn Hr Ht He HW HS HD HE) as (d & H1 & H2).
  exists d. auto.
Qed.
(** In general the file lists what was announced and what was withdrawn alike. *)
Theorem C56_listed_partial : forall v0 v sess serial r t e data b rest,
  u8 v -> u16 sess -> u32 serial -> u32 r -> u32 t -> u32 e ->
  Forall wf_pdu data -> Forall sendable data -> forallb is_data data = true -> bytes_ok rest ->
  encode_all (answer v sess serial r t e data) = Ok b ->
  exists d, dump_main v0 (b ++ rest) = Some d /\ d_session d = sess /\ d_serial d = serial /\
    d_count d = nlen (flat_map vrp_of data) /\
    map file_vrp (fst (reread d)) = map Some (flat_map vrp_of data) /\
    map file_key (snd (reread d)) = map Some (flat_map key_of data).
Proof.
  intros v0 v sess serial r t e data b rest Hv Hs Hn Hr Ht He HW HS HD HR HE.
  destruct (dump_response v0 v sess serial r t e data b Hv Hs Hn Hr Ht He HW HS HD HE) as (d & H1 & H2).
  exists d. auto.
Qed.
(** The data of the cases of C56: a VRP, a router key, a withdrawal. *)
Definition data56 : list pdu := [IPv4Prefix 1 1 24 64496 (pfx4 3221225984 24); RouterKey 1 1 (repeat 7 20) 64499 [48; 89; 1; 2]].
Definition data56w : list pdu := data56 ++ [IPv4Prefix 1 0 28 64497 (pfx4 3325256704 24)].
Lemma data56_ok : Forall wf_pdu data56w /\ Forall sendable data56w /\ forallb is_data data56w = true.
Proof.
  split; [|split; [|reflexivity]]; repeat (constructor; [cbn; unfold wf_prefix, bytes_ok, u8, u16, u32; cbn;
    repeat split; try (repeat constructor; fail); try reflexivity; try discriminate; try (vm_compute; congruence)|]); constructor.
Qed.
Example C56_listed_case : exists b d, encode_all (answer 1 107 5 3600 600 7200 data56w) = Ok b /\
  dump_main 1 (b ++ [1; 2; 3]) = Some d /\ d_count d = 2 /\ announced data56 = data56 /\
  map file_vrp (fst (reread d)) = [Some (RV (pfx4 3221225984 24) 64496 24); Some (RV (pfx4 3325256704 24) 64497 28)].
Proof.
  eexists. eexists. split; [vm_compute; reflexivity|]. split; [vm_compute; reflexivity|]. split; [reflexivity|]. split; vm_compute; reflexivity.
Qed.
(** A connection that breaks anywhere before the end of the response: no file. *)
Theorem C56_cut : forall v0 v sess serial r t e data b k,
  u8 v -> u16 sess -> u32 serial -> u32 r -> u32 t -> u32 e ->
  Forall wf_pdu data -> Forall sendable data -> forallb is_data data = true ->
  encode_all (answer v sess serial r t e data) = Ok b -> (k < length b)%nat ->
  dump_main v0 (firstn k b) = None.
Proof.
  intros v0 v sess serial r t e data b k Hv Hs Hn Hr Ht He HW HS HD HE HK.
  destruct (answer_wf v sess serial r t e data) as [AW AS]; auto.
  destruct (start_rw_cut dump_handle _ v0 empty_dump b k AW AS HE HK) as (er & E).
  - intros qs q EQ. unfold answer in EQ. rewrite !map_app in EQ. cbn [map app] in EQ.
    rewrite map_normal_data in EQ by exact HD. rewrite app_comm_cons in EQ.
    apply app_inj_tail in EQ. destruct EQ as [<- _]. cbn [keeps normal dump_handle snd fst].
    split; [reflexivity|]. now apply dump_data.
  - unfold dump_main. now rewrite E.
Qed.
Example C56_cut_case : exists b, encode_all (answer 1 107 5 3600 600 7200 data56) = Ok b /\ length b = 88%nat /\
  dump_main 1 (firstn 87 b) = None /\ dump_main 1 (firstn 64 b) = None /\ dump_main 1 b <> None.
Proof.
  eexists. split; [vm_compute; reflexivity|]. split; [reflexivity|]. split; [vm_compute; reflexivity|]. split; [vm_compute; reflexivity|]. vm_compute. discriminate.
Qed.
(** In serial mode a withdrawn record is written as if it were announced. *)
Theorem C56_withdrawn_refuted : exists v sess serial r t e data b d,
  Forall wf_pdu data /\ Forall sendable data /\ forallb is_data data = true /\
  encode_all (answer v sess serial r t e data) = Ok b /\ dump_main 1 b = Some d /\
  exists x, ~ In x (flat_map vrp_of (announced data)) /\ In (Some x) (map file_vrp (fst (reread d))).
Proof.
  exists 1, 107, 5, 3600, 600, 7200, [IPv4Prefix 1 0 24 64496 (pfx4 3221225984 24)].
  eexists. eexists. split; [constructor; [|constructor]; cbn; unfold u8, u32; repeat split; try discriminate; reflexivity|].
  split; [repeat constructor|]. split; [reflexivity|].
  split; [vm_compute; reflexivity|]. split; [vm_compute; reflexivity|].
  exists (RV (pfx4 3221225984 24) 64496 24). split; [cbn; tauto|]. left. vm_compute. reflexivity.
Qed.
(** A response that is not data (an error, a Cache Reset) is written as a complete, empty file
    of session 0 and serial 0 (and the program ends successfully). *)
Theorem C56_incomplete_refuted : exists p b, encode p = Ok b /\ get_type p = PDU_ID_ERROR_REPORT /\
  dump_main 1 b = Some empty_dump.
Proof.
  exists (no_data 1). eexists. split; [vm_compute; reflexivity|]. split; [reflexivity|]. vm_compute. reflexivity.
Qed.
(** Also in the middle of a response: the records so far are written. *)
Theorem C56_truncated_refuted : exists data q b d, encode_all ([CacheResponse 1 107] ++ data ++ [q]) = Ok b /\
  get_type q <> PDU_ID_END_OF_DATA /\ dump_main 1 b = Some d /\ length (d_roas d) = 1%nat.
Proof.
  exists [IPv4Prefix 1 1 24 64496 (pfx4 3221225984 24)], (SerialNotify 1 107 9). eexists. eexists.
  split; [vm_compute; reflexivity|]. split; [discriminate|]. split; [vm_compute; reflexivity|]. reflexivity.
Qed.
Example C56_case : exists b d,
  encode_all (answer 1 107 5 3600 600 7200
    [IPv4Prefix 1 1 24 64496 (pfx4 3221225984 24); RouterKey 1 1 (repeat 7 20) 64499 [48; 89; 1; 2]]) = Ok b /\
  dump_main 1 b = Some d /\ d_session d = 107 /\ d_serial d = 5 /\ length (d_roas d) = 1%nat /\ length (d_keys d) = 1%nat.
Proof. eexists. eexists. split; [vm_compute; reflexivity|]. split; [vm_compute; reflexivity|]. auto. Qed.

(** C57 End to end: query, response, serialisation, decoding and collection together give
    exactly what the server has.  (Missing: router keys whose public key is shorter than 4
    bytes or too long for a PDU, see below; a server without data, see
    [C56_incomplete_refuted].) *)
Theorem C57_dump_partial : forall cfg s tr keep h f v,
  u16 s -> cfg_version cfg < 256 -> cfg_refresh cfg < 2 ^ 32 -> cfg_retry cfg < 2 ^ 32 -> cfg_expire cfg < 2 ^ 32 ->
  Forall (Forall wf_sd) h ->
  let srv := new_rtr_server cfg s in
  let cache := run (new_server keep) h in
  let cur := get_current_sds cache in
  let w := negotiated srv v in
  cur <> [] -> Forall key_fits cur ->
  f_serial f = false -> dump_version f = Some v -> acceptable (accept tr srv) v ->
  exists q c' a b d,
    encode (dump_query f v) = Ok q /\
    on_read srv cache (accept tr srv) q = Ok (c', a, false) /\
    encode_all (queued a) = Ok b /\ bytes_ok b /\
    forall rest, bytes_ok rest ->
    dump_main v (b ++ rest) = Some d /\
    d_session d = session_of s w /\ d_serial d = sdCurrentSerial cache /\
    d_count d = nlen (vrp_ids cur) /\
    map file_vrp (fst (reread d)) = map Some (vrp_ids cur) /\
    map file_key (snd (reread d)) = map Some (key_ids w (keys_off tr cfg) cur).
Proof.
  intros cfg s tr keep h f v Hs Hc Hr1 Hr2 Hr3 Hh. cbv zeta. intros HN HF Hfs Hfv HA.
  set (srv := new_rtr_server cfg s) in *. set (cache := run (new_server keep) h) in *.
  assert (Hv : v = 0 \/ v = 1) by apply HA.
  unfold dump_query. rewrite Hfs. unfold cs_send. cbn [set_version].
  assert (HWQ : wf_pdu (ResetQuery v)) by (cbn; unfold u8; lia).
  destruct (roundtrip (ResetQuery v) [] HWQ I ltac:(constructor)) as (q & HQ & HD). cbn [normal] in HD.
  destruct (C19_reset cfg s tr keep h (accept tr srv) v Hs Hc Hh) as (c' & HP & _ & _);
    [apply reach_accept|destruct tr; unfold accept; destruct (s_enforce srv), (s_disableBGPSec srv); reflexivity|exact HA|].
  cbv zeta in HP. fold srv cache in HP.
  replace (is_nil (get_current_sds cache)) with false in HP by (destruct (get_current_sds cache); [congruence|reflexivity]).
  set (w := negotiated srv v) in *.
  assert (Hw : u8 w) by (unfold w, negotiated, u8; lia).
  assert (HT : forall x d, x < 2 ^ 32 -> d < 2 ^ 32 -> u32 (timer x d)).
  { intros x d G1 G2. unfold timer. change (2 ^ 32) with 4294967296 in *. unfold u32. destruct (x =? 0); assumption. }
  pose proof (run_inv (new_server keep) h (inv_new keep) Hh) as (HI1 & _ & HI3). fold cache in HI1, HI3.
  assert (HSU : u16 (session_of s w)) by (unfold session_of, u16; lia).
  destruct (data_pdus w (keys_off tr cfg) (get_current_sds cache) Hw HI1 HF) as (D1 & D2 & D3 & D4 & D5).
  set (ds := filter writes (map (data_pdu w) (filter (may_send w (keys_off tr cfg)) (get_current_sds cache)))) in *.
  set (t1 := timer (cfg_refresh cfg) 3600) in *. set (t2 := timer (cfg_retry cfg) 600) in *.
  set (t3 := timer (cfg_expire cfg) 7200) in *.
  assert (HT1 : u32 t1) by (apply HT; [assumption|reflexivity]).
  assert (HT2 : u32 t2) by (apply HT; [assumption|reflexivity]).
  assert (HT3 : u32 t3) by (apply HT; [assumption|reflexivity]).
  destruct (answer_wf w (session_of s w) (sdCurrentSerial cache) t1 t2 t3 ds Hw HSU HI3 HT1 HT2 HT3 D1 D2) as [AW AS].
  destruct (encode_all_ok _ AW AS) as (b & HB & HBok).
  destruct (dump_response v w (session_of s w) (sdCurrentSerial cache) t1 t2 t3 ds b Hw HSU HI3 HT1 HT2 HT3 D1 D2 D3 HB)
    as (d & R0 & R1 & R2 & R3 & R4 & R5).
  exists q, c'. eexists. exists b, d. split; [exact HQ|]. split.
  { unfold on_read. destruct q as [|q0 q']; [apply (f_equal (fun x => match x with Ok l => length l | _ => O end)) in HQ; discriminate HQ|].
    unfold decode_bytes. rewrite app_nil_r in HD. rewrite HD. cbn [bind fst]. rewrite HP. cbn [bind fst snd]. reflexivity. }
  split.
  { rewrite queued_map. rewrite encode_all_writes. rewrite <- HB. f_equal. unfold response, answer.
    rewrite !filter_app. reflexivity. }
  split; [exact HBok|].
  intros rest HRest. rewrite <- D4, <- D5. auto 10.
Qed.
Example C57_dump_case : let srv := new_rtr_server cfg1 7 in
  get_current_sds cacheA <> [] /\ Forall key_fits (get_current_sds cacheA) /\ dump_version (mkDF false 0 0 1) = Some 1 /\ acceptable (accept TCP srv) 1 /\
  vrp_ids (get_current_sds cacheA) = [rid_of x1; rid_of x3] /\ negotiated srv 1 = 1.
Proof.
  cbv zeta. split; [vm_compute; discriminate|]. split; [vm_compute; repeat constructor; discriminate|]. split; [reflexivity|].
  split; [|split; vm_compute; reflexivity]. split; [right; reflexivity|vm_compute; discriminate].
Qed.
(** A router key with a public key of 3 bytes makes every dump fail. *)
Theorem C57_short_key_refuted : exists cfg s h f v c' a b,
  let srv := new_rtr_server cfg s in
  let cache := run (new_server 3) h in
  u16 s /\ Forall (Forall wf_sd) h /\ get_current_sds cache <> [] /\ dump_version f = Some v /\
  process srv cache (accept TCP srv) (dump_query f v) = Ok (c', a) /\
  encode_all (queued a) = Ok b /\ dump_main v b = None.
Proof.
  exists cfg1, 7, [[x1; BgpsecKey 64499 (repeat 7 20) [48; 89; 1] 1]], (mkDF false 0 0 1), 1.
  eexists. eexists. eexists. cbv zeta. split; [reflexivity|].
  split; [apply wf_sdss_ok; vm_compute; reflexivity|].
  split; [vm_compute; discriminate|]. split; [reflexivity|].
  split; [vm_compute; reflexivity|]. split; [vm_compute; reflexivity|]. vm_compute. reflexivity.
Qed.
(** Three records, one of them a router key, over version 1. *)
Example C57_case : exists c' a b d,
  let srv := new_rtr_server cfg1 7 in
  process srv cacheA (accept TCP srv) (dump_query (mkDF false 0 0 1) 1) = Ok (c', a) /\
  encode_all (queued a) = Ok b /\ dump_main 1 b = Some d /\
  Forall key_fits (get_current_sds cacheA) /\
  length (d_roas d) = 2%nat /\ length (d_keys d) = 1%nat /\ d_session d = 107 /\ d_serial d = 1.
Proof.
  eexists. eexists. eexists. eexists. cbv zeta. split; [vm_compute; reflexivity|]. split; [vm_compute; reflexivity|].
  split; [vm_compute; reflexivity|]. split; [|auto].
  vm_compute. repeat constructor; discriminate.
Qed.

Print Assumptions C58_session.
Print Assumptions C58_monotone.
Print Assumptions C56_reset_partial.
Print Assumptions C56_listed_partial.
Print Assumptions C56_cut.
Print Assumptions C56_withdrawn_refuted.
Print Assumptions C56_incomplete_refuted.
Print Assumptions C56_truncated_refuted.
Print Assumptions C57_dump_partial.
Print Assumptions C57_short_key_refuted.
