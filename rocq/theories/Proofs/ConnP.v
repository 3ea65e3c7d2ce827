(** Query handling and negotiation: C19-C24, C27-C29. *)
From Coq Require Import String ZifyBool ZifyNat ZifyN.
From Verif Require Import Lib.Str Model.Conn Spec.Sets Spec.Response Spec.Wire Proofs.CacheP Proofs.WireP2.
Ltac Zify.zify_post_hook ::= Z.div_mod_to_equations.
Local Open Scope list_scope.
Local Open Scope N_scope.

(** * Sending *)
Lemma send_data_eq c d : wf_sd d ->
  send_data c d = if may_send (c_version c) (c_noBGPsec c) d then [Queue (data_pdu (c_version c) d)] else [].
Proof.
  destruct d as [[[|x|x] b] a m f|a s k f]; cbn; intros H.
  - destruct H as ((_ & H) & Hv & _). cbn in *. destruct b; [tauto|discriminate].
  - reflexivity.
  - reflexivity.
  - destruct (c_version c =? 0), (c_noBGPsec c); reflexivity.
Qed.
Lemma flat_send c l : Forall wf_sd l ->
  flat_map (send_data c) l = map Queue (map (data_pdu (c_version c)) (filter (may_send (c_version c) (c_noBGPsec c)) l)).
Proof.
  intros H. induction H as [|d l Hd Hl IH]; [reflexivity|]. cbn [flat_map filter].
  rewrite send_data_eq, IH by assumption. destruct (may_send _ _ d); reflexivity.
Qed.
Lemma send_sds_eq c sess serial l : Forall wf_sd l ->
  send_sds c sess serial l =
  map Queue (response (c_version c) sess serial (c_refresh c) (c_retry c) (c_expire c) (c_noBGPsec c) l).
Proof.
  intros H. unfold send_sds, response. rewrite flat_send by assumption. rewrite !map_app. reflexivity.
Qed.

(** * Sessions ids *)
Lemma sess_nth cfg s v : u16 s -> v <= cfg_version cfg -> cfg_version cfg < 256 ->
  nth_error (sessId (new_rtr_server cfg s)) (N.to_nat v) = Some (session_of s v).
Proof.
  intros Hs Hv Hb. cbn [new_rtr_server sessId].
  rewrite (map_nth_error _ (N.to_nat v) (seq 0 (N.to_nat (cfg_version cfg) + 1)) (d := N.to_nat v)).
  - f_equal. unfold session_of. rewrite N2Nat.id. rewrite (N.mod_small (100 * v)) by lia. reflexivity.
  - rewrite nth_error_nth' with (d := 0%nat) by (rewrite seq_length; lia).
    rewrite seq_nth by lia. reflexivity.
Qed.
Lemma sess_none cfg s v : cfg_version cfg < v -> nth_error (sessId (new_rtr_server cfg s)) (N.to_nat v) = None.
Proof.
  intros H. apply nth_error_None. cbn [new_rtr_server sessId]. rewrite map_length, seq_length. lia.
Qed.

(** * Invariant of reachable clients *)
Definition cinv (cfg : config) (tr : transport) (c : client) : Prop :=
  c_version c <= cfg_version cfg /\
  (c_versionset c = false -> c_version c = 0) /\
  c_enforce c = false /\ c_disableVC c = false /\
  (cfg_enforce cfg = true -> c_versionset c = true /\ c_version c = cfg_version cfg) /\
  c_refresh c = timer (cfg_refresh cfg) 3600 /\
  c_retry c = timer (cfg_retry cfg) 600 /\
  c_expire c = timer (cfg_expire cfg) 7200 /\
  c_noBGPsec c = keys_off tr cfg.

Lemma cinv_accept cfg s tr : cinv cfg tr (accept tr (new_rtr_server cfg s)).
Proof.
  unfold cinv, accept, keys_off. cbn. unfold timer.
  destruct (cfg_enforce cfg) eqn:E; destruct tr; destruct (cfg_disableBGPSec cfg) eqn:D; cbn;
    repeat split; try reflexivity; try discriminate; try lia; auto.
Qed.

(** What one PDU does, by acceptability. *)
Lemma process_ok cfg s tr cache c p : u16 s -> cinv cfg tr c ->
  acceptable c (get_version p) ->
  exists c4, pass_simple_handler (new_rtr_server cfg s) cache c4 p = process (new_rtr_server cfg s) cache c p /\
    c_version c4 = N.min (get_version p) (cfg_version cfg) /\ c_versionset c4 = true /\
    c_connected c4 = c_connected c /\ cinv cfg tr c4.
Proof.
  intros Hs (I1 & I2 & I3 & I4 & I5 & I6 & I7 & I8 & I9) (HV & HS).
  unfold process. rewrite I4. unfold check_version.
  assert (((negb (c_versionset c) || (get_version p =? c_version c))
           && ((get_version p =? 1) || (get_version p =? 0)))%bool = true) as ->.
  { destruct (c_versionset c); [|cbn; lia]. specialize (HS eq_refl). rewrite HS, N.eqb_refl. cbn. lia. }
  replace (c_enforce (c_set_version (get_version p) c)) with false by (symmetry; exact I3).
  set (c3 := match p with SerialQuery _ _ serial => _ | _ => _ end).
  assert (H3 : c_version c3 = get_version p /\ c_versionset c3 = true /\ c_connected c3 = c_connected c /\
    c_enforce c3 = c_enforce c /\ c_disableVC c3 = c_disableVC c /\ c_refresh c3 = c_refresh c /\
    c_retry c3 = c_retry c /\ c_expire c3 = c_expire c /\ c_noBGPsec c3 = c_noBGPsec c).
  { subst c3. destruct p; cbn; repeat split; reflexivity. }
  destruct H3 as (A1 & A2 & A3 & A4 & A5 & A6 & A7 & A8 & A9). clearbody c3.
  unfold server_handle_pdu. cbn [new_rtr_server s_enforce baseVersion].
  assert (cfg_enforce cfg && negb (c_version c3 =? cfg_version cfg) = false)%bool as ->.
  { destruct (cfg_enforce cfg) eqn:E; [|reflexivity]. destruct (I5 eq_refl) as [J1 J2].
    cbn. rewrite A1, (HS J1), J2, N.eqb_refl. reflexivity. }
  set (c4 := if cfg_version cfg <? c_version c3 then _ else _).
  exists c4.
  assert (H4 : c_version c4 = N.min (get_version p) (cfg_version cfg) /\ c_versionset c4 = true /\
    c_connected c4 = c_connected c /\
    c_enforce c4 = c_enforce c /\ c_disableVC c4 = c_disableVC c /\ c_refresh c4 = c_refresh c /\
    c_retry c4 = c_retry c /\ c_expire c4 = c_expire c /\ c_noBGPsec c4 = c_noBGPsec c).
  { subst c4. destruct (cfg_version cfg <? c_version c3) eqn:E; cbn.
    - repeat split; auto; lia.
    - repeat split; auto; lia. }
  destruct H4 as (B1 & B2 & B3 & B4 & B5 & B6 & B7 & B8 & B9). clearbody c4.
  split.
  - destruct (pass_simple_handler (new_rtr_server cfg s) cache c4 p) as [[c5 a5]|e|]; cbn; try reflexivity.
  - repeat split; try congruence; try lia.
    match goal with H : cfg_enforce cfg = true |- _ => destruct (I5 H) as [J1 J2] end.
    rewrite B1, (HS J1), J2. lia.
Qed.

Lemma process_bad cfg s tr cache c p : u16 s -> cinv cfg tr c ->
  ~ acceptable c (get_version p) ->
  exists c4, process (new_rtr_server cfg s) cache c p =
    (do r <- pass_simple_handler (new_rtr_server cfg s) cache c4 p;
     Ok (fst r, Queue (bad_version (c_version c)) :: Disc :: snd r)) /\
    c_version c4 = c_version c /\ c_versionset c4 = c_versionset c /\
    c_connected c4 = false /\ cinv cfg tr c4.
Proof.
  intros Hs (I1 & I2 & I3 & I4 & I5 & I6 & I7 & I8 & I9) HN.
  unfold process. rewrite I4. unfold check_version.
  assert (((negb (c_versionset c) || (get_version p =? c_version c))
           && ((get_version p =? 1) || (get_version p =? 0)))%bool = false) as ->.
  { apply not_true_iff_false. intros G. apply HN. split; [lia|].
    intros E. rewrite E in G. cbn in G. lia. }
  cbn [disconnect].
  replace (c_enforce (c_set_disconnected c)) with false by (symmetry; exact I3).
  set (c3 := match p with SerialQuery _ _ serial => _ | _ => _ end).
  assert (H3 : c_version c3 = c_version c /\ c_versionset c3 = c_versionset c /\ c_connected c3 = false /\
    c_enforce c3 = c_enforce c /\ c_disableVC c3 = c_disableVC c /\ c_refresh c3 = c_refresh c /\
    c_retry c3 = c_retry c /\ c_expire c3 = c_expire c /\ c_noBGPsec c3 = c_noBGPsec c).
  { subst c3. destruct p; cbn; repeat split; reflexivity. }
  destruct H3 as (A1 & A2 & A3 & A4 & A5 & A6 & A7 & A8 & A9). clearbody c3.
  unfold server_handle_pdu. cbn [new_rtr_server s_enforce baseVersion].
  assert (cfg_enforce cfg && negb (c_version c3 =? cfg_version cfg) = false)%bool as ->.
  { destruct (cfg_enforce cfg) eqn:E; [|reflexivity]. destruct (I5 eq_refl) as [J1 J2].
    cbn. rewrite A1, J2, N.eqb_refl. reflexivity. }
  assert (cfg_version cfg <? c_version c3 = false) as -> by lia.
  exists c3. split; [|split; [assumption|split; [assumption|split; [assumption|]]]].
  - destruct (pass_simple_handler (new_rtr_server cfg s) cache c3 p) as [[c5 a5]|e|]; reflexivity.
  - unfold cinv. rewrite A1, A2, A4, A5, A6, A7, A8, A9. tauto.
Qed.

Lemma acceptable_dec c v : acceptable c v \/ ~ acceptable c v.
Proof.
  unfold acceptable.
  destruct (N.eq_dec v 0), (N.eq_dec v 1), (c_versionset c), (N.eq_dec v (c_version c)); intuition congruence.
Qed.

(** * The query handlers *)
Lemma request_cache_eq cfg s tr cache c : u16 s -> cfg_version cfg < 256 -> cinv cfg tr c ->
  Forall wf_sd (sdCurrent cache) ->
  request_cache (new_rtr_server cfg s) cache c =
  Ok (c, map Queue
       match sdCurrent cache with
       | [] => [no_data (c_version c)]
       | _ => response (c_version c) (session_of s (c_version c)) (sdCurrentSerial cache)
                (timer (cfg_refresh cfg) 3600) (timer (cfg_retry cfg) 600) (timer (cfg_expire cfg) 7200)
                (keys_off tr cfg) (sdCurrent cache)
       end).
Proof.
  intros Hs Hb (I1 & I2 & I3 & I4 & I5 & I6 & I7 & I8 & I9) HW.
  unfold request_cache, get_session_id. rewrite sess_nth by assumption. cbn [bind].
  unfold get_current_serial, get_current_sds.
  destruct (sdCurrent cache) as [|d l] eqn:E; cbn [negb]; [reflexivity|].
  rewrite send_sds_eq by assumption. rewrite I6, I7, I8, I9. reflexivity.
Qed.

Lemma request_new_version_eq cfg s tr cache c sess q : u16 s -> cfg_version cfg < 256 -> cinv cfg tr c ->
  (forall d, get_sds_serial_diff cache q = Ok d -> Forall wf_sd d) ->
  let v := c_version c in
  request_new_version (new_rtr_server cfg s) cache c sess q =
  if negb (sess =? session_of s v) then Ok (c_set_disconnected c, [Queue (corrupt_data v); Disc])
  else Ok (c, map Queue
       match sdCurrent cache with
       | [] => [no_data v]
       | _ => match get_sds_serial_diff cache q with
              | Ok d => response v sess (sdCurrentSerial cache)
                          (timer (cfg_refresh cfg) 3600) (timer (cfg_retry cfg) 600) (timer (cfg_expire cfg) 7200)
                          (keys_off tr cfg) d
              | _ => [CacheReset v]
              end
       end).
Proof.
  intros Hs Hb (I1 & I2 & I3 & I4 & I5 & I6 & I7 & I8 & I9) HW v. subst v.
  unfold request_new_version, get_session_id. rewrite sess_nth by assumption. cbn [bind].
  destruct (sess =? session_of s (c_version c)); cbn [negb]; [|reflexivity].
  unfold get_current_serial.
  destruct (sdCurrent cache) as [|d l] eqn:E; cbn [negb]; [reflexivity|].
  pose proof (serial_diff_total cache q) as HT.
  destruct (get_sds_serial_diff cache q) as [dd|e|] eqn:ED; [|reflexivity|congruence].
  rewrite send_sds_eq by now apply HW. rewrite I6, I7, I8, I9. reflexivity.
Qed.

(** The handlers never panic and keep the invariant; the version does not change. *)
Lemma pass_total cfg s tr cache c p : u16 s -> cfg_version cfg < 256 -> cinv cfg tr c ->
  exists c' a, pass_simple_handler (new_rtr_server cfg s) cache c p = Ok (c', a) /\
    c_version c' = c_version c /\ c_versionset c' = c_versionset c /\
    (c_connected c = false -> c_connected c' = false) /\ cinv cfg tr c' /\
    (forall q, In (Queue q) a -> get_version q = c_version c) /\
    (forall q, In (Queue q) a -> get_type q = PDU_ID_ROUTER_KEY -> c_version c <> 0 /\ c_noBGPsec c = false).
Proof.
  intros Hs Hb HI. pose proof HI as (I1 & I2 & I3 & I4 & I5 & I6 & I7 & I8 & I9).
  assert (HD : forall d q, In (Queue q) (send_data c d) ->
     get_version q = c_version c /\ (get_type q = PDU_ID_ROUTER_KEY -> c_version c <> 0 /\ c_noBGPsec c = false)).
  { intros d q. unfold send_data, send_pdu. destruct d as [pp aa mm ff|aa ss kk ff].
    - destruct (is6 (p_addr pp)); [intros [E|[]]; inversion E; cbn; split; [reflexivity|discriminate]|].
      destruct (is4 (p_addr pp)); [intros [E|[]]; inversion E; cbn; split; [reflexivity|discriminate]|intros []].
    - destruct (c_version c =? 0) eqn:E1; [intros []|]. destruct (c_noBGPsec c) eqn:E2; [intros []|].
      cbn. intros [E|[]]; inversion E; cbn. split; [reflexivity|]. intros _. split; [lia|reflexivity]. }
  assert (HSD : forall sess serial l q, In (Queue q) (send_sds c sess serial l) ->
     get_version q = c_version c /\ (get_type q = PDU_ID_ROUTER_KEY -> c_version c <> 0 /\ c_noBGPsec c = false)).
  { intros sess serial l q. unfold send_sds. rewrite !in_app_iff. intros [[E|[]]|[H|[E|[]]]].
    - inversion E. cbn. split; [reflexivity|discriminate].
    - apply in_flat_map in H as (d & _ & H). now apply (HD d).
    - inversion E. cbn. split; [reflexivity|discriminate]. }
  assert (H1 : forall x y q, In (Queue q) [Queue (set_version (c_version c) (ErrorReport 0 x [] y))] ->
     get_version q = c_version c /\ (get_type q = PDU_ID_ROUTER_KEY -> c_version c <> 0 /\ c_noBGPsec c = false)).
  { intros x y q [E|[]]. inversion E. cbn. split; [reflexivity|discriminate]. }
  assert (FIN : forall a,
     (forall q, In (Queue q) a ->
        get_version q = c_version c /\ (get_type q = PDU_ID_ROUTER_KEY -> c_version c <> 0 /\ c_noBGPsec c = false)) ->
     exists c' a', @Ok (client * list act) Empty_set (c, a) = Ok (c', a') /\
    c_version c' = c_version c /\ c_versionset c' = c_versionset c /\
    (c_connected c = false -> c_connected c' = false) /\ cinv cfg tr c' /\
    (forall q, In (Queue q) a' -> get_version q = c_version c) /\
    (forall q, In (Queue q) a' -> get_type q = PDU_ID_ROUTER_KEY -> c_version c <> 0 /\ c_noBGPsec c = false)).
  { intros a Ha. exists c, a. split; [reflexivity|]. split; [reflexivity|]. split; [reflexivity|].
    split; [auto|]. split; [exact HI|]. split; intros q Hq; now apply Ha. }
  destruct p; cbn [pass_simple_handler]; try (apply FIN; intros q []; fail).
  - (* serial query *)
    unfold request_new_version, get_session_id. rewrite sess_nth by assumption. cbn [bind].
    destruct (negb (sess =? session_of s (c_version c))).
    + cbn [disconnect]. exists (c_set_disconnected c). eexists. split; [reflexivity|].
      split; [reflexivity|]. split; [reflexivity|]. split; [reflexivity|]. split; [exact HI|].
      split; intros q [E|[E|[]]]; try discriminate; inversion E; cbn; [reflexivity|discriminate].
    + destruct (get_current_serial cache) as [n valid]. destruct valid; cbn [negb].
      * pose proof (serial_diff_total cache serial) as HT.
        destruct (get_sds_serial_diff cache serial) as [dd|e|]; [| |congruence]; apply FIN.
        -- intros q Hq; now apply HSD in Hq.
        -- intros q [E|[]]; inversion E; cbn; split; [reflexivity|discriminate].
      * apply FIN. intros q Hq; now apply H1 in Hq.
  - (* reset query *)
    unfold request_cache, get_session_id. rewrite sess_nth by assumption. cbn [bind].
    destruct (get_current_serial cache) as [n valid]. destruct valid; cbn [negb]; apply FIN.
    + intros q Hq; now apply HSD in Hq.
    + intros q Hq; now apply H1 in Hq.
Qed.

Lemma bv_version v : get_version (bad_version v) = v.
Proof. reflexivity. Qed.

(** One PDU on any reachable client. *)
Lemma process_total cfg s tr cache c p : u16 s -> cfg_version cfg < 256 -> cinv cfg tr c ->
  exists c' a, process (new_rtr_server cfg s) cache c p = Ok (c', a) /\ cinv cfg tr c' /\
    (forall q, In (Queue q) a -> get_version q = c_version c') /\
    (forall q, In (Queue q) a -> get_type q = PDU_ID_ROUTER_KEY -> c_version c' <> 0 /\ keys_off tr cfg = false) /\
    (c_versionset c = true -> c_versionset c' = true /\ c_version c' = c_version c) /\
    (acceptable c (get_version p) -> c_versionset c' = true /\ c_version c' = N.min (get_version p) (cfg_version cfg)) /\
    (~ acceptable c (get_version p) -> c_connected c' = false /\ c_versionset c' = c_versionset c /\
       c_version c' = c_version c /\ exists rest, a = Queue (bad_version (c_version c)) :: Disc :: rest).
Proof.
  intros Hs Hb HI. destruct (acceptable_dec c (get_version p)) as [HA|HA].
  - destruct (process_ok cfg s tr cache c p Hs HI HA) as (c4 & HE & B1 & B2 & B3 & HI4).
    destruct (pass_total cfg s tr cache c4 p Hs Hb HI4) as (c' & a & HP & D1 & D2 & D3 & HI' & D4 & D5).
    exists c', a. rewrite <- HE, HP. split; [reflexivity|]. split; [exact HI'|].
    split; [intros q Hq; rewrite D1; auto|].
    split; [intros q Hq Ht; rewrite D1; destruct (D5 q Hq Ht) as [F1 F2]; split; [exact F1|];
            destruct HI4 as (_ & _ & _ & _ & _ & _ & _ & _ & F3); congruence|].
    split.
    + intros E. split; [congruence|]. rewrite D1, B1. destruct HA as [_ HA]. rewrite (HA E).
      destruct HI as (I1 & _). lia.
    + split; [intros _; split; congruence|]. intros G. contradiction.
  - destruct (process_bad cfg s tr cache c p Hs HI HA) as (c4 & HE & B1 & B2 & B3 & HI4).
    destruct (pass_total cfg s tr cache c4 p Hs Hb HI4) as (c' & a & HP & D1 & D2 & D3 & HI' & D4 & D5).
    rewrite HP in HE. cbn [bind fst snd] in HE.
    exists c', (Queue (bad_version (c_version c)) :: Disc :: a). split; [exact HE|]. split; [exact HI'|].
    split; [|split; [|split; [|split]]].
    + intros q [E|[E|Hq]]; [inversion E; cbn; congruence|discriminate|rewrite D1; auto].
    + intros q [E|[E|Hq]] Ht; [inversion E; subst q; discriminate|discriminate|].
      rewrite D1. destruct (D5 q Hq Ht) as [F1 F2]. split; [exact F1|].
      destruct HI4 as (_ & _ & _ & _ & _ & _ & _ & _ & F3). congruence.
    + intros E. split; congruence.
    + intros G. contradiction.
    + intros _. split; [now apply D3|]. split; [congruence|]. split; [congruence|]. eauto.
Qed.

Lemma reach_cinv cfg s tr c : u16 s -> cfg_version cfg < 256 -> reach (new_rtr_server cfg s) tr c -> cinv cfg tr c.
Proof.
  intros Hs Hb H. induction H as [|c cache p c' a H IH Hc HP]; [apply cinv_accept|].
  destruct (process_total cfg s tr cache c p Hs Hb IH) as (c2 & a2 & E & HI & _).
  rewrite HP in E. inversion E; subst. exact HI.
Qed.

(** * Sessions: nothing happens after the connection is down *)
Lemma session_down srv c reads : c_connected c = false -> session srv c reads = Ok (c, []).
Proof. intros H. destruct reads; cbn; rewrite H; reflexivity. Qed.

(** C24, accepted versions: a fatal error is the last thing queued. *)
Lemma pass_fatal srv cache c p c' a : pass_simple_handler srv cache c p = Ok (c', a) ->
  forall q, In (Queue q) a -> fatal q -> a = [Queue q; Disc] /\ c_connected c' = false.
Proof.
  assert (HD : forall d q, In (Queue q) (send_data c d) -> ~ fatal q).
  { intros d q. unfold send_data, send_pdu. destruct d as [pp aa mm ff|aa ss kk ff].
    - destruct (is6 (p_addr pp)); [intros [E|[]]; inversion E; cbn; tauto|].
      destruct (is4 (p_addr pp)); [intros [E|[]]; inversion E; cbn; tauto|intros []].
    - destruct (_ || _)%bool; [intros []|]. intros [E|[]]; inversion E; cbn; tauto. }
  assert (HSD : forall sess serial l q, In (Queue q) (send_sds c sess serial l) -> ~ fatal q).
  { intros sess serial l q. unfold send_sds. rewrite !in_app_iff. intros [[E|[]]|[H|[E|[]]]].
    - inversion E. cbn. tauto.
    - apply in_flat_map in H as (d & _ & H). now apply (HD d).
    - inversion E. cbn. tauto. }
  intros HP q Hq Hf. destruct p; cbn [pass_simple_handler] in HP; try (inversion HP; subst; destruct Hq; fail).
  - unfold request_new_version in HP. destruct (get_session_id srv (c_version c)) as [ss|e|]; cbn [bind] in HP; try discriminate.
    destruct (negb (sess =? ss)).
    + cbn [disconnect] in HP. inversion HP; subst. destruct Hq as [E|[E|[]]]; [|discriminate].
      inversion E; subst. split; reflexivity.
    + destruct (get_current_serial cache) as [n valid]. destruct valid; cbn [negb] in HP.
      * destruct (get_sds_serial_diff cache serial) as [dd|e|]; inversion HP; subst.
        -- exfalso. eapply HSD; eauto.
        -- destruct Hq as [E|[]]. inversion E; subst. destruct Hf.
      * inversion HP; subst. destruct Hq as [E|[]]. inversion E; subst. destruct Hf; discriminate.
  - unfold request_cache in HP. destruct (get_session_id srv (c_version c)) as [ss|e|]; cbn [bind] in HP; try discriminate.
    destruct (get_current_serial cache) as [n valid]. destruct valid; cbn [negb] in HP; inversion HP; subst.
    + exfalso. eapply HSD; eauto.
    + destruct Hq as [E|[]]. inversion E; subst. destruct Hf; discriminate.
Qed.

(** C27 *)
Lemma process_normal srv cache c p : process srv cache c (normal p) = process srv cache c p.
Proof.
  destruct p; try reflexivity.
  - cbn [normal]. destruct (ver =? 0) eqn:E; reflexivity.
  - cbn [normal]. destruct msg; reflexivity.
Qed.
Lemma encode_nonempty p b : wf_pdu p -> sendable p -> encode p = Ok b -> b <> [].
Proof.
  intros Hw Hs He ->. destruct (roundtrip p [] Hw Hs (Forall_nil _)) as (b & E & D).
  rewrite He in E. inversion E; subst. discriminate.
Qed.
Lemma on_read_trailing srv cache c p b rest : wf_pdu p -> sendable p -> encode p = Ok b -> bytes_ok rest ->
  on_read srv cache c (b ++ rest) = do r <- process srv cache c p; Ok (fst r, snd r, false).
Proof.
  intros Hw Hs He Hr. destruct (roundtrip p rest Hw Hs Hr) as (b' & E & D).
  rewrite He in E. inversion E; subst b'. pose proof (encode_nonempty p b Hw Hs He) as HN.
  unfold on_read, decode_bytes. destruct (b ++ rest) as [|x l] eqn:EQ; [destruct b; [contradiction|discriminate]|].
  rewrite D. cbn [bind fst]. now rewrite process_normal.
Qed.
Lemma session_aligned srv l : forall c reads,
  Forall2 (fun r cp => fst r = fst cp /\ encode (snd cp) = Ok (snd r) /\ wf_pdu (snd cp) /\ sendable (snd cp)) reads l ->
  session srv c reads = session_pdus srv c l.
Proof.
  induction l as [|[cache p] l IH]; intros c reads H; inversion H as [|[ca b] x reads' l' (H1 & H2 & H3 & H4) HF]; subst.
  - reflexivity.
  - cbn [fst snd] in *. subst ca. cbn [session session_pdus].
    destruct (negb (c_connected c)); [reflexivity|].
    pose proof (on_read_trailing srv cache c p b [] H3 H4 H2 (Forall_nil _)) as E. rewrite app_nil_r in E. rewrite E.
    destruct (process srv cache c p) as [[c' a]|e|]; cbn [bind fst snd]; try reflexivity.
    rewrite (IH c' reads' HF). reflexivity.
Qed.

(** C28 *)
Lemma pass_eod cfg s tr cache c p c' a v sess n r t e : cinv cfg tr c ->
  pass_simple_handler (new_rtr_server cfg s) cache c p = Ok (c', a) ->
  In (Queue (EndOfData v sess n r t e)) a ->
  r = timer (cfg_refresh cfg) 3600 /\ t = timer (cfg_retry cfg) 600 /\ e = timer (cfg_expire cfg) 7200.
Proof.
  intros (I1 & I2 & I3 & I4 & I5 & I6 & I7 & I8 & I9).
  assert (HD : forall d, ~ In (Queue (EndOfData v sess n r t e)) (send_data c d)).
  { intros d. unfold send_data, send_pdu. destruct d as [pp aa mm ff|aa ss kk ff].
    - destruct (is6 (p_addr pp)); [intros [E|[]]; discriminate|].
      destruct (is4 (p_addr pp)); [intros [E|[]]; discriminate|intros []].
    - destruct (_ || _)%bool; [intros []|]. intros [E|[]]; discriminate. }
  assert (HSD : forall sess' serial l, In (Queue (EndOfData v sess n r t e)) (send_sds c sess' serial l) ->
    r = timer (cfg_refresh cfg) 3600 /\ t = timer (cfg_retry cfg) 600 /\ e = timer (cfg_expire cfg) 7200).
  { intros sess' serial l. unfold send_sds. rewrite !in_app_iff. intros [[E|[]]|[H|[E|[]]]].
    - discriminate.
    - apply in_flat_map in H as (d & _ & H). exfalso. now apply (HD d).
    - inversion E; subst. auto. }
  intros HP Hq. destruct p; cbn [pass_simple_handler] in HP; try (inversion HP; subst; destruct Hq; fail).
  - unfold request_new_version in HP. destruct (get_session_id _ (c_version c)) as [ss|ee|]; cbn [bind] in HP; try discriminate.
    destruct (negb (sess0 =? ss)).
    + cbn [disconnect] in HP. inversion HP; subst. destruct Hq as [E|[E|[]]]; discriminate.
    + destruct (get_current_serial cache) as [m valid]. destruct valid; cbn [negb] in HP.
      * destruct (get_sds_serial_diff cache serial) as [dd|ee|]; inversion HP; subst.
        -- eapply HSD; eauto.
        -- destruct Hq as [E|[]]. discriminate.
      * inversion HP; subst. destruct Hq as [E|[]]. discriminate.
  - unfold request_cache in HP. destruct (get_session_id _ (c_version c)) as [ss|ee|]; cbn [bind] in HP; try discriminate.
    destruct (get_current_serial cache) as [m valid]. destruct valid; cbn [negb] in HP; inversion HP; subst.
    + eapply HSD; eauto.
    + destruct Hq as [E|[]]. discriminate.
Qed.

Lemma session_of_inj s v w : v < 256 -> w < 256 -> session_of s v = session_of s w -> v = w.
Proof. unfold session_of. intros Hv Hw E. lia. Qed.
