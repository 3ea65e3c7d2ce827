(** Lemmas about rtrdump. *)
From Coq Require Import ZifyBool ZifyNat ZifyN.
From Verif Require Import Model.Rtrdump Model.Conn Spec.Wire Spec.Collect Spec.Response Spec.History
  Proofs.FormatP Proofs.DataP Proofs.WireP Proofs.WireP2 Proofs.ConnP Proofs.CacheP Proofs.SessionP.
Ltac Zify.zify_post_hook ::= Z.div_mod_to_equations.

Definition entry_of (p : pdu) : list vrpjson :=
  match p with
  | IPv4Prefix _ _ m a x | IPv6Prefix _ _ m a x => [mkVJ (prefix_string x) m (AsnU32 a) [] None]
  | _ => []
  end.
Definition kentry_of (p : pdu) : list brkjson :=
  match p with RouterKey _ _ s a k => [mkBJ a None [] k (hex_encode s)] | _ => [] end.

Lemma normal_data p : is_data p = true -> normal p = p.
Proof. destruct p; intros H; try discriminate H; reflexivity. Qed.
Lemma map_normal_data l : forallb is_data l = true -> map normal l = l.
Proof.
  induction l as [|p l IH]; [reflexivity|]. cbn [forallb]. rewrite andb_true_iff. intros [H1 H2].
  cbn [map]. now rewrite normal_data, IH.
Qed.

Lemma dump_data l : forall d, forallb is_data l = true ->
  keeps dump_handle d l /\
  let d' := run_handler dump_handle d l in
  d_roas d' = d_roas d ++ flat_map entry_of l /\
  d_keys d' = d_keys d ++ flat_map kentry_of l /\
  d_count d' = d_count d + nlen (flat_map entry_of l) /\
  d_session d' = d_session d /\ d_serial d' = d_serial d.
Proof.
  induction l as [|p l IH]; intros d HD.
  - split; [exact I|]. unfold run_handler. cbn [fold_left flat_map]. rewrite !app_nil_r.
    change (nlen (@nil vrpjson)) with 0. split; [reflexivity|]. split; [reflexivity|]. split; [lia|]. auto.
  - cbn [forallb] in HD. apply andb_true_iff in HD. destruct HD as [H1 H2].
    cbn [keeps]. unfold run_handler. cbn [fold_left].
    destruct (IH (fst (dump_handle d p)) H2) as (K & I1 & I2 & I3 & I4 & I5).
    unfold run_handler in I1, I2, I3, I4, I5.
    split; [split; [destruct p; try discriminate H1; reflexivity|exact K]|].
    cbv zeta. rewrite I1, I2, I3, I4, I5.
    destruct p; try discriminate H1; cbn [dump_handle fst d_roas d_keys d_count d_session d_serial entry_of kentry_of flat_map app];
      rewrite <- ?app_assoc; unfold nlen; cbn [length app]; repeat split; lia.
Qed.

Lemma asn_float n : u32 n -> get_asn2 (AsnFloat (Z.of_N n) 0) = Some n.
Proof.
  unfold u32. intros H. cbn [get_asn2]. f_equal. unfold u32_of_float, float_trunc.
  rewrite Z.leb_refl. change (2 ^ 0)%Z with 1%Z. rewrite Z.mul_1_r.
  assert (E : ((- 2 ^ 63 <=? Z.of_N n) && (Z.of_N n <? 2 ^ 63) = true)%Z) by lia.
  rewrite E. unfold to_u32. lia.
Qed.

Definition fl_asn (v : vrpjson) : vrpjson :=
  mkVJ (vj_prefix v) (vj_length v)
       (match vj_asn v with AsnU32 n => AsnFloat (Z.of_N n) 0 | a => a end)
       (vj_ta v) (vj_expires v).
Lemma read_entries l : Forall wf_pdu l -> Forall sendable l -> forallb is_data l = true ->
  map file_vrp (map fl_asn (flat_map entry_of l)) = map Some (flat_map vrp_of l) /\
  map file_key (flat_map kentry_of l) = map Some (flat_map key_of l).
Proof.
  induction l as [|p l IH]; intros HW HS HD; [auto|].
  inversion HW as [|? ? W1 W2]; subst. inversion HS as [|? ? S1 S2]; subst.
  cbn [forallb] in HD. apply andb_true_iff in HD. destruct HD as [H1 H2].
  destruct (IH W2 S2 H2) as [I1 I2].
  destruct p; try discriminate H1; cbn [flat_map entry_of kentry_of vrp_of key_of app map]; rewrite I1, I2.
  - cbn [wf_pdu sendable] in W1, S1. split; [|reflexivity]. f_equal.
    unfold file_vrp, fl_asn. cbn [vj_prefix vj_asn vj_length].
    rewrite parse_prefix_string by tauto. rewrite asn_float by tauto. reflexivity.
  - cbn [wf_pdu sendable] in W1, S1. split; [|reflexivity]. f_equal.
    unfold file_vrp, fl_asn. cbn [vj_prefix vj_asn vj_length].
    rewrite parse_prefix_string by tauto. rewrite asn_float by tauto. reflexivity.
  - cbn [wf_pdu] in W1. split; [reflexivity|]. f_equal. unfold file_key. cbn [bj_ski bj_asn bj_pubkey].
    rewrite hex_decode_encode by tauto. reflexivity.
Qed.

Lemma answer_wf v sess serial r t e data : u8 v -> u16 sess -> u32 serial -> u32 r -> u32 t -> u32 e ->
  Forall wf_pdu data -> Forall sendable data ->
  Forall wf_pdu (answer v sess serial r t e data) /\ Forall sendable (answer v sess serial r t e data).
Proof.
  intros. unfold answer. split; repeat (apply Forall_app; split); auto; repeat constructor; auto.
Qed.

Lemma dump_response v0 v sess serial r t e data b :
  u8 v -> u16 sess -> u32 serial -> u32 r -> u32 t -> u32 e ->
  Forall wf_pdu data -> Forall sendable data -> forallb is_data data = true ->
  encode_all (answer v sess serial r t e data) = Ok b ->
  exists d, (forall rest, bytes_ok rest -> dump_main v0 (b ++ rest) = Some d) /\ d_session d = sess /\ d_serial d = serial /\
    d_count d = nlen (flat_map vrp_of data) /\
    map file_vrp (fst (reread d)) = map Some (flat_map vrp_of data) /\
    map file_key (snd (reread d)) = map Some (flat_map key_of data).
Proof.
  intros Hv Hs Hn Hr Ht He HW HS HD HE.
  destruct (answer_wf v sess serial r t e data) as [AW AS]; auto.
  unfold answer in HE, AW, AS. rewrite app_assoc in HE, AW, AS.
  assert (HEX : exists b1 b2, encode_all ([CacheResponse v sess] ++ data) = Ok b1 /\
     encode (EndOfData v sess serial r t e) = Ok b2 /\ b = b1 ++ b2).
  { revert b HE. generalize ([CacheResponse v sess] ++ data) as l. clear.
    intros l. induction l as [|p l IH]; intros b HE.
    - cbn [app] in HE. apply encode_all_cons in HE. destruct HE as (b1 & b2 & E1 & E2 & ->).
      cbn [encode_all] in E2. injection E2 as <-. exists [], b1. rewrite app_nil_r. auto.
    - cbn [app] in HE. apply encode_all_cons in HE. destruct HE as (b1 & b2 & E1 & E2 & ->).
      destruct (IH b2 E2) as (c1 & c2 & F1 & F2 & ->). exists (b1 ++ c1), c2.
      cbn [encode_all]. rewrite E1. cbn [bind]. rewrite F1. cbn [bind]. rewrite app_assoc. auto. }
  destruct HEX as (b1 & b2 & E1 & E2 & ->).
  apply Forall_app in AW. destruct AW as [AW1 AW2]. apply Forall_app in AS. destruct AS as [AS1 AS2].
  inversion AW2 as [|? ? W1 _]; subst. inversion AS2 as [|? ? S1 _]; subst.
  set (pre := [CacheResponse v sess] ++ data) in *.
  assert (HN : map normal pre = pre).
  { unfold pre. rewrite map_app. cbn [map normal app]. now rewrite map_normal_data. }
  assert (HK : keeps dump_handle empty_dump pre /\
     run_handler dump_handle empty_dump pre = run_handler dump_handle empty_dump data).
  { unfold pre. cbn [app keeps dump_handle snd fst]. split; [split; [reflexivity|now apply dump_data]|reflexivity]. }
  destruct HK as [HK HRun].
  destruct (dump_data data empty_dump HD) as (_ & D1 & D2 & D3 & D4 & D5).
  assert (HND : exists r' t' e', normal (EndOfData v sess serial r t e) = EndOfData v sess serial r' t' e').
  { cbn [normal]. destruct (v =? 0); eauto. }
  destruct HND as (r' & t' & e' & HND).
  set (x := run_handler dump_handle empty_dump data) in *.
  exists (mkDump (d_roas x) (d_keys x) (d_count x) sess serial). split.
  { intros rest HR.
    assert (HB2 : bytes_ok (b2 ++ rest)).
    { apply Forall_app. split; [|exact HR]. exact (encode_bytes_ok _ W1 S1 b2 E2). }
    rewrite <- app_assoc.
    destruct (start_rw_all dump_handle pre v0 empty_dump b1 (b2 ++ rest) AW1 AS1 E1 HB2 ltac:(now rewrite HN))
      as (J1 & J2 & _ & _).
    rewrite HN, HRun in J1, J2.
    rewrite (start_rw_pdu dump_handle _ _ _ b2 rest W1 S1 E2 HR) in J1, J2. cbv zeta in J1, J2.
    rewrite HND in J1, J2. cbn [dump_handle o_state o_end] in J1, J2.
    unfold dump_main. now rewrite J2, J1. }
  cbn [d_session d_serial d_count].
  split; [reflexivity|]. split; [reflexivity|].
  destruct (read_entries data HW HS HD) as [R1 R2].
  unfold reread. cbn [fst snd d_roas d_keys]. fold fl_asn.
  rewrite D1, D2, D3. cbn [empty_dump d_roas d_keys d_count app].
  split; [|split; [exact R1|exact R2]].
  apply (f_equal (@length _)) in R1. rewrite !map_length in R1. unfold nlen. lia.
Qed.

Lemma queued_map l : queued (map Queue l) = l.
Proof. induction l as [|p l IH]; [reflexivity|]. unfold queued in *. cbn [map flat_map app]. now rewrite IH. Qed.

(** Router keys whose identifier is not 20 bytes are not written at all. *)
Definition writes (p : pdu) : bool :=
  match p with RouterKey _ _ s _ _ => nlen s =? 20 | _ => true end.
Lemma encode_all_writes l : encode_all l = encode_all (filter writes l).
Proof.
  induction l as [|p l IH]; [reflexivity|]. cbn [encode_all filter].
  destruct (writes p) eqn:E.
  - cbn [encode_all]. now rewrite IH.
  - destruct p; try discriminate E. cbn [writes] in E. cbn [encode]. rewrite E. cbn [negb bind app].
    rewrite IH. destruct (encode_all (filter writes l)); reflexivity.
Qed.

Lemma data_pdus w nokeys l : u8 w -> Forall wf_sd l -> Forall key_fits l ->
  let ds := filter writes (map (data_pdu w) (filter (may_send w nokeys) l)) in
  Forall wf_pdu ds /\ Forall sendable ds /\ forallb is_data ds = true /\
  flat_map vrp_of ds = vrp_ids l /\ flat_map key_of ds = key_ids w nokeys l.
Proof.
  intros Hw. induction l as [|d l IH]; intros HW HF; cbv zeta; [cbn; auto|].
  inversion HW as [|? ? W1 W2]; subst. inversion HF as [|? ? F1 F2]; subst.
  specialize (IH W2 F2). cbv zeta in IH. destruct IH as (I1 & I2 & I3 & I4 & I5).
  destruct d as [p a m f|a s k f].
  - unfold vrp_ids, key_ids. cbn [filter may_send map flat_map app]. fold (vrp_ids l) (key_ids w nokeys l).
    cbn [wf_sd] in W1. destruct W1 as (P1 & P2 & P3 & P4 & P5).
    assert (HP : exists q, data_pdu w (VRP p a m f) = q /\ wf_pdu q /\ sendable q /\ is_data q = true
      /\ writes q = true /\ vrp_of q = [RV p a m] /\ key_of q = []).
    { destruct p as [[|x|x] b].
      - destruct b; cbn in P1, P2; [|discriminate P2]. destruct P1 as [_ [P1 _]]. now contradiction P1.
      - eexists. split; [reflexivity|]. cbn [data_pdu wf_pdu sendable is_data writes vrp_of key_of is4 p_addr].
        unfold u8 in *. auto 10.
      - eexists. split; [reflexivity|]. cbn [data_pdu wf_pdu sendable is_data writes vrp_of key_of is6 p_addr].
        unfold u8 in *. auto 10. }
    destruct HP as (q & -> & Q1 & Q2 & Q3 & Q4 & Q5 & Q6). rewrite Q4.
    cbn [forallb flat_map]. rewrite Q3, Q5, Q6, I3, I4, I5. cbn [app andb].
    repeat split; auto.
  - unfold vrp_ids, key_ids. cbn [flat_map app]. fold (vrp_ids l) (key_ids w nokeys l).
    cbn [filter]. destruct (may_send w nokeys (BgpsecKey a s k f)) eqn:EM.
    + cbn [map filter data_pdu writes]. destruct (nlen s =? 20) eqn:EL; cbn [andb].
      * cbn [flat_map forallb is_data vrp_of key_of app]. rewrite I3, I4, I5.
        cbn [wf_sd] in W1. destruct W1 as (P1 & P2 & P3 & P4).
        cbn [key_fits] in F1. apply N.eqb_eq in EL. specialize (F1 EL).
        repeat split; auto; constructor; auto; cbn [wf_pdu sendable]; unfold u8 in *; tauto.
      * cbn [app]. auto.
    + cbn [andb app]. auto.
Qed.
