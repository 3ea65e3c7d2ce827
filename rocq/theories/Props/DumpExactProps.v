(** Theorem about the file rtrdump writes, for every stream: C56. *)
From Coq Require Import ZifyBool ZifyNat ZifyN.
From Verif Require Import Model.Rtrdump Spec.Sets Spec.Wire Spec.Collect
  Proofs.FormatP Proofs.DataP Proofs.WireP Proofs.WireP2 Proofs.SessionP Proofs.DumpP Proofs.JsonDumpP Props.CacheProps Props.ConnProps Props.ClientProps.
From Coq Require Import List.
Import ListNotations.
Local Open Scope N_scope.

(** PDUs after which rtrdump goes on reading. *)
Definition carried (p : pdu) : bool := is_data p || match p with CacheResponse _ _ => true | _ => false end.
(** What a reader of the file gets of a record: nothing when the prefix has no length. *)
Definition readable (r : rid) : option rid :=
  match r with RV x _ _ => if is_valid x then Some r else None | _ => Some r end.
(** Session and serial a PDU states, if it is an End of Data. *)
Definition end_session (q : pdu) : N := match q with EndOfData _ s _ _ _ _ => s | _ => 0 end.
Definition end_serial (q : pdu) : N := match q with EndOfData _ _ n _ _ _ => n | _ => 0 end.
(** The stream begins with [ps], to be read on after, and [q], the first PDU that ends the dump. *)
Definition up_to (b : bytes) (ps : list pdu) (q : pdu) : Prop :=
  (exists rest, decode_n 64 (S (length ps)) b = Ok (ps ++ [q], rest)) /\ forallb carried ps = true /\ carried q = false.

Definition pfx_wf (p : pdu) : Prop := match p with IPv4Prefix _ _ _ _ x | IPv6Prefix _ _ _ _ x => wf_prefix x | _ => True end.
Lemma decode_pfx b p rest : bytes_ok b -> decode 64 b = Ok (p, rest) -> pfx_wf p.
Proof.
  intros HB HD. apply decode_iff in HD as (_ & HW & _); [|exact HB].
  destruct HW; cbn [pfx_wf]; try exact I; unfold wf_prefix, w_pfx; cbn [p_addr p_bits].
  - split; [exact (fld_bound b 12 4 HB)|]. destruct (fld b 9 1 <=? 32) eqn:E; [|exact I]. split; [discriminate|]. apply N.leb_le in E. exact E.
  - split; [exact (fld_bound b 12 16 HB)|]. destruct (fld b 9 1 <=? 128) eqn:E; [|exact I]. split; [discriminate|]. apply N.leb_le in E. exact E.
Qed.
Lemma decode_n_pfx n : forall b ps rest, bytes_ok b -> decode_n 64 n b = Ok (ps, rest) -> Forall pfx_wf ps.
Proof.
  induction n as [|n IH]; intros b ps rest HB; cbn [decode_n]; [intros [= <- _]; constructor|].
  destruct (decode 64 b) as [[p r]| |] eqn:E; try discriminate. cbn [bind fst snd].
  destruct (decode_shorter b p r HB E) as (HR & _). apply decode_pfx in E; [|exact HB].
  destruct (decode_n 64 n r) as [[q r2]| |] eqn:E3; try discriminate. cbn [bind fst snd]. intros [= <- _]. constructor; [exact E|]. now apply (IH r q r2).
Qed.

Lemma handle_carried d p : snd (dump_handle d p) = negb (carried p).
Proof. destruct p; reflexivity. Qed.
Lemma keeps_carried ps : forall d, keeps dump_handle d ps <-> forallb carried ps = true.
Proof.
  induction ps as [|p ps IH]; intros d; cbn [keeps forallb]; [tauto|].
  rewrite handle_carried, IH, andb_true_iff, negb_false_iff. tauto.
Qed.
Lemma dump_reads ps q rest : forall v d b, bytes_ok b -> decode_n 64 (S (length ps)) b = Ok (ps ++ [q], rest) -> forallb carried ps = true -> carried q = false ->
  let r := start_rw dump_handle v d b in o_end r = Finished /\ o_state r = fst (dump_handle (run_handler dump_handle d ps) q).
Proof.
  induction ps as [|p ps IH]; intros v d b HB HD HC HQ; cbv zeta; rewrite (start_rw_step _ _ _ _ HB).
  - cbn [length decode_n app] in HD. destruct (decode 64 b) as [[p b1]| |]; try discriminate HD. cbn [bind fst snd] in HD. injection HD as -> _.
    cbv zeta. pose proof (handle_carried d q) as E. destruct (dump_handle d q) as [h' x] eqn:EH. cbn [snd] in E. rewrite HQ in E. cbn [negb] in E. subst x.
    cbn [o_end o_state]. split; [reflexivity|]. unfold run_handler. cbn [fold_left]. now rewrite EH.
  - cbn [length app] in HD.
    change (decode_n 64 (S (S (length ps))) b) with (bind (decode 64 b) (fun r => bind (decode_n 64 (S (length ps)) (snd r)) (fun r2 => Ok (fst r :: fst r2, snd r2)))) in HD.
    destruct (decode 64 b) as [[p' b1]| |] eqn:ED; try discriminate HD. cbn [bind fst snd] in HD.
    destruct (decode_shorter b p' b1 HB ED) as (HB1 & _).
    destruct (decode_n 64 (S (length ps)) b1) as [[l r2]| |] eqn:EN; try discriminate HD. cbn [bind fst snd] in HD. injection HD as -> -> ->.
    cbn [forallb] in HC. apply andb_true_iff in HC. destruct HC as (HC1 & HC2).
    cbv zeta. pose proof (handle_carried d p) as E. destruct (dump_handle d p) as [h' x] eqn:EH. cbn [snd] in E. rewrite HC1 in E. cbn [negb] in E. subst x.
    destruct (IH (downgrade v p) h' b1 HB1 EN HC2 HQ) as (I1 & I2). cbn [o_end o_state]. split; [exact I1|]. rewrite I2. unfold run_handler. cbn [fold_left]. now rewrite EH.
Qed.
Lemma dump_collects ps : forall d, forallb carried ps = true ->
  let d' := run_handler dump_handle d ps in
  d_roas d' = d_roas d ++ flat_map entry_of ps /\ d_keys d' = d_keys d ++ flat_map kentry_of ps /\
  d_count d' = d_count d + nlen (flat_map vrp_of ps) /\ d_session d' = d_session d /\ d_serial d' = d_serial d.
Proof.
  induction ps as [|p ps IH]; intros d HC; cbv zeta.
  { cbn. rewrite !app_nil_r. unfold nlen. cbn. repeat split; lia. }
  cbn [forallb] in HC. apply andb_true_iff in HC. destruct HC as (HC1 & HC2).
  change (run_handler dump_handle d (p :: ps)) with (run_handler dump_handle (fst (dump_handle d p)) ps).
  destruct (IH (fst (dump_handle d p)) HC2) as (I1 & I2 & I3 & I4 & I5). rewrite I1, I2, I3, I4, I5.
  destruct p; try discriminate HC1; cbn [dump_handle fst d_roas d_keys d_count d_session d_serial flat_map entry_of kentry_of vrp_of app];
    rewrite <- ?app_assoc; cbn [app]; unfold nlen; cbn [length]; repeat split; lia.
Qed.
Lemma entries_read ps : Forall pfx_wf ps -> Forall entry_fit ps ->
  map file_vrp (map fl_asn (flat_map entry_of ps)) = map readable (flat_map vrp_of ps) /\
  map file_key (flat_map kentry_of ps) = map Some (flat_map key_of ps).
Proof.
  induction ps as [|p ps IH]; intros HW HF; [auto|]. inversion_clear HW as [|? ? W1 W2]. inversion_clear HF as [|? ? F1 F2].
  destruct (IH W2 F2) as (I1 & I2).
  assert (V : forall a m x, wf_prefix x -> m < 256 /\ a < 2 ^ 32 -> file_vrp (fl_asn (mkVJ (prefix_string x) m (AsnU32 a) [] None)) = readable (RV x a m)).
  { intros a m x HX (_ & HA). unfold file_vrp, fl_asn. cbn [vj_prefix vj_asn vj_length readable].
    destruct (is_valid x) eqn:EV; [now rewrite parse_prefix_string, asn_float by assumption|].
    assert (E : prefix_string x = str_invalid_prefix).
    { unfold is_valid in EV. unfold prefix_string. destruct (p_bits x); [discriminate EV|reflexivity]. }
    rewrite E. reflexivity. }
  destruct p; cbn [flat_map entry_of kentry_of vrp_of key_of app map pfx_wf entry_fit] in *; rewrite ?I1, ?I2; try (split; reflexivity).
  - rewrite V by assumption. split; reflexivity.
  - rewrite V by assumption. split; reflexivity.
  - split; [reflexivity|]. f_equal. unfold file_key. cbn [bj_ski bj_asn bj_pubkey]. destruct F1 as (F1 & F3 & F4). now rewrite hex_decode_encode by assumption.
Qed.

(** * C56 The file for every stream of bytes *)
(** A file is written exactly when a PDU other than data and Cache Response comes before anything that
    cannot be decoded; it has every record up to there, announced or withdrawn, in order and as often
    as it came, and session and serial of that PDU if it is an End of Data, else 0.
    (Missing for the property: withdrawn records left out, no file without End of Data.) *)
Theorem C56_exact_partial : forall v b, bytes_ok b ->
  (dump_main v b <> None <-> exists ps q, up_to b ps q) /\
  forall ps q, up_to b ps q -> exists d, dump_main v b = Some d /\
    map file_vrp (fst (reread d)) = map readable (flat_map vrp_of ps) /\
    map file_key (snd (reread d)) = map Some (flat_map key_of ps) /\
    d_count d = nlen (flat_map vrp_of ps) /\ d_session d = end_session q /\ d_serial d = end_serial q.
Proof.
  intros v b HB.
  assert (K : forall ps q, up_to b ps q -> exists d, dump_main v b = Some d /\
    map file_vrp (fst (reread d)) = map readable (flat_map vrp_of ps) /\
    map file_key (snd (reread d)) = map Some (flat_map key_of ps) /\
    d_count d = nlen (flat_map vrp_of ps) /\ d_session d = end_session q /\ d_serial d = end_serial q).
  { intros ps q ((rest & HD) & HC & HQ). destruct (dump_reads ps q rest v empty_dump b HB HD HC HQ) as (E1 & E2).
    eexists. split; [unfold dump_main; rewrite E1, E2; reflexivity|].
    pose proof (decode_n_pfx _ _ _ _ HB HD) as W. pose proof (decode_n_fit _ _ _ _ HB HD) as F.
    apply Forall_app in W, F. destruct W as (W & _), F as (F & _). destruct (entries_read ps W F) as (R1 & R2).
    destruct (dump_collects ps empty_dump HC) as (C1 & C2 & C3 & C4 & C5). set (d' := run_handler dump_handle empty_dump ps) in *.
    cbn [empty_dump d_roas d_keys d_count d_session d_serial app] in C1, C2, C3, C4, C5. rewrite N.add_0_l in C3.
    assert (D : d_roas (fst (dump_handle d' q)) = d_roas d' /\ d_keys (fst (dump_handle d' q)) = d_keys d' /\ d_count (fst (dump_handle d' q)) = d_count d' /\
                d_session (fst (dump_handle d' q)) = end_session q /\ d_serial (fst (dump_handle d' q)) = end_serial q).
    { destruct q; try discriminate HQ; cbn [dump_handle fst d_roas d_keys d_count d_session d_serial end_session end_serial]; repeat split; assumption. }
    destruct D as (D1 & D2 & D3 & D4 & D5). unfold reread. cbn [fst snd]. rewrite D1, D2, D3, C1, C2. fold fl_asn. repeat split; assumption. }
  split; [|exact K]. split.
  - unfold dump_main. pose proof (session_shape dump_handle (S (length b)) v empty_dump b HB ltac:(lia)) as HS. cbv zeta in HS.
    destruct HS as (rest & HD & _ & _ & _ & _ & HE). destruct HE as [(E & qs & q & EQ & HK & HQ)|(e & E & _)]; rewrite E; [|intros X; now destruct X].
    intros _. exists qs, q. rewrite EQ in HD. rewrite app_length in HD. cbn [length] in HD. rewrite Nat.add_1_r in HD.
    split; [exists rest; exact HD|]. split; [now apply keeps_carried in HK|]. rewrite handle_carried in HQ. now apply negb_true_iff in HQ.
  - intros (ps & q & HU). destruct (K ps q HU) as (d & -> & _). discriminate.
Qed.
Print Assumptions C56_exact_partial.

(** A withdrawal, a prefix of length 40 and a Serial Notify: the file has one record and one entry
    nobody can read, and serial 0. *)
Definition b56 : bytes :=
  [1; 3; 0; 7; 0; 0; 0; 8] ++ [1; 4; 0; 0; 0; 0; 0; 20; 0; 24; 28; 0; 192; 0; 2; 0; 0; 0; 251; 240] ++
  [1; 4; 0; 0; 0; 0; 0; 20; 1; 40; 40; 0; 192; 0; 3; 0; 0; 0; 251; 241] ++ [1; 0; 0; 7; 0; 0; 0; 12; 0; 0; 0; 9] ++ [1; 2].
Example C56_exact_case : bytes_ok b56 /\
  up_to b56 [CacheResponse 1 7; IPv4Prefix 1 0 28 64496 (pfx4 3221225984 24); IPv4Prefix 1 1 40 64497 (mkPrefix (A4 3221226240) None)] (SerialNotify 1 7 9) /\
  exists d, dump_main 1 b56 = Some d /\ map file_vrp (fst (reread d)) = [Some (RV (pfx4 3221225984 24) 64496 28); None] /\ d_count d = 2 /\ d_serial d = 0.
Proof.
  split; [apply bytes_okb_ok; reflexivity|]. split.
  - split; [eexists; vm_compute; reflexivity|]. split; reflexivity.
  - eexists. split; [vm_compute; reflexivity|]. split; [vm_compute; reflexivity|]. split; reflexivity.
Qed.
