(** Lemmas about client sessions. *)
From Coq Require Import ZifyBool ZifyNat ZifyN.
From Verif Require Import Model.Session Spec.Wire Spec.Collect Proofs.WireP Proofs.WireP2.
Ltac Zify.zify_post_hook ::= Z.div_mod_to_equations.

Lemma decode_shorter b p r : bytes_ok b -> decode 64 b = Ok (p, r) ->
  bytes_ok r /\ (length r < length b)%nat.
Proof.
  intros HB HD. pose proof (decode_consumes b p r HB HD) as [E HL].
  assert (HF : frame_ok b) by (apply decode_iff in HD; [tauto|exact HB]).
  destruct HF as (F1 & F2 & _).
  split.
  - rewrite E in HB. now apply Forall_app in HB.
  - apply (f_equal (@length N)) in E. rewrite app_length in E. unfold nlen in HL. lia.
Qed.

Lemma loop_fuel {H} (handle : H -> pdu -> H * bool) f1 : forall f2 v h b, bytes_ok b ->
  (length b < f1)%nat -> (length b < f2)%nat ->
  start_loop 64 handle f1 v h b = start_loop 64 handle f2 v h b.
Proof.
  induction f1 as [|f1 IH]; intros f2 v h b HB L1 L2; [lia|].
  destruct f2 as [|f2]; [lia|]. cbn [start_loop].
  destruct (decode 64 b) as [[p r]| |] eqn:E; [|reflexivity|reflexivity].
  destruct (handle h p) as [h' d]. destruct d; [reflexivity|].
  destruct (decode_shorter b p r HB E) as [HR HL].
  rewrite (IH f2) by (auto; lia). reflexivity.
Qed.

(** One iteration, without fuel. *)
Lemma start_rw_step {H} (handle : H -> pdu -> H * bool) v h b : bytes_ok b ->
  start_rw handle v h b =
  match decode 64 b with
  | Panic => mkOut [] v h Crashed
  | Err e => mkOut [] v h (Failed e)
  | Ok (dec, b') =>
      let v' := downgrade v dec in
      let (h', disc) := handle h dec in
      if disc : bool then mkOut [(v', dec)] v' h' Finished
      else let r := start_rw handle v' h' b' in
           mkOut ((v', dec) :: o_trace r) (o_version r) (o_state r) (o_end r)
  end.
Proof.
  intros HB. unfold start_rw at 1. cbn [start_loop].
  destruct (decode 64 b) as [[p r]| |] eqn:E; [|reflexivity|reflexivity]. cbv zeta.
  destruct (handle h p) as [h' d]. destruct d; [reflexivity|].
  destruct (decode_shorter b p r HB E) as [HR HL].
  unfold start_rw. rewrite (loop_fuel handle (length b) (S (length r))) by (auto; lia). reflexivity.
Qed.

Lemma version_after_cons v p l : version_after (downgrade v p) l = version_after v (p :: l).
Proof.
  unfold version_after, downgrade. cbn [existsb].
  destruct (v =? 1) eqn:E; cbn [andb]; [|now rewrite E].
  destruct (get_version p =? 0); cbn [orb]; [reflexivity|now rewrite E].
Qed.

Lemma version_after_nil v : version_after v [] = v.
Proof. unfold version_after. cbn. now rewrite andb_false_r. Qed.

(** The delivered PDUs are a prefix of the stream, the versions are as specified, and the
    end is the first failure of Decode or the first Disconnect. *)
Lemma session_shape {H} (handle : H -> pdu -> H * bool) n : forall v h b, bytes_ok b -> (length b < n)%nat ->
  let r := start_rw handle v h b in
  let ps := map snd (o_trace r) in
  exists rest,
    decode_n 64 (length ps) b = Ok (ps, rest) /\ bytes_ok rest /\
    (forall i u p, nth_error (o_trace r) i = Some (u, p) -> u = version_after v (firstn (S i) ps)) /\
    o_version r = version_after v ps /\
    o_state r = run_handler handle h ps /\
    ((o_end r = Finished /\ exists qs q, ps = qs ++ [q] /\ keeps handle h qs /\
        snd (handle (run_handler handle h qs) q) = true)
     \/ (exists e, o_end r = Failed e /\ decode 64 rest = Err e /\ keeps handle h ps)).
Proof.
  induction n as [|n IH]; intros v h b HB HL; [lia|]. cbv zeta.
  rewrite start_rw_step by exact HB.
  destruct (decode 64 b) as [[p b1]|e|] eqn:ED.
  - cbv zeta. destruct (handle h p) as [h' d] eqn:EH. destruct d.
    + cbn [o_trace o_version o_state o_end map length snd].
      exists b1. cbn [decode_n]. rewrite ED. cbn [bind snd fst].
      destruct (decode_shorter b p b1 HB ED) as [HB1 _].
      split; [reflexivity|]. split; [exact HB1|]. split.
      { intros [|i] u q Hi; cbn in Hi; [|destruct i; discriminate]. injection Hi as <- <-.
        cbn [firstn]. now rewrite <- version_after_cons, version_after_nil. }
      split; [now rewrite <- version_after_cons, version_after_nil|]. split.
      { unfold run_handler. cbn [fold_left]. now rewrite EH. }
      left. split; [reflexivity|]. exists [], p. split; [reflexivity|]. split; [exact I|].
      unfold run_handler. cbn [fold_left]. now rewrite EH.
    + destruct (decode_shorter b p b1 HB ED) as [HB1 HL1].
      specialize (IH (downgrade v p) h' b1 HB1 ltac:(lia)). cbv zeta in IH.
      destruct IH as (rest & I1 & I2 & I3 & I4 & I5 & I6).
      set (r := start_rw handle (downgrade v p) h' b1) in *.
      cbn [o_trace o_version o_state o_end map length snd].
      exists rest. cbn [decode_n]. rewrite ED. cbn [bind snd fst]. rewrite I1. cbn [bind snd fst].
      split; [reflexivity|]. split; [exact I2|]. split.
      { intros [|i] u q Hi; cbn [nth_error] in Hi.
        - injection Hi as <- <-. cbn [firstn]. now rewrite <- version_after_cons, version_after_nil.
        - specialize (I3 i u q Hi). rewrite I3. change (firstn (S (S i)) (p :: map snd (o_trace r)))
            with (p :: firstn (S i) (map snd (o_trace r))). now rewrite version_after_cons. }
      split; [rewrite I4; now rewrite version_after_cons|]. split.
      { rewrite I5. unfold run_handler. cbn [fold_left]. now rewrite EH. }
      destruct I6 as [(J1 & qs & q & J2 & J3 & J4)|(e & J1 & J2 & J3)].
      * left. split; [exact J1|]. exists (p :: qs), q. rewrite J2. split; [reflexivity|].
        split; [cbn [keeps]; rewrite EH; split; [reflexivity|exact J3]|].
        unfold run_handler. cbn [fold_left]. rewrite EH. exact J4.
      * right. exists e. split; [exact J1|]. split; [exact J2|]. cbn [keeps]. rewrite EH.
        split; [reflexivity|exact J3].
  - cbn [o_trace o_version o_state o_end map length]. exists b. cbn [decode_n].
    split; [reflexivity|]. split; [exact HB|]. split; [intros [|i] u q Hi; discriminate|].
    split; [unfold version_after; cbn; now rewrite andb_false_r|]. split; [reflexivity|].
    right. exists e. split; [reflexivity|]. split; [exact ED|exact I].
  - now apply decode_no_panic in ED.
Qed.

Lemma version_after_le v l k : version_after v l <= version_after v (firstn k l).
Proof.
  unfold version_after. destruct (v =? 1) eqn:E; cbn [andb]; [|lia].
  destruct (existsb _ l) eqn:E1; [destruct (existsb _ (firstn k l)); lia|].
  destruct (existsb _ (firstn k l)) eqn:E2; [|lia].
  apply existsb_exists in E2. destruct E2 as (x & H1 & H2).
  assert (HX : existsb (fun p => get_version p =? 0) l = true).
  { apply existsb_exists. exists x. split; [|exact H2]. rewrite <- (firstn_skipn k l).
    apply in_or_app. now left. }
  congruence.
Qed.

(** Sessions over serialised PDUs. *)
Lemma start_rw_pdu {H} (handle : H -> pdu -> H * bool) v h p b rest : wf_pdu p -> sendable p ->
  encode p = Ok b -> bytes_ok rest ->
  start_rw handle v h (b ++ rest) =
  let v' := downgrade v (normal p) in
  let (h', disc) := handle h (normal p) in
  if disc : bool then mkOut [(v', normal p)] v' h' Finished
  else let r := start_rw handle v' h' rest in
       mkOut ((v', normal p) :: o_trace r) (o_version r) (o_state r) (o_end r).
Proof.
  intros HW HS HE HR. pose proof (encode_bytes_ok p HW HS b HE) as HB.
  rewrite start_rw_step by (apply Forall_app; split; assumption).
  destruct (roundtrip p rest HW HS HR) as (b' & E1 & E2). rewrite HE in E1. injection E1 as <-.
  rewrite E2. reflexivity.
Qed.

Lemma encode_all_ok l : Forall wf_pdu l -> Forall sendable l ->
  exists b, encode_all l = Ok b /\ bytes_ok b.
Proof.
  induction l as [|p l IH]; intros HW HS; [exists []; split; [reflexivity|constructor]|].
  inversion HW as [|? ? W1 W2]; subst. inversion HS as [|? ? S1 S2]; subst.
  destruct (IH W2 S2) as (b & E & HB).
  destruct (roundtrip p [] W1 S1 ltac:(constructor)) as (b1 & E1 & _).
  exists (b1 ++ b). cbn [encode_all]. rewrite E1. cbn [bind]. rewrite E. cbn [bind].
  split; [reflexivity|]. apply Forall_app. split; [|exact HB]. exact (encode_bytes_ok p W1 S1 b1 E1).
Qed.

Lemma encode_all_cons p l b : encode_all (p :: l) = Ok b ->
  exists b1 b2, encode p = Ok b1 /\ encode_all l = Ok b2 /\ b = b1 ++ b2.
Proof.
  cbn [encode_all]. destruct (encode p) as [b1| |]; cbn [bind]; try discriminate.
  destruct (encode_all l) as [b2| |]; cbn [bind]; try discriminate.
  intros E. injection E as <-. eauto.
Qed.

Lemma start_rw_all {H} (handle : H -> pdu -> H * bool) l : forall v h b rest,
  Forall wf_pdu l -> Forall sendable l -> encode_all l = Ok b -> bytes_ok rest ->
  keeps handle h (map normal l) ->
  let r := start_rw handle (version_after v (map normal l)) (run_handler handle h (map normal l)) rest in
  let r0 := start_rw handle v h (b ++ rest) in
  o_state r0 = o_state r /\ o_end r0 = o_end r /\ map snd (o_trace r0) = map normal l ++ map snd (o_trace r)
  /\ o_version r0 = o_version r.
Proof.
  induction l as [|p l IH]; intros v h b rest HW HS HE HR HK; cbv zeta.
  - cbn [encode_all] in HE. injection HE as <-. cbn [map app]. unfold version_after. cbn [existsb].
    rewrite andb_false_r. auto.
  - inversion HW as [|? ? W1 W2]; subst. inversion HS as [|? ? S1 S2]; subst.
    destruct (encode_all_cons _ _ _ HE) as (b1 & b2 & E1 & E2 & ->).
    cbn [map keeps] in HK. destruct HK as [K1 K2].
    rewrite <- app_assoc. destruct (encode_all_ok l W2 S2) as (b2' & E2' & HB2).
    rewrite E2 in E2'. injection E2' as <-.
    rewrite (start_rw_pdu handle v h p b1 (b2 ++ rest) W1 S1 E1) by (apply Forall_app; split; assumption).
    cbv zeta. destruct (handle h (normal p)) as [h' d] eqn:EH. cbn [snd] in K1. subst d. cbn [fst] in K2.
    destruct (IH (downgrade v (normal p)) h' b2 rest W2 S2 E2 HR K2) as (J1 & J2 & J3 & J4).
    cbn [o_state o_end o_trace map snd o_version].
    rewrite J1, J2, J3, J4. unfold run_handler. cbn [map fold_left]. rewrite EH. cbn [fst].
    rewrite <- version_after_cons. cbn [app]. auto.
Qed.

(** A stream cut anywhere before its last byte never reaches the last PDU. *)
Lemma start_rw_cut {H} (handle : H -> pdu -> H * bool) l : forall v h b k,
  Forall wf_pdu l -> Forall sendable l -> encode_all l = Ok b -> (k < length b)%nat ->
  (forall qs q, map normal l = qs ++ [q] -> keeps handle h qs) ->
  exists e, o_end (start_rw handle v h (firstn k b)) = Failed e.
Proof.
  induction l as [|p l IH]; intros v h b k HW HS HE HK HQ.
  - cbn [encode_all] in HE. injection HE as <-. cbn in HK. lia.
  - inversion HW as [|? ? W1 W2]; subst. inversion HS as [|? ? S1 S2]; subst.
    destruct (encode_all_ok (p :: l) HW HS) as (b' & E' & HB).
    rewrite HE in E'. injection E' as <-.
    assert (HBk : bytes_ok (firstn k b)).
    { unfold bytes_ok in *. rewrite Forall_forall in *. intros x Hx. apply HB.
      rewrite <- (firstn_skipn k b). apply in_or_app. now left. }
    destruct (encode_all_cons _ _ _ HE) as (b1 & b2 & E1 & E2 & ->).
    destruct (Nat.lt_ge_cases k (length b1)) as [HL|HL].
    + rewrite start_rw_step by exact HBk.
      rewrite firstn_app in *. replace (k - length b1)%nat with 0%nat in * by lia.
      cbn [firstn] in *. rewrite app_nil_r in *.
      pose proof (prefix_no_decode p b1 k W1 S1 E1 HL) as HN.
      destruct (decode 64 (firstn k b1)) as [[q r]|e|] eqn:ED.
      * now contradiction (HN (q, r)).
      * exists e. reflexivity.
      * now apply decode_no_panic in ED.
    + assert (HB2 : bytes_ok b2) by (apply Forall_app in HB; tauto).
      rewrite firstn_app, (firstn_all2 b1) by exact HL. rewrite app_length in HK.
      rewrite (start_rw_pdu handle v h p b1 _ W1 S1 E1).
      2:{ unfold bytes_ok in *. rewrite Forall_forall in *. intros x Hx. apply HB2.
          rewrite <- (firstn_skipn (k - length b1) b2). apply in_or_app. now left. }
      cbv zeta.
      assert (HLn : l <> []).
      { intros ->. cbn [encode_all] in E2. injection E2 as <-. cbn [length] in HK. lia. }
      destruct (exists_last (l := map normal l)) as (qs & q & EQ).
      { destruct l; [congruence|discriminate]. }
      pose proof (HQ (normal p :: qs) q ltac:(cbn [map app]; congruence)) as [K1 K2].
      destruct (handle h (normal p)) as [h' d] eqn:EH. cbn [snd] in K1. subst d. cbn [fst] in K2.
      cbn [o_end]. apply (IH _ h' b2 (k - length b1)%nat W2 S2 E2); [lia|].
      intros qs' q' EQ'. rewrite EQ in EQ'. apply app_inj_tail in EQ'. destruct EQ' as [<- _]. exact K2.
Qed.
