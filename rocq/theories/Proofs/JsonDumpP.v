From Coq Require Import ZifyBool ZifyNat ZifyN.
From Verif Require Import Model.JsonFile Model.Chain Spec.Rfc8259 Spec.Wire Spec.Collect Proofs.WireP Proofs.SessionP Proofs.FormatP Proofs.JsonTextP Proofs.JsonTextP2 Proofs.JsonStrP Proofs.JsonNumP Proofs.JsonFileP Proofs.JsonReadP Proofs.JsonStateP.
Local Open Scope list_scope.
Local Open Scope N_scope.

Definition low (l : bytes) : Prop := Forall (fun c => c < 128) l.
Lemma dec_low n : low (dec n).
Proof. eapply Forall_impl; [|apply dec_plain]. unfold plain, is_digit. intros; lia. Qed.
Lemma hexs_low n : low (hexs n).
Proof. eapply Forall_impl; [|apply hexs_plain]. unfold plain, is_digit. intros; lia. Qed.
Lemma low_app a b : low a -> low b -> low (a ++ b).
Proof. intros. apply Forall_app. now split. Qed.
Lemma low_one c : c < 128 -> low [c].
Proof. intros. constructor; [assumption|constructor]. Qed.
Lemma string4_low x : low (string4 x).
Proof.
  unfold string4. destruct (be 4 x) as [|a [|b [|c [|d [|]]]]]; try constructor.
  repeat (apply low_app; [apply dec_low || (apply low_one; reflexivity)|]). apply dec_low.
Qed.
Lemma emit6_low f : forall g zs ze i, low (emit6 f g zs ze i).
Proof.
  induction f as [|f IH]; intros g zs ze i; [constructor|]. cbn [emit6]. destruct (8 <=? i)%nat; [constructor|].
  destruct (i =? zs)%nat.
  - apply low_app; [repeat (constructor; [reflexivity|]); constructor|]. destruct (8 <=? ze)%nat; [constructor|]. apply low_app; [apply hexs_low|apply IH].
  - apply low_app; [destruct (0 <? i)%nat; [apply low_one; reflexivity|constructor]|]. apply low_app; [apply hexs_low|apply IH].
Qed.
Lemma prefix_low p : low (prefix_string p).
Proof.
  unfold prefix_string. destruct (p_bits p); [|unfold str_invalid_prefix; repeat (constructor; [reflexivity|]); constructor].
  apply low_app; [|apply low_app; [apply low_one; reflexivity|apply dec_low]].
  destruct (p_addr p) as [|x|x]; cbn [addr_string].
  - unfold str_invalid_ip. repeat (constructor; [reflexivity|]). constructor.
  - apply string4_low.
  - destruct (is4in6 (A6 x)); [apply low_app; [unfold str_mapped; repeat (constructor; [reflexivity|]); constructor|apply string4_low]|apply emit6_low].
Qed.
Lemma fld_bound b o n : bytes_ok b -> fld b o n < 256 ^ N.of_nat n.
Proof.
  intros H. unfold fld. assert (B : bytes_ok (firstn n (skipn o b))) by (apply Forall_firstn; now apply Forall_skipn).
  eapply N.lt_le_trans; [apply (unbe_lt _ B)|]. apply N.pow_le_mono_r; [lia|]. rewrite firstn_length. lia.
Qed.
Lemma sub_bytes b o n : bytes_ok b -> bytes_ok (sub b o n).
Proof. intros H. unfold sub. apply Forall_firstn. now apply Forall_skipn. Qed.

(** What rtrdump collects can be written. *)
Definition entry_fit (p : pdu) : Prop :=
  match p with
  | IPv4Prefix _ _ m a _ | IPv6Prefix _ _ m a _ => m < 256 /\ a < 2 ^ 32
  | RouterKey _ _ ski a spki => a < 2 ^ 32 /\ bytes_ok ski /\ bytes_ok spki
  | EndOfData _ s n _ _ _ => s < 2 ^ 16 /\ n < 2 ^ 32
  | _ => True
  end.
Lemma decode_fit b p rest : bytes_ok b -> decode 64 b = Ok (p, rest) -> entry_fit p /\ bytes_ok rest.
Proof.
  intros HB HD. apply decode_iff in HD as (_ & HW & ->); [|exact HB]. split; [|now apply Forall_skipn].
  destruct HW; cbn [entry_fit]; auto; repeat split; try (apply sub_bytes; exact HB);
    match goal with |- fld ?b ?o ?n < _ => exact (fld_bound b o n HB) | |- w_sess ?b < _ => exact (fld_bound b 2 2 HB) end.
Qed.
Lemma decode_n_fit n : forall b ps rest, bytes_ok b -> decode_n 64 n b = Ok (ps, rest) -> Forall entry_fit ps.
Proof.
  induction n as [|n IH]; intros b ps rest HB; cbn [decode_n]; [intros [= <- _]; constructor|].
  destruct (decode 64 b) as [[p r]| |] eqn:E; try discriminate. cbn [bind fst snd]. apply decode_fit in E as [E1 E2]; [|exact HB].
  destruct (decode_n 64 n r) as [[q r2]| |] eqn:E3; try discriminate. cbn [bind fst snd]. intros [= <- _]. constructor; [exact E1|]. now apply (IH r q r2).
Qed.
Definition dump_fit fmt (d : dump) : Prop :=
  Forall (vrp_fit fmt) (d_roas d) /\ Forall brk_fit (d_keys d) /\ d_session d < 2 ^ 16 /\ d_serial d < 2 ^ 32.
Lemma handle_fit fmt p h : entry_fit p -> dump_fit fmt h -> dump_fit fmt (fst (dump_handle h p)).
Proof.
  intros HP (H1 & H2 & H3 & H4).
  assert (V : forall m a x, m < 256 /\ a < 2 ^ 32 -> Forall (vrp_fit fmt) (d_roas h ++ [mkVJ (prefix_string x) m (AsnU32 a) [] None])).
  { intros m a x [V1 V2]. apply Forall_app. split; [exact H1|]. constructor; [|constructor].
    split; [apply text_ascii, prefix_low|]. split; [exact V1|]. split; [exact V2|]. split; [constructor|exact I]. }
  destruct p; cbn [dump_handle fst entry_fit] in *; try (repeat split; assumption).
  - split; [apply V; exact HP|]. repeat split; assumption.
  - split; [apply V; exact HP|]. repeat split; assumption.
  - destruct HP as [P1 P2]. repeat split; assumption.
  - destruct HP as (P1 & P2 & P3). split; [exact H1|]. split; [|split; assumption]. apply Forall_app. split; [exact H2|]. constructor; [|constructor].
    split; [exact P1|]. split; [exact I|]. split; [constructor|]. split; [exact P3|]. now apply hex_text.
Qed.
Lemma dump_main_fit fmt v b d : bytes_ok b -> dump_main v b = Some d -> dump_fit fmt d.
Proof.
  intros HB. unfold dump_main. pose proof (session_shape dump_handle (S (length b)) v empty_dump b HB ltac:(lia)) as HS.
  cbv zeta in HS. destruct HS as (rest & HD & _ & _ & _ & HR & _). set (r := start_rw dump_handle v empty_dump b) in *.
  destruct (o_end r); try discriminate. intros [= <-]. rewrite HR. apply decode_n_fit in HD; [|exact HB]. clear HR.
  assert (G : forall ps h, Forall entry_fit ps -> dump_fit fmt h -> dump_fit fmt (run_handler dump_handle h ps)).
  { intros ps. induction ps as [|p ps IH]; intros h H1 H2; [exact H2|]. inversion_clear H1. cbn [run_handler fold_left]. apply IH; [assumption|].
    now apply handle_fit. }
  apply G; [exact HD|]. repeat split; constructor.
Qed.
(** The file of rtrdump, read by stayrtr. *)
Theorem dump_back fmt room v b d : bytes_ok b -> dump_main v b = Some d -> d_count d < 2 ^ 63 ->
  reader room (dump_text fmt d) = Some (dump_list (room (length (d_roas d))) (room (length (d_keys d))) d).
Proof.
  intros HB HD HC. apply (dump_main_fit fmt) in HD as (H1 & H2 & H3 & H4); [|exact HB]. unfold reader, dump_text. rewrite text_back.
  - cbn [option_map]. unfold kept_list, dump_list, reread. cbn [fi_meta fi_roa fi_brk md_build md_gen fst snd]. unfold sl_list at 1.
    rewrite map_length, !brk_slice_list. reflexivity.
  - unfold meta_fit, int64. cbn [md_vrps md_keys md_build md_gen md_session md_serial]. repeat split; try lia; constructor.
  - exact H1.
  - exact H2.
Qed.
