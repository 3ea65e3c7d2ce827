(** What the encoder writes is a JSON text of the value, for every reader. *)
From Coq Require Import ZifyBool ZifyNat ZifyN.
From Verif Require Import Model.JsonFile Model.Chain Spec.Rfc8259 Spec.Chain Proofs.JsonStrP Proofs.JsonFileP Proofs.JsonStateP Proofs.JsonDumpP.
From Coq Require Import List.
Local Open Scope string_scope.
Local Open Scope list_scope.
Local Open Scope N_scope.
Ltac Zify.zify_post_hook ::= Z.div_mod_to_equations.

Lemma hexlow_is d : d < 16 -> hexlow d = 48 + d /\ d < 10 \/ hexlow d = 55 + d /\ 10 <= d \/ hexlow d = 87 + d /\ 10 <= d.
Proof. intros H. unfold hexlow. destruct (d <? 10) eqn:C; lia. Qed.
Lemma esc_ascii_means c t s : c < 128 -> means t s -> means (esc_ascii c ++ t) (c :: s).
Proof.
  intros Hc Ht. unfold esc_ascii.
  destruct ((c =? 34) || (c =? 92)) eqn:C1.
  { assert (c = 34 \/ c = 92) as [-> | ->] by lia; cbn [app]; apply mn_esc; auto; cbn; tauto. }
  destruct (c =? 8) eqn:C2; [apply N.eqb_eq in C2; subst c; cbn [app]; apply mn_esc; auto; cbn; tauto|].
  destruct (c =? 12) eqn:C3; [apply N.eqb_eq in C3; subst c; cbn [app]; apply mn_esc; auto; cbn; tauto|].
  destruct (c =? 10) eqn:C4; [apply N.eqb_eq in C4; subst c; cbn [app]; apply mn_esc; auto; cbn; tauto|].
  destruct (c =? 13) eqn:C5; [apply N.eqb_eq in C5; subst c; cbn [app]; apply mn_esc; auto; cbn; tauto|].
  destruct (c =? 9) eqn:C6; [apply N.eqb_eq in C6; subst c; cbn [app]; apply mn_esc; auto; cbn; tauto|].
  destruct ((c <? 32) || (c =? 60) || (c =? 62) || (c =? 38)) eqn:C7; cbn [app].
  - replace (c :: s) with (utf8 c ++ s) by (rewrite utf8_ascii by exact Hc; reflexivity). apply mn_uni; [|left; lia|exact Ht].
    exists 0, 0, (c / 16), (c mod 16). split; [lia|].
    do 2 (constructor; [lia|]). constructor; [split; [lia|apply hexlow_is; lia]|]. constructor; [split; [lia|apply hexlow_is; lia]|]. constructor.
  - pose proof (mn_char c t s) as H. rewrite utf8_ascii in H by exact Hc. apply H; auto; [left; lia|lia|lia|lia].
Qed.
Theorem quote_means s : is_text s -> means (quote s) s.
Proof.
  induction 1 as [|r t Hs Ht IH]; [constructor|]. destruct (N.lt_ge_cases r 128) as [H1|H1].
  { rewrite utf8_ascii by auto. cbn [app]. rewrite quote_ascii by auto. now apply esc_ascii_means. }
  destruct (N.eq_dec r 8232) as [->|N1]; [|destruct (N.eq_dec r 8233) as [->|N2]].
  - change (quote (utf8 8232 ++ t)) with ([92; 117; 50; 48; 50; 56] ++ quote t). cbn [app]. apply mn_uni; auto.
    exists 2, 0, 2, 8. split; [reflexivity|]. do 4 (constructor; [lia|]). constructor.
  - change (quote (utf8 8233 ++ t)) with ([92; 117; 50; 48; 50; 57] ++ quote t). cbn [app]. apply mn_uni; auto.
    exists 2, 0, 2, 9. split; [reflexivity|]. do 4 (constructor; [lia|]). constructor.
  - rewrite quote_seq by auto. apply mn_char; auto; lia.
Qed.

Lemma elems_text n l : l <> [] -> Forall (fun v => jtext means n v (print v)) l -> jelems means n l (joinc (map print l)).
Proof.
  induction l as [|v l IH] using rev_ind; [congruence|]. intros _ F. apply Forall_app in F as [F1 F2]. inversion_clear F2 as [|? ? F3 _].
  destruct l as [|y l]; [cbn; rewrite <- (app_nil_r (print v)); apply (je_one means n v [] (print v) []); auto; constructor|].
  rewrite map_app. cbn [map]. rewrite joinc_snoc by (cbn; discriminate).
  rewrite <- (app_nil_r (print v)). apply (je_more means n (y :: l) v _ [] (print v) []); auto; try constructor. apply IH; [discriminate|exact F1].
Qed.
Lemma members_text n l : l <> [] -> Forall (fun m => is_text (fst m) /\ jtext means n (snd m) (print (snd m))) l ->
  jmembers means n l (joinc (map pmem l)).
Proof.
  assert (H1 : forall m, is_text (fst m) /\ jtext means n (snd m) (print (snd m)) -> jmember means n m (pmem m)).
  { intros [k v] [T1 T2]. cbn [fst snd] in *. unfold pmem. cbn [fst snd].
    pose proof (jmem means n (quote k) k v [] [] [] (print v) [] ltac:(constructor) (quote_means k T1) ltac:(constructor) ltac:(constructor) T2 ltac:(constructor)) as M.
    cbn [app] in M. rewrite app_nil_r in M. exact M. }
  induction l as [|m l IH] using rev_ind; [congruence|]. intros _ F. apply Forall_app in F as [F1 F2]. inversion_clear F2 as [|? ? F3 _].
  destruct l as [|y l]; [cbn; constructor; auto|].
  rewrite map_app. cbn [map]. rewrite joinc_snoc by (cbn; discriminate). apply (jm_more means n (y :: l)); auto. apply IH; [discriminate|exact F1].
Qed.
Theorem print_text n v : good n v -> jtext means n v (print v).
Proof.
  revert v. induction n as [|n IH]; intros v H; destruct v as [|b|lit|s|l|l]; cbn [good] in H; try contradiction.
  1-4, 5-8: try (destruct b); try constructor; try exact H; try (now apply quote_means).
  all: try (constructor; now apply quote_means).
  - rewrite print_arr. destruct l as [|x l]; [apply (jt_arr0 means n []); constructor|]. apply jt_arr. apply elems_text; [discriminate|].
    eapply Forall_impl; [|exact H]. cbn beta. auto.
  - rewrite print_obj. destruct l as [|x l]; [apply (jt_obj0 means n []); constructor|]. apply jt_obj. apply members_text; [discriminate|].
    eapply Forall_impl; [|exact H]. cbn beta. intros m [A B]. auto.
Qed.
Theorem print_doc n v w : good n v -> ws w -> json_doc n v (print v ++ w).
Proof. intros H W. exists [], (print v), w. split; [constructor|]. split; [now apply print_text|]. split; [exact W|reflexivity]. Qed.

Lemma list_good_null fmt m brk : meta_fit m -> Forall brk_fit brk -> good 3 (list_json fmt m None brk).
Proof.
  intros HM HB. unfold list_json. apply good_obj.
  constructor; [split; [ascii|apply (good_le 1 2); [lia|now apply meta_good]]|].
  constructor; [split; [ascii|exact I]|].
  destruct brk as [|b brk]; [constructor|]. constructor; [|constructor]. split; [ascii|].
  apply (Forall_map brk_json (good 1)). eapply Forall_impl; [|exact HB]. apply brk_good.
Qed.

Lemma nl_ws : ws [10].
Proof. constructor; [|constructor]. cbn. tauto. Qed.
Theorem export_doc fmt (published : bool) s : float_fmt fmt -> held s -> (Z.of_nat (length (exported_roa s)) < 2 ^ 63)%Z ->
  json_doc 3 (list_json fmt (mkMeta (Z.of_nat (length (exported_roa s))) 0 (ex_build (st_exported s)) None 0 0)
                (if published then Some (exported_roa s) else None) (exported_brk s)) (export_text fmt published s).
Proof.
  intros HF H HL. destruct (held_exported s H) as [X1 X2].
  assert (M : meta_fit (mkMeta (Z.of_nat (length (exported_roa s))) 0 (ex_build (st_exported s)) None 0 0)).
  { unfold meta_fit, int64. cbn [md_vrps md_keys md_build md_gen md_session md_serial]. destruct H as (_ & _ & _ & H4 & _).
    repeat split; try lia; assumption || exact I. }
  apply print_doc; [|exact nl_ws]. destruct published; [|now apply list_good_null]. apply list_good; auto.
  eapply Forall_impl; [|exact X1]. intros v. now apply read_fit.
Qed.
Theorem dump_doc fmt v b d : bytes_ok b -> dump_main v b = Some d -> d_count d < 2 ^ 63 ->
  json_doc 3 (list_json fmt (mkMeta (Z.of_N (d_count d)) 0 [] None (Z.of_N (d_session d)) (Z.of_N (d_serial d))) (Some (d_roas d)) (d_keys d))
    (dump_text fmt d).
Proof.
  intros HB HD HC. apply (dump_main_fit fmt) in HD as (H1 & H2 & H3 & H4); [|exact HB]. apply print_doc; [|exact nl_ws]. apply list_good; auto.
  unfold meta_fit, int64. cbn [md_vrps md_keys md_build md_gen md_session md_serial]. repeat split; try lia; constructor.
Qed.
