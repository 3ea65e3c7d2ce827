From Coq Require Import ZifyBool ZifyNat ZifyN.
From Verif Require Import Model.JsonFile Model.Chain Spec.Rfc8259 Proofs.JsonTextP Proofs.JsonTextP2 Proofs.JsonStrP Proofs.JsonNumP.
Ltac Zify.zify_post_hook ::= Z.div_mod_to_equations.
Local Open Scope string_scope.
Local Open Scope list_scope.
Local Open Scope N_scope.

(** ** Cut-off texts *)

Lemma dec_list_num r lit : dec_list r (JNum lit) = None.
Proof. reflexivity. Qed.
Lemma parse_cut t m : match parse (firstn m t) with
  | None => True | Some (JNum _) => True | Some v => parse t = Some v end.
Proof.
  assert (ET : parse t = at_eof (fold_left pstep (skipn m t) (fold_left pstep (firstn m t) (PRun LBegin [])))).
  { rewrite <- fold_left_app, firstn_skipn. reflexivity. }
  unfold parse at 1. destruct (fold_left pstep (firstn m t) (PRun LBegin [])) as [s k|v|] eqn:E; cbn [at_eof].
  - destruct s; try exact I. destruct k; [|exact I]. destruct (num_next q 32); exact I.
  - change (fold_left pstep (skipn m t) (PDone v)) with (steps (skipn m t) (PDone v)) in ET. rewrite steps_done in ET. cbn [at_eof] in ET.
    destruct v; exact ET || exact I.
  - exact I.
Qed.
Theorem decode_cut t m : decode_json (firstn m t) = None \/ decode_json (firstn m t) = decode_json t.
Proof.
  unfold decode_json. pose proof (parse_cut t m) as H. destruct (parse (firstn m t)) as [v|]; [|now left].
  destruct v; try (rewrite H; now right). left. apply dec_list_num.
Qed.
Theorem slurm_cut t m : decode_slurm (firstn m t) = None \/ decode_slurm (firstn m t) = decode_slurm t.
Proof.
  unfold decode_slurm. pose proof (parse_cut t m) as H. destruct (parse (firstn m t)) as [v|]; [|now left].
  destruct v; try (rewrite H; now right). left. reflexivity.
Qed.

(** ** What is printed is read *)

Fixpoint good (n : nat) (v : json) : Prop :=
  match v with
  | JNum lit => jnumber lit
  | JStr s => is_text s
  | JArr l => match n with O => False | S m => Forall (good m) l end
  | JObj l => match n with O => False | S m => Forall (fun kv => is_text (fst kv) /\ good m (snd kv)) l end
  | _ => True
  end.
Fixpoint joinc (l : list bytes) : bytes :=
  match l with [] => [] | [x] => x | x :: r => x ++ 44 :: joinc r end.
Definition pmem (m : bytes * json) : bytes := 34 :: quote (fst m) ++ 34 :: 58 :: print (snd m).
Lemma print_arr l : print (JArr l) = 91 :: joinc (map print l) ++ [93].
Proof.
  cbn [print]. f_equal. f_equal. induction l as [|x l IH]; [reflexivity|]. destruct l as [|y l]; [reflexivity|].
  cbn [map joinc] in IH |- *. rewrite IH. reflexivity.
Qed.
Lemma print_obj l : print (JObj l) = 123 :: joinc (map pmem l) ++ [125].
Proof.
  cbn [print]. f_equal. f_equal. induction l as [|[k x] l IH]; [reflexivity|]. destruct l as [|y l]; [reflexivity|].
  cbn [map joinc] in IH |- *. unfold pmem at 1. cbn [fst snd]. rewrite IH. cbn [app]. rewrite <- !app_assoc. reflexivity.
Qed.
Lemma joinc_snoc l x : l <> [] -> joinc (l ++ [x]) = joinc l ++ 44 :: x.
Proof.
  induction l as [|y l IH]; [congruence|]. intros _. destruct l as [|z l]; [reflexivity|].
  cbn [app joinc] in IH |- *. rewrite IH by discriminate. rewrite <- app_assoc. reflexivity.
Qed.
Lemma elems_join n l : l <> [] -> Forall (fun v => jtext go_str n v (print v)) l -> jelems go_str n l (joinc (map print l)).
Proof.
  induction l as [|v l IH] using rev_ind; [congruence|]. intros _ F. apply Forall_app in F as [F1 F2]. inversion_clear F2 as [|? ? F3 _].
  destruct l as [|y l]; [cbn; rewrite <- (app_nil_r (print v)); apply (je_one go_str n v [] (print v) []); auto; constructor|].
  rewrite map_app. cbn [map]. rewrite joinc_snoc by (cbn; discriminate).
  rewrite <- (app_nil_r (print v)). apply (je_more go_str n (y :: l) v _ [] (print v) []); auto; try constructor. apply IH; [discriminate|exact F1].
Qed.
Lemma members_join n l : l <> [] -> Forall (fun m => is_text (fst m) /\ jtext go_str n (snd m) (print (snd m))) l ->
  jmembers go_str n l (joinc (map pmem l)).
Proof.
  assert (H1 : forall m, is_text (fst m) /\ jtext go_str n (snd m) (print (snd m)) -> jmember go_str n m (pmem m)).
  { intros [k v] [T1 T2]. cbn [fst snd] in *. unfold pmem. cbn [fst snd]. destruct (quote_reads k T1) as [Q1 Q2].
    pose proof (jmem go_str n (quote k) k v [] [] [] (print v) [] ltac:(constructor) (conj Q1 (eq_sym Q2)) ltac:(constructor) ltac:(constructor) T2 ltac:(constructor)) as M.
    cbn [app] in M. rewrite app_nil_r in M. exact M. }
  induction l as [|m l IH] using rev_ind; [congruence|]. intros _ F. apply Forall_app in F as [F1 F2]. inversion_clear F2 as [|? ? F3 _].
  destruct l as [|y l]; [cbn; constructor; auto|].
  rewrite map_app. cbn [map]. rewrite joinc_snoc by (cbn; discriminate). apply (jm_more go_str n (y :: l)); auto. apply IH; [discriminate|exact F1].
Qed.
Theorem print_grammar n v : good n v -> jtext go_str n v (print v).
Proof.
  revert v. induction n as [|n IH]; intros v H; destruct v as [|b|lit|s|l|l]; cbn [good] in H; try contradiction.
  1-4, 5-8: try (destruct b); try constructor; try exact H; try (destruct (quote_reads s H) as [Q1 Q2]; split; congruence).
  all: try (destruct (quote_reads s H) as [Q1 Q2]; constructor; split; [exact Q1|now symmetry]).
  - rewrite print_arr. destruct l as [|x l]; [apply (jt_arr0 go_str n []); constructor|]. apply jt_arr. apply elems_join; [discriminate|].
    eapply Forall_impl; [|exact H]. cbn beta. auto.
  - rewrite print_obj. destruct l as [|x l]; [apply (jt_obj0 go_str n []); constructor|]. apply jt_obj. apply members_join; [discriminate|].
    eapply Forall_impl; [|exact H]. cbn beta. intros m [A B]. auto.
Qed.
Theorem print_parse v rest : good dmax v -> is_num v = false -> parse (print v ++ rest) = Some v.
Proof. intros H1 H2. apply (parse_complete [] (print v) rest v); auto; [constructor|now apply print_grammar]. Qed.

(** ** Records *)

Definition int64 (z : Z) : Prop := (- 2 ^ 63 <= z < 2 ^ 63)%Z.
Definition int64o (z : option Z) : Prop := match z with Some x => int64 x | None => True end.
Definition asn_fit (fmt : Z -> Z -> bytes) (a : jasn) : Prop :=
  match a with
  | AsnStr s => is_text s
  | AsnU32 n => u32 n
  | AsnFloat m e => jnumber (fmt m e) /\ lit_float (fmt m e) = Some (m, e)
  | AsnOther => True
  end.
Definition vrp_fit (fmt : Z -> Z -> bytes) (v : vrpjson) : Prop :=
  is_text (vj_prefix v) /\ u8 (vj_length v) /\ asn_fit fmt (vj_asn v) /\ is_text (vj_ta v) /\ int64o (vj_expires v).
Definition brk_fit (b : brkjson) : Prop :=
  u32 (bj_asn b) /\ int64o (bj_expires b) /\ is_text (bj_ta b) /\ bytes_ok (bj_pubkey b) /\ is_text (bj_ski b).
Definition meta_fit (m : meta) : Prop :=
  int64 (md_vrps m) /\ int64 (md_keys m) /\ is_text (md_build m) /\ int64o (md_gen m) /\ int64 (md_session m) /\ int64 (md_serial m).

Ltac fields :=
  repeat match goal with
  | |- context [is_field ?a ?b] => let v := eval vm_compute in (is_field a b) in change (is_field a b) with v; cbn iota
  end.
Lemma uint_back max cur n : n < max -> max <= 2 ^ 64 -> dec_uint max cur (JNum (dec n)) = Some n.
Proof. intros H1 H2. cbn [dec_uint]. rewrite uint_dec by lia. replace (n <? max) with true by lia. reflexivity. Qed.
Lemma pint_back z : int64 z -> dec_pint (JNum (zdec z)) = Some (Some z).
Proof. intros H. cbn [dec_pint]. rewrite int_zdec by exact H. reflexivity. Qed.
Lemma asn_back fmt a : asn_fit fmt a -> dec_asn (asn_json fmt a) = Some (match a with AsnU32 n => AsnFloat (Z.of_N n) 0 | _ => a end).
Proof.
  destruct a as [s|n|m e|]; cbn [asn_fit asn_json dec_asn]; intros H; try reflexivity.
  - rewrite float_dec; [reflexivity|]. unfold u32 in H. lia.
  - destruct H as [_ ->]. reflexivity.
Qed.
Lemma vrp_back fmt v : vrp_fit fmt v -> dec_vrp zero_vj (vrp_json fmt v) = Some (again v).
Proof.
  intros (H1 & H2 & H3 & H4 & H5). destruct v as [p l a ta x]; cbn [vj_prefix vj_length vj_asn vj_ta vj_expires] in *.
  unfold vrp_json, dec_vrp, dec_struct, again. cbn [vj_prefix vj_length vj_asn vj_ta vj_expires].
  destruct ta as [|c ta]; destruct x as [x|]; cbn [opt_str opt_int app fold_left fst snd]; fields;
    cbn [dec_string vj_prefix vj_length vj_asn vj_ta vj_expires zero_vj];
    rewrite uint_back by (unfold u8 in H2; lia); cbn [vj_prefix vj_length vj_asn vj_ta vj_expires];
    rewrite (asn_back fmt a H3); cbn [vj_prefix vj_length vj_asn vj_ta vj_expires];
    try rewrite (pint_back x H5); destruct a; reflexivity.
Qed.
Lemma brk_back b : brk_fit b -> dec_brk zero_bj (brk_json b) = Some b.
Proof.
  intros (H1 & H2 & H3 & H4 & H5). destruct b as [a x ta k s]; cbn [bj_asn bj_expires bj_ta bj_pubkey bj_ski] in *.
  unfold brk_json, dec_brk, dec_struct. cbn [bj_asn bj_expires bj_ta bj_pubkey bj_ski].
  destruct ta as [|c ta]; destruct x as [x|]; cbn [opt_str opt_int app fold_left fst snd]; fields;
    rewrite uint_back by (unfold u32 in H1; lia); cbn [bj_asn bj_expires bj_ta bj_pubkey bj_ski dec_string];
    try rewrite (pint_back x H2); cbn [bj_asn bj_expires bj_ta bj_pubkey bj_ski dec_bytes];
    rewrite (b64_back k H4); reflexivity.
Qed.
Lemma meta_back m : meta_fit m -> dec_meta zero_meta (meta_json m) = Some m.
Proof.
  intros (H1 & H2 & H3 & H4 & H5 & H6). destruct m as [v k b g s n]; cbn [md_vrps md_keys md_build md_gen md_session md_serial] in *.
  unfold meta_json, dec_meta, dec_struct. cbn [md_vrps md_keys md_build md_gen md_session md_serial].
  destruct b as [|c b]; destruct g as [g|]; destruct (s =? 0)%Z eqn:Es; cbn [opt_str opt_int app fold_left fst snd]; fields;
    cbn [md_vrps md_keys md_build md_gen md_session md_serial dec_string dec_int64 zero_meta];
    rewrite ?(int_zdec v H1), ?(int_zdec k H2), ?(pint_back g H4), ?(int_zdec s H5), ?(int_zdec n H6);
    try (apply Z.eqb_eq in Es; subst s);
    cbn [md_vrps md_keys md_build md_gen md_session md_serial dec_string dec_int64 zero_meta];
    rewrite ?(int_zdec v H1), ?(int_zdec k H2), ?(pint_back g H4), ?(int_zdec s H5), ?(int_zdec n H6); try reflexivity.
Qed.
Lemma elems_back {A B} (el : A -> json -> option A) zero (f : B -> json) (g : B -> A) (l : list B) :
  Forall (fun x => el zero (f x) = Some (g x)) l -> dec_elems el zero [] (map f l) = Some (map g l, []).
Proof.
  induction 1 as [|x l Hx Hl IH]; [reflexivity|]. cbn [map dec_elems hd tl]. rewrite Hx, IH. reflexivity.
Qed.
Lemma slice_back {A B} (el : A -> json -> option A) zero (f : B -> json) (g : B -> A) (l : list B) :
  Forall (fun x => el zero (f x) = Some (g x)) l -> dec_slice el zero None (JArr (map f l)) = Some (Some (map g l, [])).
Proof.
  intros H. destruct l as [|x l]; [reflexivity|]. cbn [map]. unfold dec_slice. change (f x :: map f l) with (map f (x :: l)).
  rewrite (elems_back el zero f g _ H). reflexivity.
Qed.
Definition brk_slice (l : list brkjson) : gslice brkjson := match l with [] => None | _ => Some (l, []) end.
Theorem list_back fmt m roa brk : meta_fit m -> Forall (vrp_fit fmt) roa -> Forall brk_fit brk ->
  dec_list zero_fill (list_json fmt m (Some roa) brk) = Some (mkFill m (Some (map again roa, [])) (brk_slice brk)).
Proof.
  intros HM HR HB. unfold list_json, dec_list, dec_struct.
  assert (E1 : dec_slice dec_vrp zero_vj None (JArr (map (vrp_json fmt) roa)) = Some (Some (map again roa, []))).
  { apply slice_back. eapply Forall_impl; [|exact HR]. apply vrp_back. }
  assert (E2 : dec_slice dec_brk zero_bj None (JArr (map brk_json brk)) = Some (Some (brk, []))).
  { rewrite (slice_back dec_brk zero_bj brk_json (fun b => b)); [now rewrite map_id|]. eapply Forall_impl; [|exact HB]. apply brk_back. }
  destruct brk as [|b brk]; cbn [app fold_left fst snd]; fields; cbn [fi_meta fi_roa fi_brk zero_fill];
    rewrite (meta_back m HM); cbn [fi_meta fi_roa fi_brk]; rewrite E1; cbn [fi_meta fi_roa fi_brk]; [reflexivity|].
  rewrite E2. reflexivity.
Qed.
Lemma text_str s : is_text (str s) <-> is_text (str s).
Proof. tauto. Qed.
Lemma text_ascii l : Forall (fun c => c < 128) l -> is_text l.
Proof.
  induction 1 as [|c l Hc Hl IH]; [constructor|]. change (c :: l) with ([c] ++ l). rewrite <- (utf8_ascii c Hc).
  constructor; [unfold scalar; lia|exact IH].
Qed.
Ltac ascii := apply text_ascii; vm_compute; repeat constructor.
Lemma good_mono n v : good n v -> good (S n) v.
Proof.
  revert v. induction n as [|n IH]; intros v; destruct v as [|b|lit|s|l|l]; try exact (fun H => H); cbn [good]; try contradiction.
  - intros H. eapply Forall_impl; [|exact H]. exact IH.
  - intros H. eapply Forall_impl; [|exact H]. cbn beta. intros m [A B]. split; [exact A|now apply IH].
Qed.
Lemma good_le n m v : (n <= m)%nat -> good n v -> good m v.
Proof. induction 1; auto using good_mono. Qed.
Lemma good_opt_str n name s : is_text s -> is_text (str name) -> Forall (fun kv => is_text (fst kv) /\ good n (snd kv)) (opt_str name s).
Proof. intros. destruct s; [constructor|]. constructor; [|constructor]. split; [assumption|]. destruct n; assumption. Qed.
Lemma good_num n lit : jnumber lit -> good n (JNum lit).
Proof. destruct n; auto. Qed.
Lemma good_str n s : is_text s -> good n (JStr s).
Proof. destruct n; auto. Qed.
Lemma good_opt_int n name z : is_text (str name) -> Forall (fun kv => is_text (fst kv) /\ good n (snd kv)) (opt_int name z).
Proof. intros. destruct z; [|constructor]. constructor; [|constructor]. split; [assumption|]. apply good_num, zdec_number. Qed.
Lemma good_obj n l : Forall (fun kv => is_text (fst kv) /\ good n (snd kv)) l -> good (S n) (JObj l).
Proof. exact (fun H => H). Qed.
Lemma vrp_good fmt v : vrp_fit fmt v -> good 1 (vrp_json fmt v).
Proof.
  intros (H1 & H2 & H3 & H4 & H5). unfold vrp_json. apply good_obj.
  constructor; [split; [ascii|apply good_str; exact H1]|]. constructor; [split; [ascii|apply good_num, dec_number]|].
  constructor; [split; [ascii|]|].
  - cbn [snd]. destruct (vj_asn v) as [s|n|m e|]; cbn [asn_fit asn_json] in *; [apply good_str, H3|apply good_num, dec_number|apply good_num, H3|exact I].
  - apply Forall_app. split; [apply good_opt_str; [exact H4|ascii]|apply good_opt_int; ascii].
Qed.
Lemma brk_good b : brk_fit b -> good 1 (brk_json b).
Proof.
  intros (H1 & H2 & H3 & H4 & H5). unfold brk_json. apply good_obj.
  constructor; [split; [ascii|apply good_num, dec_number]|]. apply Forall_app. split; [apply good_opt_int; ascii|].
  apply Forall_app. split; [apply good_opt_str; [exact H3|ascii]|].
  constructor; [split; [ascii|]|]. { apply good_str, text_ascii. eapply Forall_impl; [|apply b64std_chars]. cbn beta. tauto. }
  constructor; [split; [ascii|apply good_str; exact H5]|constructor].
Qed.
Lemma meta_good m : meta_fit m -> good 1 (meta_json m).
Proof.
  intros (H1 & H2 & H3 & H4 & H5 & H6). unfold meta_json. apply good_obj.
  constructor; [split; [ascii|apply good_num, zdec_number]|]. constructor; [split; [ascii|apply good_num, zdec_number]|].
  apply Forall_app. split; [apply good_opt_str; [exact H3|ascii]|]. apply Forall_app. split; [apply good_opt_int; ascii|].
  apply Forall_app. split; [destruct (md_session m =? 0)%Z; [constructor|]; constructor; [split; [ascii|apply good_num, zdec_number]|constructor]|].
  constructor; [split; [ascii|apply good_num, zdec_number]|constructor].
Qed.
Lemma list_good fmt m roa brk : meta_fit m -> Forall (vrp_fit fmt) roa -> Forall brk_fit brk -> good 3 (list_json fmt m (Some roa) brk).
Proof.
  intros HM HR HB. unfold list_json. apply good_obj.
  constructor; [split; [ascii|apply (good_le 1 2); [lia|now apply meta_good]]|].
  constructor; [split; [ascii|]|].
  { apply (Forall_map (vrp_json fmt) (good 1)). eapply Forall_impl; [|exact HR]. apply vrp_good. }
  destruct brk as [|b brk]; [constructor|]. constructor; [|constructor]. split; [ascii|].
  apply (Forall_map brk_json (good 1)). eapply Forall_impl; [|exact HB]. apply brk_good.
Qed.
Lemma dmax_ge : (3 <= dmax)%nat.
Proof. rewrite dmax_eq. lia. Qed.
Theorem text_back fmt m roa brk rest : meta_fit m -> Forall (vrp_fit fmt) roa -> Forall brk_fit brk ->
  decode_json (print (list_json fmt m (Some roa) brk) ++ rest) = Some (mkFill m (Some (map again roa, [])) (brk_slice brk)).
Proof.
  intros HM HR HB. unfold decode_json. rewrite print_parse; [now apply list_back| |reflexivity].
  apply (good_le 3); [apply dmax_ge|now apply list_good].
Qed.
