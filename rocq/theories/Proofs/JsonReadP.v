From Coq Require Import ZifyBool ZifyNat ZifyN.
From Verif Require Import Model.JsonFile Model.Chain Spec.Rfc8259 Spec.Refresh Proofs.JsonTextP Proofs.JsonTextP2 Proofs.JsonStrP Proofs.JsonNumP Proofs.JsonFileP.
Local Open Scope string_scope.
Local Open Scope list_scope.
Local Open Scope N_scope.

(** ** Everything that is read is well formed *)

Lemma read_good : (forall n v b, jtext go_str n v b -> good n v) /\ 
  (forall n l b, jelems go_str n l b -> Forall (good n) l) /\
  (forall n l b, jmembers go_str n l b -> Forall (fun kv => is_text (fst kv) /\ good n (snd kv)) l) /\
  (forall n m b, jmember go_str n m b -> is_text (fst m) /\ good n (snd m)).
Proof.
  apply (json_mind go_str); try (intros n; destruct n; exact I); try (intros n lit H; now apply good_num).
  - intros n raw s [H1 H2]. apply good_str. subst s. now apply unquote_text.
  - intros n w H. constructor.
  - intros n l b H IH. exact IH.
  - intros n w H. constructor.
  - intros n l b H IH. exact IH.
  - intros. constructor; [assumption|constructor].
  - intros n l v bl w b w' H1 IH1 Hw H2 IH2 Hw'. apply Forall_app. split; [exact IH1|]. constructor; [exact IH2|constructor].
  - intros n m b H IH. constructor; [exact IH|constructor].
  - intros n l m bl b H1 IH1 H2 IH2. apply Forall_app. split; [exact IH1|]. constructor; [exact IH2|constructor].
  - intros n raw s v w1 w2 w3 b w4 _ [H1 H2] _ _ H IH _. cbn [fst snd]. split; [|exact IH]. subst s. now apply unquote_text.
Qed.
Lemma parse_good t v : parse t = Some v -> good dmax v.
Proof. intros H. apply parse_sound in H as (w & b & rest & _ & _ & H). now apply (proj1 read_good) in H. Qed.

Definition fine (v : json) : Prop := exists n, good n v.
Lemma fine_arr l : fine (JArr l) -> Forall fine l.
Proof. intros [[|n] H]; [contradiction|]. eapply Forall_impl; [|exact H]. intros v Hv. now exists n. Qed.
Lemma fine_obj l : fine (JObj l) -> Forall (fun m => is_text (fst m) /\ fine (snd m)) l.
Proof. intros [[|n] H]; [contradiction|]. eapply Forall_impl; [|exact H]. cbn beta. intros m [A B]. split; [exact A|]. now exists n. Qed.
Lemma fine_str s : fine (JStr s) -> is_text s.
Proof. intros [[|n] H]; exact H. Qed.

Lemma struct_inv {A} (P : A -> Prop) (f : A -> bytes -> json -> option A) :
  (forall x k j y, P x -> fine j -> f x k j = Some y -> P y) ->
  forall a j r, P a -> fine j -> dec_struct f a j = Some r -> P r.
Proof.
  intros Hf a j r Ha Hj. destruct j as [|b|lit|s|l|l]; cbn [dec_struct]; try discriminate; [now intros [= <-]|].
  apply fine_obj in Hj. revert a Ha. induction Hj as [|[k v] l [_ Hv] Hl IH]; intros a Ha; cbn [fold_left fst snd] in *; [now intros [= <-]|].
  destruct (f a k v) as [y|] eqn:E; [intros H; apply (IH y); [now apply (Hf a k v y)|exact H]|].
  assert (N : forall l', fold_left (fun acc (m : bytes * json) => match acc with Some x => f x (fst m) (snd m) | None => None end) l' None = None)
    by (induction l'; auto).
  rewrite N. discriminate.
Qed.
Lemma elems_inv {A} (P : A -> Prop) (el : A -> json -> option A) zero :
  (forall x j y, P x -> fine j -> el x j = Some y -> P y) -> P zero ->
  forall l old xs rest, Forall P old -> Forall fine l -> dec_elems el zero old l = Some (xs, rest) -> Forall P xs /\ Forall P rest.
Proof.
  intros Hf H0 l. induction l as [|j l IH]; intros old xs rest Ho Hl; cbn [dec_elems].
  - intros [= <- <-]. split; [constructor|exact Ho].
  - inversion_clear Hl as [|? ? Hj Hl']. destruct (el (hd zero old) j) as [x|] eqn:E; [|discriminate].
    destruct (dec_elems el zero (tl old) l) as [[xs' rest']|] eqn:E'; [|discriminate]. intros [= <- <-].
    assert (Ht : Forall P (tl old)) by (destruct Ho; [constructor|assumption]).
    destruct (IH _ _ _ Ht Hl' E') as [I1 I2]. split; [|exact I2]. constructor; [|exact I1].
    apply (Hf (hd zero old) j x); auto. destruct Ho; assumption.
Qed.
Definition slice_ok {A} (P : A -> Prop) (s : gslice A) : Prop := match s with Some (a, b) => Forall P a /\ Forall P b | None => True end.
Lemma slice_inv {A} (P : A -> Prop) (el : A -> json -> option A) zero :
  (forall x j y, P x -> fine j -> el x j = Some y -> P y) -> P zero ->
  forall cur j s, slice_ok P cur -> fine j -> dec_slice el zero cur j = Some s -> slice_ok P s.
Proof.
  intros Hf H0 cur j s Hc Hj. destruct j as [|b|lit|x|l|l]; cbn [dec_slice]; try discriminate; [now intros [= <-]|].
  destruct l as [|x l]; [intros [= <-]; split; constructor|].
  destruct (dec_elems el zero _ (x :: l)) as [[xs rest]|] eqn:E; [|discriminate]. intros [= <-].
  apply (elems_inv P el zero Hf H0 (x :: l) _ _ _) in E; [exact E| |now apply fine_arr].
  destruct cur as [[a b]|]; [|constructor]. destruct Hc. now apply Forall_app.
Qed.

Lemma uint_max max cur j n : dec_uint max cur j = Some n -> n < max \/ n = cur.
Proof.
  destruct j; cbn [dec_uint]; try discriminate; [intros [= <-]; now right|].
  destruct (lit_uint lit) as [m|]; [|discriminate]. destruct (m <? max) eqn:C; [|discriminate]. intros [= <-]. left. lia.
Qed.
Lemma string_text cur j s : is_text cur -> fine j -> dec_string cur j = Some s -> is_text s.
Proof. destruct j; cbn [dec_string]; try discriminate; intros H1 H2 [= <-]; [exact H1|now apply fine_str]. Qed.
Lemma lit_int_range lit z : lit_int lit = Some z -> int64 z.
Proof.
  unfold lit_int, int64. destruct lit as [|c r]; [discriminate|]. destruct (c =? 45).
  - destruct (span_digits r) as [d [|? ?]]; [|discriminate]. destruct (dval d <=? 2 ^ 63) eqn:C; [|discriminate]. intros [= <-]. lia.
  - destruct (span_digits (c :: r)) as [d [|? ?]]; [|discriminate]. destruct (dval d <? 2 ^ 63) eqn:C; [|discriminate]. intros [= <-]. lia.
Qed.
Lemma int_range cur j z : int64 cur -> dec_int64 cur j = Some z -> int64 z.
Proof. destruct j; cbn [dec_int64]; try discriminate; [now intros H [= <-]|intros _; apply lit_int_range]. Qed.
Lemma pint_range j z : dec_pint j = Some z -> int64o z.
Proof.
  destruct j; cbn [dec_pint]; try discriminate; [now intros [= <-]|]. destruct (lit_int lit) as [x|] eqn:E; [|discriminate].
  intros [= <-]. now apply lit_int_range in E.
Qed.
Lemma elems_uint8 l : forall old xs rest, bytes_ok old -> dec_elems (dec_uint 256) 0 old l = Some (xs, rest) -> bytes_ok xs /\ bytes_ok rest.
Proof.
  induction l as [|j l IH]; intros old xs rest Ho; cbn [dec_elems]; [intros [= <- <-]; split; [constructor|exact Ho]|].
  destruct (dec_uint 256 (hd 0 old) j) as [x|] eqn:E; [|discriminate].
  destruct (dec_elems (dec_uint 256) 0 (tl old) l) as [[xs' rest']|] eqn:E'; [|discriminate]. intros [= <- <-].
  assert (Ht : bytes_ok (tl old)) by (destruct Ho; [constructor|assumption]).
  destruct (IH _ _ _ Ht E') as [I1 I2]. split; [|exact I2]. constructor; [|exact I1].
  apply uint_max in E as [E| ->]; [exact E|]. destruct Ho; [reflexivity|assumption].
Qed.
Lemma bytes_dec_ok j b : dec_bytes j = Some b -> bytes_ok b.
Proof.
  destruct j as [|x|lit|s|l|l]; cbn [dec_bytes]; try discriminate; [intros [= <-]; constructor|unfold b64dec; apply b64groups_ok|].
  destruct (dec_elems (dec_uint 256) 0 [] l) as [[xs rest]|] eqn:E; [|discriminate]. intros [= <-].
  apply elems_uint8 in E; [apply E|constructor].
Qed.

(** An AS number as it can come out of a file. *)
Definition asn_read (a : jasn) : Prop :=
  match a with
  | AsnStr s => is_text s
  | AsnU32 n => u32 n
  | AsnFloat m e => exists lit, lit_float lit = Some (m, e)
  | AsnOther => True
  end.
Definition vrp_read (v : vrpjson) : Prop :=
  is_text (vj_prefix v) /\ u8 (vj_length v) /\ asn_read (vj_asn v) /\ is_text (vj_ta v) /\ int64o (vj_expires v).
Lemma asn_dec_read j a : fine j -> dec_asn j = Some a -> asn_read a.
Proof.
  destruct j as [|b|lit|s|l|l]; cbn [dec_asn]; intros F;
    try (destruct (floats_ok _); [|discriminate]; intros [= <-]; exact I).
  - destruct (lit_float lit) as [[m e]|] eqn:E; [|discriminate]. intros [= <-]. now exists lit.
  - intros [= <-]. now apply fine_str.
Qed.
Ltac field_cases :=
  repeat match goal with |- context [if is_field ?a ?b then _ else _] => destruct (is_field a b) end.
Lemma vrp_dec_read x j y : vrp_read x -> fine j -> dec_vrp x j = Some y -> vrp_read y.
Proof.
  apply struct_inv. clear. intros x k j y (H1 & H2 & H3 & H4 & H5) F. destruct x as [p l a ta ex]. cbn [vj_prefix vj_length vj_asn vj_ta vj_expires] in *.
  field_cases.
  - destruct (dec_string p j) eqn:E; [|discriminate]. intros [= <-]. repeat split; auto. now apply string_text in E.
  - destruct (dec_uint 256 l j) eqn:E; [|discriminate]. intros [= <-]. repeat split; auto. cbn. apply uint_max in E as [E| ->]; auto.
  - destruct (dec_asn j) eqn:E; [|discriminate]. intros [= <-]. repeat split; auto. now apply asn_dec_read in E.
  - destruct (dec_string ta j) eqn:E; [|discriminate]. intros [= <-]. repeat split; auto. now apply string_text in E.
  - destruct (dec_pint j) eqn:E; [|discriminate]. intros [= <-]. repeat split; auto. now apply pint_range in E.
  - intros [= <-]. repeat split; auto.
Qed.
Lemma brk_dec_read x j y : brk_fit x -> fine j -> dec_brk x j = Some y -> brk_fit y.
Proof.
  apply struct_inv. clear. intros x k j y (H1 & H2 & H3 & H4 & H5) F. destruct x as [a ex ta pk s]. cbn [bj_asn bj_expires bj_ta bj_pubkey bj_ski] in *.
  field_cases.
  - destruct (dec_uint 4294967296 a j) eqn:E; [|discriminate]. intros [= <-]. repeat split; auto. cbn. apply uint_max in E as [E| ->]; auto.
  - destruct (dec_pint j) eqn:E; [|discriminate]. intros [= <-]. repeat split; auto. now apply pint_range in E.
  - destruct (dec_string ta j) eqn:E; [|discriminate]. intros [= <-]. repeat split; auto. now apply string_text in E.
  - destruct (dec_bytes j) eqn:E; [|discriminate]. intros [= <-]. repeat split; auto. now apply bytes_dec_ok in E.
  - destruct (dec_string s j) eqn:E; [|discriminate]. intros [= <-]. repeat split; auto. now apply string_text in E.
  - intros [= <-]. repeat split; auto.
Qed.
Lemma meta_dec_read x j y : meta_fit x -> fine j -> dec_meta x j = Some y -> meta_fit y.
Proof.
  apply struct_inv. clear. intros x k j y (H1 & H2 & H3 & H4 & H5 & H6) F. destruct x as [v ks b g s n]. cbn [md_vrps md_keys md_build md_gen md_session md_serial] in *.
  field_cases.
  - destruct (dec_int64 v j) eqn:E; [|discriminate]. intros [= <-]. apply int_range in E; [|exact H1]. now repeat (split; [assumption|]).
  - destruct (dec_int64 ks j) eqn:E; [|discriminate]. intros [= <-]. apply int_range in E; [|exact H2]. now repeat (split; [assumption|]).
  - destruct (dec_string b j) eqn:E; [|discriminate]. intros [= <-]. apply string_text in E; auto. now repeat (split; [assumption|]).
  - destruct (dec_pint j) eqn:E; [|discriminate]. intros [= <-]. apply pint_range in E. now repeat (split; [assumption|]).
  - destruct (dec_int64 s j) eqn:E; [|discriminate]. intros [= <-]. apply int_range in E; [|exact H5]. now repeat (split; [assumption|]).
  - destruct (dec_int64 n j) eqn:E; [|discriminate]. intros [= <-]. apply int_range in E; [|exact H6]. now repeat (split; [assumption|]).
  - intros [= <-]. now repeat (split; [assumption|]).
Qed.
Lemma zero_vj_read : vrp_read zero_vj.
Proof. repeat split; constructor. Qed.
Lemma zero_bj_fit : brk_fit zero_bj.
Proof. repeat split; constructor. Qed.
Lemma zero_meta_fit : meta_fit zero_meta.
Proof. unfold meta_fit, int64; cbn. repeat split; try lia. constructor. Qed.
Definition fill_ok (r : filling) : Prop := meta_fit (fi_meta r) /\ slice_ok vrp_read (fi_roa r) /\ slice_ok brk_fit (fi_brk r).
Lemma list_dec_read x j y : fill_ok x -> fine j -> dec_list x j = Some y -> fill_ok y.
Proof.
  apply struct_inv. clear. intros x k j y (H1 & H2 & H3) F. destruct x as [m v b]. cbn [fi_meta fi_roa fi_brk] in *. field_cases.
  - destruct (dec_meta m j) eqn:E; [|discriminate]. intros [= <-]. apply meta_dec_read in E; auto. now repeat (split; [assumption|]).
  - destruct (dec_slice dec_vrp zero_vj v j) eqn:E; [|discriminate]. intros [= <-].
    apply (slice_inv vrp_read dec_vrp zero_vj vrp_dec_read zero_vj_read) in E; auto. now repeat (split; [assumption|]).
  - destruct (dec_slice dec_brk zero_bj b j) eqn:E; [|discriminate]. intros [= <-].
    apply (slice_inv brk_fit dec_brk zero_bj brk_dec_read zero_bj_fit) in E; auto. now repeat (split; [assumption|]).
  - intros [= <-]. now repeat (split; [assumption|]).
Qed.
Theorem decode_read t r : decode_json t = Some r -> fill_ok r.
Proof.
  unfold decode_json. destruct (parse t) as [j|] eqn:E; [|discriminate]. apply list_dec_read; [|exists dmax; now apply parse_good in E].
  repeat split; try exact I; apply zero_meta_fit.
Qed.

(** SLURM *)
Definition pa_read (a : passert) : Prop := is_text (pa_prefix a) /\ u32 (pa_asn a) /\ int64 (pa_maxlen a) /\ is_text (pa_comment a).
Definition ba_read (a : bassert * bytes) : Prop := bytes_ok (ba_ski (fst a)) /\ u32 (ba_asn (fst a)) /\ bytes_ok (ba_key (fst a)).
Lemma passert_dec_read x j y : pa_read x -> fine j -> dec_passert x j = Some y -> pa_read y.
Proof.
  apply struct_inv. clear. intros x k j y (H1 & H2 & H3 & H4) F. destruct x as [p a m c]. cbn [pa_prefix pa_asn pa_maxlen pa_comment] in *. field_cases.
  - destruct (dec_string p j) eqn:E; [|discriminate]. intros [= <-]. apply string_text in E; auto. now repeat (split; [assumption|]).
  - destruct (dec_uint 4294967296 a j) eqn:E; [|discriminate]. intros [= <-].
    assert (u32 n) by (apply uint_max in E as [E| ->]; auto). now repeat (split; [assumption|]).
  - destruct (dec_int64 m j) eqn:E; [|discriminate]. intros [= <-]. apply int_range in E; [|exact H3]. now repeat (split; [assumption|]).
  - destruct (dec_string c j) eqn:E; [|discriminate]. intros [= <-]. apply string_text in E; auto. now repeat (split; [assumption|]).
  - intros [= <-]. now repeat (split; [assumption|]).
Qed.
Lemma bassert_dec_read x j y : ba_read x -> fine j -> dec_bassert x j = Some y -> ba_read y.
Proof.
  apply struct_inv. clear. intros x k j y (H1 & H2 & H3) F. destruct x as [[s a key] c]. cbn [fst snd ba_ski ba_asn ba_key] in *. field_cases.
  - destruct (dec_bytes j) eqn:E; [|discriminate]. intros [= <-]. apply bytes_dec_ok in E. now repeat (split; [assumption|]).
  - destruct (dec_uint 4294967296 a j) eqn:E; [|discriminate]. intros [= <-].
    assert (u32 n) by (apply uint_max in E as [E| ->]; auto). now repeat (split; [assumption|]).
  - destruct (dec_string c j) eqn:E; [|discriminate]. intros [= <-]. now repeat (split; [assumption|]).
  - destruct (dec_bytes j) eqn:E; [|discriminate]. intros [= <-]. apply bytes_dec_ok in E. now repeat (split; [assumption|]).
  - intros [= <-]. now repeat (split; [assumption|]).
Qed.
Definition as_ok (s : gslice passert * gslice (bassert * bytes)) : Prop := slice_ok pa_read (fst s) /\ slice_ok ba_read (snd s).
Lemma asserts_dec_read x j y : as_ok x -> fine j -> dec_asserts x j = Some y -> as_ok y.
Proof.
  apply struct_inv. clear. intros x k j y (H1 & H2) F. destruct x as [p b]. cbn [fst snd] in *. field_cases.
  - destruct (dec_slice dec_passert _ p j) eqn:E; [|discriminate]. intros [= <-].
    apply (slice_inv pa_read dec_passert (mkPA [] 0 0 []) passert_dec_read) in E; auto; [split; assumption|].
    repeat split; try constructor; unfold int64; cbn; lia.
  - destruct (dec_slice dec_bassert _ b j) eqn:E; [|discriminate]. intros [= <-].
    apply (slice_inv ba_read dec_bassert (mkBA [] 0 [], []) bassert_dec_read) in E; auto; [split; assumption|].
    repeat split; constructor.
  - intros [= <-]. split; assumption.
Qed.
Lemma config_dec_read x j y : as_ok (sf_asserts x) -> fine j -> dec_config x j = Some y -> as_ok (sf_asserts y).
Proof.
  apply (struct_inv (fun x => as_ok (sf_asserts x))). clear. intros x k j y H F. destruct x as [v f a]. cbn [sf_asserts sf_version sf_filters] in *. field_cases.
  - destruct (dec_int64 v j) eqn:E; [|discriminate]. now intros [= <-].
  - destruct (dec_filters f j) eqn:E; [|discriminate]. now intros [= <-].
  - destruct (dec_asserts a j) eqn:E; [|discriminate]. intros [= <-]. now apply asserts_dec_read in E.
  - now intros [= <-].
Qed.
Definition slurm_read (s : slurm) : Prop :=
  Forall pa_read (s_passerts s) /\ Forall (fun a => bytes_ok (ba_ski a) /\ u32 (ba_asn a) /\ bytes_ok (ba_key a)) (s_basserts s).
Lemma slice_list {A} (P : A -> Prop) s : slice_ok P s -> Forall P (sl_list s).
Proof. destruct s as [[a b]|]; [intros [H _]; exact H|constructor]. Qed.
Theorem slurm_dec_read t s : decode_slurm t = Some s -> slurm_read s.
Proof.
  unfold decode_slurm. destruct (parse t) as [j|] eqn:E; [|discriminate]. destruct (dec_config _ j) as [f|] eqn:EC; [|discriminate].
  intros [= <-]. apply config_dec_read in EC as [E1 E2]; [|split; exact I|exists dmax; now apply parse_good in E].
  split; [now apply slice_list|]. cbn [s_basserts]. apply Forall_map. now apply (slice_list ba_read).
Qed.

(** The readers of this file as the ones of the daemon. *)
Definition list_read (d : rpkilist) : Prop := is_text (rl_build d) /\ int64o (rl_gen d) /\ Forall vrp_read (roa_of d) /\ Forall brk_fit (rl_brk d).
Theorem reader_read room t d : reader room t = Some d -> list_read d.
Proof.
  unfold reader. destruct (decode_json t) as [r|] eqn:E; [|discriminate]. cbn [option_map]. intros [= <-].
  apply decode_read in E as (H1 & H2 & H3). unfold kept_list, list_read, roa_of. cbn [rl_build rl_gen rl_roa rl_brk].
  destruct H1 as (_ & _ & H1 & H1' & _). do 2 (split; [assumption|]). apply slice_list in H2, H3. split; [|exact H3].
  destruct (fi_roa r) as [[a b]|]; [exact H2|constructor].
Qed.
Lemma vrp_read_wf v : vrp_read v -> wf_vj v.
Proof. intros (_ & H2 & H3 & _). split; [exact H2|]. destruct (vj_asn v); auto. Qed.
Lemma brk_fit_wf b : brk_fit b -> wf_bj b.
Proof. intros (H1 & _ & _ & H4 & _). split; assumption. Qed.
Theorem reader_wf room t d : reader room t = Some d -> wf_list d.
Proof.
  intros H. apply reader_read in H as (_ & _ & H1 & H2). split.
  - eapply Forall_impl; [|exact H1]. apply vrp_read_wf.
  - eapply Forall_impl; [|exact H2]. apply brk_fit_wf.
Qed.
Theorem slurm_reader_wf t s : decode_slurm t = Some s -> wf_slurm s.
Proof.
  intros H. apply slurm_dec_read in H as [H1 H2]. split.
  - eapply Forall_impl; [|exact H1]. intros a (_ & A & _). exact A.
  - eapply Forall_impl; [|exact H2]. cbn beta. tauto.
Qed.
