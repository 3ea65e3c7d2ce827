(** Properties C34 to C42 and C64: JSON input and SLURM. *)
From Coq Require Import String ZifyBool ZifyNat ZifyN Permutation.
From Verif Require Import Lib.Str Model.Process Model.Slurm Model.Conn Spec.Input Spec.Sets Spec.History Spec.Response
  Proofs.FormatP Proofs.DataP Proofs.CacheP Proofs.JsonP Proofs.ProcessP Proofs.SlurmP Props.CacheProps Props.ConnProps.
Local Open Scope string_scope.
Local Open Scope list_scope.
Local Open Scope N_scope.

(** A sort that meets the assumption on sort.Slice: insertion sort. *)
Fixpoint ins (x : sd) (l : list sd) : list sd :=
  match l with [] => [x] | y :: r => if vrp_less x y then x :: l else y :: ins x r end.
Definition isort (l : list sd) : list sd := fold_right ins [] l.
Lemma addr_le_total a b : addr_le a b = false -> addr_le b a = true.
Proof. destruct a, b; cbn [addr_le]; try reflexivity; try discriminate; lia. Qed.
Lemma addr_le_trans a b c : addr_le a b = true -> addr_le b c = true -> addr_le a c = true.
Proof. destruct a, b, c; cbn [addr_le]; try reflexivity; try discriminate; lia. Qed.
Lemma less_total a b : is_vrp a -> is_vrp b -> vrp_less a b = false -> vrp_less b a = true.
Proof.
  destruct a as [p x m f|], b as [q y n g|]; cbn [is_vrp vrp_less]; try contradiction. intros _ _.
  rewrite (Z.eqb_sym (bits q)), (N.eqb_sym n). destruct (bits p =? bits q)%Z eqn:E; [|lia].
  destruct (m =? n) eqn:E2; cbn [negb]; [apply addr_le_total|lia].
Qed.
Lemma less_trans a b c : vrp_less a b = true -> vrp_less b c = true -> vrp_less a c = true.
Proof.
  destruct a as [p x m f|], b as [q y n g|], c as [r z o h|]; cbn [vrp_less]; try discriminate.
  destruct (bits p =? bits q)%Z eqn:E1; destruct (bits q =? bits r)%Z eqn:E2; destruct (bits p =? bits r)%Z eqn:E3;
    try lia; destruct (m =? n) eqn:E4; destruct (n =? o) eqn:E5; destruct (m =? o) eqn:E6; cbn [negb]; try lia.
  apply addr_le_trans.
Qed.
Lemma ins_perm x l : Permutation (ins x l) (x :: l).
Proof.
  induction l as [|y l IH]; cbn [ins]; [reflexivity|]. destruct (vrp_less x y); [reflexivity|].
  rewrite IH. apply perm_swap.
Qed.
Lemma ins_sorted x l : is_vrp x -> Forall is_vrp l -> sorted_vrps l -> sorted_vrps (ins x l).
Proof.
  intros Hx HV. induction HV as [|y l Hy HV IH]; intros HS; cbn [ins].
  - split; [intros z []|exact I].
  - destruct HS as [H1 H2]. destruct (vrp_less x y) eqn:E.
    + split; [|now split]. intros z [<-|Hz]; [exact E|]. eapply less_trans; [exact E|now apply H1].
    + split; [|now apply IH]. intros z Hz. apply (Permutation_in _ (ins_perm x l)) in Hz as [<-|Hz]; [|now apply H1].
      now apply less_total.
Qed.
Lemma isort_sorts : sorts isort.
Proof.
  intros l HV. induction HV as [|x l Hx HV (IH1 & IH2)]; [split; [reflexivity|exact I]|].
  cbn [isort fold_right]. fold (isort l). split.
  - rewrite ins_perm. now constructor.
  - apply ins_sorted; auto. apply Forall_forall. intros y Hy. rewrite Forall_forall in HV. apply HV.
    now apply (Permutation_in _ IH1).
Qed.

(** Sample entries. *)
Definition ej (p : string) (len : N) (asn : string) (e : option Z) : vrpjson := mkVJ (str p) len (AsnStr (str asn)) [] e.
Definition bj (asn : N) (ski : string) (e : option Z) : brkjson := mkBJ asn e [] [1; 2] (str ski).
Definition sample : list vrpjson :=
  [ej "10.0.0.0/8" 8 "AS1" None; ej "10.1.0.0/16" 24 "2" (Some 99%Z); ej "10.1.0.0/16" 24 "as02" None;
   ej "10.2.0.0/16" 24 "2" (Some 98%Z); ej "2001:db8::/32" 129 "3" None; ej "2001:db8::/32" 48 "3" None;
   ej "10.0.0.0/33" 33 "1" None; ej "0.0.0.0/0" 8 "1" None; ej "10.0.0.0/8" 7 "1" None; ej "10.0.0.0/8" 8 "x" None].

(** C34 JSON conversion is sound and complete for VRPs. *)
Theorem C34_vrps : forall sort now vs bs, sorts sort -> Forall wf_vj vs ->
  let '(vrps, _, _, _) := process_data sort now vs bs in
  (forall d, In d vrps <-> exists v p asn, In v vs /\ entry_ok now v p asn /\ d = VRP p asn (vj_length v) 0) /\
  NoDup (ids vrps).
Proof.
  intros sort now vs bs HS HW. pose proof (process_vrps sort now vs bs HS HW) as H.
  destruct (process_data sort now vs bs) as [[[vrps brks] c4] c6]. destruct H as (H1 & H2 & _). auto.
Qed.
(** The expired /16, the /0, the lengths 33 and 129 and the unparsable AS number are left out. *)
Example C34_case : process_data isort 99 sample [] =
  ([VRP (mkPrefix (A6 42540766411282592856903984951653826560) (Some 32)) 3 48 0;
    VRP (pfx4 167837696 16) 2 24 0; VRP (pfx4 167772160 8) 1 8 0], [], 3, 1).
Proof. vm_compute. reflexivity. Qed.
Example C34_case_wf : Forall wf_vj sample.
Proof. repeat constructor. Qed.

(** C36 Counters of the conversion. *)
Theorem C36_counts : forall sort now vs bs, sorts sort -> Forall wf_vj vs ->
  let '(_, _, c4, c6) := process_data sort now vs bs in
  counts (fun v => exists p asn, entry_ok now v p asn /\ is4 (p_addr p) = true) vs c4 /\
  counts (fun v => exists p asn, entry_ok now v p asn /\ is4 (p_addr p) = false) vs c6.
Proof.
  intros sort now vs bs HS HW. pose proof (process_vrps sort now vs bs HS HW) as H.
  destruct (process_data sort now vs bs) as [[[vrps brks] c4] c6]. tauto.
Qed.
Example C36_case : let '(_, _, c4, c6) := process_data isort 99 sample [] in (c4, c6) = (3, 1).
Proof. vm_compute. reflexivity. Qed.

(** C35 Sub-prefixes are announced first: what a router that connects after the first load is sent. *)
Theorem C35_first_load_partial : forall sort now vs bs keep cfg s tr c v c' a,
  sorts sort -> Forall wf_vj vs -> Forall wf_bj bs ->
  u16 s -> cfg_version cfg < 256 -> reach (new_rtr_server cfg s) tr c -> c_connected c = true -> acceptable c v ->
  let '(vrps, brks, _, _) := process_data sort now vs bs in
  process (new_rtr_server cfg s) (run (new_server keep) [vrps ++ brks]) c (ResetQuery v) = Ok (c', map Queue a) ->
  longest_first a.
Proof.
  intros sort now vs bs keep cfg s tr c v c' a HS HW HB Hs Hb Hr Hc HA.
  pose proof (process_vrps sort now vs bs HS HW) as H.
  destruct (process_data sort now vs bs) as [[[vrps brks] c4] c6] eqn:EP.
  destruct H as (H1 & _ & H2 & H3 & _). intros HP.
  assert (Hbrk : brks = brk_loop now bs).
  { unfold process_data in EP. destruct (vrp_loop now vs) as [[[o se] k4] k6]. now injection EP as _ <- _ _. }
  assert (Hall : Forall wf_sd (vrps ++ brks)).
  { apply Forall_app. split; [exact H3|]. rewrite Hbrk. now apply brk_loop_wf. }
  destruct (C19_reset cfg s tr keep [vrps ++ brks] c v Hs Hb (Forall_cons _ Hall (Forall_nil _)) Hr Hc HA) as (c2 & E & _).
  rewrite HP in E. injection E as _ E. change (run (new_server keep) [vrps ++ brks]) with (step (new_server keep) (vrps ++ brks)) in *.
  assert (HQ : forall x y : list pdu, map Queue x = map Queue y -> x = y).
  { clear. induction x as [|p x IH]; intros [|q y] E; try discriminate E; [reflexivity|].
    cbn [map] in E. injection E as -> E. f_equal. now apply IH. }
  apply HQ in E. clear HQ HP.
  assert (HV : Forall is_vrp vrps).
  { apply Forall_forall. intros d Hd. apply H1 in Hd as (w & p & n & _ & _ & ->). exact I. }
  destruct (is_nil (get_current_sds (step (new_server keep) (vrps ++ brks)))) eqn:EN.
  { rewrite E. constructor; [constructor|constructor]. }
  assert (EL : get_current_sds (step (new_server keep) (vrps ++ brks)) = map (set_flag FLAG_ADDED) (vrps ++ brks)).
  { change (step (new_server keep) (vrps ++ brks)) with (fst (add_data (new_server keep) (vrps ++ brks))) in *.
    apply first_load. intros E0. rewrite E0 in EN. discriminate EN. }
  rewrite EL in E. rewrite E. clear - H2 HV Hbrk.
  assert (HNP : forall l, (forall y, In y l -> pdu_prefix y = None) -> longest_first l).
  { intros l. induction l as [|x l IH]; intros Hl; constructor.
    - apply Forall_forall. intros y Hy p q Hp. rewrite (Hl x) in Hp by now left. discriminate Hp.
    - apply IH. intros y Hy. apply Hl. now right. }
  assert (HB : Forall (fun d => ~ is_vrp d) brks).
  { apply Forall_forall. intros d Hd. subst brks. apply brk_loop_in in Hd as (b & k & _ & _ & _ & ->). exact (fun x => x). }
  unfold response. constructor.
  { apply Forall_forall. intros y _ p q Hp. discriminate Hp. }
  match goal with |- ForallOrdPairs _ (map (data_pdu ?w) (filter (may_send ?w ?k) _) ++ [?e]) =>
    set (eod := e); assert (HE : pdu_prefix eod = None) by reflexivity; clearbody eod; generalize w, k end.
  intros w k. clear Hbrk. revert H2 HV. induction vrps as [|d vrps IH]; intros H2 HV.
  - apply HNP. intros y Hy. cbn [app] in Hy. apply in_app_or in Hy as [Hy|[<-|[]]]; [|exact HE].
    apply in_map_iff in Hy as (d & <- & Hd). apply filter_In in Hd as [Hd _]. apply in_map_iff in Hd as (d0 & <- & Hd0).
    rewrite Forall_forall in HB. specialize (HB d0 Hd0). destruct d0; [cbn in HB; tauto|reflexivity].
  - inversion HV as [|? ? V1 V2]; subst. destruct H2 as [S1 S2].
    destruct d as [p n m f|]; [|contradiction]. cbn [app map filter set_flag may_send].
    constructor; [|now apply IH].
    apply Forall_forall. intros y Hy p1 q1 Hp Hq.
    assert (E1 : p1 = p).
    { destruct p as [[|x|x] b]; cbn [data_pdu pdu_prefix] in Hp; congruence. }
    subst p1. apply in_app_or in Hy as [Hy|[<-|[]]]; [|congruence].
    apply in_map_iff in Hy as (d & <- & Hd). apply filter_In in Hd as [Hd _]. apply in_map_iff in Hd as (d0 & <- & Hd0).
    apply in_app_or in Hd0 as [Hd0|Hd0].
    + specialize (S1 d0 Hd0). rewrite Forall_forall in V2. specialize (V2 d0 Hd0).
      destruct d0 as [q n0 m0 f0|]; [|contradiction]. apply vrp_less_bits in S1.
      assert (E1 : q1 = q).
      { destruct q as [[|x|x] b]; cbn [set_flag data_pdu pdu_prefix] in Hq; congruence. }
      now subst.
    + rewrite Forall_forall in HB. specialize (HB d0 Hd0). destruct d0; [cbn in HB; tauto|discriminate Hq].
Qed.
(** The sample file: the IPv6 /32 is sent first, then the /16, then the /8. *)
Example C35_case : let '(vrps, brks, _, _) := process_data isort 99 sample [bj 5 "0a" None] in
  process (new_rtr_server cfg1 7) (run (new_server 3) [vrps ++ brks]) est1 (ResetQuery 1) =
  Ok (est1, map Queue
    [CacheResponse 1 107; IPv6Prefix 1 1 48 3 (mkPrefix (A6 42540766411282592856903984951653826560) (Some 32));
     IPv4Prefix 1 1 24 2 (pfx4 167837696 16); IPv4Prefix 1 1 8 1 (pfx4 167772160 8); RouterKey 1 1 [10] 5 [1; 2];
     EndOfData 1 107 0 3600 900 7200]).
Proof. vm_compute. reflexivity. Qed.
Example C35_case_hyps : sorts isort /\ Forall wf_vj sample /\ Forall wf_bj [bj 5 "0a" None] /\ u16 7 /\ cfg_version cfg1 < 256 /\
  reach (new_rtr_server cfg1 7) TCP est1 /\ c_connected est1 = true /\ acceptable est1 1.
Proof.
  split; [exact isort_sorts|]. split; [repeat constructor|]. split; [repeat constructor; discriminate|].
  split; [reflexivity|]. split; [reflexivity|]. split; [exact est1_reach|]. split; [reflexivity|].
  split; [now right|reflexivity].
Qed.
(** After an update the order is lost, whatever sort is used: the served list starts with
    what was there before. *)
Theorem C35_update_refuted : forall sort, sorts sort ->
  exists now vs1 vs2 keep c c' a, Forall wf_vj vs1 /\ Forall wf_vj vs2 /\
  reach (new_rtr_server cfg1 7) TCP c /\ c_connected c = true /\ acceptable c 1 /\
  let '(v1, b1, _, _) := process_data sort now vs1 [] in
  let '(v2, b2, _, _) := process_data sort now vs2 [] in
  process (new_rtr_server cfg1 7) (run (new_server keep) [v1 ++ b1; v2 ++ b2]) c (ResetQuery 1) = Ok (c', map Queue a) /\
  ~ longest_first a.
Proof.
  intros sort HS.
  pose (r8 := VRP (pfx4 167772160 8) 1 8 0). pose (r16 := VRP (pfx4 167837696 16) 2 24 0).
  assert (E1 : sort [r8] = [r8]).
  { destruct (HS [r8]) as [P _]; [repeat constructor|]. symmetry in P. now apply Permutation_length_1_inv in P. }
  assert (E2 : sort [r8; r16] = [r16; r8]).
  { destruct (HS [r8; r16]) as [P S]; [repeat constructor|]. symmetry in P. apply Permutation_length_2_inv in P as [P|P]; [|exact P].
    rewrite P in S. destruct S as [S _]. specialize (S r16 (or_introl eq_refl)). vm_compute in S. discriminate S. }
  exists 0%Z, [ej "10.0.0.0/8" 8 "1" None], [ej "10.0.0.0/8" 8 "1" None; ej "10.1.0.0/16" 24 "2" None], 3%Z, est1.
  assert (P1 : process_data sort 0 [ej "10.0.0.0/8" 8 "1" None] [] = ([r8], [], 1, 0)).
  { unfold process_data. replace (vrp_loop 0 [ej "10.0.0.0/8" 8 "1" None]) with ([r8], [dup_key (pfx4 167772160 8) 1 8], 1, 0) by (vm_compute; reflexivity).
    now rewrite E1. }
  assert (P2 : process_data sort 0 [ej "10.0.0.0/8" 8 "1" None; ej "10.1.0.0/16" 24 "2" None] [] = ([r16; r8], [], 2, 0)).
  { unfold process_data. replace (vrp_loop 0 [ej "10.0.0.0/8" 8 "1" None; ej "10.1.0.0/16" 24 "2" None])
      with ([r8; r16], [dup_key (pfx4 167837696 16) 2 24; dup_key (pfx4 167772160 8) 1 8], 2, 0) by (vm_compute; reflexivity).
    now rewrite E2. }
  rewrite P1, P2. eexists.
  exists [CacheResponse 1 107; IPv4Prefix 1 1 8 1 (pfx4 167772160 8); IPv4Prefix 1 1 24 2 (pfx4 167837696 16);
          EndOfData 1 107 1 3600 900 7200].
  split; [repeat constructor|]. split; [repeat constructor|]. split; [apply est1_reach|]. split; [reflexivity|].
  split; [split; [now right|reflexivity]|]. split; [vm_compute; reflexivity|].
  intros H. inversion H as [|? ? _ H1]; subst. inversion H1 as [|? ? H2 _]; subst.
  inversion H2 as [|? ? H3 _]; subst. specialize (H3 _ _ eq_refl eq_refl). vm_compute in H3. now apply H3.
Qed.
(** VRPs for one prefix need not be contiguous, even in the first load: maxLength is compared first. *)
Theorem C35_contiguous_refuted : exists now vs p q a b m n, p <> q /\
  process_data isort now vs [] = ([VRP p a m 0; VRP q a m 0; VRP p b n 0], [], 3, 0).
Proof.
  exists 0%Z, [ej "10.1.0.0/16" 24 "1" None; ej "10.1.0.0/16" 16 "2" None; ej "10.2.0.0/16" 24 "1" None],
    (pfx4 167837696 16), (pfx4 167903232 16), 1, 2, 24, 16.
  split; [|vm_compute; reflexivity]. intros E. injection E as E. discriminate E.
Qed.

(** C37 Router keys: exactly the unexpired entries with a hexadecimal SKI, entry by entry and in
    order ... *)
Theorem C37_keys_partial : forall sort now vs bs,
  exists ks, snd (fst (fst (process_data sort now vs bs))) = concat ks /\
  Forall2 (fun b k =>
    (exists ski, fresh now (bj_expires b) /\ is_hex_of (bj_ski b) ski /\ k = [BgpsecKey (bj_asn b) ski (bj_pubkey b) 0])
    \/ (~ (exists ski, fresh now (bj_expires b) /\ is_hex_of (bj_ski b) ski) /\ k = [])) bs ks.
Proof.
  intros sort now vs bs. unfold process_data. destruct (vrp_loop now vs) as [[[o se] k4] k6]. cbn [fst snd].
  exists (map (fun b => brk_loop now [b]) bs). split.
  - induction bs as [|b bs IH]; [reflexivity|]. rewrite brk_loop_cons. cbn [map concat]. now rewrite <- IH.
  - induction bs as [|b bs IH]; constructor; [apply brk_loop_one|exact IH].
Qed.
Example C37_case : process_data isort 99 [] [bj 1 "0aFF" None; bj 2 "0a" (Some 98%Z); bj 3 "0g" None; bj 4 "0a1" None; bj 5 "" (Some 99%Z)] =
  ([], [BgpsecKey 1 [10; 255] [1; 2] 0; BgpsecKey 5 [] [1; 2] 0], 0, 0).
Proof. vm_compute. reflexivity. Qed.
(** ... but not each once: a duplicate entry is served twice to every router. *)
Theorem C37_twice_refuted : exists now bs brks c' a k, Forall wf_bj bs /\
  snd (fst (fst (process_data isort now [] bs))) = brks /\
  process (new_rtr_server cfg1 7) (run (new_server 3) [brks]) est1 (ResetQuery 1) = Ok (c', map Queue a) /\
  count_occ N.eq_dec (map get_type a) PDU_ID_ROUTER_KEY = 2%nat /\
  (forall q, In q a -> get_type q = PDU_ID_ROUTER_KEY -> q = k).
Proof.
  exists 0%Z, [bj 5 "0a" None; bj 5 "0A" None]. eexists. eexists.
  exists [CacheResponse 1 107; RouterKey 1 1 [10] 5 [1; 2]; RouterKey 1 1 [10] 5 [1; 2]; EndOfData 1 107 0 3600 900 7200].
  exists (RouterKey 1 1 [10] 5 [1; 2]).
  split; [repeat constructor|]. split; [reflexivity|]. split; [vm_compute; reflexivity|]. split; [reflexivity|].
  intros q [<-|[<-|[<-|[<-|[]]]]] H; try reflexivity; discriminate H.
Qed.

(** C38 AS number parsing: text.  n or ASn (any case) is read as n below 2^32 and rejected from
    there on. *)
Theorem C38_text : forall s n, asn_text s n ->
  get_asn2 (AsnStr s) = if n <? 2 ^ 32 then Some n else None.
Proof.
  intros s n (pre & ds & -> & Hp & HD). cbn [get_asn2].
  rewrite trim_as_app; [| |apply HD].
  - destruct (n <? 2 ^ 32) eqn:E.
    + apply parse_uint32_spec. split; [exact HD|lia].
    + destruct (parse_uint32 ds) as [k|] eqn:EK; [|reflexivity]. apply parse_uint32_spec in EK as [(_ & _ & HK) Hlt].
      destruct HD as (_ & _ & HD). lia.
  - destruct Hp as [->|(a & b & -> & Ha & Hb)]; [constructor|].
    constructor; [cbn [In]; lia|]. constructor; [cbn [In]; lia|constructor].
Qed.
Example C38_case : asn_text (str "aS4294967295") 4294967295 /\ asn_text (str "65536") 65536 /\
  get_asn2 (AsnStr (str "aS4294967295")) = Some 4294967295 /\ get_asn2 (AsnStr (str "AS4294967296")) = None.
Proof.
  split; [|split; [|split; reflexivity]].
  - exists (str "aS"), (str "4294967295"). split; [reflexivity|]. split.
    + right. exists 97, 83. split; [reflexivity|]. lia.
    + split; [discriminate|]. split; [|reflexivity]. cbn. repeat (constructor; [lia|]). constructor.
  - exists [], (str "65536"). split; [reflexivity|]. split; [now left|].
    split; [discriminate|]. split; [|reflexivity]. cbn. repeat (constructor; [lia|]). constructor.
Qed.
(** Exactly which strings are read: any mix of the letters a, s in front. *)
Theorem C38_text_exact_partial : forall s n,
  get_asn2 (AsnStr s) = Some n <-> asn_text_loose s n /\ n < 2 ^ 32.
Proof. exact get_asn2_str. Qed.
Example C38_case_exact : asn_text_loose (str "sAs12") 12 /\ get_asn2 (AsnStr (str "sAs12")) = Some 12 /\
  get_asn2 (AsnStr (str "AS 12")) = None /\ get_asn2 (AsnStr (str "AS")) = None.
Proof.
  split; [|repeat split; vm_compute; reflexivity]. exists (str "sAs"), (str "12").
  split; [reflexivity|]. split; [repeat constructor; cbn; tauto|]. split; [discriminate|].
  split; [cbn; repeat (constructor; [lia|]); constructor|reflexivity].
Qed.
(** Numbers below 2^32 are read as they are. *)
Theorem C38_number_partial : forall m e n, float_is m e n -> n < 2 ^ 32 -> get_asn2 (AsnFloat m e) = Some n.
Proof. exact get_asn2_num. Qed.
Example C38_case_number : float_is 3 16 196608 /\ get_asn2 (AsnFloat 3 16) = Some 196608 /\
  float_is 786432 (-2) 196608 /\ get_asn2 (AsnFloat 786432 (-2)) = Some 196608.
Proof.
  split; [left; split; [lia|reflexivity]|]. split; [reflexivity|].
  split; [right; split; [lia|reflexivity]|reflexivity].
Qed.
(** Strings that are not AS numbers are accepted ... *)
Theorem C38_letters_refuted : exists s n, get_asn2 (AsnStr s) = Some n /\ forall m, ~ asn_text s m.
Proof.
  exists (str "sas1"), 1. split; [reflexivity|]. intros m (pre & ds & E & Hp & HD).
  destruct HD as (HN & HF & _). destruct Hp as [->|(a & b & -> & Ha & Hb)].
  - cbn in E. rewrite <- E in HF. inversion HF; subst. lia.
  - cbn in E. injection E as E1 E2 E3. lia.
Qed.
(** ... and so are numbers from 2^32 on, taken modulo 2^32 (amd64), and fractions. *)
Theorem C38_overflow_refuted : exists m e n, float_is m e n /\ 2 ^ 32 <= n /\ get_asn2 (AsnFloat m e) = Some 1.
Proof. exists 4294967297%Z, 0%Z, 4294967297. split; [left; split; [lia|reflexivity]|]. split; [lia|vm_compute; reflexivity]. Qed.
Theorem C38_fraction_refuted : exists m e, (forall n, ~ float_is m e n) /\ get_asn2 (AsnFloat m e) = Some 1.
Proof.
  exists 3%Z, (-1)%Z. split; [|vm_compute; reflexivity]. intros n [[H _]|[_ H]]; [lia|].
  change (2 ^ - -1)%Z with 2%Z in H. lia.
Qed.

(** C39 SLURM prefix filters: for parsable entries and filters. *)
Theorem C39_split_partial : forall fs vs,
  (forall f, In f fs -> pf_prefix f = [] \/ parse_prefix (pf_prefix f) <> None) ->
  (forall v, In v vs -> parse_prefix (vj_prefix v) <> None /\ get_asn2 (vj_asn v) <> None) ->
  splits (fun v => exists f r asn, In f fs /\ parse_prefix (vj_prefix v) = Some r /\ get_asn2 (vj_asn v) = Some asn /\
            pf_covers f r asn)
    vs (fst (filter_on_vrps fs vs)) (snd (filter_on_vrps fs vs)).
Proof.
  intros fs vs Hf Hv. rewrite filter_on_vrps_eq. cbn [fst snd]. apply splits_filter. intros v Hin.
  destruct (Hv v Hin) as [H1 H2].
  destruct (parse_prefix (vj_prefix v)) as [r|] eqn:Er; [|congruence].
  destruct (get_asn2 (vj_asn v)) as [asn|] eqn:Ea; [|congruence].
  rewrite existsb_exists. split.
  - intros (f & Hfi & Hm). exists f, r, asn. split; [exact Hfi|]. split; [reflexivity|]. split; [reflexivity|].
    apply (pf_match_spec f v r asn (Hf f Hfi) Er Ea). exact Hm.
  - intros (f & r' & asn' & Hfi & E1 & E2 & Hm). injection E1 as <-. injection E2 as <-. exists f. split; [exact Hfi|].
    apply (pf_match_spec f v r asn (Hf f Hfi) Er Ea). exact Hm.
Qed.
Example C39_case : filter_on_vrps [mkPF (str "10.1.0.0/16") (Some 2); mkPF (str "2001:db8::/32") None; mkPF [] (Some 7)]
    [ej "10.1.2.0/24" 24 "2" None; ej "10.0.0.0/8" 24 "2" None; ej "10.1.2.0/24" 24 "3" None;
     ej "2001:db8:1::/48" 48 "2" None; ej "192.0.2.0/24" 24 "7" None] =
  ([ej "10.0.0.0/8" 24 "2" None; ej "10.1.2.0/24" 24 "3" None],
   [ej "10.1.2.0/24" 24 "2" None; ej "2001:db8:1::/48" 48 "2" None; ej "192.0.2.0/24" 24 "7" None]).
Proof. vm_compute. reflexivity. Qed.
(** Splitting in order holds for every input. *)
Theorem C39_order_partial : forall fs vs, exists P,
  splits P vs (fst (filter_on_vrps fs vs)) (snd (filter_on_vrps fs vs)) /\ (forall v, P v -> fs <> []).
Proof.
  intros fs vs. exists (fun v => existsb (fun f => pf_match f v) fs = true). rewrite filter_on_vrps_eq. cbn [fst snd]. split.
  - apply splits_filter. tauto.
  - intros v H ->. discriminate H.
Qed.
(** Entries and filters that do not parse: what is removed keeps its order all the same. *)
Example C39_case_order : filter_on_vrps [mkPF (str "10.1.0.0/16") (Some 0)]
    [ej "10.1.2.0/24" 24 "x" None; ej "10.1.3.0/24" 24 "1" None; ej "10.1.4.0/24" 24 "y" None; ej "10.1.4.0" 24 "2" None] =
  ([ej "10.1.3.0/24" 24 "1" None; ej "10.1.4.0" 24 "2" None],
   [ej "10.1.2.0/24" 24 "x" None; ej "10.1.4.0/24" 24 "y" None]).
Proof. vm_compute. reflexivity. Qed.
(** A filter with a prefix that does not parse removes VRPs outside it; so does an AS 0 filter
    for an entry whose AS number does not parse. *)
Theorem C39_unparsable_refuted : exists f v, pf_prefix f <> [] /\ parse_prefix (pf_prefix f) = None /\
  filter_on_vrps [f] [v] = ([], [v]) /\ (exists p asn, entry_ok 0 v p asn).
Proof.
  exists (mkPF (str "10.0.0.0/33") None), (ej "192.0.2.0/24" 24 "1" None).
  split; [discriminate|]. split; [vm_compute; reflexivity|]. split; [vm_compute; reflexivity|].
  exists (pfx4 3221225984 24), 1. split; [vm_compute; reflexivity|]. split; [vm_compute; reflexivity|].
  split; [|exact I]. exists 24. split; [reflexivity|]. split; [reflexivity|]. split; vm_compute; discriminate.
Qed.
Theorem C39_as0_refuted : exists f v, parse_prefix (pf_prefix f) <> None /\ pf_asn f = Some 0 /\ get_asn2 (vj_asn v) = None /\
  filter_on_vrps [f] [v] = ([], [v]).
Proof.
  exists (mkPF (str "10.0.0.0/8") (Some 0)), (ej "10.0.2.0/24" 24 "x" None).
  split; [vm_compute; discriminate|]. split; [reflexivity|]. split; vm_compute; reflexivity.
Qed.

(** C40 SLURM BGPsec filters: for keys whose SKI is hexadecimal. *)
Theorem C40_split_partial : forall fs bs, (forall b, In b bs -> exists k, is_hex_of (bj_ski b) k) ->
  splits (fun b => exists f, In f fs /\ bf_agrees f b) bs (fst (filter_on_brks fs bs)) (snd (filter_on_brks fs bs)).
Proof.
  intros fs bs Hb. rewrite filter_on_brks_eq. cbn [fst snd]. apply splits_filter. intros b Hin.
  destruct (Hb b Hin) as (k & Hk). apply hex_decode_spec in Hk.
  rewrite (brk_match_hex b k Hk) by now left. rewrite existsb_exists. split.
  - intros (f & Hf & Hm). exists f. split; [exact Hf|]. now apply (bf_matchb_spec f b k Hk).
  - intros (f & Hf & Hm). exists f. split; [exact Hf|]. now apply (bf_matchb_spec f b k Hk).
Qed.
Example C40_case : filter_on_brks [mkBF (Some 1) [10]; mkBF None [255]; mkBF (Some 9) []]
   [bj 1 "0A" None; bj 1 "0b" None; bj 2 "0a" None; bj 3 "fF" None; bj 9 "00" None] =
   ([bj 1 "0b" None; bj 2 "0a" None], [bj 1 "0A" None; bj 3 "fF" None; bj 9 "00" None]).
Proof. vm_compute. reflexivity. Qed.
(** For other keys: those with a filter on the AS number alone are removed; the rest are kept
    unless a filter's SKI is the part that could be decoded. *)
Theorem C40_nonhex_partial : forall fs b, (forall k, ~ is_hex_of (bj_ski b) k) ->
  (forall f, In f fs -> bf_ski f <> [] -> bf_ski f <> fst (hex_decode (bj_ski b))) ->
  (brk_match fs None b = true <-> exists f, In f fs /\ bf_agrees f b).
Proof.
  intros fs b HN Hf.
  assert (HX : forall f, bf_agrees f b <-> bf_asn f = Some (bj_asn b) /\ bf_ski f = []).
  { intros f. unfold bf_agrees. split.
    - intros (H1 & H2 & [H3|H3]); [|now apply HN in H3]. destruct H1 as [H1|H1]; [|congruence].
      destruct H2 as [H2|H2]; [congruence|auto].
    - intros [H1 H2]. rewrite H1, H2. split; [left; discriminate|]. auto. }
  destruct (hex_decode (bj_ski b)) as [k ok] eqn:EH. cbn [fst] in Hf.
  assert (ok = false) by (destruct ok; [exfalso; apply (HN k); now apply hex_decode_spec|reflexivity]). subst ok.
  assert (HG : forall cache, cache = None \/ cache = Some k ->
    (brk_match fs cache b = true <-> exists f, In f fs /\ bf_agrees f b)); [|now apply HG; left].
  induction fs as [|f fs IH]; intros cache Hc; [split; [discriminate|intros (f & [] & _)]|].
  assert (IH' : forall cache, cache = None \/ cache = Some k -> bf_agrees f b \/
     (brk_match fs cache b = true <-> exists g, In g (f :: fs) /\ bf_agrees g b)).
  { intros ca Hca. destruct (bf_asn f) as [a|] eqn:Ea; [destruct (N.eq_dec a (bj_asn b)) as [Hab|Hab]; [destruct (bf_ski f) eqn:Es|]|].
    - left. apply HX. rewrite Ea, Es. split; congruence.
    - right. rewrite (IH (fun g Hg => Hf g (or_intror Hg)) ca Hca). split; intros (g & Hg & HA).
      + exists g. split; [now right|exact HA].
      + destruct Hg as [<-|Hg]; [apply HX in HA as [_ HA]; congruence|eauto].
    - right. rewrite (IH (fun g Hg => Hf g (or_intror Hg)) ca Hca). split; intros (g & Hg & HA).
      + exists g. split; [now right|exact HA].
      + destruct Hg as [<-|Hg]; [apply HX in HA as [HA _]; congruence|eauto].
    - right. rewrite (IH (fun g Hg => Hf g (or_intror Hg)) ca Hca). split; intros (g & Hg & HA).
      + exists g. split; [now right|exact HA].
      + destruct Hg as [<-|Hg]; [apply HX in HA as [HA _]; congruence|eauto]. }
  cbn [brk_match]. rewrite nlen_nil.
  assert (HL : exists ok, ski_lookup cache b = (k, ok)) by (unfold ski_lookup; destruct Hc as [-> | ->]; eauto).
  destruct HL as (ok & HL). rewrite HL.
  assert (HK : bf_ski f <> [] -> beqb (bf_ski f) k = false).
  { intros HNn. destruct (beqb (bf_ski f) k) eqn:E; [|reflexivity]. apply beqb_eq in E. exfalso.
    apply (Hf f (or_introl eq_refl) HNn). exact E. }
  destruct (bf_asn f) as [a|] eqn:Ea.
  - destruct (bj_asn b =? a) eqn:Eab.
    + destruct (bf_ski f) as [|x l] eqn:Es; cbn [is_nil negb].
      * split; [intros _|reflexivity]. exists f. split; [now left|]. apply HX. rewrite Ea, Es. split; [f_equal; lia|reflexivity].
      * assert (HNA : ~ bf_agrees f b) by (rewrite HX, Es; intros [_ H]; discriminate H).
        rewrite HK by discriminate. destruct ok; cbn [negb]; (destruct (IH' (Some k)) as [H|H]; [now right|contradiction|exact H]).
    + assert (HNA : ~ bf_agrees f b) by (rewrite HX, Ea; intros [H _]; injection H as ->; lia).
      destruct (IH' cache Hc) as [H|H]; [contradiction|exact H].
  - assert (HNA : ~ bf_agrees f b) by (rewrite HX, Ea; intros [H _]; discriminate H).
    destruct (bf_ski f) as [|x l] eqn:Es; cbn [is_nil negb].
    + destruct (IH' cache Hc) as [H|H]; [contradiction|exact H].
    + rewrite HK by discriminate. destruct ok; cbn [negb]; (destruct (IH' (Some k)) as [H|H]; [now right|contradiction|exact H]).
Qed.
Example C40_case_nonhex : filter_on_brks [mkBF None [10]; mkBF (Some 9) []] [bj 1 "0A1z" None; bj 9 "zz" None]
  = ([bj 1 "0A1z" None], [bj 9 "zz" None]).
Proof. vm_compute. reflexivity. Qed.
(** Keys whose SKI is not hexadecimal can be removed by SKI: the second filter that asks for a
    SKI sees the part decoded for the first. *)
Theorem C40_nonhex_refuted : exists fs b, (forall f, In f fs -> bf_asn f = None) /\ (forall k, ~ is_hex_of (bj_ski b) k) /\
  filter_on_brks fs [b] = ([], [b]).
Proof.
  exists [mkBF None [1]; mkBF None [10]], (bj 1 "0azz" None).
  split; [intros f [<-|[<-|[]]]; reflexivity|]. split; [|vm_compute; reflexivity].
  intros k Hk. apply hex_decode_spec in Hk. vm_compute in Hk. discriminate Hk.
Qed.

(** C41 SLURM assertions always win: for max lengths below 256. *)
Theorem C41_vrp_partial : forall s vs bs a p b, In a (s_passerts s) ->
  parse_prefix (pa_prefix a) = Some p -> p_bits p = Some b -> (pa_maxlen a < 256)%Z ->
  In (mkVJ (pa_prefix a) (N.max b (Z.to_N (pa_maxlen a))) (AsnU32 (pa_asn a)) (pa_comment a) None)
     (fst (filter_assert s vs bs)).
Proof.
  intros s vs bs a p b Ha Hp Hb Hm. unfold filter_assert. cbn [fst]. apply in_or_app. right.
  unfold assert_vrps. apply in_flat_map. exists a. split; [exact Ha|].
  rewrite (cidr_parse _ _ Hp), Hb. left. f_equal.
  apply parse_prefix_bits in Hp as (b' & Hb' & Hl & _). rewrite Hb in Hb'. injection Hb' as <-.
  assert (bitlen (p_addr p) <= 128) by (destruct (p_addr p); cbn [bitlen]; lia).
  unfold to_u8. destruct (pa_maxlen a <=? Z.of_N b)%Z eqn:E; lia.
Qed.
Theorem C41_key : forall s vs bs a, In a (s_basserts s) ->
  In (mkBJ (ba_asn a) None [] (ba_key a) (hex_encode (ba_ski a))) (snd (filter_assert s vs bs)).
Proof.
  intros s vs bs a Ha. unfold filter_assert. cbn [snd]. apply in_or_app. right.
  unfold assert_brks. apply in_map_iff. exists a. auto.
Qed.
(** The result is the kept entries followed by the assertions: nothing else is added, and no
    assertion whose text is not an address, a slash and a decimal length within the address. *)
Theorem C41_nothing_else : forall s vs bs v, In v (fst (filter_assert s vs bs)) ->
  In v vs \/ exists a, In a (s_passerts s) /\ vj_prefix v = pa_prefix a /\ vj_asn v = AsnU32 (pa_asn a) /\
    vj_expires v = None /\ vj_ta v = pa_comment a /\
    exists addr len ip n, pa_prefix a = addr ++ c_slash :: len /\ parse_addr addr = Some ip /\ len <> [] /\
      undec 0 len = Some n /\ n <= bitlen ip.
Proof.
  intros s vs bs v H. unfold filter_assert in H. cbn [fst] in H. apply in_app_or in H as [H|H].
  - left. rewrite filter_on_vrps_eq in H. cbn [fst] in H. now apply filter_In in H.
  - right. unfold assert_vrps in H. apply in_flat_map in H as (a & Ha & H). exists a. split; [exact Ha|].
    destruct (cidr_size (pa_prefix a)) as [n|] eqn:E; [|destruct H]. destruct H as [<-|[]].
    do 4 (split; [reflexivity|]). now apply (cidr_size_text _ n).
Qed.
Definition slurm1 := mkSlurm [mkPF (str "10.0.0.0/8") None] [mkBF (Some 5) []]
  [mkPA (str "10.3.0.0/16") 64500 0 []; mkPA (str "10.4.0.0/16") 64501 24 []] [mkBA [10; 255] 5 [3; 4]].
Example C41_case : filter_assert slurm1 sample [bj 5 "00" None] =
  ([ej "2001:db8::/32" 129 "3" None; ej "2001:db8::/32" 48 "3" None; ej "0.0.0.0/0" 8 "1" None;
    mkVJ (str "10.3.0.0/16") 16 (AsnU32 64500) [] None; mkVJ (str "10.4.0.0/16") 24 (AsnU32 64501) [] None],
   [mkBJ 5 None [] [3; 4] (str "0aff")]).
Proof. vm_compute. reflexivity. Qed.
(** A larger max length is cut to eight bits, and may end up below the prefix length. *)
Theorem C41_maxlen_refuted : exists s a p b, In a (s_passerts s) /\ parse_prefix (pa_prefix a) = Some p /\
  p_bits p = Some b /\ fst (filter_assert s [] []) = [mkVJ (pa_prefix a) 24 (AsnU32 (pa_asn a)) (pa_comment a) None] /\ 24 < b.
Proof.
  exists (mkSlurm [] [] [mkPA (str "10.0.0.0/25") 1 280 []] []), (mkPA (str "10.0.0.0/25") 1 280 []), (pfx4 167772160 25), 25.
  split; [now left|]. split; [vm_compute; reflexivity|]. split; [reflexivity|]. split; [vm_compute; reflexivity|lia].
Qed.

(** C42 SLURM filtering is idempotent. *)
Theorem C42_idempotent : forall fs bfs vs bs,
  filter_on_vrps fs (fst (filter_on_vrps fs vs)) = (fst (filter_on_vrps fs vs), []) /\
  filter_on_brks bfs (fst (filter_on_brks bfs bs)) = (fst (filter_on_brks bfs bs), []).
Proof.
  intros fs bfs vs bs. rewrite !filter_on_vrps_eq, !filter_on_brks_eq. cbn [fst].
  destruct (filter_twice (fun v => existsb (fun f => pf_match f v) fs) vs) as [-> ->].
  destruct (filter_twice (brk_match bfs None) bs) as [-> ->]. split; reflexivity.
Qed.
Example C42_case : filter_on_vrps [mkPF (str "10.0.0.0/8") (Some 1)] [ej "10.1.0.0/16" 16 "1" None; ej "10.1.0.0/16" 16 "2" None]
  = ([ej "10.1.0.0/16" 16 "2" None], [ej "10.1.0.0/16" 16 "1" None]) /\
  filter_on_vrps [mkPF (str "10.0.0.0/8") (Some 1)] [ej "10.1.0.0/16" 16 "2" None] = ([ej "10.1.0.0/16" 16 "2" None], []).
Proof. split; vm_compute; reflexivity. Qed.

(** C64 Assertions are served: every prefix assertion with a valid non-zero length is among the
    VRPs, and every key assertion among the router keys, whatever the file and the filters. *)
Theorem C64_asserted_vrp : forall sort now s vs bs a p b, sorts sort -> Forall wf_vj vs -> wf_slurm s ->
  In a (s_passerts s) -> parse_prefix (pa_prefix a) = Some p -> p_bits p = Some b -> 0 < b ->
  (pa_maxlen a <= Z.of_N (bitlen (p_addr p)))%Z ->
  let '(vs', bs') := filter_assert s vs bs in
  let '(vrps, _, _, _) := process_data sort now vs' bs' in
  In (VRP p (pa_asn a) (N.max b (Z.to_N (pa_maxlen a))) 0) vrps.
Proof.
  intros sort now s vs bs a p b HS HW HSl Ha Hp Hb H0 Hm.
  pose proof (parse_prefix_bits _ _ Hp) as (b' & Hb' & Hl & _). rewrite Hb in Hb'. injection Hb' as <-.
  assert (HB : bitlen (p_addr p) <= 128) by (destruct (p_addr p); cbn [bitlen]; lia).
  pose proof (C41_vrp_partial s vs bs a p b Ha Hp Hb ltac:(lia)) as HI.
  assert (HW' : Forall wf_vj (fst (filter_assert s vs bs))).
  { unfold filter_assert. cbn [fst]. apply Forall_app. split.
    - rewrite filter_on_vrps_eq. cbn [fst]. apply Forall_forall. intros v Hv. apply filter_In in Hv as [Hv _].
      rewrite Forall_forall in HW. now apply HW.
    - apply Forall_forall. intros v Hv. unfold assert_vrps in Hv. apply in_flat_map in Hv as (a' & Ha' & Hv).
      destruct (cidr_size (pa_prefix a')); [|destruct Hv]. destruct Hv as [<-|[]].
      split; cbn [vj_length vj_asn].
      + unfold u8, to_u8. lia.
      + destruct HSl as [HSl _]. rewrite Forall_forall in HSl. now apply HSl. }
  destruct (filter_assert s vs bs) as [vs' bs']. cbn [fst] in *.
  pose proof (process_vrps sort now vs' bs' HS HW') as HP.
  destruct (process_data sort now vs' bs') as [[[vrps brks] c4] c6]. destruct HP as (HP & _). apply HP.
  eexists. exists p, (pa_asn a). split; [exact HI|]. cbn [vj_length]. split; [|reflexivity].
  split; [exact Hp|]. split; [reflexivity|]. split; [|exact I]. exists b. cbn [vj_length].
  split; [exact Hb|]. lia.
Qed.
Theorem C64_asserted_key : forall sort now s vs bs a, wf_slurm s -> In a (s_basserts s) ->
  let '(vs', bs') := filter_assert s vs bs in
  let '(_, brks, _, _) := process_data sort now vs' bs' in
  In (BgpsecKey (ba_asn a) (ba_ski a) (ba_key a) 0) brks.
Proof.
  intros sort now s vs bs a (_ & HSl) Ha. pose proof (C41_key s vs bs a Ha) as HI.
  rewrite Forall_forall in HSl. destruct (HSl a Ha) as (_ & HB & _).
  destruct (filter_assert s vs bs) as [vs' bs']. cbn [snd] in HI. unfold process_data.
  destruct (vrp_loop now vs') as [[[o se] c4] c6]. apply brk_loop_in. eexists. exists (ba_ski a).
  split; [exact HI|]. split; [exact I|]. split; [|reflexivity]. cbn [bj_ski]. apply hex_decode_spec.
  now apply hex_decode_encode.
Qed.
Example C64_case : let '(vs', bs') := filter_assert slurm1 sample [bj 5 "00" None] in
  process_data isort 99 vs' bs' =
  ([VRP (mkPrefix (A6 42540766411282592856903984951653826560) (Some 32)) 3 48 0;
    VRP (pfx4 168034304 16) 64501 24 0; VRP (pfx4 167968768 16) 64500 16 0], [BgpsecKey 5 [10; 255] [3; 4] 0], 2, 1).
Proof. vm_compute. reflexivity. Qed.
(** A mask with a leading zero is asserted but dropped by the conversion. *)
Example C64_leading_zero : let '(vs', bs') := filter_assert (mkSlurm [] [] [mkPA (str "10.0.0.0/08") 1 8 []] []) [] [] in
  length vs' = 1%nat /\ process_data isort 0 vs' bs' = ([], [], 0, 0).
Proof. vm_compute. split; reflexivity. Qed.

Print Assumptions C34_vrps.
Print Assumptions C36_counts.
Print Assumptions C35_first_load_partial.
Print Assumptions C35_update_refuted.
Print Assumptions C35_contiguous_refuted.
Print Assumptions C37_keys_partial.
Print Assumptions C37_twice_refuted.
Print Assumptions C38_text.
Print Assumptions C38_text_exact_partial.
Print Assumptions C38_number_partial.
Print Assumptions C38_letters_refuted.
Print Assumptions C38_overflow_refuted.
Print Assumptions C38_fraction_refuted.
Print Assumptions C39_split_partial.
Print Assumptions C39_order_partial.
Print Assumptions C39_unparsable_refuted.
Print Assumptions C39_as0_refuted.
Print Assumptions C40_split_partial.
Print Assumptions C40_nonhex_partial.
Print Assumptions C40_nonhex_refuted.
Print Assumptions C41_vrp_partial.
Print Assumptions C41_key.
Print Assumptions C41_nothing_else.
Print Assumptions C41_maxlen_refuted.
Print Assumptions C42_idempotent.
Print Assumptions C64_asserted_vrp.
Print Assumptions C64_asserted_key.
