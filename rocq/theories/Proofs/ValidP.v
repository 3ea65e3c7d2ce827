(** Everything sent is a valid PDU. *)
From Coq Require Import ZArith ZifyBool ZifyNat ZifyN.
From Verif Require Import Model.Concurrent Model.State Spec.Wire Spec.Sets Spec.History Spec.Input Spec.Refresh Spec.Response Spec.Net Spec.Rfc8210
  Proofs.WireP Proofs.WireP2 Proofs.DataP Proofs.CacheP Proofs.ConnP Proofs.ConcCacheP Proofs.NetP Proofs.NetP2 Proofs.StateP.
Local Open Scope list_scope.
Local Open Scope N_scope.
Ltac Zify.zify_post_hook ::= Z.div_mod_to_equations.

(** * The records in the cache *)
Definition good_rid (x : rid) : Prop :=
  match x with
  | RV p a m => exists b, p_bits p = Some b /\ b <= m /\ m <= bitlen (p_addr p)
  | RK a s k => nlen k + 32 < 4294967296
  end.
Definition fit (d : sd) : Prop := wf_sd d /\ get_flag d <= 1 /\ good_rid (rid_of d).
Definition fit_cache (s : server) : Prop :=
  inv s /\ Forall fit (sdCurrent s) /\ Forall (Forall fit) (sdListDiff s).

Lemma fit_flag f d : f <= 1 -> wf_sd d -> good_rid (rid_of d) -> fit (set_flag f d).
Proof.
  intros Hf Hw Hg. split; [apply wf_set_flag; [unfold u8; lia|exact Hw]|]. rewrite flag_set_flag, rid_set_flag. auto.
Qed.
Lemma fit_wf l : Forall fit l -> Forall wf_sd l.
Proof. apply Forall_impl. intros d H. apply H. Qed.
Lemma fit_apply diff prev : Forall fit diff -> Forall fit prev -> Forall fit (apply_diff diff prev).
Proof.
  intros H1 H2. apply Forall_forall. intros d Hd. rewrite in_apply_diff in Hd by now apply fit_wf.
  rewrite Forall_forall in H1, H2. destruct Hd as [(H & _)|[(H & _)|(H & _)]]; auto.
Qed.
Lemma fit_diff new cur : Forall wf_sd new -> Forall (fun d => good_rid (rid_of d)) new -> Forall fit cur -> Forall fit (the_diff new cur).
Proof.
  intros Hw Hg Hc. rewrite Forall_forall in Hw, Hg, Hc. apply Forall_forall. intros d Hd.
  apply in_the_diff in Hd as [(x & Hx & _ & ->)|(x & Hx & _ & ->)].
  - apply fit_flag; auto. lia.
  - destruct (Hc x Hx) as (A & _ & B). apply fit_flag; auto. lia.
Qed.
Lemma fit_step s new : fit_cache s -> Forall wf_sd new -> Forall (fun d => good_rid (rid_of d)) new -> fit_cache (step s new).
Proof.
  intros (Hi & Hc & HL) Hw Hg. split; [now apply step_inv|].
  unfold step. rewrite add_data_eq by (assumption || apply Hi).
  destruct (the_diff new (sdCurrent s)) eqn:E; [auto|]. cbn [fst]. rewrite <- E. clear E.
  pose proof (fit_diff new (sdCurrent s) Hw Hg Hc) as HD. cbn [add_sds_diff sdListDiff sdCurrent].
  split; [now apply fit_apply|].
  assert (HA : Forall (Forall fit) ((map (apply_diff (the_diff new (sdCurrent s))) (sdListDiff s) ++ [[]]) ++ [the_diff new (sdCurrent s)])).
  { apply Forall_app; split; [apply Forall_app; split|].
    - apply Forall_forall. intros x Hx. apply in_map_iff in Hx as (y & <- & Hy).
      apply fit_apply; [assumption|]. rewrite Forall_forall in HL. auto.
    - repeat constructor.
    - constructor; [exact HD|constructor]. }
  match goal with |- context [if ?c then _ else _] => destruct c end; [now apply Forall_skipn|exact HA].
Qed.
Lemma listed_good now vs bs x : listed now vs bs x -> (forall a s k, x = RK a s k -> nlen k + 32 < 4294967296) -> good_rid x.
Proof.
  intros [(v & p & asn & _ & (_ & _ & (b & B1 & _ & B2 & B3) & _) & ->)|(b & ski & _ & _ & _ & ->)] H.
  - exists b. auto.
  - eapply H. reflexivity.
Qed.
Lemma content_good now sl d x : content now sl d x -> (forall a s k, x = RK a s k -> nlen k + 32 < 4294967296) -> good_rid x.
Proof. destruct sl; apply listed_good. Qed.

Lemma after_fit e c h : wf_env e -> short_keys e c h -> fit_cache (st_server (State.after e c h)).
Proof.
  intros HE. induction h as [|i h IH] using rev_ind; intros HK.
  { split; [apply inv_new|]. split; constructor. }
  assert (HK' : short_keys e c h).
  { intros h1 h2 a s k -> HS. eapply (HK h1 (h2 ++ [i])); [now rewrite app_assoc|exact HS]. }
  specialize (IH HK'). assert (HI' : forall a s k, served (State.after e c (h ++ [i])) (RK a s k) -> nlen k + 32 < 4294967296).
  { intros a s k. apply (HK (h ++ [i]) [] a s k). now rewrite app_nil_r. }
  clear HK HK'. rewrite after_snoc in *. pose proof (turn_outcome e c h i HE (after_inv e c h HE)) as HT.
  pose proof (fetch_spec e (slurm_on c h) i (State.after e c h)) as HF.
  destruct (fetch _ _ _ _) as [s2 new]. destruct (turn e c h i) as [s' ns]. cbn [fst] in *.
  destruct HF as (F1 & _). destruct HT as [HI HO]. rewrite <- F1 in IH.
  assert (ONE : forall sds, Forall wf_sd sds -> (forall x, In x (ids sds) -> good_rid x \/ exists a s k, x = RK a s k) ->
    st_server s' = step (st_server s2) sds -> fit_cache (st_server s')).
  { intros sds Hw Hx E. rewrite E. apply fit_step; [exact IH|exact Hw|]. apply Forall_forall. intros d Hd.
    destruct (Hx (rid_of d) (in_ids _ _ Hd)) as [G|(a & s & k & G)]; [exact G|]. rewrite G. apply (HI' a s).
    unfold served, get_current_sds. rewrite E. apply step_served; [apply HI|exact Hw|]. rewrite <- G. now apply in_ids. }
  assert (CON : forall sds, (forall x, In x (ids sds) <-> content (i_proc i) (st_slurm s2) (st_data s2) x) ->
    forall x, In x (ids sds) -> good_rid x \/ exists a s k, x = RK a s k).
  { intros sds Hc x Hx. destruct x as [p a m|a s k]; [left|right; eauto]. apply Hc in Hx.
    eapply content_good; [exact Hx|]. intros; discriminate. }
  destruct HO as [? s1 sds v b ? ? _ _ HWs HC HNs HP (_ & _ & _ & HS & _)|s1 sds v b ? ? _ _ HWs HC HNs HP [(_ & _ & _ & _ & HS & _)|(_ & -> & _)]|?|? t _ _ _ _ _ _ HS _ _ _ _].
  - apply prepare_keeps in HP as (_ & HQ & _). rewrite HQ in HS. apply (ONE sds); [exact HWs|now apply CON|exact HS].
  - apply prepare_keeps in HP as (_ & HQ & _). rewrite HQ in HS. apply (ONE sds); [exact HWs|now apply CON|exact HS].
  - apply prepare_keeps in HP as (_ & HQ & _). now rewrite HQ.
  - exact IH.
  - apply (ONE []); auto. intros x [].
Qed.

(** * The PDUs *)
Definition good_pfx (p : prefix) (m : N) : Prop := exists b, p_bits p = Some b /\ b <= m /\ m <= bitlen (p_addr p).
Definition good_pdu (p : pdu) : Prop :=
  match p with
  | SerialNotify v s n => v <= 1 /\ u16 s /\ u32 n
  | CacheResponse v s => v <= 1 /\ u16 s
  | IPv4Prefix v f m a p => v <= 1 /\ f <= 1 /\ u32 a /\ wf_prefix p /\ is4 (p_addr p) = true /\ good_pfx p m
  | IPv6Prefix v f m a p => v <= 1 /\ f <= 1 /\ u32 a /\ wf_prefix p /\ is6 (p_addr p) = true /\ good_pfx p m
  | EndOfData v s n r t e => v <= 1 /\ u16 s /\ u32 n /\ u32 r /\ u32 t /\ u32 e
  | CacheReset v => v <= 1
  | RouterKey v f ski a spki => v = 1 /\ f <= 1 /\ bytes_ok ski /\ u32 a /\ bytes_ok spki /\ nlen spki + 32 < 4294967296
  | ErrorReport v c cp m => v <= 1 /\ c <= 7 /\ cp = [] /\ m <> [] /\ Forall (fun x => x < 128) m /\ nlen m < 1000
  | _ => False
  end.

Lemma good_frame p : good_pdu p -> exists b, encode p = Ok b /\
  (valid_frame b \/ b = [] /\ exists v f ski a spki, p = RouterKey v f ski a spki /\ nlen ski <> 20).
Proof.
  destruct p as [v s n|v s n|v|v s|v f m a p|v f m a p|v s n r t e|v|v f ski a spki|v c cp msg]; cbn [good_pdu]; intros G; try (destruct G; fail).
  - destruct G as (Hv & Hs & Hn). cbn [encode]. eexists; split; [reflexivity|]. left.
    match goal with |- valid_frame ?b => set (B := b) end.
    assert (E2 : w_type B = 0) by (subst B; fcalc). assert (E4 : w_len B = 12) by (subst B; fcalc).
    split; [subst B; okb|]. split; [subst B; fcalc; exact Hv|]. split; [rewrite E4; subst B; nlens; reflexivity|].
    now apply F_notify.
  - destruct G as (Hv & Hs). cbn [encode]. eexists; split; [reflexivity|]. left.
    match goal with |- valid_frame ?b => set (B := b) end.
    assert (E2 : w_type B = 3) by (subst B; fcalc). assert (E4 : w_len B = 8) by (subst B; fcalc).
    split; [subst B; okb|]. split; [subst B; fcalc; exact Hv|]. split; [rewrite E4; subst B; nlens; reflexivity|].
    now apply F_response.
  - destruct G as (Hv & Hf & Ha & Hp & H4 & k & Hk & Hm & Hx).
    destruct p as [[|x|x] pb]; cbn [p_addr p_bits bitlen] in *; try discriminate. subst pb.
    unfold wf_prefix in Hp. cbn in Hp. destruct Hp as (Hx' & _ & Hk').
    cbn [encode as4 bind p_addr]. rewrite (to_u8_bits (A4 x) k) by (reflexivity || lia).
    eexists; split; [reflexivity|]. left. match goal with |- valid_frame ?b => set (B := b) end.
    assert (E2 : w_type B = 4) by (subst B; fcalc). assert (E4 : w_len B = 20) by (subst B; fcalc).
    assert (E5 : fld B 8 1 = f) by (subst B; fcalc). assert (E6 : fld B 9 1 = k) by (subst B; fcalc).
    assert (E7 : fld B 10 1 = m) by (subst B; fcalc). assert (E8 : fld B 2 2 = 0) by (subst B; fcalc). assert (E9 : fld B 11 1 = 0) by (subst B; fcalc).
    split; [subst B; okb|]. split; [subst B; fcalc; exact Hv|]. split; [rewrite E4; subst B; nlens; reflexivity|].
    apply F_v4; auto. unfold prefix_frame. rewrite E5, E6, E7, E8, E9. auto.
  - destruct G as (Hv & Hf & Ha & Hp & H4 & k & Hk & Hm & Hx).
    destruct p as [[|x|x] pb]; cbn [p_addr p_bits bitlen] in *; try discriminate. subst pb.
    unfold wf_prefix in Hp. cbn in Hp. destruct Hp as (Hx' & _ & Hk').
    cbn [encode as16 bind p_addr]. rewrite (to_u8_bits (A6 x) k) by (reflexivity || lia).
    eexists; split; [reflexivity|]. left. match goal with |- valid_frame ?b => set (B := b) end.
    assert (E2 : w_type B = 6) by (subst B; fcalc). assert (E4 : w_len B = 32) by (subst B; fcalc).
    assert (E5 : fld B 8 1 = f) by (subst B; fcalc). assert (E6 : fld B 9 1 = k) by (subst B; fcalc).
    assert (E7 : fld B 10 1 = m) by (subst B; fcalc). assert (E8 : fld B 2 2 = 0) by (subst B; fcalc). assert (E9 : fld B 11 1 = 0) by (subst B; fcalc).
    split; [subst B; okb|]. split; [subst B; fcalc; exact Hv|]. split; [rewrite E4; subst B; nlens; reflexivity|].
    apply F_v6; auto. unfold prefix_frame. rewrite E5, E6, E7, E8, E9. auto.
  - destruct G as (Hv & Hs & Hn & Hr & Ht & He). cbn [encode]. eexists; split; [reflexivity|]. left.
    match goal with |- valid_frame ?b => set (B := b) end.
    assert (E1 : w_ver B = v) by (subst B; fcalc). assert (E2 : w_type B = 7) by (subst B; fcalc).
    assert (E4 : w_len B = if v =? 0 then 12 else 24) by (subst B; destruct (v =? 0); fcalc).
    split; [subst B; destruct (v =? 0); okb|]. split; [rewrite E1; exact Hv|].
    split; [rewrite E4; subst B; destruct (v =? 0); nlens; reflexivity|]. apply F_end; rewrite ?E1; auto.
  - cbn [encode]. eexists; split; [reflexivity|]. left.
    match goal with |- valid_frame ?b => set (B := b) end.
    assert (E2 : w_type B = 8) by (subst B; fcalc). assert (E4 : w_len B = 8) by (subst B; fcalc).
    assert (E5 : fld B 2 2 = 0) by (subst B; fcalc).
    split; [subst B; okb|]. split; [subst B; fcalc; exact G|]. split; [rewrite E4; subst B; nlens; reflexivity|].
    now apply F_reset.
  - destruct G as (-> & Hf & Hs & Ha & Hk & HL). cbn [encode]. destruct (nlen ski =? 20) eqn:H20; cbn [negb].
    2:{ eexists; split; [reflexivity|]. right. split; [reflexivity|]. repeat eexists. lia. }
    eexists; split; [reflexivity|]. left. match goal with |- valid_frame ?b => set (B := b) end.
    assert (E1 : w_ver B = 1) by (subst B; fcalc). assert (E2 : w_type B = 9) by (subst B; fcalc).
    assert (E4 : w_len B = 32 + nlen spki) by (subst B; fcalc; lia).
    assert (E5 : fld B 2 1 = f) by (subst B; fcalc). assert (E6 : fld B 3 1 = 0) by (subst B; fcalc).
    split; [subst B; okb|]. split; [lia|]. split; [rewrite E4; subst B; nlens; lia|].
    apply F_key; auto; [lia|now rewrite E5].
  - destruct G as (Hv & Hc & -> & Hm & Hb & HL). destruct msg as [|m0 msg]; [congruence|]. clear Hm.
    set (txt := m0 :: msg) in *. cbn [encode]. change (negb (beqb txt [])) with true. cbv iota.
    eexists; split; [reflexivity|]. left. match goal with |- valid_frame ?b => set (B := b) end.
    change (nlen (@nil N)) with 0 in B.
    assert (E1 : w_ver B = v) by (subst B; fcalc). assert (E2 : w_type B = 10) by (subst B; fcalc).
    assert (E3 : w_sess B = c) by (subst B; fcalc).
    assert (E4 : w_len B = 12 + 0 + 4 + nlen txt + 1) by (subst B; fcalc).
    assert (E5 : fld B 8 4 = 0) by (subst B; fcalc).
    assert (E6 : fld B 12 4 = nlen txt + 1) by (subst B; cbn [app]; fcalc).
    assert (E7 : skipn 16 B = txt ++ be 1 0) by reflexivity.
    assert (HB : bytes_ok txt) by (unfold bytes_ok; apply Forall_forall; intros y Hy; rewrite Forall_forall in Hb; specialize (Hb y Hy); cbv beta in Hb; unfold u8 in *; lia).
    split; [subst B; unfold bytes_ok in *; rewrite ?Forall_app; repeat split; try apply be_ok; try exact HB; apply Forall_nil|].
    split; [rewrite E1; exact Hv|]. split; [rewrite E4; subst B; nlens; change (nlen (@nil N)) with 0; lia|].
    apply (F_error B 0 (nlen txt + 1)); auto; [lia|lia|]. change (16 + N.to_nat 0)%nat with 16%nat. rewrite E7.
    apply Forall_app. split; [exact Hb|]. vm_compute. repeat constructor.
Qed.

(** * What a handler puts on the channel *)
Lemma data_good v d : v <= 1 -> fit d -> (may_send v false d = true) -> good_pdu (data_pdu v d).
Proof.
  intros Hv (Hw & Hf & Hg) HM. destruct d as [[[|x|x] pb] a m f|a s k f]; cbn [data_pdu good_pdu wf_sd get_flag rid_of good_rid may_send] in *.
  - destruct Hw as ((_ & H) & HV & _). cbn in *. destruct pb; [tauto|discriminate].
  - destruct Hw as (H1 & H2 & H3 & H4 & H5). auto 10.
  - destruct Hw as (H1 & H2 & H3 & H4 & H5). auto 10.
  - destruct Hw as (H1 & H2 & H3 & H4). repeat split; auto. lia.
Qed.
Lemma response_good v sess serial r t e nk data : v <= 1 -> u16 sess -> u32 serial -> u32 r -> u32 t -> u32 e ->
  Forall fit data -> Forall good_pdu (response v sess serial r t e nk data).
Proof.
  intros Hv Hs Hn Hr Ht He HF. unfold response. apply Forall_app. split; [constructor; [cbn; auto|constructor]|].
  apply Forall_app. split; [|constructor; [cbn; auto 10|constructor]].
  apply Forall_forall. intros p Hp. apply in_map_iff in Hp as (d & <- & Hd). apply filter_In in Hd as [Hd HM].
  rewrite Forall_forall in HF. apply data_good; auto. destruct d; cbn in *; [reflexivity|]. apply andb_true_iff in HM as [HM _]. now rewrite HM.
Qed.
Lemma error_good v c m : v <= 1 -> c <= 7 -> negb (beqb m []) && forallb (fun x => x <? 128) m && (nlen m <? 1000) = true ->
  good_pdu (ErrorReport v c [] m).
Proof.
  intros Hv Hc H. apply andb_true_iff in H as [H H3]. apply andb_true_iff in H as [H1 H2]. cbn. repeat split; auto.
  - intros ->. discriminate.
  - apply Forall_forall. intros x Hx. rewrite forallb_forall in H2. specialize (H2 x Hx). cbv beta in H2. lia.
  - lia.
Qed.
Lemma timer_u32 x d : u32 x -> u32 d -> u32 (timer x d).
Proof. unfold timer. destruct (x =? 0); auto. Qed.
Lemma session_u16 s v : u16 (session_of s v).
Proof. unfold session_of, u16. lia. Qed.

(** What the daemon configures. *)
Definition cfg_ok (cfg : config) : Prop := cfg_version cfg <= 1 /\ u32 (cfg_refresh cfg) /\ u32 (cfg_retry cfg) /\ u32 (cfg_expire cfg).

Definition queues (a : list act) (P : pdu -> Prop) : Prop := forall q, In (Queue q) a -> P q.
Lemma queues_map l (P : pdu -> Prop) : Forall P l -> queues (map Queue l) P.
Proof. intros H q Hq. apply in_map_iff in Hq as (x & E & Hx). injection E as <-. rewrite Forall_forall in H. auto. Qed.

Lemma pass_good cfg s tr cache c p c' a : u16 s -> cfg_ok cfg -> cinv cfg tr c -> fit_cache cache ->
  pass_simple_handler (new_rtr_server cfg s) cache c p = Ok (c', a) -> queues a good_pdu.
Proof.
  intros Hs (HC & HR & HT & HX) HI (Hi & HF & HD) HP. assert (Hb : cfg_version cfg < 256) by lia.
  pose proof HI as (Hv & _). assert (Hv1 : c_version c <= 1) by lia.
  assert (U : u32 3600 /\ u32 600 /\ u32 7200) by (unfold u32; lia). destruct U as (U1 & U2 & U3).
  destruct p; cbn [pass_simple_handler] in HP; try (injection HP as <- <-; intros q []; fail).
  - rewrite (request_new_version_eq cfg s tr) in HP; auto.
    + cbv zeta in HP. destruct (sess =? session_of s (c_version c)) eqn:E; cbn [negb] in HP.
      * injection HP as <- <-. apply queues_map. apply N.eqb_eq in E.
        destruct (sdCurrent cache) eqn:EC; [constructor; [apply error_good; auto; lia|constructor]|].
        destruct (serial_diff_cases cache serial) as [(_ & ED)|[(_ & ED)|(_ & _ & d' & Hn & ED)]]; rewrite ED.
        -- apply response_good; auto using timer_u32; [rewrite E; apply session_u16|apply Hi].
        -- constructor; [exact Hv1|constructor].
        -- apply response_good; auto using timer_u32; [rewrite E; apply session_u16|apply Hi|].
           apply nth_error_In in Hn. rewrite Forall_forall in HD. auto.
      * injection HP as <- <-. intros q [Q|[Q|[]]]; [|discriminate]. injection Q as <-. apply error_good; auto; lia.
    + intros d ED. destruct (serial_diff_cases cache serial) as [(_ & E)|[(_ & E)|(_ & _ & d' & Hn & E)]]; rewrite E in ED; [| discriminate|].
      * injection ED as <-. constructor.
      * injection ED as <-. apply nth_error_In in Hn. rewrite Forall_forall in HD. apply fit_wf. auto.
  - rewrite (request_cache_eq cfg s tr) in HP; auto; [|now apply fit_wf].
    injection HP as <- <-. apply queues_map.
    destruct (sdCurrent cache) eqn:EC; [constructor; [apply error_good; auto; lia|constructor]|].
    apply response_good; auto using timer_u32; [apply session_u16|apply Hi].
Qed.

Definition opg (o : op) : Prop := match o with OSet v => v <= 1 | OPut p => good_pdu p | _ => True end.
Lemma opg_ops a : queues a good_pdu -> Forall opg (ops a).
Proof.
  intros H. apply Forall_forall. intros o Ho. apply in_flat_map in Ho as (x & Hx & Ho).
  destruct x; cbn in Ho; [destruct Ho as [<-|[]]; cbn; auto|].
  destruct Ho as [<-|[<-|[<-|[]]]]; exact I.
Qed.
Lemma read_good cfg s tr cache c chunk c' l : u16 s -> cfg_ok cfg -> cinv cfg tr c -> fit_cache cache ->
  read_ops (new_rtr_server cfg s) cache c chunk = Ok (c', l) -> cinv cfg tr c' /\ Forall opg l.
Proof.
  intros Hs HC HI HF. assert (Hb : cfg_version cfg < 256) by (destruct HC; lia).
  assert (D : Ok (c_set_disconnected c, ops [Disc]) = @Ok (client * list op) Empty_set (c', l) -> cinv cfg tr c' /\ Forall opg l).
  { intros E. injection E as <- <-. split; [exact HI|]. repeat constructor. }
  unfold read_ops. destruct chunk as [|b0 chunk]; [exact D|].
  destruct (decode_bytes 64 (b0 :: chunk)) as [p|e|] eqn:E; [|exact D|discriminate].
  destruct (acceptable_dec c (get_version p)) as [HA|HA].
  - destruct (process_ops_ok cfg s tr cache c p Hs HI HA) as (c4 & E4 & B1 & B2 & HI4).
    destruct (pass_total cfg s tr cache c4 p Hs Hb HI4) as (c5 & a5 & E5 & _ & _ & _ & HI5 & _).
    rewrite E4, E5. cbn. intros X. injection X as <- <-. split; [exact HI5|].
    constructor; [cbn; destruct HA as [HA _]; lia|]. constructor; [cbn; destruct HA as [HA _]; lia|].
    apply opg_ops. apply (pass_good cfg s tr cache c4 p c5 a5); auto.
  - destruct (process_ops_bad cfg s tr cache c p Hs HI HA) as (c4 & E4 & B1 & B2 & HI4).
    destruct (pass_total cfg s tr cache c4 p Hs Hb HI4) as (c5 & a5 & E5 & _ & _ & _ & HI5 & _).
    rewrite E4, E5. cbn. intros X. injection X as <- <-. split; [exact HI5|].
    assert (Hv : c_version c <= 1) by (destruct HI as (I1 & _); destruct HC; lia).
    constructor; [exact Hv|]. constructor; [apply error_good; auto; lia|]. do 3 (constructor; [exact I|]). constructor; [exact Hv|].
    apply opg_ops. apply (pass_good cfg s tr cache c4 p c5 a5); auto.
Qed.

(** * The invariant *)
Definition kgood (cfg : config) (k : conn) : Prop :=
  cinv cfg (k_tr k) (k_cli k) /\ k_ver k <= 1 /\ Forall opg (k_prog k) /\ Forall good_pdu (k_queued k).
Definition ngood (cfg : config) (w : net) : Prop :=
  (forall i k, nth_error (n_conns w) i = Some k -> kgood cfg k) /\
  match n_notif w with
  | NIdle => True
  | NLoop n _ => u32 n
  | NSess n sess _ _ => u32 n /\ u16 sess
  | NPut p n _ _ => u32 n /\ good_pdu p
  end.
Lemma kgood_new cfg s tr : cfg_ok cfg -> kgood cfg (new_conn tr (new_rtr_server cfg s)).
Proof.
  intros (HC & _). pose proof (cinv_accept cfg s tr) as H. split; [exact H|]. split; [cbn; destruct H as (H & _); lia|]. repeat constructor.
Qed.
Lemma kgood_put cfg k p k' : kgood cfg k -> good_pdu p -> put k p = Some k' -> kgood cfg k' /\ k_prog k' = k_prog k.
Proof.
  intros (H1 & H2 & H3 & H4) Hp H. unfold put in H.
  assert (F : Forall good_pdu (k_queued k ++ [p])) by (apply Forall_app; auto).
  destruct (k_pc k) eqn:EP, (nlen (k_queue k) <? 256); try discriminate; injection H as <-; cbn; (split; [split; [exact H1|]; auto|reflexivity]).
Qed.
Lemma kgood_send cfg k o k' : kgood cfg k -> sender_step k o = Ok k' -> kgood cfg k'.
Proof.
  intros (H1 & H2 & H3 & H4) H. unfold sender_step in H.
  destruct (k_pc k); try (injection H as <-; split; [exact H1|auto]; fail).
  - destruct (k_queue k); injection H as <-; split; [exact H1|auto|exact H1|auto].
  - destruct (encode p) as [b|e|]; [|destruct e|discriminate]. cbn in H. injection H as <-.
    destruct (k_up k); [destruct o|]; (split; [exact H1|auto]).
Qed.
Lemma get_sess_u16 cfg s v x : u16 s -> @get_session_id Empty_set (new_rtr_server cfg s) v = Ok x -> u16 x.
Proof.
  intros Hs. unfold get_session_id. destruct (nth_error _ _) as [y|] eqn:E; [|discriminate]. intros H. injection H as <-.
  apply nth_error_In in E. cbn [new_rtr_server sessId] in E. apply in_map_iff in E as (i & <- & _). unfold u16. lia.
Qed.

Lemma ngood_step e c cfg s w l w' : wf_env e -> u16 s -> cfg_ok cfg -> ngood cfg w -> fed e c l ->
  nstep (new_rtr_server cfg s) w l = Ok w' -> ngood cfg w'.
Proof.
  intros HE Hs HC [HK HN] HL.
  assert (SET : forall i k k1 m cl nt, nth_error (n_conns w) i = Some k -> kgood cfg k1 ->
     (ngood cfg (mkNet m cl (n_conns w) nt)) -> ngood cfg (mkNet m cl (set_nth (n_conns w) i k1) nt)).
  { intros i k k1 m cl nt Hi Hk [_ E2]. split; [|exact E2]. cbn [n_conns].
    intros j kj Hj. destruct (nth_set_nth _ _ _ _ _ Hj) as [(-> & -> & _)|(_ & Hj')]; eauto. }
  assert (SAME : forall m cl, ngood cfg (mkNet m cl (n_conns w) (n_notif w))) by (intros; split; auto).
  assert (SELF : ngood cfg w) by (split; auto).
  destruct l; cbn [nstep]; intros H.
  - destruct (_ && _)%bool; injection H as <-; [exact SELF|]. split; [|exact HN].
    intros j k Hj. cbn [n_conns] in Hj. destruct (Nat.lt_ge_cases j (length (n_conns w))).
    + rewrite nth_error_app1 in Hj by auto. eauto.
    + rewrite nth_error_app2 in Hj by auto.
      destruct (j - length (n_conns w))%nat as [|m]; cbn in Hj; [|destruct m; discriminate].
      injection Hj as <-. now apply kgood_new.
  - destruct (nth_error (n_conns w) i) as [k|] eqn:Ei; [|injection H as <-; exact SELF].
    pose proof (HK _ _ Ei) as HKk.
    destruct (k_phase k), (k_tr k); injection H as <-; try exact SELF. now apply (SET i k).
  - destruct (nth_error (n_conns w) i) as [k|] eqn:Ei; [|injection H as <-; exact SELF].
    pose proof (HK _ _ Ei) as HKk.
    destruct (k_phase k), (k_tr k); injection H as <-; try exact SELF; now apply (SET i k).
  - destruct (nth_error (n_conns w) i) as [k|] eqn:Ei; [|injection H as <-; exact SELF].
    pose proof (HK _ _ Ei) as (H1 & H2 & H3 & H4).
    destruct (k_phase k), (k_prog k) eqn:EP, (k_flag k); try (injection H as <-; exact SELF).
    destruct (read_ops (new_rtr_server cfg s) cache (k_cli k) chunk) as [[c1 l1]|x|] eqn:ER; [|destruct x|discriminate].
    cbn [bind fst snd] in H. injection H as <-. destruct HL as (h & -> & HSK).
    destruct (read_good cfg s (k_tr k) _ (k_cli k) chunk c1 l1 Hs HC H1 (after_fit e c h HE HSK) ER) as [G1 G2].
    apply (SET i k); [exact Ei| |apply SAME]. split; [exact G1|]. split; [exact H2|]. auto.
  - destruct (nth_error (n_conns w) i) as [k|] eqn:Ei; [|injection H as <-; exact SELF].
    pose proof (HK _ _ Ei) as HKk. pose proof HKk as (H1 & H2 & H3 & H4). injection H as <-.
    unfold reader_step. destruct (k_prog k) as [|[v|p| | |] r] eqn:EP; [exact SELF| | | | |]; inversion H3 as [|? ? G3 G4]; subst.
    + apply (SET i k); [exact Ei| |apply SAME]. split; [exact H1|split; [exact G3|auto]].
    + destruct (put k p) as [k1|] eqn:EU; [|exact SELF]. apply (SET i k); [exact Ei| |apply SAME].
      destruct (kgood_put cfg k p k1 HKk G3 EU) as [(A1 & A2 & A3 & A4) _]. split; [exact A1|split; [exact A2|auto]].
    + apply (SET i k); [exact Ei| |apply SAME]. split; [exact H1|split; [exact H2|auto]].
    + unfold client_disconnected, with_conn. cbn. apply (SET i k); [exact Ei| |apply SAME].
      split; [exact H1|split; [exact H2|auto]].
    + apply (SET i k); [exact Ei| |apply SAME]. destruct (k_pc k); (split; [exact H1|split; [exact H2|auto]]).
  - destruct (nth_error (n_conns w) i) as [k|] eqn:Ei; [|injection H as <-; exact SELF].
    pose proof (HK _ _ Ei) as (H1 & H2 & H3 & H4).
    destruct (k_phase k), (k_prog k) eqn:EP, (k_flag k); injection H as <-; try exact SELF.
    apply (SET i k); [exact Ei| |apply SAME]. split; [exact H1|split; [exact H2|cbn; rewrite EP; auto]].
  - destruct (nth_error (n_conns w) i) as [k|] eqn:Ei; [|injection H as <-; exact SELF].
    destruct (sender_step k o) as [k1|x|] eqn:ES; [|destruct x|discriminate]. cbn in H. injection H as <-.
    apply (SET i k); [exact Ei| |apply SAME]. eapply kgood_send; eauto.
  - destruct (n_notif w) eqn:EN; injection H as <-; try exact SELF. split; [exact HK|exact HL].
  - unfold notifier_step in H. destruct (n_notif w) as [|serial [|i rest]|serial sess i rest|p serial i rest] eqn:EN.
    + injection H as <-. exact SELF.
    + injection H as <-. split; [exact HK|exact I].
    + destruct (nth_error (n_conns w) i) as [k|] eqn:Ei; [|injection H as <-; exact SELF].
      destruct (get_session_id (new_rtr_server cfg s) (k_ver k)) as [x|x|] eqn:EG; [|destruct x|discriminate].
      cbn in H. injection H as <-. split; [exact HK|]. cbn. split; [exact HN|]. eapply get_sess_u16; eauto.
    + destruct (nth_error (n_conns w) i) as [k|] eqn:Ei; injection H as <-; [|exact SELF].
      split; [exact HK|]. destruct (HK _ _ Ei) as (H1 & H2 & _). cbn. tauto.
    + destruct HN as [HN1 HN2]. destruct (nth_error (n_conns w) i) as [k|] eqn:Ei; [|injection H as <-; exact SELF].
      destruct (put k p) as [k1|] eqn:EU; injection H as <-; [|exact SELF].
      destruct (kgood_put cfg k p k1 (HK _ _ Ei) HN2 EU) as [G _].
      apply (SET i k); [exact Ei|exact G|]. split; [exact HK|exact HN1].
Qed.
Lemma ngood_run e c cfg s : wf_env e -> u16 s -> cfg_ok cfg -> forall sched w w', ngood cfg w -> Forall (fed e c) sched ->
  nrun (new_rtr_server cfg s) w sched = Ok w' -> ngood cfg w'.
Proof.
  intros HE Hs HC. induction sched as [|l r IH]; intros w w' HW HL H; cbn in H; [injection H as <-; exact HW|].
  inversion HL; subst. destruct (nstep (new_rtr_server cfg s) w l) as [w1|x|] eqn:E; [|destruct x|discriminate]. cbn in H.
  eapply IH; [|eassumption|exact H]. eapply ngood_step; eauto.
Qed.
Lemma frames_of l : Forall good_pdu l -> exists frames, Forall valid_frame frames /\ concat frames = wire_of l.
Proof.
  induction 1 as [|p l Hp Hl (fs & F1 & F2)]; [exists []; split; [constructor|reflexivity]|].
  destruct (good_frame p Hp) as (b & E & [V|(-> & _)]).
  - exists (b :: fs). split; [constructor; auto|]. cbn [concat wire_of flat_map]. rewrite E, F2. reflexivity.
  - exists fs. split; [exact F1|]. cbn [wire_of flat_map]. rewrite E, F2. reflexivity.
Qed.
Theorem all_valid e c cfg s sched w i k : wf_env e -> u16 s -> cfg_ok cfg -> Forall (fed e c) sched ->
  nrun (new_rtr_server cfg s) empty_net sched = Ok w -> nth_error (n_conns w) i = Some k ->
  exists frames rest, Forall valid_frame frames /\ concat frames = k_wire k ++ rest /\ (k_up k = true -> rest = []).
Proof.
  intros HE Hs HC HL H Hk.
  assert (HG : ngood cfg w) by (eapply ngood_run; eauto; split; [apply (empty_conns (kgood cfg))|exact I]).
  destruct HG as [HG _]. destruct (HG _ _ Hk) as (_ & _ & _ & HQ).
  destruct (fifo_run _ _ _ H _ _ Hk) as (F1 & F2 & sent & F3 & F4 & n & F5).
  assert (HS : Forall good_pdu sent) by (rewrite F3 in HQ; apply Forall_app in HQ as [HQ _]; exact HQ).
  destruct (frames_of sent HS) as (fs & V1 & V2). exists fs.
  destruct (k_up k) eqn:EU.
  - exists []. rewrite app_nil_r, V2, (F4 eq_refl). auto.
  - exists (skipn n (wire_of sent)). rewrite F5, V2, firstn_skipn. split; [exact V1|]. split; [reflexivity|discriminate].
Qed.
