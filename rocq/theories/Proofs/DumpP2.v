(** The dump of a server with router keys that do not fit. *)
From Coq Require Import ZArith ZifyBool ZifyNat ZifyN.
From Verif Require Import Model.Rtrdump Model.Conn Spec.Wire Spec.Collect Spec.Response Proofs.WireP Proofs.WireP2 Proofs.SessionP Proofs.DumpP.
From Coq Require Import List.
Import ListNotations.
Local Open Scope N_scope.

(** Only the records sent matter. *)
Lemma filter_twice {A} (f : A -> bool) l : filter f (filter f l) = filter f l.
Proof. induction l as [|x l IH]; [reflexivity|]. cbn [filter]. destruct (f x) eqn:E; cbn [filter]; [rewrite E, IH; reflexivity|exact IH]. Qed.
Lemma vrp_ids_sent w nk l : vrp_ids (filter (may_send w nk) l) = vrp_ids l.
Proof.
  unfold vrp_ids. induction l as [|d l IH]; [reflexivity|]. cbn [filter]. destruct d; [cbn [may_send flat_map]; now rewrite IH|].
  destruct (may_send _ _ _); cbn [flat_map]; now rewrite IH.
Qed.
Lemma key_ids_sent w nk l : key_ids w nk (filter (may_send w nk) l) = key_ids w nk l.
Proof.
  unfold key_ids. induction l as [|d l IH]; [reflexivity|]. cbn [filter]. destruct d; [cbn [may_send flat_map]; now rewrite IH|].
  destruct (may_send _ _ _) eqn:E; cbn [flat_map]; [now rewrite IH|]. rewrite E. cbn [andb]. now rewrite IH.
Qed.
Lemma data_sent w nk l : u8 w -> Forall wf_sd l -> Forall key_fits (filter (may_send w nk) l) ->
  let ds := filter writes (map (data_pdu w) (filter (may_send w nk) l)) in
  Forall wf_pdu ds /\ Forall sendable ds /\ forallb is_data ds = true /\
  flat_map vrp_of ds = vrp_ids l /\ flat_map key_of ds = key_ids w nk l.
Proof.
  intros Hw HW HF. assert (HW' : Forall wf_sd (filter (may_send w nk) l)).
  { rewrite Forall_forall in *. intros x Hx. apply HW. now apply filter_In in Hx. }
  pose proof (data_pdus w nk _ Hw HW' HF) as H. cbv zeta in *. rewrite filter_twice, vrp_ids_sent, key_ids_sent in H. exact H.
Qed.

(** A router key that does not fit is not decoded. *)
Lemma key_misfit v f s a k : wf_pdu (RouterKey v f s a k) -> nlen s = 20 -> 32 + nlen k < 2 ^ 32 -> ~ (4 <= nlen k /\ 32 + nlen k <= 262168) ->
  exists b e, encode (RouterKey v f s a k) = Ok b /\ bytes_ok b /\ forall rest, decode 64 (b ++ rest) = Err e.
Proof.
  intros (Hv & Hf & Hs & Ha & Hk) HL HB HN. cbn [encode]. rewrite HL. cbn [N.eqb Pos.eqb negb].
  assert (HD : forall rest, let X := s ++ be 4 a ++ k in
    decode 64 ((be 1 v ++ be 1 PDU_ID_ROUTER_KEY ++ be 1 f ++ be 1 0 ++ be 4 (32 + nlen k) ++ s ++ be 4 a ++ k) ++ rest) =
    if messageMaxSize <? 32 + nlen k then Err ELength else
      bind (decode_payload 64 (unbe (be 1 v)) (unbe (be 1 PDU_ID_ROUTER_KEY)) (unbe (be 1 f ++ be 1 0)) X) (fun p => Ok (p, rest))).
  { intros rest X. unfold decode. rewrite <- !app_assoc.
    rewrite read_app by apply nlen_be. cbn [bind fst snd]. rewrite read_app by apply nlen_be. cbn [bind fst snd].
    rewrite (app_assoc (be 1 f)). rewrite read_app by (rewrite nlen_app, !nlen_be; reflexivity). cbn [bind fst snd].
    rewrite read_app by apply nlen_be. cbn [bind fst snd].
    rewrite (unbe_be 4) by (change (256 ^ N.of_nat 4) with (2 ^ 32); exact HB).
    replace (32 + nlen k <? 8) with false by lia. destruct (messageMaxSize <? 32 + nlen k); [reflexivity|].
    replace (s ++ be 4 a ++ k ++ rest) with (X ++ rest) by (unfold X; now rewrite <- !app_assoc).
    rewrite read_app; [reflexivity|]. unfold X. rewrite !nlen_app, nlen_be. lia. }
  destruct (messageMaxSize <? 32 + nlen k) eqn:EM.
  - eexists. exists ELength. split; [reflexivity|]. split; [|intros rest; now rewrite HD].
    repeat (apply Forall_app; split); auto; apply be_ok.
  - eexists. exists EPayload. split; [reflexivity|]. split; [repeat (apply Forall_app; split); auto; apply be_ok|].
    intros rest. rewrite HD. rewrite (unbe_be 1 PDU_ID_ROUTER_KEY) by reflexivity. unfold decode_payload.
    replace (nlen (s ++ be 4 a ++ k) <? 28) with true; [reflexivity|]. symmetry. rewrite !nlen_app, nlen_be. unfold messageMaxSize in EM. lia.
Qed.

(** All that is sent is written, fit or not. *)
Definition short (p : pdu) : Prop := match p with RouterKey _ _ _ _ k => 32 + nlen k < 2 ^ 32 | _ => True end.
Definition handed (p : pdu) : Prop := wf_pdu p /\ (sendable p \/ match p with RouterKey _ _ s _ k => nlen s = 20 /\ ~ (4 <= nlen k /\ 32 + nlen k <= 262168) | _ => False end) /\ short p.
Lemma handed_enc p : handed p -> exists b, encode p = Ok b /\ bytes_ok b.
Proof.
  intros (HW & [HS|HN] & HB); [destruct (roundtrip p [] HW HS ltac:(constructor)) as (b & E & _); exists b; split; [exact E|exact (encode_bytes_ok p HW HS b E)]|].
  destruct p; try contradiction. destruct HN as (HL & HN). cbn [short] in HB. destruct (key_misfit _ _ _ _ _ HW HL HB HN) as (b & e & E & H & _). eauto.
Qed.
Lemma handed_all l : Forall handed l -> exists b, encode_all l = Ok b /\ bytes_ok b.
Proof.
  induction 1 as [|p l HP HL (b & E & HB)]; [exists []; split; [reflexivity|constructor]|].
  destruct (handed_enc p HP) as (b1 & E1 & HB1). exists (b1 ++ b). cbn [encode_all]. rewrite E1. cbn [bind]. rewrite E. cbn [bind].
  split; [reflexivity|]. apply Forall_app. now split.
Qed.
Lemma encode_all_app l1 l2 b1 b2 : encode_all l1 = Ok b1 -> encode_all l2 = Ok b2 -> encode_all (l1 ++ l2) = Ok (b1 ++ b2).
Proof.
  revert b1. induction l1 as [|p l IH]; intros b1 H1 H2; [cbn in H1; injection H1 as <-; exact H2|].
  apply encode_all_cons in H1 as (c1 & c2 & E1 & E2 & ->). cbn [app encode_all]. rewrite E1. cbn [bind]. rewrite (IH c2 E2 H2). cbn [bind].
  now rewrite app_assoc.
Qed.
Lemma dump_fails v0 v sess data k post b rest : u8 v -> u16 sess ->
  Forall wf_pdu data -> Forall sendable data -> forallb is_data data = true ->
  handed k -> ~ sendable k -> Forall handed post -> bytes_ok rest ->
  encode_all ((CacheResponse v sess :: data) ++ k :: post) = Ok b -> dump_main v0 (b ++ rest) = None.
Proof.
  intros Hv Hs HW HS HD HK HNS HP HR HE.
  set (pre := CacheResponse v sess :: data) in *.
  assert (HW1 : Forall wf_pdu pre) by (constructor; [split; assumption|exact HW]).
  assert (HS1 : Forall sendable pre) by (constructor; [exact I|exact HS]).
  destruct (encode_all_ok pre HW1 HS1) as (b1 & E1 & HB1). destruct (handed_all post HP) as (b3 & E3 & HB3).
  destruct HK as (KW & [KS|KN] & KB); [contradiction|]. destruct k; try contradiction. destruct KN as (KL & KN). cbn [short] in KB.
  destruct (key_misfit _ _ _ _ _ KW KL KB KN) as (b2 & e & E2 & HB2 & HD2).
  assert (EQ : encode_all (RouterKey ver flags ski asn spki :: post) = Ok (b2 ++ b3)) by (cbn [encode_all]; rewrite E2; cbn [bind]; rewrite E3; reflexivity).
  rewrite (encode_all_app _ _ _ _ E1 EQ) in HE. injection HE as <-.
  assert (HN : map normal pre = pre) by (unfold pre; cbn [map normal]; now rewrite map_normal_data).
  assert (HK : keeps dump_handle empty_dump pre) by (unfold pre; cbn [keeps dump_handle snd fst]; split; [reflexivity|now apply dump_data]).
  assert (HBB : bytes_ok (b2 ++ b3 ++ rest)) by (repeat (apply Forall_app; split); assumption).
  rewrite <- !app_assoc.
  destruct (start_rw_all dump_handle pre v0 empty_dump b1 (b2 ++ b3 ++ rest) HW1 HS1 E1 HBB ltac:(now rewrite HN)) as (_ & J2 & _ & _).
  rewrite (start_rw_step dump_handle _ _ (b2 ++ b3 ++ rest)) in J2 by exact HBB. rewrite HD2 in J2. cbn [o_end] in J2. unfold dump_main. now rewrite J2.
Qed.

(** The first that does not fit. *)
Lemma fits_dec d : key_fits d \/ ~ key_fits d.
Proof. destruct d; cbn [key_fits]; [left; exact I|]. destruct (N.eq_dec (nlen ski) 20); [|left; tauto]. destruct (N.le_gt_cases 4 (nlen pubkey)); [|right; lia]. destruct (N.le_gt_cases (32 + nlen pubkey) 262168); [left; auto|right; lia]. Qed.
Lemma first_misfit l : Forall key_fits l \/ exists l1 d l2, l = l1 ++ d :: l2 /\ Forall key_fits l1 /\ ~ key_fits d.
Proof.
  induction l as [|d l IH]; [left; constructor|]. destruct (fits_dec d) as [F|F]; [|right; exists [], d, l; auto].
  destruct IH as [IH|(l1 & x & l2 & -> & H1 & H2)]; [left; now constructor|right; exists (d :: l1), x, l2; auto].
Qed.
Definition bounded (d : sd) : Prop := match d with BgpsecKey _ _ k _ => 32 + nlen k < 2 ^ 32 | _ => True end.
Lemma handed_sent w nk l : u8 w -> Forall wf_sd l -> Forall bounded l ->
  Forall handed (filter writes (map (data_pdu w) (filter (may_send w nk) l))).
Proof.
  intros Hw HW HB. apply Forall_forall. intros p Hp. apply filter_In in Hp as (Hp & HWr). apply in_map_iff in Hp as (d & <- & Hd).
  apply filter_In in Hd as (Hd & HM). rewrite Forall_forall in HW, HB. specialize (HW d Hd). specialize (HB d Hd).
  destruct (fits_dec d) as [F|F].
  - destruct (data_pdus w nk [d] Hw) as (D1 & D2 & _); [now constructor|now constructor|]. cbn [filter] in D1, D2. rewrite HM in D1, D2. cbn [map filter] in D1, D2.
    rewrite HWr in D1, D2. inversion D1; inversion D2; subst. split; [assumption|]. split; [left; assumption|].
    destruct d as [[[|x|x] y] a m f|a s k f]; cbn [data_pdu]; try exact I; exact HB.
  - destruct d as [p a m f|a s k f]; [contradiction F; exact I|]. cbn [data_pdu writes] in *. cbn [wf_sd] in HW. destruct HW as (P1 & P2 & P3 & P4).
    split; [cbn [wf_pdu]; auto|]. split; [right|exact HB]. cbn [key_fits] in F. split; [lia|]. intros G. apply F. intros _. exact G.
Qed.
Lemma misfit_pdu w nk d : may_send w nk d = true -> ~ key_fits d -> writes (data_pdu w d) = true /\ ~ sendable (data_pdu w d).
Proof.
  intros HM HF. destruct d as [p a m f|a s k f]; [contradiction HF; exact I|]. cbn [data_pdu writes sendable key_fits] in *.
  destruct (N.eq_dec (nlen s) 20) as [E|E]; [|exfalso; apply HF; intros X; congruence]. rewrite E. split; [reflexivity|]. intros (_ & G). apply HF. auto.
Qed.
