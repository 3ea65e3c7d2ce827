(** Property C99: the text of diff.json. *)
From Coq Require Import String ZifyBool ZifyNat ZifyN Permutation.
From Verif Require Import Lib.Str Spec.DiffJson Proofs.JsonStrP Proofs.JsonFileP Proofs.JsonPrintP Proofs.MonitorP Proofs.MonitorP2 Proofs.MonProcP Proofs.MonRunP
  Proofs.DiffJsonP Props.CacheProps Props.MonitorProps Props.MonRunProps Props.JsonProps.
From Coq Require Import List.
Local Open Scope string_scope.
Local Open Scope list_scope.
Local Open Scope N_scope.

(** * C99 diff.json says what was found *)
(** The text the server gives when nothing is under way, in whatever order Go walks the maps:
    a JSON text whose arrays show each object that only one source has, once, with its times, and
    nothing else, and whose other members tell about the sources. *)
Theorem C99_report : forall cfg ls s p u1 u2 l1 l2, Forall good_label ls -> Forall from_outside ls ->
  mrun cfg ls = Some s -> at_rest s -> ms_pub s = Some p -> is_text u1 -> is_text u2 ->
  Permutation l1 (map snd (fst (fst (serve_diff s)))) -> Permutation l2 (map snd (snd (fst (serve_diff s)))) ->
  let m1 := told_map cfg Pri ls in
  let m2 := told_map cfg Sec ls in
  exists v d1 d2 a1 a2 x1 x2, json_doc 4 v (diff_text u1 u2 (snd (serve_diff s)) l1 l2) /\
    member "metadata-primary" v d1 /\ described d1 u1 (pb_md1 p) /\
    member "metadata-secondary" v d2 /\ described d2 u2 (pb_md2 p) /\
    member "only-primary" v (JArr a1) /\ member "only-secondary" v (JArr a2) /\
    Forall2 (fun j x => displays j (fst x) /\ dated j (snd x)) a1 x1 /\
    Forall2 (fun j x => displays j (fst x) /\ dated j (snd x)) a2 x2 /\
    NoDup (map fst x1) /\ NoDup (map fst x2) /\
    (forall o e, In (o, e) x1 <-> has m1 o e /\ m_visible e = true /\ ~ shown m2 o) /\
    (forall o e, In (o, e) x2 <-> has m2 o e /\ m_visible e = true /\ ~ shown m1 o).
Proof.
  intros cfg ls s p u1 u2 l1 l2 HG HO HR HA HP U1 U2 P1 P2. cbv zeta.
  destruct (serve_fit cfg ls s HO HR) as [F1 F2].
  pose proof (C81_rest cfg ls s p HG HR HA HP) as C. cbv zeta in C.
  destruct (rest_pub cfg ls s p HR HA HP) as (_ & (Q1 & Q2 & _) & _).
  pose proof (rest_told cfg ls s Pri HR HA) as T1. pose proof (rest_told cfg ls s Sec HR HA) as T2. cbn [ms_c] in T1, T2.
  pose proof (source_minv _ (told_source cfg Pri ls HG)) as S1. pose proof (source_minv _ (told_source cfg Sec ls HG)) as S2.
  assert (ES : serve_diff s = (values (ms_heap s) (pb_only1 p), values (ms_heap s) (pb_only2 p), Some (pb_md1 p, pb_md2 p))) by (unfold serve_diff; now rewrite HP).
  rewrite ES in *. cbn [fst snd] in *. destruct C as (C1 & C2 & _).
  assert (V1 : minv (values (ms_heap s) (pb_only1 p))) by (rewrite Q1, diff_refs_values, T1, T2; now apply minv_mdiff).
  assert (V2 : minv (values (ms_heap s) (pb_only2 p))) by (rewrite Q2, diff_refs_values, T1, T2; now apply minv_mdiff).
  destruct (map_shown _ l1 V1 F1 P1) as (x1 & X1 & X2 & X3). destruct (map_shown _ l2 V2 F2 P2) as (x2 & Y1 & Y2 & Y3).
  destruct (diff_member u1 u2 (Some (pb_md1 p, pb_md2 p)) l1 l2) as (M1 & M2 & M3 & M4). cbn [fst snd] in *.
  eexists _, _, _, _, _, x1, x2. split.
  - apply print_doc; [|exact nl_ws]. apply diff_good; auto; eapply fit_perm; eassumption.
  - split; [exact M1|]. split; [apply mdata_described|]. split; [exact M2|]. split; [apply mdata_described|].
    split; [exact M3|]. split; [exact M4|]. split; [exact X2|]. split; [exact Y2|]. split; [exact X1|]. split; [exact Y1|].
    split; intros o e; [rewrite X3; apply C1|rewrite Y3; apply C2].
Qed.
(** An element shows one object only. *)
Theorem C99_one : forall j o o', displays j o -> displays j o' -> o = o'.
Proof. exact displays_fun. Qed.
(** At every moment it is a JSON text. *)
Theorem C99_doc : forall cfg ls s u1 u2 l1 l2, Forall from_outside ls -> mrun cfg ls = Some s -> is_text u1 -> is_text u2 ->
  Permutation l1 (map snd (fst (fst (serve_diff s)))) -> Permutation l2 (map snd (snd (fst (serve_diff s)))) ->
  exists v d1 d2 a1 a2, json_doc 4 v (diff_text u1 u2 (snd (serve_diff s)) l1 l2) /\
    member "metadata-primary" v d1 /\ member "metadata-secondary" v d2 /\
    member "only-primary" v (JArr a1) /\ member "only-secondary" v (JArr a2) /\
    Forall2 dated a1 l1 /\ Forall2 dated a2 l2.
Proof.
  intros cfg ls s u1 u2 l1 l2 HO HR U1 U2 P1 P2. destruct (serve_fit cfg ls s HO HR) as [F1 F2].
  destruct (diff_member u1 u2 (snd (serve_diff s)) l1 l2) as (M1 & M2 & M3 & M4).
  assert (D : forall l, Forall2 dated (map mentry_json l) l) by (induction l; constructor; [apply mentry_member|assumption]).
  eexists _, _, _, _, _. split; [|split; [exact M1|split; [exact M2|split; [exact M3|split; [exact M4|split; apply D]]]]].
  apply print_doc; [|exact nl_ws]. apply diff_good; auto; eapply fit_perm; eassumption.
Qed.
(** Two reports, of whatever schedules, give the same text only if they are the same. *)
Theorem C99_lossless : forall cfg ls s l1 l2 u1 u2 cfg' ls' s' l1' l2' u1' u2',
  Forall from_outside ls -> mrun cfg ls = Some s -> is_text u1 -> is_text u2 ->
  Permutation l1 (map snd (fst (fst (serve_diff s)))) -> Permutation l2 (map snd (snd (fst (serve_diff s)))) ->
  Forall from_outside ls' -> mrun cfg' ls' = Some s' -> is_text u1' -> is_text u2' ->
  Permutation l1' (map snd (fst (fst (serve_diff s')))) -> Permutation l2' (map snd (snd (fst (serve_diff s')))) ->
  diff_text u1 u2 (snd (serve_diff s)) l1 l2 = diff_text u1' u2' (snd (serve_diff s')) l1' l2' ->
  l1 = l1' /\ l2 = l2' /\ snd (serve_diff s) = snd (serve_diff s') /\ (ms_pub s <> None -> u1 = u1' /\ u2 = u2').
Proof.
  intros cfg ls s l1 l2 u1 u2 cfg' ls' s' l1' l2' u1' u2' HO HR U1 U2 P1 P2 HO' HR' U1' U2' P1' P2' H.
  destruct (serve_fit cfg ls s HO HR) as [F1 F2]. destruct (serve_fit cfg' ls' s' HO' HR') as [F1' F2'].
  apply diff_inj in H; auto; try (eapply fit_perm; eassumption). destruct H as (H1 & H2 & H3 & H4). split; [exact H3|]. split; [exact H4|]. split; [exact H1|].
  intros HP. destruct H2 as [H2|H2]; [|exact H2]. unfold serve_diff in H2. destruct (ms_pub s); [discriminate H2|now contradiction HP].
Qed.
(** As long as no source has delivered anything. *)
Theorem C99_nothing : forall cfg ls s u1 u2 l1 l2, mrun cfg ls = Some s -> at_rest s -> (forall i, delivered cfg i ls = false) ->
  Permutation l1 (map snd (fst (fst (serve_diff s)))) -> Permutation l2 (map snd (snd (fst (serve_diff s)))) ->
  diff_text u1 u2 (snd (serve_diff s)) l1 l2 =
  q "{'metadata-primary':null,'metadata-secondary':null,'only-primary':[],'only-secondary':[]}" ++ [10].
Proof.
  intros cfg ls s u1 u2 l1 l2 HR HA HD P1 P2. apply (C81_nothing cfg ls s HR HA) in HD. unfold serve_diff in *. rewrite HD in *. cbn [fst snd map] in *.
  apply Permutation_sym, Permutation_nil in P1, P2. subst l1 l2. vm_compute. reflexivity.
Qed.

(** A file with a VRP and a router key against a server with another VRP. *)
Definition fileD : bytes :=
  q "{'roas':[{'prefix':'10.0.0.0/24','maxLength':24,'asn':'AS65001'}],'bgpsec_keys':[{'asn':7,'ski':'a1b2','pubkey':'MFk=','ta':'x'}]}".
Definition vrpD : vrpjson := mkVJ (str "10.0.0.0/24") 24 (AsnStr (str "AS65001")) [] None.
Definition keyD : brkjson := mkBJ 7 None (str "x") [48; 89] (str "a1b2").
Lemma fileD_reads : exists d, reader (fun _ => 0%nat) fileD = Some d /\ [vrpD] = roa_of d /\ [keyD] = rl_brk d.
Proof. eexists. split; [vm_compute; reflexivity|]. split; vm_compute; reflexivity. Qed.
Definition listingD : fetched := Listing [vrpD] [keyD].
Definition annD : pdu := IPv4Prefix 1 1 25 65002 (pfx4 167772416 24).
Definition ls99 : list mlabel :=
  [LPdu Sec 99 (CacheResponse 1 7); LFetch Pri 100 listingD; LPdu Sec 101 annD; LPdu Sec 101 (eod 1); LAssign Pri 102; LAssign Sec 102; LSend Pri]
   ++ cycle 103 ++ [LSend Sec] ++ cycle 104.
Definition text99 : bytes :=
  q "{'metadata-primary':{'last-fetch':100,'url':'http://a/v.json','serial':0,'session-id':0,'count':2,'rtr-refresh':0,'rtr-retry':0,'rtr-expire':0},"
  ++ q "'metadata-secondary':{'last-fetch':102,'url':'tcp://b:282','serial':1,'session-id':7,'count':1,'rtr-refresh':3600,'rtr-retry':600,'rtr-expire':7200},"
  ++ q "'only-primary':[{'asn':65001,'max-length':24,'prefix':'10.0.0.0/24','first-seen':100,'last-seen':100,'visible':true},"
  ++ q "{'asn':7,'max-length':0,'prefix':'','first-seen':100,'last-seen':100,'visible':true,'bgpsec':{'asn':7,'ta':'x','pubkey':'MFk=','ski':'a1b2'}}],"
  ++ q "'only-secondary':[{'asn':65002,'max-length':25,'prefix':'10.0.1.0/24','first-seen':101,'last-seen':0,'visible':true}]}" ++ [10].
Lemma ls99_outside : Forall from_outside ls99.
Proof.
  assert (P : forall t p b, encode p = Ok b -> bytes_okb b = true -> decode 64 b = Ok (p, []) -> from_outside (LPdu Sec t p)).
  { intros t p b _ HB HD. exists b, []. split; [now apply bytes_okb_ok|exact HD]. }
  unfold ls99. cbn [app cycle].
  constructor. { apply (P _ _ [1; 3; 0; 7; 0; 0; 0; 8]); vm_compute; reflexivity. }
  constructor. { exists (fun _ => 0%nat), fileD. exact fileD_reads. }
  constructor. { apply (P _ _ [1; 4; 0; 0; 0; 0; 0; 20; 1; 24; 25; 0; 10; 0; 1; 0; 0; 0; 253; 234]); vm_compute; reflexivity. }
  constructor. { apply (P _ _ [1; 7; 0; 7; 0; 0; 0; 24; 0; 0; 0; 1; 0; 0; 14; 16; 0; 0; 2; 88; 0; 0; 28; 32]); vm_compute; reflexivity. }
  repeat (constructor; [exact I|]). constructor.
Qed.
Lemma ls99_good : Forall good_label ls99.
Proof. repeat constructor; vm_compute; try reflexivity; intuition discriminate. Qed.
Example C99_case : exists s p l1 l2, Forall good_label ls99 /\ Forall from_outside ls99 /\ mrun cfgR ls99 = Some s /\ at_rest s /\ ms_pub s = Some p /\
  is_text (str "http://a/v.json") /\ is_text (str "tcp://b:282") /\
  Permutation l1 (map snd (fst (fst (serve_diff s)))) /\ Permutation l2 (map snd (snd (fst (serve_diff s)))) /\
  diff_text (str "http://a/v.json") (str "tcp://b:282") (snd (serve_diff s)) l1 l2 = text99.
Proof.
  eexists. eexists. eexists. eexists. split; [exact ls99_good|split; [exact ls99_outside|]].
  split; [vm_compute; reflexivity|]. split; [vm_compute; auto|]. split; [reflexivity|]. split; [ascii|]. split; [ascii|].
  split; [apply Permutation_refl|]. split; [apply Permutation_refl|]. vm_compute. reflexivity.
Qed.
(** Nothing delivered yet: the response of the server is open. *)
Example C99_nothing_case : exists s, mrun cfgR [LPdu Sec 99 (CacheResponse 1 7); LFetch Pri 100 FetchError; LPdu Sec 101 annD] = Some s /\ at_rest s /\
  (forall i, delivered cfgR i [LPdu Sec 99 (CacheResponse 1 7); LFetch Pri 100 FetchError; LPdu Sec 101 annD] = false).
Proof. eexists. split; [vm_compute; reflexivity|]. split; [vm_compute; auto|]. intros []; reflexivity. Qed.

Print Assumptions C99_report.
Print Assumptions C99_one.
Print Assumptions C99_doc.
Print Assumptions C99_lossless.
Print Assumptions C99_nothing.
