(** Properties C88 to C92: the JSON files as texts. *)
From Coq Require Import String ZifyBool ZifyNat ZifyN Permutation.
From Verif Require Import Lib.Str Model.JsonFile Model.Chain Model.Conn Spec.Chain Spec.Sets Spec.History Spec.Response Spec.Refresh
  Spec.Rfc8259 Spec.JsonSame Spec.Rfc8416 Spec.Auth
  Proofs.DataP Proofs.CacheP Proofs.StateP Proofs.ChainP Proofs.JsonStrP Proofs.JsonNumP Proofs.JsonFileP Proofs.JsonReadP Proofs.JsonStateP Proofs.JsonFloatP Proofs.JsonPrintP Proofs.JsonDumpP
  Proofs.JsonCutP Proofs.JsonDocP Proofs.JsonSlurmP Proofs.JsonOrderP
  Props.CacheProps Props.ConnProps Props.ClientProps Props.InputProps Props.StateProps Props.ChainProps.
Local Open Scope string_scope.
Local Open Scope list_scope.
Local Open Scope N_scope.

(** An environment in which files are read as texts. *)
Definition text_env : env := mkEnv isort (fun x => x) (reader (fun _ => 0%nat)) decode_slurm hours.
Lemma text_env_reads : sorts (e_sort text_env) /\ reads_text (fun _ => 0%nat) text_env.
Proof. split; [apply isort_sorts|]. split; reflexivity. Qed.
(** JSON with single quotes in place of double quotes. *)
Definition q (s : string) : bytes := map (fun c => if c =? 39 then 34 else c) (str s).
Definition file1 : bytes :=
  q "{'metadata':{'vrps':2},'roas':[{'prefix':'10.0.0.0/8','maxLength':8,'asn':'AS1','ta':'x'},{'prefix':'10.1.0.0/16','maxLength':24,'asn':2,'ta':'y'}]}".

(** C88 A file that was cut off is never taken for a shorter one: either it cannot be read or it
    is read as the whole file. *)
Theorem C88_cut : forall t m,
  (decode_json (firstn m t) = None \/ decode_json (firstn m t) = decode_json t) /\
  (decode_slurm (firstn m t) = None \/ decode_slurm (firstn m t) = decode_slurm t).
Proof. intros t m. split; [apply decode_cut|apply slurm_cut]. Qed.
Example C88_cut_case : decode_json (firstn 60 file1) = None /\ decode_json (firstn 91 file1) = None /\
  (exists r, decode_json file1 = Some r /\ length (sl_list (fi_roa r)) = 2%nat).
Proof. split; [vm_compute; reflexivity|]. split; [vm_compute; reflexivity|]. eexists. split; [vm_compute; reflexivity|]. reflexivity. Qed.
(** So whatever parts of files the fetches brought, what a daemon serves is nothing or what one
    of the whole files says, with one of the whole SLURM files or none. *)
Theorem C88_served : forall room e c h (whole whole_slurm : bytes -> Prop),
  sorts (e_sort e) -> reads_text room e ->
  (forall i y, In i h -> i_file i = Some y -> exists t m, whole t /\ y = firstn m t) ->
  (forall i y, In i h -> i_slurm i = Some y -> exists t m, whole_slurm t /\ y = firstn m t) ->
  (forall x, ~ served (State.after e c h) x) \/
  exists i t d osl, In i h /\ whole t /\ reader room t = Some d /\
    match osl with None => True | Some sl => exists u, whole_slurm u /\ decode_slurm u = Some sl end /\
    forall x, served (State.after e c h) x <-> content (i_proc i) osl d x.
Proof.
  intros room e c h whole wsl HS HR HF HSl. destruct (after_origin e c h (reads_wf room e HS HR)) as (_ & _ & [H|H]); [now left|right].
  destruct H as (i & d & osl & Hi & (j & y & J1 & J2 & J3) & HO & HX). destruct HR as [R1 R2].
  destruct (HF j y J1 J2) as (t & m & W & ->). exists i, t, d, osl. split; [exact Hi|]. split; [exact W|]. split; [|split; [|exact HX]].
  - rewrite R1 in J3. unfold reader in *. destruct (decode_cut t m) as [C|C]; rewrite C in J3; [discriminate J3|exact J3].
  - destruct osl as [sl|]; [|exact I]. destruct HO as (j2 & y2 & K1 & K2 & K3). destruct (HSl j2 y2 K1 K2) as (u & m2 & W2 & ->).
    exists u. split; [exact W2|]. rewrite R2 in K3. destruct (slurm_cut u m2) as [C|C]; rewrite C in K3; [discriminate K3|exact K3].
Qed.
Definition cut_history : list input := [at_h 1 file1; at_h 2 (firstn 60 file1)].
Example C88_served_case :
  (forall i y, In i cut_history -> i_file i = Some y -> exists t m, In t [file1] /\ y = firstn m t) /\
  (forall i y, In i cut_history -> i_slurm i = Some y -> False) /\
  ids (get_current_sds (st_server (State.after text_env cfgN cut_history))) = [idw; idv].
Proof.
  split; [|split].
  - intros i y [<-|[<-|[]]] [= <-]; [exists file1, (length file1)|exists file1, 60%nat]; (split; [now left|]); [symmetry; apply firstn_all|reflexivity].
  - intros i y [<-|[<-|[]]] E; discriminate E.
  - vm_compute. reflexivity.
Qed.

(** C89 Which texts are accepted.  Every JSON text whose value is not a lone number and in which
    arrays and objects are nested at most 10000 deep is read as its value ... *)
Theorem C89_accepts : forall n v t, (n <= N.to_nat 10000)%nat -> json_doc n v t -> (forall lit, v <> JNum lit) -> parse t = Some v.
Proof. intros n v t HN HD HV. rewrite <- (app_nil_r t). now apply (doc_read n). Qed.
(** ... and what is read begins with a text of that value.  (Missing: strings that are not
    well-formed are accepted, and anything may follow.) *)
Theorem C89_only_partial : forall t v, parse t = Some v ->
  exists w b rest, t = w ++ b ++ rest /\ ws w /\ jtext lenient (N.to_nat 10000) v b.
Proof. exact read_doc. Qed.
Definition small_doc : bytes := q " { 'aA' : [ true , 'é' ] , 'b':{ } } ".
Example C89_case : parse small_doc = Some (JObj [(q "aA", JArr [JBool true; JStr (q "é")]); (q "b", JObj [])]) /\
  exists n v, (n <= N.to_nat 10000)%nat /\ json_doc n v (q " [ true , 'x' ] ") /\ (forall lit, v <> JNum lit).
Proof.
  split; [vm_compute; reflexivity|]. exists 1%nat, (JArr [JBool true; JStr (q "x")]). split; [lia|].
  split; [|discriminate]. exists (q " "), (q "[ true , 'x' ]"), (q " "). split; [repeat constructor|]. split; [|split; [repeat constructor|reflexivity]].
  apply (jt_arr means 0 [JBool true; JStr (q "x")] (q " true , 'x' ")).
  apply (je_more means 0 [JBool true] (JStr (q "x")) (q " true ") (q " ") (q "'x'") (q " ")); [|repeat constructor| |repeat constructor].
  - apply (je_one means 0 (JBool true) (q " ") (q "true") (q " ")); [repeat constructor|constructor|repeat constructor].
  - apply (jt_str means 0 (q "x") (q "x")). apply (mn_char 120 [] []); [left|..|constructor]; lia.
Qed.
(** What follows the value is not looked at, so a file need not be a JSON text. *)
Theorem C89_trailing_refuted :
  (forall t rest r, decode_json t = Some r -> decode_json (t ++ rest) = Some r) /\
  exists t r, decode_json t = Some r /\ length (sl_list (fi_roa r)) = 2%nat /\ forall n v, ~ json_doc n v t.
Proof.
  split; [exact trailing|]. exists (file1 ++ q "{'roas':[x"), (match decode_json file1 with Some r => r | None => zero_fill end).
  split; [vm_compute; reflexivity|]. split; [vm_compute; reflexivity|].
  change (q "{'roas':[x") with (q "{'roas':[" ++ [120]). rewrite app_assoc. apply not_doc; [unfold Rfc8259.digit; lia|cbn; lia|cbn; lia].
Qed.

(** C90 The document served under -export.path, as a text: a server that is given it reads the
    list it was made from.  ([float_fmt]: a number is written with digits that are read as the
    same number; [exact_is_fmt] is a way of writing numbers that does this.) *)
Theorem C90_export_text : forall room e c h fmt room2, reads_text room e -> float_fmt fmt ->
  let A := State.after e c h in
  (Z.of_nat (length (exported_roa A)) < 2 ^ 63)%Z ->
  reader room2 (export_text fmt true A) =
    Some (export_list (room2 (length (exported_roa A))) (room2 (length (exported_brk A))) A).
Proof. intros room e c h fmt room2 HR HF A HL. apply export_back; [exact HF| |exact HL]. now apply (after_held room). Qed.
(** So C79 holds of servers that read and write texts. *)
Theorem C90_export_partial : forall room e c h fmt, sorts (e_sort e) -> reads_text room e -> float_fmt fmt ->
  sc_slurm_refresh c = false \/ no_spare e ->
  let A := State.after e c h in
  (Z.of_nat (length (exported_roa A)) < 2 ^ 63)%Z -> (exists x, served A x) ->
  exists h1 i h2, last_change e c h h1 i h2 /\
  forall room2 e2 c2 now, sorts (e_sort e2) -> reads_text room2 e2 -> sc_slurm c2 = false -> (i_proc i <= now)%Z ->
  (forall sp bsp, recent e2 c2 now (export_list sp bsp A)) ->
  (forall x, served (second_server e2 c2 now (export_text fmt true A)) x -> served A x) /\
  (none_expires (i_proc i) now (exported_roa A) (exported_brk A) ->
   forall x, served (second_server e2 c2 now (export_text fmt true A)) x <-> served A x).
Proof.
  intros room e c h fmt HS HR HF HN A HL HX.
  destruct (C79_export_partial e c h (reads_wf room e HS HR) HN HX) as (h1 & i & h2 & H1 & H2).
  exists h1, i, h2. split; [exact H1|]. intros room2 e2 c2 now HS2 HR2 HC HT HRec.
  apply (H2 e2 c2 now (export_text fmt true A) (room2 (length (exported_roa A))) (room2 (length (exported_brk A)))); auto.
  - now apply (reads_wf room2).
  - rewrite (proj1 HR2). now apply (C90_export_text room).
Qed.
Definition stT : state := State.after text_env cfgN [at_h 1 file1].
Example C90_export_case : no_spare text_env /\ (exists x, served stT x) /\ float_fmt exact_fmt /\
  (forall sp bsp, recent text_env cfgN (hour 2) (export_list sp bsp stT)) /\
  none_expires (hour 1) (hour 2) (exported_roa stT) (exported_brk stT) /\
  export_text exact_fmt true stT =
    q "{'metadata':{'vrps':2,'bgpsec_pubkeys':0,'serial':0},'roas':[{'prefix':'10.0.0.0/8','maxLength':8,'asn':'AS1','ta':'x'},{'prefix':'10.1.0.0/16','maxLength':24,'asn':2,'ta':'y'}]}" ++ [10] /\
  ids (get_current_sds (st_server (second_server text_env cfgN (hour 2) (export_text exact_fmt true stT)))) = [idw; idv].
Proof.
  split; [intros x d; cbn [text_env e_decode]; unfold reader; destruct (decode_json x); [intros [= <-]; split; reflexivity|discriminate]|].
  split; [exists idv; apply servedb_ok; vm_compute; reflexivity|]. split; [exact exact_is_fmt|].
  split; [intros sp bsp E; discriminate E|]. split; [split; vm_compute; intros z HZ; repeat (destruct HZ as [<-|HZ]; [auto|]); destruct HZ|].
  split; vm_compute; reflexivity.
Qed.
(** And the document is a JSON text by RFC 8259 of the list, for any reader, even before there has
    been an update. *)
Theorem C90_export_doc : forall room e c h fmt (published : bool), reads_text room e -> float_fmt fmt ->
  let A := State.after e c h in
  (Z.of_nat (length (exported_roa A)) < 2 ^ 63)%Z ->
  json_doc 3 (list_json fmt (mkMeta (Z.of_nat (length (exported_roa A))) 0 (ex_build (st_exported A)) None 0 0)
                (if published then Some (exported_roa A) else None) (exported_brk A)) (export_text fmt published A).
Proof. intros room e c h fmt published HR HF A HL. apply export_doc; [exact HF| |exact HL]. now apply (after_held room). Qed.
Example C90_export_doc_case : exported_roa (State.after text_env cfgN [at_h 1 file1]) <> [] /\
  export_text exact_fmt false (State.after text_env cfgN []) = q "{'metadata':{'vrps':0,'bgpsec_pubkeys':0,'serial':0},'roas':null}" ++ [10].
Proof. split; vm_compute; [discriminate|reflexivity]. Qed.
(** The file of rtrdump, whatever the server it was connected to sent. *)
Theorem C90_dump_text : forall fmt room v b d, bytes_ok b -> dump_main v b = Some d -> d_count d < 2 ^ 63 ->
  reader room (dump_text fmt d) = Some (dump_list (room (length (d_roas d))) (room (length (d_keys d))) d).
Proof. exact dump_back. Qed.
Theorem C90_dump_doc : forall fmt v b d, bytes_ok b -> dump_main v b = Some d -> d_count d < 2 ^ 63 ->
  json_doc 3 (list_json fmt (mkMeta (Z.of_N (d_count d)) 0 [] None (Z.of_N (d_session d)) (Z.of_N (d_serial d))) (Some (d_roas d)) (d_keys d))
    (dump_text fmt d).
Proof. exact dump_doc. Qed.
Theorem C90_dump_partial : forall room e c h cfg s tr f v fmt,
  sorts (e_sort e) -> reads_text room e -> u16 s -> cfg_version cfg < 256 ->
  cfg_refresh cfg < 2 ^ 32 -> cfg_retry cfg < 2 ^ 32 -> cfg_expire cfg < 2 ^ 32 ->
  let srv := new_rtr_server cfg s in
  let A := State.after e c h in
  (exists x, served A x) -> Forall key_fits (get_current_sds (st_server A)) ->
  f_serial f = false -> dump_version f = Some v -> acceptable (accept tr srv) v ->
  exists q c' a b d,
    encode (dump_query f v) = Ok q /\
    on_read srv (st_server A) (accept tr srv) q = Ok (c', a, false) /\
    encode_all (queued a) = Ok b /\
    forall rest, bytes_ok (b ++ rest) ->
    dump_main v (b ++ rest) = Some d /\
    forall room2 e2 c2 now, sorts (e_sort e2) -> reads_text room2 e2 -> sc_check c2 = false -> sc_slurm c2 = false -> d_count d < 2 ^ 63 ->
    forall x, served (second_server e2 c2 now (dump_text fmt d)) x <->
              served A x /\ carried (negotiated srv v) (keys_off tr cfg) x.
Proof.
  intros room e c h cfg s tr f v fmt HS HR Hs Hc H1 H2 H3 srv A HX HK Hf Hv HA.
  destruct (C79_dump_partial e c h cfg s tr f v (reads_wf room e HS HR) Hs Hc H1 H2 H3 HX HK Hf Hv HA) as (q0 & c' & a & b & d & D1 & D2 & D3 & D4).
  exists q0, c', a, b, d. split; [exact D1|]. split; [exact D2|]. split; [exact D3|]. intros rest HB.
  destruct (D4 rest) as [E1 E2]; [now apply Forall_app in HB as [_ HB]|]. split; [exact E1|].
  intros room2 e2 c2 now HS2 HR2 HC HSl HD x.
  apply (E2 e2 c2 now (dump_text fmt d) (room2 (length (d_roas d))) (room2 (length (d_keys d)))); auto.
  - now apply (reads_wf room2).
  - rewrite (proj1 HR2). now apply (dump_back fmt room2 v (b ++ rest)).
Qed.
Example C90_dump_case : exists d, dumpC = Some d /\
  dump_text exact_fmt d =
    q "{'metadata':{'vrps':2,'bgpsec_pubkeys':0,'sessionid':107,'serial':0},'roas':[{'prefix':'2001:db8::/32','maxLength':48,'asn':3},{'prefix':'10.0.0.0/8','maxLength':8,'asn':1}],'bgpsec_keys':[{'asn':9,'pubkey':'AQIDBA==','ski':'000102030405060708090a0b0c0d0e0f10111213'}]}" ++ [10] /\
  length (get_current_sds (st_server (second_server text_env cfgN (hour 50) (dump_text exact_fmt d)))) = 3%nat.
Proof. eexists. split; [vm_compute; reflexivity|]. split; vm_compute; reflexivity. Qed.

(** C91 SLURM files.  RFC 8416 wants key identifiers and keys in Base64 without '=' at the end:
    a file with such a key identifier (they have 20 octets), or such a key whose length is no
    multiple of three, is refused altogether. *)
Theorem C91_filter_refuted : forall n a a' b b' c c' d d' ski t y,
  length ski = 20%nat -> base64url ski t -> (n <= N.to_nat 10000)%nat ->
  json_doc n (with_entry "validationOutputFilters" "bgpsecFilters" a a' b b' c c' (JObj (d ++ (str "SKI", JStr t) :: d'))) y ->
  decode_slurm y = None.
Proof.
  intros n a a' b b' c c' d d' ski t y HL HB HN HD. eapply bfilter_fails; [|apply (C89_accepts n); [exact HN|exact HD|discriminate]].
  apply (url_refused ski t HB). rewrite HL. discriminate.
Qed.
Theorem C91_assertion_refuted : forall n a a' b b' c c' d d' k octets t y,
  k = "SKI" \/ k = "routerPublicKey" -> (length octets mod 3 <> 0)%nat -> base64url octets t -> (n <= N.to_nat 10000)%nat ->
  json_doc n (with_entry "locallyAddedAssertions" "bgpsecAssertions" a a' b b' c c' (JObj (d ++ (str k, JStr t) :: d'))) y ->
  decode_slurm y = None.
Proof.
  intros n a a' b b' c c' d d' k octets t y HK HL HB HN HD. eapply bassert_fails; [|exact HK|apply (C89_accepts n); [exact HN|exact HD|discriminate]].
  now apply (url_refused octets t HB).
Qed.
(** A key identifier, and the rest of a file with it that would filter one prefix as well. *)
Definition ski20 : bytes := [251; 255; 191; 251; 255; 191; 251; 255; 191; 251; 255; 191; 251; 255; 191; 251; 255; 191; 251; 255].
Definition slurm_file (ski : string) : bytes :=
  q "{'slurmVersion':1,'validationOutputFilters':{'prefixFilters':[{'prefix':'10.1.0.0/16'}],'bgpsecFilters':[{'asn':64496,'SKI':'" ++ str ski ++
  q "'}]},'locallyAddedAssertions':{'prefixAssertions':[],'bgpsecAssertions':[]}}".
Example C91_refuted_case : length ski20 = 20%nat /\ base64url ski20 (str "-_-_-_-_-_-_-_-_-_-_-_-_-_8") /\
  parse (slurm_file "-_-_-_-_-_-_-_-_-_-_-_-_-_8") = Some (with_entry "validationOutputFilters" "bgpsecFilters"
    [(str "slurmVersion", JNum (str "1"))]
    [(str "locallyAddedAssertions", JObj [(str "prefixAssertions", JArr []); (str "bgpsecAssertions", JArr [])])]
    [(str "prefixFilters", JArr [JObj [(str "prefix", JStr (str "10.1.0.0/16"))]])] [] [] []
    (JObj ([(str "asn", JNum (str "64496"))] ++ (str "SKI", JStr (str "-_-_-_-_-_-_-_-_-_-_-_-_-_8")) :: []))) /\
  decode_slurm (slurm_file "-_-_-_-_-_-_-_-_-_-_-_-_-_8") = None /\
  decode_slurm (slurm_file "+/+/+/+/+/+/+/+/+/+/+/+/+/8=") = Some (mkSlurm [mkPF (str "10.1.0.0/16") None] [mkBF (Some 64496) ski20] [] []).
Proof.
  split; [reflexivity|]. split.
  - do 6 (apply (U_3 251 255 191 62 63 62 63); try reflexivity). apply (U_2 251 255 62 63 60); reflexivity.
  - split; [vm_compute; reflexivity|]. split; vm_compute; reflexivity.
Qed.
(** With the standard alphabet and '=' it is read as it is meant, in whatever order the members
    come and whatever else the file has.  (Missing: Base64 as RFC 8416 has it; numbers are taken
    in plain decimal digits; the version is not looked at.) *)
Theorem C91_partial : forall n t l l' b64 pf bf pa ba,
  (n <= N.to_nat 10000)%nat -> json_doc n (JObj l) t -> JObj l' = slurm_doc b64 pf bf pa ba -> same (JObj l) (JObj l') ->
  (forall k, bytes_ok k -> base64 k (b64 k)) ->
  Forall pfilter_ok pf -> Forall bfilter_ok bf -> Forall passert_ok pa -> Forall bassert_ok ba ->
  decode_slurm t = Some (mkSlurm (map fst pf) (map fst bf) pa (map fst ba)).
Proof.
  intros n t l l' b64 pf bf pa ba HN HD HE HS HB H1 H2 H3 H4. unfold decode_slurm. rewrite (C89_accepts n (JObj l) t HN HD ltac:(discriminate)).
  rewrite (config_same _ _ HS), HE. destruct (slurm_back b64 pf bf pa ba HB H1 H2 H3 H4) as [v ->]. reflexivity.
Qed.

Definition pf91 : list (pfilter * bytes) := [(mkPF (str "10.1.0.0/16") None, str "drop"); (mkPF [] (Some 64496), [])].
Definition bf91 : list (bfilter * bytes) := [(mkBF (Some 64496) ski20, [])].
Definition pa91 : list passert := [mkPA (str "10.9.0.0/16") 5 24 (str "ours"); mkPA (str "10.8.0.0/16") 6 0 []].
Definition ba91 : list (bassert * bytes) := [(mkBA ski20 7 [1; 2; 3; 4], str "key")].
Example C91_partial_case : (forall k, bytes_ok k -> base64 k (b64std k)) /\
  Forall pfilter_ok pf91 /\ Forall bfilter_ok bf91 /\ Forall passert_ok pa91 /\ Forall bassert_ok ba91 /\
  parse (print (slurm_doc b64std pf91 bf91 pa91 ba91)) = Some (slurm_doc b64std pf91 bf91 pa91 ba91) /\
  decode_slurm (print (slurm_doc b64std pf91 bf91 pa91 ba91)) = Some (mkSlurm (map fst pf91) (map fst bf91) pa91 (map fst ba91)).
Proof.
  assert (B : forall l, forallb (fun c => c <? 256) l = true -> Forall (fun c => c < 256) l).
  { intros l H. apply Forall_forall. intros c Hc. rewrite forallb_forall in H. specialize (H c Hc). lia. }
  split; [exact std_base64|]. split; [repeat (constructor; [vm_compute; auto|]); constructor|].
  split; [constructor; [split; [vm_compute; reflexivity|apply B; reflexivity]|constructor]|].
  split; [repeat (constructor; [split; [vm_compute; reflexivity|split; vm_compute; congruence]|]); constructor|].
  split; [constructor; [split; [vm_compute; reflexivity|split; apply B; reflexivity]|constructor]|].
  split; vm_compute; reflexivity.
Qed.

(** C92 The order of the members of an object, and members of other names, do not matter as long
    as no object has two members of the same name (whatever the case of its letters).  (Missing:
    names twice and names with U+017F or U+212A, see below; numbers with an exponent or of more
    than 307 characters in members that are not looked at.) *)
Theorem C92_order_partial : forall n n' l l' t t' room,
  (n <= N.to_nat 10000)%nat -> (n' <= N.to_nat 10000)%nat ->
  json_doc n (JObj l) t -> json_doc n' (JObj l') t' -> same (JObj l) (JObj l') ->
  reader room t = reader room t' /\ decode_slurm t = decode_slurm t'.
Proof.
  intros n n' l l' t t' room HN HN' HD HD' HS. unfold reader, decode_json, decode_slurm.
  rewrite (C89_accepts n (JObj l) t HN HD ltac:(discriminate)), (C89_accepts n' (JObj l') t' HN' HD' ltac:(discriminate)).
  rewrite (list_same _ _ HS), (config_same _ _ HS). split; reflexivity.
Qed.
(** So a file is read as what it lists. *)
Theorem C92_meaning_partial : forall n l l' t room fmt m roa brk,
  (n <= N.to_nat 10000)%nat -> json_doc n (JObj l) t -> JObj l' = list_json fmt m (Some roa) brk -> same (JObj l) (JObj l') ->
  meta_fit m -> Forall (vrp_fit fmt) roa -> Forall brk_fit brk ->
  reader room t = Some (mkRL (md_build m) (md_gen m) (Some (map again roa)) (room (length roa)) brk (room (length brk))).
Proof.
  intros n l l' t room fmt m roa brk HN HD HE HS HM HR HB. unfold reader, decode_json.
  rewrite (C89_accepts n (JObj l) t HN HD ltac:(discriminate)), (list_same _ _ HS), HE, (list_back fmt m roa brk HM HR HB).
  cbn [option_map]. unfold kept_list. cbn [fi_meta fi_roa fi_brk]. unfold sl_list at 1. rewrite map_length, !brk_slice_list. reflexivity.
Qed.
Definition roa92 : list vrpjson := [mkVJ (str "10.0.0.0/8") 8 (AsnStr (str "AS1")) (str "x") None; mkVJ (str "10.1.0.0/16") 24 (AsnU32 2) [] (Some 36000%Z)].
Example C92_meaning_case : meta_fit (mkMeta 2 1 (str "2024") (Some 7%Z) 0 0) /\ Forall (vrp_fit exact_fmt) roa92 /\ Forall brk_fit [key20] /\
  parse (print (list_json exact_fmt (mkMeta 2 1 (str "2024") (Some 7%Z) 0 0) (Some roa92) [key20])) =
  Some (list_json exact_fmt (mkMeta 2 1 (str "2024") (Some 7%Z) 0 0) (Some roa92) [key20]).
Proof.
  assert (A : forall k, forallb (fun c => c <? 128) k = true -> is_text k).
  { intros k H. apply text_ascii. apply Forall_forall. intros c Hc. rewrite forallb_forall in H. specialize (H c Hc). lia. }
  split; [unfold meta_fit, int64o, int64; cbn [md_vrps md_keys md_build md_gen md_session md_serial]; repeat split; try lia; apply A; reflexivity|].
  split.
  - unfold roa92. constructor; [|constructor; [|constructor]]; unfold vrp_fit, int64o, int64; cbn [vj_prefix vj_length vj_asn vj_ta vj_expires asn_fit];
      (split; [apply A; reflexivity|]); (split; [vm_compute; reflexivity|]); (split; [try (apply A; reflexivity); try (vm_compute; reflexivity)|]);
      (split; [apply A; reflexivity|]); try exact I; lia.
  - split; [|vm_compute; reflexivity]. constructor; [|constructor]. split; [vm_compute; reflexivity|]. split; [exact I|]. split; [constructor|].
    split; [repeat (constructor; [vm_compute; reflexivity|]); constructor|apply A; reflexivity].
Qed.
Definition one_roa (more : list (bytes * json)) : json :=
  JObj ([(str "asn", JStr (str "AS1")); (str "type", JStr (str "vrp")); (str "maxLength", JNum (str "8")); (str "prefix", JStr (str "10.0.0.0/8"))] ++ more).
Definition one_roa' : json :=
  JObj [(str "prefix", JStr (str "10.0.0.0/8")); (str "maxLength", JNum (str "8")); (str "asn", JStr (str "AS1"))].
Example C92_case :
  same (JObj [(str "roas", JArr [one_roa []]); (str "metadata", JObj [])]) (JObj [(str "metadata", JObj []); (str "roas", JArr [one_roa'])]) /\
  reader (fun _ => 0%nat) (q "{'roas':[{'asn':'AS1','type':'vrp','maxLength':8,'prefix':'10.0.0.0/8'}],'metadata':{}}") =
  reader (fun _ => 0%nat) (q "{'metadata':{},'roas':[{'prefix':'10.0.0.0/8','maxLength':8,'asn':'AS1'}]}").
Proof.
  split; [|vm_compute; reflexivity].
  pose proof ascii_ordinary as A.
  eapply sm_trans; [apply (sm_mem [] (str "roas") (JArr [one_roa []]) (JArr [one_roa']) [(str "metadata", JObj [])])|].
  - apply (sm_elem [] (one_roa []) one_roa' []). eapply sm_trans.
    + apply (sm_drop [(str "asn", JStr (str "AS1"))] (str "type") (JStr (str "vrp"))
               [(str "maxLength", JNum (str "8")); (str "prefix", JStr (str "10.0.0.0/8"))]); [|reflexivity].
      split; [apply A; reflexivity|]. vm_compute. intros H. repeat (destruct H as [H|H]; [discriminate H|]). exact H.
    + apply sm_perm.
      * split; [repeat (constructor; [apply A; reflexivity|]); constructor|].
        repeat (constructor; [vm_compute; intros H; repeat (destruct H as [H|H]; [discriminate H|]); exact H|]). constructor.
      * apply Permutation_rev.
  - apply sm_perm.
    + split; [repeat (constructor; [apply A; reflexivity|]); constructor|].
      repeat (constructor; [vm_compute; intros H; repeat (destruct H as [H|H]; [discriminate H|]); exact H|]). constructor.
    + apply perm_swap.
Qed.
(** A member with an umlaut in its name and a long number. *)
Example C92_other_case : unknown [103; 114; 195; 182; 195; 159; 101] /\ tame (JArr [JNum (str "-123456789012345678901234567890.25")]) = true.
Proof.
  split; [|reflexivity]. split; [|vm_compute; intros H; repeat (destruct H as [H|H]; [discriminate H|]); exact H].
  split; intros (a & b & E); do 8 (destruct a as [|? a]; [discriminate E|cbn [app] in E; injection E as _ E || discriminate E]).
Qed.
(** A name that is none of the format's is taken for one: with a long s (U+017F) in place of an s. *)
Theorem C92_names_refuted : exists l k v t t' room,
  ~ In (lower k) names /\ parse t = Some (JObj (l ++ [(k, v)])) /\ parse t' = Some (JObj l) /\ reader room t <> reader room t' /\
  (exists id, served (State.after text_env cfgN [at_h 1 t']) id /\ ~ served (State.after text_env cfgN [at_h 1 t]) id).
Proof.
  exists [(str "roas", JArr [JObj [(str "prefix", JStr (str "10.1.0.0/16")); (str "maxLength", JNum (str "24")); (str "asn", JNum (str "2"))]])],
    [114; 111; 97; 197; 191], (JArr []),
    (q "{'roas':[{'prefix':'10.1.0.0/16','maxLength':24,'asn':2}],'roa" ++ [197; 191] ++ q "':[]}"), (q "{'roas':[{'prefix':'10.1.0.0/16','maxLength':24,'asn':2}]}"), (fun _ => 0%nat).
  split; [vm_compute; intros H; repeat (destruct H as [H|H]; [discriminate H|]); exact H|]. split; [vm_compute; reflexivity|]. split; [vm_compute; reflexivity|].
  split; [vm_compute; discriminate|]. exists idw. split; [apply servedb_ok; vm_compute; reflexivity|]. apply servedb_no. vm_compute. reflexivity.
Qed.
(** If a name comes twice the two values are mixed: here an AS is authorised for a prefix that
    neither list names together with it. *)
Definition mixed : bytes := q "{'roas':[{'prefix':'10.0.0.0/8','maxLength':24,'asn':2}],'roas':[{'prefix':'10.1.0.0/16'}]}".
Theorem C92_duplicates_refuted : exists r1 r2 t v room d,
  parse t = Some (JObj [(str "roas", r1); (str "roas", r2)]) /\
  reader room t = Some d /\ In v (roa_of d) /\
  (forall r, In r [r1; r2] -> forall s e, dec_list zero_fill (JObj [(str "roas", r)]) = Some s -> In e (sl_list (fi_roa s)) -> e <> v) /\
  served (State.after text_env cfgN [at_h 1 t]) idw.
Proof.
  eexists _, _, mixed, (mkVJ (str "10.1.0.0/16") 24 (AsnFloat 2 0) [] None), (fun _ => 0%nat), _.
  split; [vm_compute; reflexivity|]. split; [vm_compute; reflexivity|]. split; [now left|]. split.
  - intros r [<-|[<-|[]]] s e; vm_compute; intros [= <-]; cbn; intros [<-|[]]; discriminate.
  - apply servedb_ok. vm_compute. reflexivity.
Qed.

(** With null or an empty list at the end nothing is left of the lists before. *)
Theorem C92_emptied_partial : forall room t m v d, v = JNull \/ v = JArr [] ->
  parse t = Some (JObj (m ++ [(str "roas", v)])) -> reader room t = Some d -> roa_of d = [].
Proof.
  intros room t m v d Hv Hp Hr. unfold reader, decode_json in Hr. rewrite Hp in Hr.
  destruct (dec_list zero_fill _) as [r|] eqn:E; [|discriminate]. injection Hr as <-.
  unfold dec_list in E. cbn [dec_struct] in E. rewrite fold_left_app in E. cbn [fold_left fst snd] in E.
  destruct (fold_left _ m _) as [x|]; [|discriminate]. change (is_field (str "roas") "metadata") with false in E.
  change (is_field (str "roas") "roas") with true in E. cbn iota in E. destruct Hv as [-> | ->]; injection E as <-; reflexivity.
Qed.
Definition emptied : bytes := q "{'roas':[{'prefix':'10.0.0.0/8','maxLength':24,'asn':2}],'metadata':{},'roas':null}".
Example C92_emptied_case : exists m d, m <> [] /\ parse emptied = Some (JObj (m ++ [(str "roas", JNull)])) /\ reader (fun _ => 0%nat) emptied = Some d /\ rl_roa d = None.
Proof.
  eexists [(str "roas", JArr [JObj [(str "prefix", JStr (str "10.0.0.0/8")); (str "maxLength", JNum (str "24")); (str "asn", JNum (str "2"))]]); (str "metadata", JObj [])], _.
  split; [discriminate|]. split; [vm_compute; reflexivity|]. split; vm_compute; reflexivity.
Qed.

Print Assumptions C92_emptied_partial.
Print Assumptions C88_cut.
Print Assumptions C88_served.
Print Assumptions C89_accepts.
Print Assumptions C89_only_partial.
Print Assumptions C89_trailing_refuted.
Print Assumptions C90_export_text.
Print Assumptions C90_export_doc.
Print Assumptions C90_dump_doc.
Print Assumptions C90_export_partial.
Print Assumptions C90_dump_text.
Print Assumptions C90_dump_partial.
Print Assumptions C91_filter_refuted.
Print Assumptions C91_assertion_refuted.
Print Assumptions C91_partial.
Print Assumptions C92_order_partial.
Print Assumptions C92_meaning_partial.
Print Assumptions C92_duplicates_refuted.
Print Assumptions C92_names_refuted.
