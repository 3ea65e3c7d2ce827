(** Properties C83 and C84: where a file comes from; what rtrdump asks for. *)
From Coq Require Import ZifyBool ZifyNat ZifyN String.
From Verif Require Import Lib.Str Model.Fetch Model.Rtrdump Proofs.WireP.
Local Open Scope string_scope.
Local Open Scope list_scope.
Local Open Scope N_scope.
Ltac Zify.zify_post_hook ::= Z.div_mod_to_equations.

(** C83 A location that begins with http:// or https:// is a URL, every other one a file. *)
Definition names_url (file : bytes) : Prop := exists rest, file = str "http://" ++ rest \/ file = str "https://" ++ rest.
Lemma beqb_refl' x : beqb x x = true.
Proof. now apply beqb_eq. Qed.
Lemma is_http_spec file : is_http file = true <-> names_url file /\ 8 < nlen file.
Proof.
  unfold is_http, names_url. split.
  - intros H. apply andb_prop in H as [H1 H2]. split; [|lia]. apply orb_prop in H2 as [H2|H2]; apply beqb_eq in H2.
    + exists (skipn 7 file). left. rewrite <- H2. symmetry. apply firstn_skipn.
    + exists (skipn 8 file). right. rewrite <- H2. symmetry. apply firstn_skipn.
  - intros [(rest & [->| ->]) H]; apply andb_true_intro; (split; [lia|]); apply orb_true_intro; [left|right]; reflexivity.
Qed.
(** False: a URL of eight bytes, and one with a scheme in capitals, are opened as files. *)
Theorem C83_url_refuted : names_url (str "http://a") /\ forall file c s web web' disk, file = str "http://a" \/ file = str "HTTPS://example.net/rpki.json" ->
  fetch_file c s file web disk = fetch_file c s file web' disk.
Proof. split; [exists (str "a"); now left|]. intros file c s web web' disk [->| ->]; reflexivity. Qed.
(** What holds: a longer location that begins so is only fetched over HTTP; a complete new
    response is its content and an error status is an error.  *)
Theorem C83_url_partial : forall c s file web disk, names_url file -> 8 < nlen file ->
  let r := fetch_file c s file web disk in
  (forall disk', fetch_file c s file web disk' = r) /\
  (forall e l b, web file (request_of c s file) = Response 200 e l (Some b) -> f_etags s file <> Some e -> snd r = Ok b) /\
  (forall b, snd r = Ok b -> exists e l, web file (request_of c s file) = Response 200 e l (Some b)).
Proof.
  intros c s file web disk H1 H2. assert (H : is_http file = true) by now apply is_http_spec.
  cbv zeta. unfold fetch_file. rewrite H. split; [reflexivity|]. split.
  - intros e l b -> HE. cbn [fetch_http]. change (200 =? 304) with false. change (200 =? 200) with true. cbn [negb].
    assert (HD : etag_differs c s file e = true).
    { unfold etag_differs. destruct (beqb e []) eqn:E1; [now rewrite orb_true_r|]. rewrite orb_false_r.
      apply orb_true_intro. right. destruct (f_etags s file) as [t|]; [|now rewrite E1].
      destruct (beqb e t) eqn:E2; [|reflexivity]. apply beqb_eq in E2. subst t. now contradiction HE. }
    rewrite HD. reflexivity.
  - intros b. destruct (web file (request_of c s file)) as [|n e l body]; cbn [fetch_http]; [discriminate|].
    destruct (n =? 304); [discriminate|]. destruct (n =? 200) eqn:EN; cbn [negb]; [|discriminate].
    destruct (etag_differs c s file e); [|discriminate]. destruct body as [x|]; cbn [snd]; [|discriminate].
    intros [= ->]. assert (n = 200) as -> by lia. eauto.
Qed.
(** Any other location is a file: its content at that time, whatever happened before, and an
    error if it cannot be opened or read. *)
Theorem C83_file : forall c s file web disk, ~ names_url file ->
  let r := fetch_file c s file web disk in
  fst r = s /\ (forall web', fetch_file c s file web' disk = r) /\
  (forall b, snd r = Ok b <-> disk file = Some (Some b)) /\ snd r <> Panic.
Proof.
  intros c s file web disk H. assert (E : is_http file = false).
  { destruct (is_http file) eqn:E; [|reflexivity]. apply is_http_spec in E as [E _]. now contradiction H. }
  cbv zeta. unfold fetch_file. rewrite E. split; [reflexivity|]. split; [reflexivity|]. cbn [snd].
  split; [|now destruct (disk file) as [[|]|]]. intros b. destruct (disk file) as [[x|]|]; split; try discriminate; now intros [= ->].
Qed.
(** Exactly: the location is fetched over HTTP if it begins so and has more than eight bytes,
    and is the name of a file in every other case. *)
Theorem C83_exact_partial : forall c s file web disk, ~ (names_url file /\ 8 < nlen file) ->
  let r := fetch_file c s file web disk in
  fst r = s /\ (forall web', fetch_file c s file web' disk = r) /\
  (forall b, snd r = Ok b <-> disk file = Some (Some b)) /\ snd r <> Panic.
Proof.
  intros c s file web disk H. assert (E : is_http file = false).
  { destruct (is_http file) eqn:E; [|reflexivity]. apply is_http_spec in E. now contradiction H. }
  cbv zeta. unfold fetch_file. rewrite E. split; [reflexivity|]. split; [reflexivity|]. cbn [snd].
  split; [|now destruct (disk file) as [[|]|]]. intros b. destruct (disk file) as [[x|]|]; split; try discriminate; now intros [= ->].
Qed.
Example C83_exact_case : ~ (names_url (str "http://a") /\ 8 < nlen (str "http://a")) /\
  snd (fetch_file (mkFC true true) new_fetch (str "http://a") (fun _ _ => NoResponse) (fun _ => Some (Some [123; 125]))) = Ok [123; 125].
Proof. split; [intros [_ H]; vm_compute in H; discriminate H|vm_compute; reflexivity]. Qed.
Definition disk83 (f : bytes) : option (option bytes) :=
  if beqb f (str "/etc/rpki.json") then Some (Some [123; 125]) else if beqb f (str "/root/x") then Some None else None.
Definition web83 (f : bytes) (r : request) : exchange := Response 200 (str "e") None (Some [91; 93]).
Example C83_case :
  (names_url (str "https://example.net/rpki.json") /\ 8 < nlen (str "https://example.net/rpki.json") /\
   snd (fetch_file (mkFC true true) new_fetch (str "https://example.net/rpki.json") web83 disk83) = Ok [91; 93]) /\
  (~ names_url (str "/etc/rpki.json") /\ snd (fetch_file (mkFC true true) new_fetch (str "/etc/rpki.json") web83 disk83) = Ok [123; 125]) /\
  snd (fetch_file (mkFC true true) new_fetch (str "/root/x") web83 disk83) = Err ERead /\
  snd (fetch_file (mkFC true true) new_fetch (str "/nowhere") web83 disk83) = Err EOpen.
Proof.
  split; [split; [exists (str "example.net/rpki.json"); now right|split; vm_compute; reflexivity]|].
  split; [split; [intros (r & [H|H]); discriminate H|vm_compute; reflexivity]|]. split; vm_compute; reflexivity.
Qed.

(** C84 rtrdump sends the query its flags describe.  The bytes of a query (RFC 8210, 5.3 and
    5.4): version, type, session, length, serial. *)
Definition reset_bytes (v : N) : bytes := [v; 2; 0; 0; 0; 0; 0; 8].
Definition serial_bytes (v session serial : N) : bytes :=
  [v; 1; session / 256; session mod 256; 0; 0; 0; 12;
   serial / 16777216; serial / 65536 mod 256; serial / 256 mod 256; serial mod 256].
Definition asked (f : dump_flags) (v : N) : bytes :=
  if f_serial f then serial_bytes v (Z.to_N (f_session_id f)) (Z.to_N (f_serial_value f)) else reset_bytes v.
(** False: a version below 0 is taken for 0, and the session and serial are cut to size
    without a word. *)
Theorem C84_cut_refuted : exists f, (f_version f < 0)%Z /\ dump_version f = Some 0 /\
  encode (dump_query f 0) = Ok (serial_bytes 0 7 5) /\ f_session_id f = 65543%Z /\ f_serial_value f = 4294967301%Z.
Proof. exists (mkDF true 4294967301 65543 (-2)). vm_compute. auto. Qed.
(** What holds: for values in range the query is exactly the one described ... *)
Theorem C84_query_partial : forall f, (f_version f = 0 \/ f_version f = 1)%Z ->
  (0 <= f_session_id f < 65536)%Z -> (0 <= f_serial_value f < 4294967296)%Z ->
  exists v, dump_version f = Some v /\ Z.of_N v = f_version f /\ encode (dump_query f v) = Ok (asked f v).
Proof.
  intros f HV HS HN. exists (Z.to_N (f_version f)). unfold dump_version.
  assert (G : (if (1 <? f_version f)%Z then None else Some (if (f_version f =? 1)%Z then 1 else 0)) = Some (Z.to_N (f_version f))).
  { destruct HV as [-> | ->]; reflexivity. }
  split; [exact G|]. split; [lia|]. set (v := Z.to_N (f_version f)).
  assert (Hv : v = 0 \/ v = 1) by (unfold v; lia).
  unfold dump_query, asked, cs_send. destruct (f_serial f); cbn [set_version encode]; f_equal.
  - unfold serial_bytes, to_u16, to_u32, be. set (s := f_session_id f) in *. set (n := f_serial_value f) in *.
    rewrite !Z.mod_small by lia. set (s' := Z.to_N s). set (n' := Z.to_N n). assert (s' < 65536) by lia. assert (n' < 4294967296) by lia.
    clearbody s' n' v. cbn. repeat (f_equal; try lia).
  - unfold reset_bytes. destruct Hv as [-> | ->]; reflexivity.
Qed.
(** ... and nothing is sent for a version above 1. *)
Theorem C84_version : forall f, (1 < f_version f)%Z -> dump_version f = None.
Proof. intros f H. unfold dump_version. replace (1 <? f_version f)%Z with true by lia. reflexivity. Qed.
Example C84_case : encode (dump_query (mkDF true 16909060 513 1) 1) = Ok [1; 1; 2; 1; 0; 0; 0; 12; 1; 2; 3; 4] /\
  encode (dump_query (mkDF false 16909060 513 0) 0) = Ok [0; 2; 0; 0; 0; 0; 0; 8] /\ dump_version (mkDF false 0 0 2) = None.
Proof. vm_compute. auto. Qed.

Print Assumptions C83_url_refuted.
Print Assumptions C83_url_partial.
Print Assumptions C83_file.
Print Assumptions C83_exact_partial.
Print Assumptions C84_cut_refuted.
Print Assumptions C84_query_partial.
Print Assumptions C84_version.
