(** Theorems about the HTTP endpoints: C106. *)
From Coq Require Import ZArith ZifyBool ZifyNat ZifyN String.
From Verif Require Import Lib.Str Spec.Endpoints Proofs.HttpMuxP.
From Coq Require Import List.
Local Open Scope string_scope.
Local Open Scope list_scope.
Local Open Scope N_scope.

(** * C106 Each page is at its path *)
Lemma expects_same routes routes' ws tw a : (forall x, In x routes <-> In x routes') -> expects routes ws tw a -> expects routes' ws tw a.
Proof.
  intros H. destruct 1 as [h I|h N I|slash ns h N I B L|slash N B].
  - apply ex_exact. now apply H.
  - apply ex_slash with (h := h); [|now apply H]. intros h' X. apply H in X. exact (N h' X).
  - apply ex_below with (ns := ns); [|now apply H|exact B|].
    + intros E t h' X. apply H in X. exact (N E t h' X).
    + intros ns' h' X. apply H in X. exact (L ns' h' X).
  - apply ex_none.
    + intros E t h' X. apply H in X. exact (N E t h' X).
    + intros ns h X. apply H in X. exact (B ns h X).
Qed.
Lemma all_routes wname l routes : Forall2 (fun x y => plain_path (fst x) (fst (fst y)) (snd (fst y)) /\ snd x = snd y) l routes ->
  (NoDup (map key routes) /\ exists m, handle_all wname l mux0 = Some m /\
     forall r ws slash, asked (rq_path r) ws slash -> rq_upath r = path_text ws slash -> expects routes ws slash (find_handler (mx_tree m) r)) \/
  (~ NoDup (map key routes) /\ handle_all wname l mux0 = None).
Proof.
  intros HF. assert (HR : forall x, In x (rev routes ++ []) <-> In x routes) by (intros x; rewrite app_nil_r; symmetry; apply in_rev).
  assert (HN : NoDup (map key (rev routes ++ [])) <-> NoDup (map key routes)).
  { rewrite app_nil_r, map_rev. split; intros X; [rewrite <- (rev_involutive (map key routes))|]; apply NoDup_rev; exact X. }
  destruct (handle_all_plain wname l routes HF mux0 [] stores0 (NoDup_nil _)) as [(D & m & M1 & M2)|(D & M1)].
  - left. split; [now apply HN|]. exists m. split; [exact M1|]. intros r ws slash HA HU. apply (expects_same (rev routes ++ []) routes _ _ _ HR).
    apply lookup_plain; try assumption. rewrite app_nil_r. apply Forall_rev.
    clear - HF. induction HF as [|x y l routes (P & _) _ IH]; constructor; [exact (proj1 P)|exact IH].
  - right. split; [|exact M1]. intros X. apply D, HN, X.
Qed.
(** Plain paths: no blanks, braces, percent signs, and a slash in front.  (Missing: others, see
    below.)  The process starts if and only if the paths differ, and then every request in normal
    form gets what it has to get, whatever its method and host. *)
Definition update_path : list bytes := [str "api"; str "update"].
Theorem C106_stayrtr_partial : forall wname f mm mt em et,
  hf_addr f = true -> plain_path (hf_metrics f) mm mt -> (hf_export f <> [] -> plain_path (hf_export f) em et) ->
  let routes := (if list_eq_dec N.eq_dec (hf_export f) [] then [] else [(em, et, Export)]) ++
                (if hf_update f then [(update_path, false, Update)] else []) ++ [(mm, mt, Metrics)] in
  (NoDup (map fst routes) /\ exists m, stayrtr_http wname f = Http m /\
     forall r ws slash, asked (rq_path r) ws slash -> rq_upath r = path_text ws slash ->
       exists a, http_answer (Http m) r = Some a /\ expects routes ws slash a) \/
  (~ NoDup (map fst routes) /\ stayrtr_http wname f = HttpPanic).
Proof.
  intros wname f mm mt em et HA HM HE routes. unfold stayrtr_http. rewrite HA.
  assert (HF : Forall2 (fun x y => plain_path (fst x) (fst (fst y)) (snd (fst y)) /\ snd x = snd y) (stayrtr_routes f) routes).
  { unfold stayrtr_routes, routes. unfold beqb. apply Forall2_app; [|apply Forall2_app].
    - destruct (list_eq_dec N.eq_dec (hf_export f) []) as [E|E]; [constructor|]. constructor; [|constructor]. split; [exact (HE E)|reflexivity].
    - destruct (hf_update f); [|constructor]. constructor; [|constructor]. split; [|reflexivity]. split; [|split; [left; discriminate|reflexivity]].
      unfold update_path. cbn [fst]. repeat constructor; discriminate.
    - constructor; [|constructor]. split; [exact HM|reflexivity]. }
  destruct (all_routes wname _ _ HF) as [(D & m & M1 & M2)|(D & M1)]; [left|right]; (split; [exact D|]); rewrite M1; [|reflexivity].
  exists m. split; [reflexivity|]. intros r ws slash A1 A2. eexists. split; [reflexivity|]. exact (M2 r ws slash A1 A2).
Qed.
Theorem C106_rtrmon_partial : forall wname file metrics mm mt fn ft,
  plain_path metrics mm mt -> plain_path (47 :: file) fn ft ->
  let routes := [(fn, ft, DiffJson); (mm, mt, Metrics); ([], true, Index)] in
  (NoDup (map fst routes) /\ exists m, rtrmon_http wname file metrics = Http m /\
     forall r ws slash, asked (rq_path r) ws slash -> rq_upath r = path_text ws slash ->
       exists a, http_answer (Http m) r = Some a /\ expects routes ws slash a) \/
  (~ NoDup (map fst routes) /\ rtrmon_http wname file metrics = HttpPanic).
Proof.
  intros wname file metrics mm mt fn ft HM HF routes. unfold rtrmon_http.
  assert (HL : Forall2 (fun x y => plain_path (fst x) (fst (fst y)) (snd (fst y)) /\ snd x = snd y) (rtrmon_routes file metrics) routes).
  { repeat (constructor; [split; [|reflexivity]|]); [exact HF|exact HM| |constructor]. split; [constructor|]. split; [now right|reflexivity]. }
  destruct (all_routes wname _ _ HL) as [(D & m & M1 & M2)|(D & M1)]; [left|right]; (split; [exact D|]); rewrite M1; [|reflexivity].
  exists m. split; [reflexivity|]. intros r ws slash A1 A2. eexists. split; [reflexivity|]. exact (M2 r ws slash A1 A2).
Qed.
(** What has to be got is unique. *)
Theorem C106_unique : forall routes ws slash a b, NoDup (map fst routes) -> expects routes ws slash a -> expects routes ws slash b -> a = b.
Proof.
  assert (HU : forall (routes : list route) k h h', NoDup (map fst routes) -> In (k, h) routes -> In (k, h') routes -> h = h').
  { induction routes as [|[k0 h0] routes IH]; intros k h h' HD I1 I2; [destruct I1|]. cbn [map fst] in HD. inversion HD as [|? ? N1 N2]; subst.
    destruct I1 as [I1|I1], I2 as [I2|I2].
    - congruence.
    - injection I1 as -> ->. exfalso. apply N1. apply in_map_iff. exists (k, h'). auto.
    - injection I2 as -> ->. exfalso. apply N1. apply in_map_iff. exists (k, h). auto.
    - exact (IH k h h' N2 I1 I2). }
  assert (HP : forall (ns ns' ws r r' : list bytes), ws = ns ++ r -> ws = ns' ++ r' -> length ns = length ns' -> ns = ns').
  { intros ns ns' ws r r' -> E L. revert ns' E L. induction ns as [|x ns IH]; intros [|y ns'] E L; try discriminate L; [reflexivity|].
    cbn in E. injection E as -> E. f_equal. apply IH; [exact E|now injection L]. }
  intros routes ws slash a b HD HA HB. destruct HA as [h I|h N I|slash ns h N I (r & B1 & B2) L|slash N B].
  - inversion HB as [h' I'|h' N' I'|? ns' h' N' I' B' L'|? N' B']; subst.
    + f_equal. eapply HU; eassumption.
    + exfalso. eapply N'; eassumption.
    + exfalso. eapply (N' eq_refl); eassumption.
    + exfalso. eapply (N' eq_refl); eassumption.
  - inversion HB as [h' I'|h' N' I'|? ns' h' N' I' B' L'|? N' B']; subst.
    + exfalso. eapply N; eassumption.
    + reflexivity.
    + exfalso. eapply (N' eq_refl); eassumption.
    + exfalso. eapply (N' eq_refl); eassumption.
  - inversion HB as [h' I'|h' N' I'|? ns' h' N' I' (r' & C1 & C2) L'|? N' B']; subst.
    + exfalso. eapply (N eq_refl); eassumption.
    + exfalso. eapply (N eq_refl); eassumption.
    + f_equal. assert (ns = ns'). { eapply HP; [reflexivity|exact C1|]. apply Nat.le_antisymm; [apply (L' ns h I); exists r; auto|apply (L ns' h' I'); exists r'; auto]. }
      subst ns'. eapply HU; eassumption.
    + exfalso. apply (B' ns h I). exists r. auto.
  - inversion HB as [h' I'|h' N' I'|? ns' h' N' I' (r' & C1 & C2) L'|? N' B']; subst.
    + exfalso. eapply (N eq_refl); eassumption.
    + exfalso. eapply (N eq_refl); eassumption.
    + exfalso. apply (B ns' h' I'). exists r'. auto.
    + reflexivity.
Qed.
(** Any other request is redirected, so no page is shown twice for one path. *)
Theorem C106_redirected : forall h r a, http_answer h r = Some a -> ~ neat (rq_path r) -> exists p, a = Moved p.
Proof.
  intros [| |m] r a E HN; try discriminate E. injection E as <-. exact (untidy (mx_tree m) r HN).
Qed.
(** With the default flags: four requests, and one that is not in normal form. *)
Definition default_http : hflags := mkHF true (str "/metrics") (str "/rpki.json") true.
Definition get (p : string) : request := mkRq (str "GET") (str "rpki.example") (str p) (str p).
Lemma name_okb n : (negb (beqb n []) && negb (beqb n (str ".")) && negb (beqb n (str "..")) &&
  forallb (fun c => negb (existsb (N.eqb c) [47; 123; 32; 9; 37])) n)%bool = true -> name_ok n.
Proof.
  intros H. apply andb_prop in H. destruct H as [H H4]. apply andb_prop in H. destruct H as [H H3]. apply andb_prop in H. destruct H as [H1 H2].
  repeat split; try (intros ->; discriminate). rewrite forallb_forall in H4. apply Forall_forall. intros c I. specialize (H4 c I). cbn in H4. lia.
Qed.
Ltac names := repeat (apply Forall_cons; [apply name_okb; reflexivity|]); apply Forall_nil.
Example C106_case : let h := stayrtr_http (fun _ => true) default_http in
  plain_path (hf_metrics default_http) [str "metrics"] false /\ plain_path (hf_export default_http) [str "rpki.json"] false /\
  map (http_answer h) [get "/rpki.json"; get "/rpki%2Ejson"; get "/api/update"; get "/metrics"; get "/rpki.json/"; get "/"; get "//rpki.json"]
  = map Some [Serve Export; Serve Export; Serve Update; Serve Metrics; NotFound; NotFound; Moved (str "/rpki.json")] /\
  asked (rq_path (get "/rpki%2Ejson")) [str "rpki.json"] false /\ ~ neat (rq_path (get "//rpki.json")).
Proof.
  cbv zeta. split; [|split; [|split; [|split]]].
  - split; [names|]. split; [left; discriminate|reflexivity].
  - split; [names|]. split; [left; discriminate|reflexivity].
  - vm_compute. reflexivity.
  - exists [str "rpki%2Ejson"]. split; [|split; [|split; [left; discriminate|reflexivity]]].
    + constructor; [|constructor]. change (says [114; 112; 107; 105; 37; 50; 69; 106; 115; 111; 110] [114; 112; 107; 105; 16 * 2 + 14; 106; 115; 111; 110]).
      do 4 (apply says_byte; [discriminate|]). apply says_hex; [reflexivity|reflexivity|]. do 4 (apply says_byte; [discriminate|]). constructor.
    + constructor; [|constructor]. repeat split; try discriminate. cbn. intuition discriminate.
  - rewrite <- clean_path_fixed. vm_compute. discriminate.
Qed.
Example C106_rtrmon_case : let h := rtrmon_http (fun _ => true) (str "out/diff.json") (str "/metrics/") in
  plain_path (47 :: str "out/diff.json") [str "out"; str "diff.json"] false /\ plain_path (str "/metrics/") [str "metrics"] true /\
  map (http_answer h) [get "/out/diff.json"; get "/out"; get "/metrics"; get "/metrics/x"; get "/"]
  = map Some [Serve DiffJson; Serve Index; Moved (str "/metrics/"); Serve Metrics; Serve Index].
Proof.
  cbv zeta. split; [|split; [|vm_compute; reflexivity]].
  - split; [names|]. split; [left; discriminate|reflexivity].
  - split; [names|]. split; [left; discriminate|reflexivity].
Qed.
(** Not every value of the flags is fit for use: with equal paths, without a slash in front, with a
    blank or an empty one the process ends at once; rtrmon also with an empty -file or with / for
    the metrics. *)
Theorem C106_refuted : forall wname,
  stayrtr_http wname (mkHF true (str "/metrics") (str "/metrics") false) = HttpPanic /\
  stayrtr_http wname (mkHF true (str "/metrics") (str "rpki.json") false) = HttpPanic /\
  stayrtr_http wname (mkHF true (str "/metrics") (str "/my rpki.json") false) = HttpPanic /\
  stayrtr_http wname (mkHF true [] (str "/rpki.json") false) = HttpPanic /\
  rtrmon_http wname [] (str "/metrics") = HttpPanic /\
  rtrmon_http wname (str "diff.json") (str "/") = HttpPanic /\
  rtrmon_http wname (str "my diff.json") (str "/metrics") = HttpPanic.
Proof. intros wname. repeat split. Qed.
(** -file with a slash in front is not at that path: a request for it gets the index page, one for
    the path with the two slashes is sent there, and the file is found under any name before it. *)
Theorem C106_file_refuted : forall wname, let h := rtrmon_http wname (str "/diff.json") (str "/metrics") in
  map (http_answer h) [get "/diff.json"; get "//diff.json"; get "/anything/diff.json"]
  = map Some [Serve Index; Moved (str "/diff.json"); Serve DiffJson].
Proof. intros wname. vm_compute. reflexivity. Qed.

Print Assumptions C106_stayrtr_partial.
Print Assumptions C106_rtrmon_partial.
Print Assumptions C106_unique.
Print Assumptions C106_redirected.
Print Assumptions C106_refuted.
Print Assumptions C106_file_refuted.
