(** Property C61: SSH authentication. *)
From Coq Require Import ZifyBool ZifyNat ZifyN.
From Verif Require Import Spec.Auth Proofs.AuthP.
Local Open Scope string_scope.
Local Open Scope list_scope.
Local Open Scope N_scope.

(** C61 The decision, with the list of keys given by its lines.  Missing: lists with lines
    that are neither keys nor comments (see below). *)
Theorem C61_decision_partial : forall f user a nf ls,
  lines_of (if beqb (sf_keysflag f) [] then sf_keysenv f else sf_keysfile f) ls ->
  Forall (fun l => l = [] \/ (exists r, l = 35 :: r) \/ exists t k, no_space t /\ key_blob nf t k /\ key_line t k l) ls ->
  (forall typ blob, a = AKey typ blob -> no_space typ /\ typ <> [] /\ (forall r, typ <> 35 :: r) /\ key_blob nf typ blob) ->
  let_in f user a = true <->
  match a with
  | ANone => sf_key f = false /\ sf_password f = false
  | APassword p => sf_password f = true /\ user = sf_user f /\
                   ((sf_pwflag f <> [] /\ p = sf_pwflag f) \/ (sf_pwflag f = [] /\ p = sf_pwenv f))
  | AKey typ blob => sf_key f = true /\ (sf_bypass f = true \/ exists l, In l ls /\ key_line typ blob l)
  end.
Proof.
  intros f user a nf ls HL HF HA. unfold let_in, ssh_setup. destruct a as [|p|typ blob]; cbn [sc_noauth sc_passwordcb sc_keycb].
  - destruct (sf_key f), (sf_password f); cbn; intuition discriminate.
  - destruct (sf_password f); [|split; [discriminate|intros [H _]; discriminate H]].
    rewrite negb_orb, !negb_involutive, andb_true_iff, !beqb_eq.
    destruct (beqb (sf_pwflag f) []) eqn:E.
    + apply beqb_eq in E. rewrite E. intuition congruence.
    + assert (sf_pwflag f <> []) by (intros H; rewrite H in E; discriminate E). intuition congruence.
  - destruct (sf_key f); [|split; [discriminate|intros [H _]; discriminate H]].
    destruct (HA typ blob eq_refl) as (H1 & H2 & H3 & H4).
    rewrite (split_lines_ok _ ls HL), orb_true_iff, (listed_iff nf typ blob ls) by assumption. intuition.
Qed.
(** A file with a comment, a key, an empty line and another key. *)
Definition typ1 : bytes := str "ssh-ed25519".
Definition field (f : bytes) : bytes := be 4 (nlen f) ++ f.
Definition blob1 : bytes := field typ1 ++ field [1; 2; 3].
Definition blob2 : bytes := field typ1 ++ field [1; 2; 4; 9].
Definition pad : bytes -> bytes := padding.
Definition line1 : bytes := typ1 ++ 32 :: (b64raw blob1 ++ pad blob1) ++ str " router".
Definition line2 : bytes := typ1 ++ 32 :: (b64raw blob2 ++ pad blob2) ++ [].
Definition keyfile : list bytes := [str "# keys"; line1; []; line2].
Definition flags1 : sshflags := mkSsh true (str "rpki") [] (str "secret") true false (str "keys") (join_lines keyfile) [].
Lemma base64_text b : bytes_ok b -> base64 b (b64raw b ++ pad b).
Proof. apply base64_padded. Qed.
Definition two (t : bytes) : nat := 2%nat.
Lemma blob_ok x : bytes_okb (field typ1 ++ field x) = true -> nlen x < 4294967296 -> key_blob two typ1 (field typ1 ++ field x).
Proof.
  intros H L. split; [now apply bytes_okb_ok|]. exists [typ1; x]. split; [reflexivity|]. split.
  - constructor; [vm_compute; reflexivity|constructor; [exact L|constructor]].
  - cbn [map concat]. now rewrite app_nil_r.
Qed.
Example C61_case :
  lines_of (if beqb (sf_keysflag flags1) [] then sf_keysenv flags1 else sf_keysfile flags1) keyfile /\
  Forall (fun l => l = [] \/ (exists r, l = 35 :: r) \/ exists t k, no_space t /\ key_blob two t k /\ key_line t k l) keyfile /\
  let_in flags1 [] ANone = false /\
  let_in flags1 (str "rpki") (APassword (str "secret")) = true /\ let_in flags1 (str "rpki") (APassword []) = false /\
  let_in flags1 (str "root") (APassword (str "secret")) = false /\
  let_in flags1 [] (AKey typ1 blob1) = true /\ let_in flags1 [] (AKey typ1 blob2) = true /\
  let_in flags1 [] (AKey typ1 (field typ1 ++ field [1; 2; 4])) = false.
Proof.
  assert (HS : no_space typ1) by (unfold no_space; vm_compute; intros H; repeat (destruct H as [H|H]; [discriminate H|]); destruct H).
  split; [|split; [|repeat split; vm_compute; reflexivity]].
  - split; [discriminate|]. split; [reflexivity|]. apply Forall_forall. intros l HI H. unfold keyfile in HI.
    assert (HC : forallb (fun l => negb (existsb (N.eqb 10) l)) keyfile = true) by (vm_compute; reflexivity).
    pose proof (proj1 (forallb_forall _ _) HC l HI) as HC'. cbn beta in HC'. apply negb_true_iff in HC'.
    assert (existsb (N.eqb 10) l = true) by (apply existsb_exists; exists 10; split; [exact H|reflexivity]). congruence.
  - constructor; [right; left; eexists; reflexivity|]. constructor; [|constructor; [now left|constructor; [|constructor]]].
    + right. right. exists typ1, blob1. split; [exact HS|]. split; [apply blob_ok; vm_compute; reflexivity|].
      exists (b64raw blob1 ++ pad blob1), (str " router"). split; [reflexivity|]. split; [apply base64_text, bytes_okb_ok; vm_compute; reflexivity|now left].
    + right. right. exists typ1, blob2. split; [exact HS|]. split; [apply blob_ok; vm_compute; reflexivity|].
      exists (b64raw blob2 ++ pad blob2), []. split; [reflexivity|]. split; [apply base64_text, bytes_okb_ok; vm_compute; reflexivity|exact I].
Qed.

(** False in general: a line is compared only as far as the client's key goes, so a damaged
    line that lists no key can let a key in. *)
Theorem C61_damaged_refuted : exists f user typ blob ls, sf_key f = true /\ sf_bypass f = false /\ no_space typ /\ key_blob two typ blob /\
  lines_of (if beqb (sf_keysflag f) [] then sf_keysenv f else sf_keysfile f) ls /\
  let_in f user (AKey typ blob) = true /\ ~ exists l, In l ls /\ key_line typ blob l.
Proof.
  set (bad := typ1 ++ 32 :: b64raw blob1 ++ str "MoreText").
  exists (mkSsh false [] [] [] true false (str "keys") bad []), [], typ1, blob1, [bad].
  split; [reflexivity|]. split; [reflexivity|].
  split; [unfold no_space; vm_compute; intros H; repeat (destruct H as [H|H]; [discriminate H|]); destruct H|].
  split; [apply blob_ok; vm_compute; reflexivity|].
  split; [split; [discriminate|split; [reflexivity|]]|].
  - constructor; [|constructor]. vm_compute. intros H; repeat (destruct H as [H|H]; [discriminate H|]); destruct H.
  - split; [vm_compute; reflexivity|]. intros (l & [<-|[]] & t & rest & E & HB & HE).
    apply app_inv_head in E. apply (f_equal (@tl N)) in E. cbn [tl] in E.
    assert (HT : t = b64raw blob1 ++ pad blob1) by (apply (base64_unique blob1); [apply bytes_okb_ok; vm_compute; reflexivity|exact HB]).
    subst t. rewrite <- app_assoc in E. apply app_inv_head in E. vm_compute in E. discriminate E.
Qed.
(** If password authentication is on and no password configured, the empty password is the one. *)
Theorem C61_empty_password : forall f, sf_password f = true -> sf_pwflag f = [] -> sf_pwenv f = [] ->
  let_in f (sf_user f) (APassword []) = true.
Proof.
  intros f H1 H2 H3. unfold let_in, ssh_setup. rewrite H1, H2, H3. cbn.
  now rewrite (proj2 (beqb_eq (sf_user f) (sf_user f)) eq_refl).
Qed.
Example C61_empty_case : sf_password (mkSsh true (str "rpki") [] [] false false [] [] []) = true.
Proof. reflexivity. Qed.
Print Assumptions C61_decision_partial.
Print Assumptions C61_damaged_refuted.
Print Assumptions C61_empty_password.
