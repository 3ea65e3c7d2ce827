(** Property C70, exactly: for which flags rtrmon connects as they say, over the credential of
    the secondary and over the validation of both servers. *)
From Coq Require Import ZArith String.
From Verif Require Import Lib.Str Model.Main Spec.Flags Props.FlagProps.
From Coq Require Import List.
Import ListNotations.
Local Open Scope string_scope.
Local Open Scope list_scope.
Local Open Scope N_scope.

(** The secondary is given the credential of its flags unless the method is "password", the
    password is blank and the one in the environment is not; then it is given the empty one. *)
Theorem C70_credential_exact_partial : forall f c, secondary_client f = Some c ->
  (credential f (dl_cred (mclient_dial c)) <->
   ~ (cf_method f = str "password" /\ cf_password f = [] /\ cf_password_env f <> [])) /\
  (cf_method f = str "password" -> cf_password f = [] -> dl_cred (mclient_dial c) = Password []).
Proof.
  intros f c H. unfold secondary_client in H. pose proof (method_cases f) as HM.
  destruct (auth_to_id (cf_method f)) as [m|]; [|discriminate]. injection H as <-.
  unfold credential, key_bytes. cbn. destruct m; rewrite HM; cbn; (split; [|intros E; try discriminate E; intros ->; reflexivity]).
  - split; [intros _ (X & _); discriminate X|intros _; left; auto].
  - split.
    + intros [(X & _)|[(_ & [(N & _)|(E & C)])|(X & _)]]; try discriminate X.
      * intros (_ & E & _). contradiction.
      * intros (_ & _ & N). apply N. injection C as C. congruence.
    + intros K. right; left. split; [reflexivity|]. destruct (cf_password f) as [|x p] eqn:E.
      * right. split; [reflexivity|]. destruct (cf_password_env f) as [|y q] eqn:Q; [reflexivity|].
        exfalso. apply K. repeat split; discriminate.
      * left. split; [discriminate|reflexivity].
  - split; [intros _ (X & _); discriminate X|]. intros _. right; right. split; [reflexivity|].
    destruct (beqb (cf_key f) []) eqn:E.
    + right. apply beqb_eq in E. auto.
    + left. split; [|reflexivity]. intros X. rewrite X in E. discriminate E.
Qed.

(** Only the servers that pass the validation asked for are accepted exactly when none is asked
    for, for the primary as for the secondary. *)
Theorem C70_validation_exact_partial : forall f c, primary_client f = Some c \/ secondary_client f = Some c ->
  ((forall valid fp, tls_accepts (mclient_dial c) valid = true -> fst (right_server f valid fp)) <->
   cf_tls_validate f = false) /\
  ((forall valid fp, ssh_accepts (mclient_dial c) fp = true -> snd (right_server f valid fp)) <->
   cf_ssh_validate f = false).
Proof.
  intros f c H.
  assert (A : forall valid fp, tls_accepts (mclient_dial c) valid = true /\ ssh_accepts (mclient_dial c) fp = true)
    by (intros; now apply (C70_validate_refuted f c)).
  unfold right_server. cbn. split; split.
  - intros K. destruct (cf_tls_validate f); [|reflexivity]. symmetry. exact (K false [] (proj1 (A false [])) eq_refl).
  - intros E valid fp _ X. rewrite E in X. discriminate X.
  - intros K. destruct (cf_ssh_validate f); [|reflexivity].
    pose proof (K false [] (proj2 (A false [])) eq_refl) as X. discriminate X.
  - intros E valid fp _ X. rewrite E in X. discriminate X.
Qed.

(** A blank password with none in the environment is passed on as blank, which is right; with
    one in the environment, and with validation asked for, it is not. *)
Definition cf70 := mkCF false false [] (str "password") (str "rpki") [] [] [] [] [].
Example C70_exact_case :
  (exists c, secondary_client cf70 = Some c /\ credential cf70 (dl_cred (mclient_dial c))) /\
  (exists c, secondary_client cf71 = Some c /\ ~ credential cf71 (dl_cred (mclient_dial c)) /\
     tls_accepts (mclient_dial c) false = true /\ cf_tls_validate cf71 = true).
Proof.
  split.
  - eexists. split; [vm_compute; reflexivity|].
    apply (C70_credential_exact_partial cf70); [vm_compute; reflexivity|]. intros (_ & _ & N). now apply N.
  - eexists. split; [vm_compute; reflexivity|]. split; [|split; reflexivity].
    intros K. apply (C70_credential_exact_partial cf71) in K; [|vm_compute; reflexivity].
    apply K. repeat split. discriminate.
Qed.

Print Assumptions C70_credential_exact_partial.
Print Assumptions C70_validation_exact_partial.
