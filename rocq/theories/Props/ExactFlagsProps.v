(** Theorems about any list of keys and any flags: C61, C84. *)
From Coq Require Import ZArith ZifyBool ZifyNat ZifyN String.
From Verif Require Import Lib.Str Model.Rtrdump Spec.Auth Proofs.AuthP Proofs.WireP Props.QueryProps Props.AuthProps.
From Coq Require Import List.
Import ListNotations.
Local Open Scope string_scope.
Local Open Scope list_scope.
Local Open Scope N_scope.
Ltac Zify.zify_post_hook ::= Z.div_mod_to_equations.

(** * C61 The decision for any list of keys *)
(** The Base64 text of a key up to its padding. *)
Definition digits_of (blob ds : bytes) : Prop := exists pad, base64 blob (ds ++ pad) /\ Forall (fun c => c = 61) pad /\ ~ In 61 ds.
Lemma raw_digits k : bytes_ok k -> ~ In 61 (b64raw k).
Proof.
  assert (C : forall d, d < 64 -> 61 <> b64char d).
  { intros d H E. apply (not_alphabet 61); [now left|]. rewrite E. now apply b64char_graph. }
  induction k as [|a|a b|a b c k IH] using three_ind; intros HK HI.
  - destruct HI.
  - pose proof (Forall_inv HK) as Ha. unfold u8 in Ha. cbn [b64raw In] in HI. destruct HI as [HI|[HI|[]]]; symmetry in HI; revert HI; apply C; lia.
  - pose proof (Forall_inv HK) as Ha. pose proof (Forall_inv (Forall_inv_tail HK)) as Hb. unfold u8 in Ha, Hb. cbn [b64raw In] in HI.
    destruct HI as [HI|[HI|[HI|[]]]]; symmetry in HI; revert HI; apply C; lia.
  - pose proof (Forall_inv HK) as Ha. pose proof (Forall_inv (Forall_inv_tail HK)) as Hb. pose proof (Forall_inv (Forall_inv_tail (Forall_inv_tail HK))) as Hc.
    unfold u8 in Ha, Hb, Hc. cbn [b64raw In] in HI.
    destruct HI as [HI|[HI|[HI|[HI|HI]]]]; [symmetry in HI; revert HI; apply C; lia ..|].
    exact (IH (Forall_inv_tail (Forall_inv_tail (Forall_inv_tail HK))) HI).
Qed.
Lemma padding_pads k : Forall (fun c => c = 61) (padding k).
Proof. unfold padding. destruct (nlen k mod 3) as [|[| |]]; repeat constructor. Qed.
(** A key is let in exactly when some line begins with its type, a space and the digits of its Base64
    text, whatever comes then: nothing says that the line ends there (missing for the property). *)
Theorem C61_exact_partial : forall f user a ls,
  lines_of (if beqb (sf_keysflag f) [] then sf_keysenv f else sf_keysfile f) ls ->
  (forall typ blob, a = AKey typ blob -> bytes_ok blob) ->
  let_in f user a = true <->
  match a with
  | ANone => sf_key f = false /\ sf_password f = false
  | APassword p => sf_password f = true /\ user = sf_user f /\
                   ((sf_pwflag f <> [] /\ p = sf_pwflag f) \/ (sf_pwflag f = [] /\ p = sf_pwenv f))
  | AKey typ blob => sf_key f = true /\
      (sf_bypass f = true \/ exists l ds rest, In l ls /\ digits_of blob ds /\ l = typ ++ 32 :: ds ++ rest)
  end.
Proof.
  intros f user a ls HL HA. unfold let_in, ssh_setup. destruct a as [|p|typ blob]; cbn [sc_noauth sc_passwordcb sc_keycb].
  - destruct (sf_key f), (sf_password f); cbn; intuition discriminate.
  - destruct (sf_password f); [|split; [discriminate|intros [H _]; discriminate H]].
    rewrite negb_orb, !negb_involutive, andb_true_iff, !beqb_eq.
    destruct (beqb (sf_pwflag f) []) eqn:E.
    + apply beqb_eq in E. rewrite E. intuition congruence.
    + assert (sf_pwflag f <> []) by (intros H; rewrite H in E; discriminate E). intuition congruence.
  - destruct (sf_key f); [|split; [discriminate|intros [H _]; discriminate H]].
    specialize (HA typ blob eq_refl). rewrite (split_lines_ok _ ls HL), orb_true_iff, existsb_exists.
    pose proof (raw_digits blob HA) as ND.
    pose proof (padding_pads blob) as PD.
    assert (G : (exists x, In x ls /\ negb (beqb x []) && has_prefix x (typ ++ 32 :: b64raw blob) = true) <->
                (exists l ds rest, In l ls /\ digits_of blob ds /\ l = typ ++ 32 :: ds ++ rest)).
    { split.
      - intros (l & HI & HP). apply andb_true_iff in HP. destruct HP as (_ & HP). apply has_prefix_iff in HP. destruct HP as (r & ->).
        exists (typ ++ 32 :: b64raw blob ++ r), (b64raw blob), r. rewrite <- app_assoc in HI. split; [exact HI|]. split; [|reflexivity].
        exists (padding blob). split; [now apply base64_padded|]. split; assumption.
      - intros (l & ds & rest & HI & (pad & HB & HP & HN) & ->). exists (typ ++ 32 :: ds ++ rest). split; [exact HI|].
        assert (E : ds = b64raw blob).
        { apply base64_unique in HB; [|exact HA]. clear - HB HP HN ND PD. revert HB ND. generalize (b64raw blob) as r. induction ds as [|c ds IH]; intros r HB ND.
          - destruct r as [|x r]; [reflexivity|]. exfalso. destruct pad as [|y pad]; [discriminate HB|]. cbn in HB. injection HB as -> _. inversion_clear HP. apply ND. now left.
          - destruct r as [|x r].
            + exfalso. cbn in HB. rewrite <- HB in PD. inversion_clear PD. apply HN. now left.
            + cbn in HB. injection HB as -> HB. f_equal. apply IH; [intros H; apply HN; now right|exact HB|intros H; apply ND; now right]. }
        subst ds. apply andb_true_iff. split; [destruct typ; reflexivity|]. apply has_prefix_iff. exists rest. now rewrite <- app_assoc. }
    rewrite G. tauto.
Qed.
Print Assumptions C61_exact_partial.
(** The damaged line of C61_damaged_refuted: the digits of a key and then more of them. *)
Example C61_exact_case : lines_of (typ1 ++ 32 :: b64raw blob1 ++ str "MoreText") [typ1 ++ 32 :: b64raw blob1 ++ str "MoreText"] /\ bytes_ok blob1 /\
  digits_of blob1 (b64raw blob1) /\ let_in (mkSsh false [] [] [] true false [] [] (typ1 ++ 32 :: b64raw blob1 ++ str "MoreText")) [] (AKey typ1 blob1) = true /\
  let_in (mkSsh false [] [] [] true false [] [] (str "# " ++ typ1 ++ 32 :: b64raw blob1)) [] (AKey typ1 blob1) = false.
Proof.
  assert (B : bytes_ok blob1) by (apply bytes_okb_ok; vm_compute; reflexivity).
  split; [split; [discriminate|split; [reflexivity|]]; constructor; [|constructor]; vm_compute; intros H; repeat (destruct H as [H|H]; [discriminate H|]); destruct H|].
  split; [exact B|]. split; [exists (padding blob1); split; [now apply base64_padded|split; [apply padding_pads|now apply raw_digits]]|]. split; vm_compute; reflexivity.
Qed.

(** * C84 The query for any flags *)
Lemma four n : n = 16777216 * (n / 16777216) + 65536 * (n / 65536 mod 256) + 256 * (n / 256 mod 256) + n mod 256.
Proof. lia. Qed.
(** The version is 1 if that is what was asked for, 0 for everything below; the session and the serial
    sent are the rest modulo 2^16 and 2^32, so that they are the ones given exactly when these fit. *)
Theorem C84_exact_partial : forall f,
  match dump_version f with
  | None => (1 < f_version f)%Z
  | Some v => (f_version f <= 1)%Z /\ v = (if (f_version f =? 1)%Z then 1 else 0) /\
      encode (dump_query f v) =
        Ok (if f_serial f then serial_bytes v (Z.to_N (f_session_id f mod 65536)) (Z.to_N (f_serial_value f mod 4294967296)) else reset_bytes v) /\
      (f_serial f = true ->
       (exists s n, f_session_id f = Z.of_N s /\ f_serial_value f = Z.of_N n /\ encode (dump_query f v) = Ok (serial_bytes v s n)) <->
       (0 <= f_session_id f < 65536)%Z /\ (0 <= f_serial_value f < 4294967296)%Z)
  end.
Proof.
  intros f. unfold dump_version. destruct (1 <? f_version f)%Z eqn:EV; [lia|]. set (v := if (f_version f =? 1)%Z then 1 else 0).
  assert (Hv : v = 0 \/ v = 1) by (unfold v; destruct (f_version f =? 1)%Z; auto). split; [lia|]. split; [reflexivity|].
  assert (Q : encode (dump_query f v) = Ok (if f_serial f then serial_bytes v (Z.to_N (f_session_id f mod 65536)) (Z.to_N (f_serial_value f mod 4294967296)) else reset_bytes v)).
  { clearbody v. unfold dump_query, cs_send. destruct (f_serial f); cbn [set_version encode]; f_equal.
    - unfold serial_bytes, to_u16, to_u32, be. change (2 ^ 16)%Z with 65536%Z. change (2 ^ 32)%Z with 4294967296%Z.
      set (s' := Z.to_N (f_session_id f mod 65536)). set (n' := Z.to_N (f_serial_value f mod 4294967296)).
      assert (s' < 65536) by (unfold s'; lia). assert (n' < 4294967296) by (unfold n'; lia).
      clearbody s' n'. cbn. repeat (f_equal; try lia).
    - unfold reset_bytes. destruct Hv as [-> | ->]; reflexivity. }
  split; [exact Q|]. intros HS. rewrite Q. clear Q. split.
  - intros (s & n & -> & -> & E). rewrite HS in E.
    assert (B1 : Z.to_N (Z.of_N s mod 65536) < 65536) by (clear; lia). assert (B2 : Z.to_N (Z.of_N n mod 4294967296) < 4294967296) by (clear; lia).
    revert E. generalize dependent (Z.to_N (Z.of_N s mod 65536)). generalize dependent (Z.to_N (Z.of_N n mod 4294967296)). intros n' B2 s' B1 E.
    unfold serial_bytes in E. injection E as E1 E2 E3 E4 E5 E6. assert (n' = n) as -> by (rewrite (four n'), (four n), E3, E4, E5, E6; reflexivity).
    assert (s' = s) as -> by (rewrite (N.div_mod' s' 256), (N.div_mod' s 256), E1, E2; reflexivity). clear - B1 B2. lia.
  - intros (H1 & H2). exists (Z.to_N (f_session_id f)), (Z.to_N (f_serial_value f)). split; [clear - H1; lia|]. split; [clear - H2; lia|]. now rewrite HS, !Z.mod_small by assumption.
Qed.
Print Assumptions C84_exact_partial.
Example C84_exact_case : dump_version (mkDF true (-1) 65543 (-2)) = Some 0 /\
  encode (dump_query (mkDF true (-1) 65543 (-2)) 0) = Ok (serial_bytes 0 7 4294967295) /\
  encode (dump_query (mkDF true 9 7 1) 1) = Ok (serial_bytes 1 7 9).
Proof. vm_compute. auto. Qed.
