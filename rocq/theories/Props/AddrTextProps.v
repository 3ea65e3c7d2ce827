(** Property C108: prefixes as texts. *)
From Coq Require Import String ZArith ZifyBool ZifyNat ZifyN.
From Verif Require Import Lib.Str Model.Format Model.Process Spec.AddrText Proofs.FormatP Proofs.AddrTextP.
From Coq Require Import List.
Import ListNotations.
Local Open Scope string_scope.
Local Open Scope list_scope.
Local Open Scope N_scope.

(** C108 A text is accepted as a prefix exactly if it is written as RFC 4632 or RFC 4291 have it,
    and is then read as the prefix it denotes. *)
Theorem C108_text : forall s p, parse_prefix s = Some p <-> prefix_text s p.
Proof. exact parse_prefix_spec. Qed.
(** A text denotes one prefix only. *)
Theorem C108_unambiguous : forall s p q, prefix_text s p -> prefix_text s q -> p = q.
Proof. intros s p q H1 H2. apply parse_prefix_spec in H1, H2. congruence. Qed.
(** A sample of the spellings: zeros in front of groups, capital letters, :: at either end and
    for a single group, d.d.d.d at the end. *)
Ltac dec_octet := split; [discriminate|split; [repeat constructor; vm_compute; intuition discriminate|split; [(now left) || (right; discriminate)|reflexivity]]].
Definition db8 : prefix := mkPrefix (A6 (8193 * 2 ^ 112 + 3512 * 2 ^ 96 + 10 * 2 ^ 16 + 11)) (Some 128).
Example C108_case :
  map (fun s => parse_prefix (str s))
    ["2001:db8::a:b/128"; "2001:0DB8:0:0:0:0:A:B/128"; "2001:db8:0::0:0:0.10.0.11/128"; "2001:db8:0:0:0:0:0.10.0.11/128"; "2001:db8:0:0:0::a:b/128"]
    = [Some db8; Some db8; Some db8; Some db8; Some db8] /\
  prefix_text (str "::ffff:10.1.0.0/112") (mkPrefix (A6 (65535 * 2 ^ 32 + 2561 * 2 ^ 16)) (Some 112)) /\
  prefix_text (str "10.1.2.3/8") (mkPrefix (A4 167838211) (Some 8)) /\
  Forall (fun s => forall p, ~ prefix_text (str s) p)
    ["10.0.0.0"; "10.0.0/8"; "10.0.0.0/08"; "10.0.0.0/33"; "010.0.0.0/8"; "10.0.0.256/32"; "1:2:3:4:5:6:7::8/128"; ":::/0"; "::/+1"; "::1%eth0/64";
     "::00001/128"; "1:2:3:4:5:6:7:1.2.3.4/128"; "::1.2.3.4:5/128"; " ::/0"; "::/129"; "::"; "/8"].
Proof.
  split; [vm_compute; reflexivity|]. split; [apply parse_prefix_spec; vm_compute; reflexivity|].
  split; [apply parse_prefix_spec; vm_compute; reflexivity|].
  repeat constructor; intros p H; apply parse_prefix_spec in H; vm_compute in H; discriminate H.
Qed.
(** One of them in full, by the grammar. *)
Example C108_grammar_case : prefix_text (str "1:A::/32") (mkPrefix (A6 (1 * 2 ^ 112 + 10 * 2 ^ 96)) (Some 32)).
Proof.
  exists (str "1:A::"), (str "32"), 32. split; [reflexivity|]. split; [|split; [dec_octet|split; [vm_compute; discriminate|reflexivity]]].
  change (p_addr _) with (A6 (fold_left (fun x g => 65536 * x + g) ([1; 10] ++ repeat 0 6 ++ []) 0)). apply at_v6. right.
  exists (str "1:A"), [1; 10], [], [], 6%nat. split; [reflexivity|]. split; [reflexivity|]. split; [reflexivity|]. split; [lia|].
  split; [right|now left]. apply (hx_more (str "1") 1 (str "A")); [|apply hx_one].
  - split; [cbn; lia|]. exists [1]. split; [constructor; [|constructor]|reflexivity]. left. split; [vm_compute; intuition discriminate|reflexivity].
  - split; [cbn; lia|]. exists [10]. split; [constructor; [|constructor]|reflexivity]. right. right. split; [vm_compute; intuition discriminate|reflexivity].
Qed.

(** So two lists that differ only in how prefixes are spelt give the same records. *)
Definition respelt (v w : vrpjson) : Prop :=
  vj_length v = vj_length w /\ vj_asn v = vj_asn w /\ vj_expires v = vj_expires w /\
  (vj_prefix v = vj_prefix w \/ exists p, prefix_text (vj_prefix v) p /\ prefix_text (vj_prefix w) p).
Theorem C108_spelling : forall sort now vs ws bs, Forall2 respelt vs ws ->
  process_data sort now vs bs = process_data sort now ws bs.
Proof.
  intros sort now vs ws bs H. unfold process_data. assert (E : vrp_loop now vs = vrp_loop now ws); [|now rewrite E].
  unfold vrp_loop. generalize (@nil sd, @nil bytes, 0, 0). induction H as [|v w vs ws (H1 & H2 & H3 & H4) _ IH]; intros st; [reflexivity|].
  cbn [fold_left]. rewrite IH. f_equal. unfold vrp_step, get_prefix2. destruct st as [[[out seen] c4] c6].
  assert (E : parse_prefix (vj_prefix v) = parse_prefix (vj_prefix w)).
  { destruct H4 as [-> | (p & P1 & P2)]; [reflexivity|]. apply parse_prefix_spec in P1, P2. congruence. }
  now rewrite E, H1, H2, H3.
Qed.
Definition spelt (s : string) : vrpjson := mkVJ (str s) 128 (AsnU32 1) [] None.
Example C108_spelling_case : Forall2 respelt [spelt "2001:db8::a:b/128"; spelt "10.0.0.0/8"] [spelt "2001:0DB8:0:0:0:0:A:B/128"; spelt "10.0.0.0/8"] /\
  length (fst (fst (fst (process_data (fun l => l) 0 [spelt "2001:db8::a:b/128"; spelt "10.0.0.0/8"] [])))) = 1%nat.
Proof.
  split; [|vm_compute; reflexivity]. constructor; [|constructor; [|constructor]]; (split; [reflexivity|split; [reflexivity|split; [reflexivity|]]]).
  - right. exists db8. split; apply parse_prefix_spec; vm_compute; reflexivity.
  - now left.
Qed.

Print Assumptions C108_text.
Print Assumptions C108_unambiguous.
Print Assumptions C108_spelling.
