From Coq Require Import ZifyBool ZifyNat ZifyN.
From Verif Require Import Model.JsonFile Spec.Rfc8259 Proofs.JsonStrP Proofs.JsonFileP.
From Verif Require Proofs.JsonTextP Proofs.JsonTextP2.
Local Open Scope string_scope.
Local Open Scope list_scope.
Local Open Scope N_scope.

Section Mono.
Context (M M' : bytes -> bytes -> Prop) (HM : forall raw s, M raw s -> M' raw s).
Lemma grammar_mono :
  (forall n v b, jtext M n v b -> forall n', (n <= n')%nat -> jtext M' n' v b) /\
  (forall n l b, jelems M n l b -> forall n', (n <= n')%nat -> jelems M' n' l b) /\
  (forall n l b, jmembers M n l b -> forall n', (n <= n')%nat -> jmembers M' n' l b) /\
  (forall n m b, jmember M n m b -> forall n', (n <= n')%nat -> jmember M' n' m b).
Proof.
  apply (JsonTextP.json_mind M (fun n v b _ => forall n', (n <= n')%nat -> jtext M' n' v b)
           (fun n l b _ => forall n', (n <= n')%nat -> jelems M' n' l b)
           (fun n l b _ => forall n', (n <= n')%nat -> jmembers M' n' l b)
           (fun n m b _ => forall n', (n <= n')%nat -> jmember M' n' m b)); intros;
    try (destruct n' as [|n']; [lia|]); try (constructor; auto; fail); try (constructor; auto; apply H; lia).
  all: try (constructor; auto with arith).
Qed.
End Mono.

Lemma digits_last d : digits1 d -> exists p c, d = p ++ [c] /\ digit c.
Proof.
  intros [H1 H2]. destruct (exists_last H1) as (p & c & ->). exists p, c. split; [reflexivity|].
  apply Forall_app in H2 as [_ H2]. now inversion_clear H2.
Qed.
Lemma number_last lit : jnumber lit -> exists p c, lit = p ++ [c] /\ digit c.
Proof.
  intros (s & i & f & x & -> & _ & HI & HF & HX).
  destruct HX as [-> |(e & sg & d & -> & _ & _ & HD)].
  - rewrite app_nil_r. destruct HF as [-> |(d & -> & HD)].
    + rewrite app_nil_r. destruct HI as [-> |(c & d & -> & HC & HD)]; [exists s, 48; split; [reflexivity|unfold digit; lia]|].
      destruct d as [|y d]; [exists s, c; split; [reflexivity|unfold digit; lia]|].
      destruct (digits_last (y :: d)) as (p & z & E & HZ); [split; [discriminate|exact HD]|]. rewrite E.
      exists (s ++ c :: p), z. split; [now rewrite <- app_assoc|exact HZ].
    + destruct (digits_last d HD) as (p & c & -> & HC). exists (s ++ i ++ 46 :: p), c. split; [now rewrite <- !app_assoc|exact HC].
  - destruct (digits_last d HD) as (p & c & -> & HC). exists (s ++ i ++ f ++ e :: sg ++ p), c. split; [|exact HC].
    rewrite <- !app_assoc. cbn [app]. now rewrite <- !app_assoc.
Qed.
Lemma text_last M n v b : jtext M n v b -> exists p c, b = p ++ [c] /\ (digit c \/ In c [108; 101; 34; 93; 125]).
Proof.
  intros H. destruct H as [| | |n lit H|n raw s H|n w H|n l b H|n w H|n l b H].
  - exists (str "nul"), 108. split; [reflexivity|right; cbn; tauto].
  - exists (str "tru"), 101. split; [reflexivity|right; cbn; tauto].
  - exists (str "fals"), 101. split; [reflexivity|right; cbn; tauto].
  - destruct (number_last lit H) as (p & c & E & D). exists p, c. auto.
  - exists (34 :: raw), 34. split; [reflexivity|right; cbn; tauto].
  - exists (91 :: w), 93. split; [reflexivity|right; cbn; tauto].
  - exists (91 :: b), 93. split; [reflexivity|right; cbn; tauto].
  - exists (123 :: w), 125. split; [reflexivity|right; cbn; tauto].
  - exists (123 :: b), 125. split; [reflexivity|right; cbn; tauto].
Qed.
(** No JSON text ends in another character. *)
Lemma not_doc t c : ~ digit c -> ~ In c [108; 101; 34; 93; 125] -> ~ In c [32; 9; 10; 13] -> forall n v, ~ json_doc n v (t ++ [c]).
Proof.
  intros H1 H2 H3 n v (w & b & w' & _ & Hb & Hw & E).
  destruct w' as [|x w'] using rev_ind.
  - rewrite app_nil_r in E. destruct (text_last _ _ _ _ Hb) as (p & d & -> & HD). rewrite app_assoc in E. apply app_inj_tail in E as [_ <-]. tauto.
  - clear IHw'. rewrite !app_assoc in E. apply app_inj_tail in E as [_ <-]. apply H3.
    apply (proj1 (Forall_forall _ _) Hw). apply in_app_iff. right. now left.
Qed.
Theorem doc_read n v t rest : (n <= N.to_nat 10000)%nat -> json_doc n v t -> (forall lit, v <> JNum lit) -> parse (t ++ rest) = Some v.
Proof.
  intros HN (w & b & w' & Hw & Hb & _ & ->) HV. rewrite <- !app_assoc. apply JsonTextP2.parse_complete; [exact Hw| |destruct v; try reflexivity; now elim (HV lit)].
  destruct (grammar_mono means JsonTextP.go_str) as [G _].
  - intros raw s H. destruct (means_read_as raw s H) as [A <-]. now split.
  - apply (G n v b Hb). rewrite JsonTextP2.dmax_eq. exact HN.
Qed.
Theorem read_doc t v : parse t = Some v -> exists w b rest, t = w ++ b ++ rest /\ ws w /\ jtext lenient (N.to_nat 10000) v b.
Proof.
  intros H. apply JsonTextP2.parse_sound in H as (w & b & rest & E & Hw & Hb). exists w, b, rest. split; [exact E|]. split; [exact Hw|].
  destruct (grammar_mono JsonTextP.go_str lenient) as [G _].
  - intros raw s [H ->]. split; [exact H|]. split; [now apply unquote_text|]. intros s' HS. now apply means_read_as in HS as [_ HS].
  - apply (G _ v b Hb). rewrite JsonTextP2.dmax_eq. apply le_n.
Qed.
Theorem trailing t rest r : decode_json t = Some r -> decode_json (t ++ rest) = Some r.
Proof.
  intros H. pose proof (decode_cut (t ++ rest) (length t)) as C. rewrite firstn_app, firstn_all, Nat.sub_diag in C. cbn [firstn] in C. rewrite app_nil_r, H in C.
  destruct C as [C|C]; [discriminate C|now symmetry].
Qed.
