(** Property C129: a web server that falls silent. *)
From Coq Require Import ZArith Lia ZifyBool ZifyNat ZifyN.
From Verif Require Import Model.Silent Spec.Silent.
From Coq Require Import List.
Import ListNotations.
Local Open Scope list_scope.

Lemma hrun_app b tr1 : forall s tr2, hrun b s (tr1 ++ tr2) =
  match hrun b s tr1 with Some s' => hrun b s' tr2 | None => None end.
Proof. induction tr1 as [|l tr1 IH]; intros s tr2; [reflexivity|]. cbn [app hrun]. destruct (hstep_fn b s l); [apply IH|reflexivity]. Qed.
(** What the steps taken say about the state. *)
Definition hinv (b : bool) (tr : list hstep) (s : hstate) : Prop :=
  h_asked s = asked tr /\
  match h_place s with
  | Waiting => answering b tr = false
  | Connecting t => since tr = Some t /\ (t <= 30)%nat /\ answering b tr = false
  | Shaking t => b = true /\ (exists n, since tr = Some n /\ (n <= 30 + t)%nat) /\ (t <= 10)%nat /\ answering b tr = false
  | Header | Body => answering b tr = true /\ since tr <> None
  end.
Lemma since_snoc tr l : since (tr ++ [l]) = match l with HBegin => Some 0%nat | HSecond => option_map S (since tr) | _ => since tr end.
Proof. unfold since. now rewrite fold_left_app. Qed.
Lemma asked_snoc tr l : asked (tr ++ [l]) = match l with HAsk => true | HBegin => false | _ => asked tr end.
Proof. unfold asked. now rewrite fold_left_app. Qed.
Lemma answering_snoc b tr l : answering b (tr ++ [l]) =
  match l with
  | HConnected => if b then answering b tr else true
  | HShaken => true
  | HStatus false | HEnd | HLimit | HBreaks | HBegin => false
  | _ => answering b tr
  end.
Proof. unfold answering. now rewrite fold_left_app. Qed.
Lemma hinv_step b tr s l s' : hinv b tr s -> hstep_fn b s l = Some s' -> hinv b (tr ++ [l]) s'.
Proof.
  unfold hinv. rewrite since_snoc, asked_snoc, answering_snoc. destruct s as [p a]. cbn [h_place h_asked].
  generalize (since tr) (asked tr) (answering b tr). intros so A W [HA HP].
  destruct l as [| | | | |ok| | |]; cbn [hstep_fn h_place h_asked]; destruct p as [|t|t| |]; try discriminate.
  all: unfold dial_limit, tls_limit.
  all: repeat match goal with |- context [if ?x then None else _] => destruct x eqn:? | |- context [if ?x then _ else None] => destruct x eqn:? end; try discriminate.
  all: intros [= <-]; cbn [h_place h_asked].
  all: try (destruct b; cbn [h_place h_asked]); try (destruct ok; cbn [h_place h_asked]).
  all: repeat match goal with H : _ /\ _ |- _ => destruct H | H : exists _, _ |- _ => destruct H end.
  all: repeat match goal with H : ?x = @Some nat _ |- _ => is_var x; subst x end; cbn [option_map].
  all: try discriminate.
  all: repeat split; try assumption; try reflexivity; try congruence; try lia.
  all: try (eexists; split; [reflexivity|lia]); try (match goal with |- option_map _ ?x <> None => destruct x; [discriminate|congruence] end); try discriminate.
Qed.
Lemma hinv_run b tr : forall tr0 s s', hinv b tr0 s -> hrun b s tr = Some s' -> hinv b (tr0 ++ tr) s'.
Proof.
  induction tr as [|l tr IH]; intros tr0 s s' HI; cbn [hrun]; [intros [= <-]; now rewrite app_nil_r|].
  destruct (hstep_fn b s l) as [s1|] eqn:E; [|discriminate]. intros HR.
  replace (tr0 ++ l :: tr) with ((tr0 ++ [l]) ++ tr) by now rewrite <- app_assoc.
  apply (IH (tr0 ++ [l]) s1); [now apply (hinv_step b tr0 s)|exact HR].
Qed.

(** C129 A refresh that is asked for begins within bounded time: false.  A server that accepts the
    connection and says nothing, or stops in the middle of its response, holds the daemon up for
    as many seconds [n] as it likes, even if a refresh is asked for in every one of them. *)
Definition silence (https begun : bool) (n : nat) : list hstep :=
  [HAsk; HBegin; HConnected] ++ (if https then [HShaken] else []) ++ (if begun then [HStatus true] else []) ++
  concat (repeat [HAsk; HSecond] n).
Theorem C129_refuted : forall https begun n, (0 < n)%nat ->
  hrun https h_start (silence https begun n) <> None /\
  since (silence https begun n) = Some n /\ asked (silence https begun n) = true.
Proof.
  intros https begun n HN. unfold silence.
  assert (R : forall k p a, p = Header \/ p = Body -> hrun https (mkH p a) (concat (repeat [HAsk; HSecond] k)) <> None).
  { induction k as [|k IH]; intros p a HP; [discriminate|]. cbn [repeat concat app hrun]. destruct HP as [-> | ->]; cbn [hstep_fn h_place]; apply IH; auto. }
  assert (T : forall k m, fold_left (fun o l => match l with HBegin => Some 0 | HSecond => option_map S o | _ => o end)
    (concat (repeat [HAsk; HSecond] k)) (Some m) = Some (k + m)%nat).
  { induction k as [|k IH]; intros m; [reflexivity|]. cbn [repeat concat app fold_left option_map]. rewrite IH. f_equal. lia. }
  assert (W : forall k b, fold_left (fun b l => match l with HAsk => true | HBegin => false | _ => b end)
    (concat (repeat [HAsk; HSecond] k)) b = (b || Nat.ltb 0 k)%bool).
  { induction k as [|k IH]; intros b; [cbn; now rewrite Bool.orb_false_r|]. cbn [repeat concat app fold_left]. rewrite IH. cbn. now rewrite Bool.orb_true_r. }
  split; [|split].
  - destruct https, begun; cbn [app hrun hstep_fn h_start h_place h_asked]; apply R; auto.
  - unfold since. destruct https, begun; cbn [app fold_left option_map]; rewrite T; f_equal; lia.
  - unfold asked. destruct https, begun; cbn [app fold_left]; rewrite W; cbn [orb]; now apply Nat.ltb_lt.
Qed.
(** What holds: time passes while a refresh is waiting to begin only if the last one began less
    than forty seconds ago (thirty without TLS), or the server has taken the connection and not
    finished its response. *)
Theorem C129_waits_partial : forall https tr1 tr2 s, hrun https h_start (tr1 ++ HSecond :: tr2) = Some s ->
  asked tr1 = true ->
  exists n, since tr1 = Some n /\ (answering https tr1 = true \/ (n < if https then 40 else 30)%nat).
Proof.
  intros https tr1 tr2 s HR HA. rewrite hrun_app in HR. destruct (hrun https h_start tr1) as [s1|] eqn:E1; [|discriminate].
  assert (HI : hinv https ([] ++ tr1) s1) by (apply (hinv_run https tr1 [] h_start s1); [split; reflexivity|exact E1]).
  cbn [app] in HI. destruct s1 as [p a]. destruct HI as [I1 I2]. cbn [h_place h_asked] in *. rewrite HA in I1. subst a.
  cbn [hrun hstep_fn h_place h_asked] in HR. destruct p as [|t|t| |].
  - discriminate.
  - unfold dial_limit in HR. destruct (Nat.ltb_spec t 30); [|discriminate]. destruct I2 as (I2 & _). exists t. split; [exact I2|]. right. destruct https; lia.
  - unfold tls_limit in HR. destruct (Nat.ltb_spec t 10); [|discriminate]. destruct I2 as (-> & (n & I2 & I3) & _). exists n. split; [exact I2|]. right. lia.
  - destruct I2 as [I2 I3]. destruct (since tr1) as [n|]; [|now elim I3]. exists n. auto.
  - destruct I2 as [I2 I3]. destruct (since tr1) as [n|]; [|now elim I3]. exists n. auto.
Qed.
(** The limits are those: a server that does not take the connection costs thirty seconds, one that
    does not do the handshake ten more, after which the refresh that waits begins. *)
Example C129_case :
  hrun true h_start ([HAsk; HBegin] ++ repeat HSecond 30 ++ [HConnected] ++ repeat HSecond 9 ++ [HAsk; HSecond; HLimit; HBegin]) =
    Some (mkH (Connecting 0) false) /\
  since ([HAsk; HBegin] ++ repeat HSecond 30 ++ [HConnected] ++ repeat HSecond 9 ++ [HAsk]) = Some 39%nat /\
  hrun false h_start ([HAsk; HBegin] ++ repeat HSecond 31) = None /\
  asked (silence true true 3) = true /\ answering true (silence true true 3) = true.
Proof. repeat split; reflexivity. Qed.

Print Assumptions C129_refuted.
Print Assumptions C129_waits_partial.
Print Assumptions C129_case.
