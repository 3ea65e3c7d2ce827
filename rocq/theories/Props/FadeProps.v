(** Property C72, exactly: what diff.json shows until the next comparison. *)
From Coq Require Import String ZArith ZifyBool ZifyNat ZifyN.
From Verif Require Import Lib.Str Spec.Fading Proofs.MonitorP Proofs.MonitorP2 Proofs.MonProcP Proofs.MonRunP Proofs.FadeP
  Props.MonitorProps Props.MonRunProps.
From Coq Require Import List Lia.
Import ListNotations.
Local Open Scope string_scope.
Local Open Scope list_scope.
Local Open Scope N_scope.

Lemma values_map (f : bytes * mentry -> bytes * mentry) h h' (m : gmap nat) :
  (forall k r, In (k, r) m -> (k, deref h' r) = f (k, deref h r)) -> values h' m = map f (values h m).
Proof.
  intros H. unfold values. rewrite map_map. apply map_ext_in. intros [k r] HI. cbn. now apply H.
Qed.
Lemma diff_in h a b : forall res x, In x (fold_left (fun (res : gmap nat) (x : bytes * nat) =>
    if m_visible (deref h (snd x)) then
      match gget (fst x) b with
      | Some r => if m_visible (deref h r) then res else gset (fst x) (snd x) res
      | None => gset (fst x) (snd x) res
      end
    else res) a res) -> In x res \/ In x a /\ m_visible (deref h (snd x)) = true.
Proof.
  induction a as [|y a IH]; intros res x H; cbn [fold_left] in H; [now left|]. apply IH in H as [H|[H V]]; [|right; split; [now right|exact V]].
  destruct (m_visible (deref h (snd y))) eqn:EV; [|now left].
  assert (HS : In x (gset (fst y) (snd y) res) -> In x res \/ In x (y :: a) /\ m_visible (deref h (snd x)) = true).
  { intros X. destruct x as [k r]. apply in_gset in X as [[-> ->]|X]; [|now left]. right. split; [left; now destruct y|exact EV]. }
  destruct (gget (fst y) b) as [q|]; [destruct (m_visible (deref h q)); [now left|]|]; now apply HS.
Qed.

(** From a moment at which nothing is under way until the next comparison, an entry of diff.json stays
    as it is, or loses its visibility: exactly when the first reading since of the file it is from no
    longer lists the object and was made within the grace period.  Later readings change nothing.  So
    the lists stay exactly when there is no such entry.  (Missing: that there is none.) *)
Theorem C72_exact_partial : forall cfg ls ls' s s', Forall good_label (ls ++ ls') -> mrun cfg ls = Some s -> at_rest s ->
  mrun cfg (ls ++ ls') = Some s' -> (forall t, ~ In (LPublish t) ls') ->
  let '(a, b, md) := serve_diff s in
  let '(a', b', md') := serve_diff s' in
  md' = md /\
  a' = map (faded (k_grace cfg) (next_reading Pri ls')) a /\ b' = map (faded (k_grace cfg) (next_reading Sec ls')) b /\
  (a' = a <-> forall k e, In (k, e) a -> fades (k_grace cfg) (next_reading Pri ls') e = false) /\
  (b' = b <-> forall k e, In (k, e) b -> fades (k_grace cfg) (next_reading Sec ls') e = false).
Proof.
  intros cfg ls ls' s s' HG HR HA HR' HN. apply Forall_app in HG as [HG HG'].
  assert (HF : Forall no_publish ls'). { apply Forall_forall. intros l Hl. destruct l; try exact I. now apply (HN clk). }
  destruct (run_evolves cfg ls ls' s s' HR HR' HF) as [_ E3]. unfold serve_diff. rewrite E3.
  destruct (ms_pub s) as [p|] eqn:EP; [|cbn; intuition].
  destruct (rest_pub cfg ls s p HR HA EP) as (_ & (P1 & P2 & _) & _).
  assert (D : forall i m v, m = diff_refs (ms_heap s) (mc_vrps (ms_c i s)) v ->
    values (ms_heap s') m = map (faded (k_grace cfg) (next_reading i ls')) (values (ms_heap s) m) /\
    (values (ms_heap s') m = values (ms_heap s) m <-> forall k e, In (k, e) (values (ms_heap s) m) -> fades (k_grace cfg) (next_reading i ls') e = false)).
  { intros i m v ->.
    assert (HD : forall x, In x (diff_refs (ms_heap s) (mc_vrps (ms_c i s)) v) -> In x (mc_vrps (ms_c i s)) /\ m_visible (deref (ms_heap s) (snd x)) = true).
    { intros x Hx. apply diff_in in Hx as [[]|Hx]. exact Hx. }
    assert (E : values (ms_heap s') (diff_refs (ms_heap s) (mc_vrps (ms_c i s)) v) =
      map (faded (k_grace cfg) (next_reading i ls')) (values (ms_heap s) (diff_refs (ms_heap s) (mc_vrps (ms_c i s)) v))).
    { apply values_map. intros k r HI. destruct (HD _ HI) as [HI1 _].
      destruct (fading_run cfg ls s i k r HR HA HG HI1 ls' s' HG' HR') as (_ & _ & F). unfold fading in F. unfold faded. cbn [fst snd]. f_equal.
      destruct (next_reading i ls') as [rd|]; [|now destruct F]. destruct F as [_ F]. destruct (fades _ _ _); [exact F|now destruct F]. }
    split; [exact E|]. rewrite E. split.
    - intros EM k e HI. assert (HV : m_visible e = true).
      { unfold values in HI. apply in_map_iff in HI as ([k0 r0] & EQ & HI). cbn in EQ. injection EQ as <- <-. destruct (HD _ HI) as [_ V]. exact V. }
      destruct (fades (k_grace cfg) (next_reading i ls') e) eqn:EF; [|reflexivity]. exfalso.
      assert (X : forall l, map (faded (k_grace cfg) (next_reading i ls')) l = l -> forall x, In x l -> faded (k_grace cfg) (next_reading i ls') x = x).
      { induction l as [|y l IH]; intros EL x Hx; [destruct Hx|]. cbn in EL. injection EL as EL1 EL2. destruct Hx as [<-|Hx]; auto. }
      specialize (X _ EM (k, e) HI). unfold faded in X. cbn [fst snd] in X. rewrite EF in X. injection X as X. rewrite <- X in HV. discriminate HV.
    - intros HX. rewrite <- (map_id (values (ms_heap s) (diff_refs (ms_heap s) (mc_vrps (ms_c i s)) v))) at 2. apply map_ext_in. intros [k e] HI.
      unfold faded. cbn [fst snd]. now rewrite (HX k e HI). }
  destruct (D Pri (pb_only1 p) (mc_vrps (ms_c2 s)) P1) as [D1 D2]. destruct (D Sec (pb_only2 p) (mc_vrps (ms_c1 s)) P2) as [D3 D4]. auto.
Qed.
(** A file that no longer lists the object of L1; read again within the grace period, after it, with
    L1 first, and not modified first. *)
Example C72_exact_case : let ls := [LFetch Pri 100 L1; LAssign Pri 100; LSend Pri] ++ cycle 100 in
  let shows (rest : list mlabel) := match mrun cfgFF (ls ++ rest) with
    | Some s => Some (map (fun x => m_visible (snd x)) (fst (fst (serve_diff s)))) | None => None end in
  let again := [LAssign Pri 300; LSend Pri; LFetch Pri 300 L2] in
  shows [] = Some [true; true; true] /\
  shows [LFetch Pri 150 FetchError; LFetch Pri 200 L2] = Some [false; true; true] /\
  shows [LFetch Pri 2000 L2] = Some [true; true; true] /\
  shows (LFetch Pri 200 L1 :: again) = Some [true; true; true] /\
  shows (LFetch Pri 200 NotModified :: again) = Some [true; true; true].
Proof. vm_compute. repeat split; reflexivity. Qed.

Print Assumptions C72_exact_partial.
