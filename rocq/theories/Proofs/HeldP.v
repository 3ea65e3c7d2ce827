(** Lemmas about what the server holds for a router. *)
From Coq Require Import ZArith ZifyBool ZifyNat ZifyN.
From Verif Require Import Model.Concurrent Spec.Sets Spec.History Spec.Response Spec.Net Spec.Held Proofs.DataP Proofs.CacheP Proofs.ConnP
  Proofs.NetP Proofs.NetP2 Proofs.NetP3 Proofs.NetP4 Proofs.ArrivalP Proofs.GoneP.
From Coq Require Import List.
Import ListNotations.
Local Open Scope N_scope.

(** * One answer *)
Ltac calc := match goal with |- ?x <= _ => let y := eval vm_compute in x in change x with y; lia end.
Definition nput (a : list act) : N := nlen (puts (ops a)).
Lemma puts_app a b : puts (a ++ b) = puts a ++ puts b.
Proof. apply flat_map_app. Qed.
Lemma ops_app a b : ops (a ++ b) = ops a ++ ops b.
Proof. apply flat_map_app. Qed.
Lemma nput_app a b : nput (a ++ b) = nput a + nput b.
Proof. unfold nput. rewrite ops_app, puts_app. unfold nlen. rewrite app_length. lia. Qed.
Lemma nput_data c d : nput (send_data c d) <= 1.
Proof.
  destruct d as [p a m f|a s k f]; cbn [send_data]; [destruct (is6 _); [|destruct (is4 _)]|destruct (_ || _)%bool]; calc.
Qed.
Lemma nput_sds c sess serial l : nput (send_sds c sess serial l) <= nlen l + 2.
Proof.
  unfold send_sds. rewrite !nput_app. assert (H : nput (flat_map (send_data c) l) <= nlen l).
  { induction l as [|d l IH]; [calc|]. cbn [flat_map]. rewrite nput_app. pose proof (nput_data c d).
    replace (nlen (d :: l)) with (nlen l + 1) by (unfold nlen; cbn [length]; lia). lia. }
  assert (E : forall p, nput (send_pdu c p) = 1) by (intros p; reflexivity). rewrite !E. lia.
Qed.
Lemma nput_pass srv n cache c p c' a : within n cache -> pass_simple_handler srv cache c p = Ok (c', a) -> nput a <= n + 2.
Proof.
  intros (W1 & W2).
  assert (E0 : nput [] <= n + 2) by (calc).
  assert (E1 : forall p0, nput (send_pdu c p0) <= n + 2) by (intros p0; calc).
  destruct p; cbn [pass_simple_handler]; try (intros [=<- <-]; exact E0).
  - unfold request_new_version, get_session_id. destruct (nth_error _ _) as [ss|]; cbn [bind]; [|discriminate].
    destruct (negb (sess =? ss)).
    + cbn [disconnect]. intros [=<- <-]. calc.
    + destruct (get_current_serial cache) as [m valid]. destruct valid; cbn [negb].
      * destruct (get_sds_serial_diff cache serial) as [dd|e|] eqn:ED; [| |discriminate]; intros [=<- <-]; [|apply E1].
        match goal with |- nput (send_sds ?c ?s ?n ?l) <= _ => pose proof (nput_sds c s n l) end. pose proof (W2 _ _ ED). lia.
      * intros [=<- <-]. apply E1.
  - unfold request_cache, get_session_id. destruct (nth_error _ _) as [ss|]; cbn [bind]; [|discriminate].
    destruct (get_current_serial cache) as [m valid]. destruct valid; cbn [negb]; intros [=<- <-]; [|apply E1].
    match goal with |- nput (send_sds ?c ?s ?n ?l) <= _ => pose proof (nput_sds c s n l) end. lia.
Qed.
Lemma read_puts srv n cache c chunk c' l : within n cache -> read_ops srv cache c chunk = Ok (c', l) -> nlen (puts l) <= n + 5.
Proof.
  intros W H. assert (D : nlen (puts (ops (snd (disconnect c)))) <= n + 5) by (calc).
  unfold read_ops in H. destruct chunk as [|b0 chunk]; [injection H as <- <-; exact D|].
  destruct (decode_bytes 64 (b0 :: chunk)) as [p|e|]; [|injection H as <- <-; exact D|discriminate H].
  unfold process_ops in H.
  destruct (if c_disableVC c then (c, []) else check_version c (get_version p)) as [c1 a1] eqn:E1.
  match type of H with (let '(_, _) := ?x in _) = _ => destruct x as [c2 a2] eqn:E2 end.
  match type of H with (let '(_, _) := ?x in _) = _ => destruct x as [c4 a4] eqn:E4 end.
  destruct (pass_simple_handler srv cache c4 p) as [r|e|] eqn:E5; [|destruct e|discriminate]. cbn [bind] in H. injection H as <- <-.
  assert (B : forall c c1, nput (send_wrong_version_error c ++ snd (disconnect c1)) = 1) by (intros; reflexivity).
  assert (H1 : nput a1 <= 1).
  { destruct (c_disableVC c); [injection E1 as _ <-; calc|]. unfold check_version in E1.
    destruct (_ && _)%bool; injection E1 as _ <-; calc. }
  assert (H2 : nput a2 <= 1).
  { destruct (c_enforce c1); [|injection E2 as _ <-; calc]. destruct (negb _); injection E2 as _ <-; calc. }
  assert (H4 : nput a4 <= 1).
  { unfold server_handle_pdu in E4. set (c3 := match p with SerialQuery _ _ serial => c_set_curserial serial c2 | _ => c2 end) in *. clearbody c3.
    destruct (s_enforce srv && negb (c_version c3 =? baseVersion srv)); injection E4 as _ <-; calc. }
  assert (H5 : nput (snd r) <= n + 2) by (destruct r; eapply nput_pass; [exact W|exact E5]).
  unfold nput in *. cbn [puts flat_map]. fold (puts (ops a1 ++ ops a2 ++ ops a4 ++ OSet (c_version c4) :: ops (snd r))).
  rewrite !puts_app. cbn [puts flat_map app]. fold (puts (ops (snd r))). unfold nlen in *. rewrite !app_length. lia.
Qed.

(** * Every state *)
Definition slim (n : N) (k : conn) : Prop := nlen (puts (k_prog k)) <= n + 5.
Lemma slim_less n k p r : slim n k -> k_prog k = p :: r -> nlen (puts r) <= n + 5.
Proof. unfold slim. intros H E. rewrite E in H. cbn [puts flat_map] in H. fold (puts r) in H. unfold nlen in *. rewrite app_length in H. lia. Qed.
(** Without a read, a program only gets shorter. *)
Definition shorter (w w' : net) : Prop := forall j k', nth_error (n_conns w') j = Some k' ->
  k_prog k' = [] \/ exists k, nth_error (n_conns w) j = Some k /\ (k_prog k' = k_prog k \/ exists o, k_prog k = o :: k_prog k').
Lemma shorter_refl w : shorter w w.
Proof. intros j k' E. right. eauto. Qed.
Lemma shorter_set w w' i k k' : nth_error (n_conns w) i = Some k -> n_conns w' = set_nth (n_conns w) i k' ->
  (k_prog k' = k_prog k \/ exists o, k_prog k = o :: k_prog k') -> shorter w w'.
Proof.
  intros Hi E EN j kj Hj. right. rewrite E in Hj. destruct (nth_set_nth _ _ _ _ _ Hj) as [(-> & -> & _)|(_ & G)]; eauto.
Qed.
Lemma shorter_step srv w l w' : (forall i cache chunk, l <> LRead i cache chunk) -> nstep srv w l = Ok w' -> shorter w w'.
Proof.
  intros HL H.
  assert (SAME : @Ok net Empty_set w = Ok w' -> shorter w w') by (intros [=<-]; apply shorter_refl).
  assert (PUT : forall k p k', put k p = Some k' -> k_prog k' = k_prog k) by (intros k p k' E; destruct (put_shape _ _ _ E) as (_ & G & _); exact G).
  destruct l; cbn [nstep] in H.
  - destruct (_ && _)%bool; [auto|]. injection H as <-. intros j k' Hj. cbn [n_conns] in Hj.
    destruct (Nat.lt_ge_cases j (length (n_conns w))) as [LT|GE].
    + rewrite nth_error_app1 in Hj by exact LT. right. eauto.
    + rewrite nth_error_app2 in Hj by exact GE. destruct (j - length (n_conns w))%nat as [|m]; [injection Hj as <-; left; reflexivity|destruct m; discriminate Hj].
  - destruct (nth_error (n_conns w) i) as [k|] eqn:Ei; [|auto]. destruct (k_phase k), (k_tr k); auto. injection H as <-. eapply shorter_set; [exact Ei|reflexivity|left; reflexivity].
  - destruct (nth_error (n_conns w) i) as [k|] eqn:Ei; [|auto]. destruct (k_phase k), (k_tr k); auto; injection H as <-; (eapply shorter_set; [exact Ei|reflexivity|left; reflexivity]).
  - exfalso. eapply HL. reflexivity.
  - destruct (nth_error (n_conns w) i) as [k|] eqn:Ei; [|auto]. injection H as <-. unfold reader_step.
    assert (T : forall o r k1, k_prog k = o :: r -> k_prog k1 = r -> k_prog k1 = k_prog k \/ exists o0, k_prog k = o0 :: k_prog k1) by (intros o r k1 E1 E2; right; exists o; congruence).
    destruct (k_prog k) as [|[v|p| | |] r] eqn:EP.
    + apply shorter_refl.
    + eapply shorter_set; [exact Ei|reflexivity|rewrite EP; eapply T; reflexivity].
    + destruct (put k p) as [k1|] eqn:EU; [|apply shorter_refl]. eapply shorter_set; [exact Ei|reflexivity|rewrite EP; eapply T; reflexivity].
    + eapply shorter_set; [exact Ei|reflexivity|rewrite EP; eapply T; reflexivity].
    + eapply shorter_set; [exact Ei|reflexivity|rewrite EP; eapply T; reflexivity].
    + eapply shorter_set; [exact Ei|reflexivity|rewrite EP; eapply T; [reflexivity|destruct (k_pc k); reflexivity]].
  - destruct (nth_error (n_conns w) i) as [k|] eqn:Ei; [|auto]. destruct (k_phase k), (k_prog k) eqn:EP, (k_flag k); auto. injection H as <-. eapply shorter_set; [exact Ei|reflexivity|left; reflexivity].
  - destruct (nth_error (n_conns w) i) as [k|] eqn:Ei; [|auto]. destruct (sender_step k o) as [k1|e|] eqn:ES; [|destruct e|discriminate].
    injection H as <-. eapply shorter_set; [exact Ei|reflexivity|left]. destruct (send_shape _ _ _ ES) as (_ & G & _). exact G.
  - destruct (n_notif w); auto. injection H as <-. exact (shorter_refl w).
  - unfold notifier_step in H. destruct (n_notif w) as [|serial [|i rest]|serial sess i rest|p serial i rest]; auto.
    + injection H as <-. exact (shorter_refl w).
    + destruct (nth_error (n_conns w) i); [|auto]. destruct (get_session_id srv _) as [ss|e|]; [|destruct e|discriminate]. injection H as <-. exact (shorter_refl w).
    + destruct (nth_error (n_conns w) i); [|auto]. injection H as <-. exact (shorter_refl w).
    + destruct (nth_error (n_conns w) i) as [k|] eqn:Ei; [|auto]. destruct (put k p) as [k1|] eqn:EU; [|auto]. injection H as <-.
      eapply shorter_set; [exact Ei|reflexivity|left; eauto].
Qed.
Lemma slim_step srv n w l w' : (forall i k, nth_error (n_conns w) i = Some k -> slim n k) ->
  (forall i cache chunk, l = LRead i cache chunk -> within n cache) -> nstep srv w l = Ok w' ->
  forall i k, nth_error (n_conns w') i = Some k -> slim n k.
Proof.
  intros HK HC H i k Hk.
  assert (RD : (exists j cache chunk, l = LRead j cache chunk) \/ forall j cache chunk, l <> LRead j cache chunk) by (destruct l; eauto; right; discriminate).
  destruct RD as [(j & cache & chunk & ->)|NR].
  - cbn [nstep] in H. destruct (nth_error (n_conns w) j) as [k0|] eqn:Ej; [|injection H as <-; eauto].
    destruct (k_phase k0), (k_prog k0), (k_flag k0); try (injection H as <-; eauto; fail).
    destruct (read_ops srv cache (k_cli k0) chunk) as [[c prog]|e|] eqn:E; [|destruct e|discriminate]. cbn [bind] in H. injection H as <-. cbn [with_conn n_conns] in Hk.
    destruct (nth_set_nth _ _ _ _ _ Hk) as [(_ & -> & _)|(_ & G)]; [|eauto]. unfold slim. cbn [k_set_read k_prog fst snd]. eapply read_puts; [eapply HC; reflexivity|exact E].
  - destruct (shorter_step srv w l w' NR H i k Hk) as [E|(k0 & H0 & [E|(o & E)])]; unfold slim; [rewrite E; calc|rewrite E; exact (HK i k0 H0)|].
    eapply slim_less; [exact (HK i k0 H0)|exact E].
Qed.
Lemma slim_run srv n : forall sched w w', (forall i k, nth_error (n_conns w) i = Some k -> slim n k) ->
  (forall i cache chunk, In (LRead i cache chunk) sched -> within n cache) -> nrun srv w sched = Ok w' ->
  forall i k, nth_error (n_conns w') i = Some k -> slim n k.
Proof.
  induction sched as [|l r IH]; intros w w' HK HC H; cbn in H; [injection H as <-; exact HK|].
  destruct (nstep srv w l) as [w1|e|] eqn:E; [|destruct e|discriminate]. cbn [bind] in H. apply (IH w1); [|intros i ca ch Hi; apply (HC i ca ch); now right|exact H].
  eapply slim_step; [exact HK| |exact E]. intros i ca ch ->. apply (HC i ca ch). now left.
Qed.

(** * The cache *)
Lemma apply_len a b : nlen (apply_diff a b) <= nlen a + nlen b.
Proof.
  unfold apply_diff, nlen. rewrite app_length.
  assert (F : forall f (l : list sd), (forall x, (length (f x : list sd) <= 1)%nat) -> (length (flat_map f l) <= length l)%nat).
  { intros f l Hf. induction l as [|x l IH]; [cbn; lia|]. cbn [flat_map length]. rewrite app_length. specialize (Hf x). lia. }
  match goal with |- N.of_nat (length (flat_map ?f b) + length (flat_map ?g a)) <= _ => pose proof (F f b) as F1; pose proof (F g a) as F2 end.
  assert ((length (flat_map (fun x => if map_has (convert_map a) (hashkey x) then [] else [x]) b) <= length b)%nat) by (apply F1; intros x; destruct (map_has _ _); cbn; lia).
  match type of F2 with _ -> ?X => assert X end.
  { apply F2. intros x. destruct (_ =? FLAG_ADDED); [cbn; lia|]. destruct (_ =? FLAG_REMOVED); [|cbn; lia]. destruct (map_get _ _) as [f|]; [destruct (f =? _)|]; cbn; lia. }
  lia.
Qed.
Definition tapered (n : N) (l : list (list sd)) : Prop := forall a d b, l = a ++ d :: b -> nlen d <= (nlen b + 1) * n.
Lemma tapered_skip n m l : tapered n l -> tapered n (skipn m l).
Proof. intros H a d b E. apply (H (firstn m l ++ a) d b). rewrite <- app_assoc, <- E. symmetry. apply firstn_skipn. Qed.
Lemma tapered_add n diff l : nlen diff <= n -> tapered n l -> tapered n ((map (apply_diff diff) l ++ [[]]) ++ [diff]).
Proof.
  intros HD H a d b E. rewrite <- app_assoc in E. cbn [app] in E.
  destruct b as [|b0 b].
  - assert (G : d = diff) by (change (map (apply_diff diff) l ++ [[]; diff]) with (map (apply_diff diff) l ++ [[]] ++ [diff]) in E; rewrite app_assoc in E; apply app_inj_tail in E as [_ E]; now symmetry).
    rewrite G. unfold nlen at 2. cbn [length]. lia.
  - destruct b as [|b1 b].
    + assert (G : d = []). { change (a ++ d :: [b0]) with (a ++ [d] ++ [b0]) in E. change (map (apply_diff diff) l ++ [[]; diff]) with (map (apply_diff diff) l ++ [[]] ++ [diff]) in E.
        rewrite !app_assoc in E. apply app_inj_tail in E as [E _]. apply app_inj_tail in E as [_ E]. now symmetry. }
      rewrite G. unfold nlen at 1. cbn [length]. lia.
    + assert (G : exists b', b0 :: b1 :: b = b' ++ [[]; diff] /\ map (apply_diff diff) l = a ++ d :: b').
      { destruct (@exists_last _ (b0 :: b1 :: b) ltac:(discriminate)) as (c & y & EC). destruct (@exists_last _ c ltac:(intros ->; discriminate EC)) as (c' & x & EC').
        subst c. rewrite EC in E. exists c'.
        replace (a ++ d :: (c' ++ [x]) ++ [y]) with (((a ++ d :: c') ++ [x]) ++ [y]) in E by (rewrite <- !app_assoc; reflexivity).
        change (map (apply_diff diff) l ++ [[]; diff]) with (map (apply_diff diff) l ++ [[]] ++ [diff]) in E. rewrite app_assoc in E.
        apply app_inj_tail in E as [E EY]. apply app_inj_tail in E as [E EX]. subst x y. rewrite EC. split; [rewrite <- app_assoc; reflexivity|exact E]. }
      destruct G as (b' & EB & EM). rewrite EB.
      destruct (map_eq_app _ _ _ _ EM) as (l1 & l2 & -> & E1 & E2). destruct l2 as [|x l2]; [discriminate E2|]. cbn [map] in E2. injection E2 as <- <-.
      pose proof (H l1 x l2 eq_refl) as HX. pose proof (apply_len diff x). replace (nlen (map (apply_diff diff) l2 ++ [[]; diff])) with (nlen l2 + 2) by (unfold nlen; rewrite app_length, map_length; cbn [length]; lia). nia.
Qed.
Lemma diff_len new cur : nlen (the_diff new cur) <= nlen new + nlen cur.
Proof.
  unfold the_diff, nlen. rewrite app_length, !map_length.
  assert (F : forall (f : sd -> bool) l, (length (filter f l) <= length l)%nat).
  { intros f l. induction l as [|x l IH]; [cbn; lia|]. cbn [filter]. destruct (f x); cbn [length]; lia. }
  pose proof (F (fun x => negb (mem (rid_of x) (ids cur))) new). pose proof (F (fun x => negb (mem (rid_of x) (ids new))) cur). lia.
Qed.
Definition light (n : N) (s : server) : Prop := NoDup (ids (sdCurrent s)) /\ nlen (sdCurrent s) <= n /\ tapered (2 * n) (sdListDiff s).
Lemma light_step n s new : inv s -> Forall wf_sd new -> NoDup (ids new) -> nlen new <= n -> light n s -> light n (step s new).
Proof.
  intros Hi Hn ND HL (L1 & L2 & L3). split; [now apply step_nodup|]. split.
  - pose proof (step_set s new Hi Hn) as SS. pose proof (step_nodup s new Hi Hn L1 ND) as ND'.
    assert (I : incl (ids (sdCurrent (step s new))) (ids new)) by (intros x Hx; now apply SS).
    pose proof (NoDup_incl_length ND' I) as G. unfold ids in G. rewrite !map_length in G. unfold nlen in *. lia.
  - unfold step. rewrite add_data_eq by (assumption || apply Hi). pose proof (diff_len new (sdCurrent s)) as DL.
    destruct (the_diff new (sdCurrent s)) eqn:E; [exact L3|]. rewrite <- E in *. cbn [fst add_sds_diff sdListDiff].
    match goal with |- tapered _ (if ?b then _ else _) => destruct b end; [apply tapered_skip|]; (apply tapered_add; [lia|exact L3]).
Qed.
Lemma light_run n h : forall s, inv s -> Forall (Forall wf_sd) h -> Forall (fun l => NoDup (ids l) /\ nlen l <= n) h -> light n s -> light n (run s h).
Proof.
  induction h as [|new h IH]; intros s Hi Hh HN HL; [exact HL|].
  pose proof (Forall_inv HN) as (N1 & N2). pose proof (Forall_inv Hh) as H1.
  cbn [run fold_left]. fold (run (step s new) h). apply IH; [now apply step_inv|exact (Forall_inv_tail Hh)|exact (Forall_inv_tail HN)|now apply light_step].
Qed.
Lemma within_run keep n h : (0 < keep)%Z -> Forall (Forall wf_sd) h -> Forall (fun l => NoDup (ids l) /\ nlen l <= n) h ->
  within (2 * Z.to_N keep * n) (run (new_server keep) h).
Proof.
  intros HK Hh HN. set (s := run (new_server keep) h).
  assert (L : light n s). { apply light_run; [apply inv_new|exact Hh|exact HN|]. split; [constructor|]. split; [cbn; lia|]. intros a d b E. destruct a; discriminate E. }
  destruct L as (_ & L2 & L3). pose proof (run_bound h (new_server keep) HK ltac:(cbn; lia)) as RB. fold s in RB. cbn [keepDiff new_server] in RB.
  split; [unfold get_current_sds; nia|]. intros q d HD.
  destruct (serial_diff_cases s q) as [(_ & E)|[(_ & E)|(_ & _ & d' & Hnth & E)]]; rewrite E in HD; [injection HD as <-; cbn; nia|discriminate HD|].
  injection HD as ->. apply nth_error_split in Hnth as (a & b & EL & _). pose proof (L3 _ _ _ EL) as HX. rewrite EL, app_length in RB. cbn [length] in RB.
  assert (nlen b + 1 <= Z.to_N keep) by (unfold nlen; lia). nia.
Qed.
