(** Property C127: how the daemon starts. *)
From Coq Require Import ZArith ZifyBool ZifyNat ZifyN Lia.
From Verif Require Import Model.Boot Spec.Boot.
From Coq Require Import List.
Import ListNotations.
Local Open Scope nat_scope.

Definition rk (p : bpc) : nat :=
  match p with PHttp => 0 | PBinds => 1 | PWait => 2 | PLoad => 3 | PTcp => 4 | PTls => 5 | PSsh => 6 | PTicker => 7 | PLoop => 8 end.
(** The turn of a transport is over. *)
Definition turn_of (t : transport) : nat := match t with TCP => 5 | TLS => 6 | SSH => 7 end.
Record binv (su : setup) (s : bstate) : Prop := mkBI {
  bi_on : forall t, lis s t <> Off -> su_asked su t = true /\ turn_of t <= rk (b_pc s);
  bi_files : forall t, turn_of t <= rk (b_pc s) -> su_asked su t = true -> lis s t <> Off /\ (t <> TCP -> su_files su t = true);
  bi_open : forall t, lis s t = Open -> su_addr su t = true;
  bi_some : 2 <= rk (b_pc s) -> exists t, su_asked su t = true;
  bi_http0 : rk (b_pc s) = 0 -> b_http s = Off;
  bi_http1 : 1 <= rk (b_pc s) -> su_http su = true -> b_http s <> Off;
  bi_http2 : b_http s = Open -> su_http_ok su = true;
  bi_http3 : b_http s = Starting -> su_http su = true;
  bi_int : rk (b_pc s) = 8 -> su_interval su = true;
  bi_taken : forall t, In t (b_taken s) -> lis s t = Open;
  bi_exit : forall n, b_exit s = Some n -> (n = 1 \/ n = 2)%N /\ ~ in_order su
}.
Lemma binv_init su : binv su b_init.
Proof.
  constructor; cbn; try lia; try discriminate; try tauto; try (intros []; cbn; intros; try discriminate; try tauto; lia).
Qed.
Lemma lis_pc s p t : lis (set_pc s p) t = lis s t. Proof. destruct t; reflexivity. Qed.
Lemma lis_set s t x u : lis (set_lis s t x) u = if match t, u with TCP, TCP | TLS, TLS | SSH, SSH => true | _, _ => false end then x else lis s u.
Proof. destruct t, u; reflexivity. Qed.
Lemma binv_ends su s n : binv su s -> (n = 1 \/ n = 2)%N -> ~ in_order su -> binv su (ends s n).
Proof.
  intros [H1 H2 H3 H4 H5 H6 H7 H8 H9 H10 H11] Hn HN. constructor; try assumption. intros m E. injection E as <-. auto.
Qed.
(** The main goroutine goes on where nothing is to be started. *)
Lemma binv_pc su s p : binv su s -> b_exit s = None -> rk p = S (rk (b_pc s)) ->
  (forall t, turn_of t = rk p -> su_asked su t = false) ->
  (rk p = 1 -> su_http su = false) -> (rk p = 2 -> exists t, su_asked su t = true) -> (rk p = 8 -> su_interval su = true) ->
  binv su (set_pc s p).
Proof.
  intros [H1 H2 H3 H4 H5 H6 H7 H8 H9 H10 H11] HE HP HT HH HB HI. constructor; cbn [set_pc b_pc b_http b_taken b_exit].
  - intros t. rewrite lis_pc. intros H. destruct (H1 t H). split; [assumption|lia].
  - intros t Ht HA. rewrite lis_pc. apply H2; [|assumption]. destruct (Nat.eq_dec (turn_of t) (rk p)) as [E|E]; [|lia].
    rewrite (HT t E) in HA. discriminate HA.
  - intros t. rewrite lis_pc. apply H3.
  - intros H. destruct (Nat.eq_dec (rk p) 2); [auto|apply H4; lia].
  - lia.
  - intros H K. destruct (Nat.eq_dec (rk p) 1) as [E|E]; [rewrite (HH E) in K; discriminate K|]. apply H6; [lia|exact K].
  - exact H7.
  - exact H8.
  - exact HI.
  - intros t. rewrite lis_pc. apply H10.
  - exact H11.
Qed.
Lemma binv_open su s t p : binv su s -> b_exit s = None -> rk (b_pc s) = turn_of t - 1 -> rk p = turn_of t ->
  binv su (open_one su s t p).
Proof.
  intros HI HE HP HQ. unfold open_one. destruct (su_asked su t) eqn:EA.
  - destruct (match t with TCP => true | _ => su_files su t end) eqn:EF.
    + destruct HI as [H1 H2 H3 H4 H5 H6 H7 H8 H9 H10 H11].
      constructor; cbn [set_lis set_pc b_pc b_http b_taken b_exit].
      * intros u. rewrite lis_set, lis_pc. intros H. destruct t, u; cbn [turn_of] in *; try (split; [assumption|lia]);
          destruct (H1 _ H); (split; [assumption|cbn [turn_of] in *; lia]).
      * intros u Hu HA. rewrite lis_set, lis_pc. destruct t, u; cbn [turn_of] in *;
          try (split; [discriminate|intros _; assumption]); try (split; [discriminate|intros N; now contradiction N]);
          try lia; apply H2; cbn [turn_of]; try assumption; lia.
      * intros u. rewrite lis_set, lis_pc. destruct t, u; try discriminate; apply H3.
      * intros H. apply H4. destruct t; cbn [turn_of] in *; lia.
      * destruct t; cbn [turn_of] in *; lia.
      * intros _. apply H6. destruct t; cbn [turn_of] in *; lia.
      * exact H7.
      * exact H8.
      * destruct t; cbn [turn_of] in *; lia.
      * intros u HU. pose proof (H10 u HU) as K. rewrite lis_set, lis_pc.
        destruct t, u; try exact K; exfalso; destruct (H1 _ (ltac:(rewrite K; discriminate))) as [_ X]; cbn [turn_of] in *; lia.
      * exact H11.
    + apply binv_ends; [exact HI|now left|]. intros (_ & K & _). destruct (K t EA) as [_ X]. destruct t; try discriminate EF;
        rewrite X in EF; discriminate.
  - apply binv_pc; try assumption; try (destruct t; cbn [turn_of] in *; lia).
    + intros u Hu. destruct t, u; cbn [turn_of] in *; try exact EA; lia.
Qed.
Lemma binv_step su s l s' : binv su s -> bstep su s l = Some s' -> binv su s'.
Proof.
  intros HI H. unfold bstep in H. destruct (b_exit s) eqn:HE; [discriminate|]. pose proof HI as HI0.
  destruct HI0 as [H1 H2 H3 H4 H5 H6 H7 H8 H9 H10 H11]. destruct l as [| | | | |t|t].
  - destruct (b_pc s) eqn:EP.
    + injection H as <-. constructor; cbn [b_pc b_http b_taken b_exit rk]; try lia; try discriminate.
      * intros t Ht. destruct (H1 t Ht) as [_ X]. destruct t; cbn in X; lia.
      * intros t Ht. destruct t; cbn in Ht; lia.
      * intros t. exact (H3 t).
      * intros _ ->. discriminate.
      * destruct (su_http su); discriminate.
      * destruct (su_http su); [reflexivity|discriminate].
      * intros t Ht. exact (H10 t Ht).
    + injection H as <-. destruct (su_asked su TCP || su_asked su TLS || su_asked su SSH)%bool eqn:EA.
      * assert (exists t, su_asked su t = true).
        { destruct (su_asked su TCP) eqn:E1; [eauto|]. destruct (su_asked su TLS) eqn:E2; [eauto|]. destruct (su_asked su SSH) eqn:E3; [eauto|discriminate EA]. }
        apply binv_pc; try assumption; rewrite ?EP; cbn [rk]; try lia; try (intros t; destruct t; cbn; lia). auto.
      * apply binv_ends; [exact HI|now left|]. intros ((t & X) & _). destruct t; rewrite X in EA; rewrite ?orb_true_r in EA; try discriminate;
          destruct (su_asked su TCP); discriminate.
    + destruct (b_file s && b_slurm s)%bool; [|discriminate]. injection H as <-.
      apply binv_pc; try assumption; rewrite ?EP; cbn [rk]; try lia; intros t; destruct t; cbn; lia.
    + discriminate.
    + injection H as <-. apply binv_open; try assumption; rewrite ?EP; reflexivity.
    + injection H as <-. apply binv_open; try assumption; rewrite ?EP; reflexivity.
    + injection H as <-. apply binv_open; try assumption; rewrite ?EP; reflexivity.
    + injection H as <-. destruct (su_interval su) eqn:EI.
      * apply binv_pc; try assumption; rewrite ?EP; cbn [rk]; try lia; try (intros t; destruct t; cbn; lia). auto.
      * apply binv_ends; [exact HI|now right|]. intros (_ & _ & _ & X). congruence.
    + discriminate.
  - destruct (b_pc s) eqn:EP; try discriminate. injection H as <-.
    apply binv_pc; try assumption; rewrite ?EP; cbn [rk]; try lia; intros t; destruct t; cbn; lia.
  - destruct (b_pc s) eqn:EP; try discriminate. destruct (b_file s); [discriminate|]. injection H as <-.
    constructor; cbn [b_pc b_http b_taken b_exit]; try assumption; try discriminate.
  - destruct (b_pc s) eqn:EP; try discriminate. destruct (b_slurm s); [discriminate|]. injection H as <-.
    constructor; cbn [b_pc b_http b_taken b_exit]; try assumption; try discriminate.
  - destruct (b_http s) eqn:EH; try discriminate. injection H as <-. destruct (su_http_ok su) eqn:EO.
    + constructor; cbn [b_pc b_http b_taken b_exit]; try assumption; try discriminate; auto.
      intros X. apply H5 in X. discriminate X.
    + apply binv_ends; [exact HI|now left|]. intros (_ & _ & X & _). rewrite (X (H8 eq_refl)) in EO. discriminate.
  - destruct (lis s t) eqn:EL; try discriminate. injection H as <-. destruct (su_addr su t) eqn:EO.
    + constructor; cbn [set_lis b_pc b_http b_taken b_exit]; try assumption.
      * intros u. rewrite lis_set. intros Hu. apply H1. destruct t, u; try exact Hu; rewrite EL; discriminate.
      * intros u Hu HA. rewrite lis_set. destruct (H2 u Hu HA) as [A B]. destruct t, u; (split; [first [discriminate|exact A]|exact B]).
      * intros u. rewrite lis_set. destruct t, u; intros Hu; try exact EO; now apply H3.
      * intros u Hu. rewrite lis_set. pose proof (H10 u Hu) as X. destruct t, u; try exact X; reflexivity.
    + apply binv_ends; [exact HI|now left|]. intros (_ & K & _). destruct (K t (proj1 (H1 t ltac:(rewrite EL; discriminate)))). congruence.
  - destruct (lis s t) eqn:EL; try discriminate. injection H as <-.
    constructor; cbn [b_pc b_http b_taken b_exit]; try assumption; try discriminate.
    intros u [<-|Hu]; [exact EL|now apply H10].
Qed.
Lemma binv_run su ls : forall s s', binv su s -> brun_from su s ls = Some s' -> binv su s'.
Proof.
  induction ls as [|l ls IH]; cbn [brun_from]; intros s s' HI H; [now injection H as <-|].
  destruct (bstep su s l) as [s1|] eqn:E; [|discriminate]. eapply IH; [|exact H]. eapply binv_step; eassumption.
Qed.
Lemma brun_inv su ls s : brun su ls = Some s -> binv su s.
Proof. apply binv_run, binv_init. Qed.
Lemma brun_app su a : forall s b s', brun_from su s (a ++ b) = Some s' -> exists m, brun_from su s a = Some m /\ brun_from su m b = Some s'.
Proof.
  induction a as [|l a IH]; cbn [app brun_from]; intros s b s' H; [eauto|].
  destruct (bstep su s l); [now apply IH|discriminate].
Qed.

(** What the labels so far say. *)
Record btrace (ls : list blabel) (s : bstate) : Prop := mkBT {
  bt_file : b_file s = true -> In BFile ls;
  bt_slurm : b_slurm s = true -> In BSlurm ls;
  bt_both : 3 <= rk (b_pc s) -> b_file s = true /\ b_slurm s = true;
  bt_load : 4 <= rk (b_pc s) -> loaded_in ls
}.
Lemma loaded_more ls l : loaded_in ls -> loaded_in (ls ++ [l]).
Proof. intros (a & b & -> & H1 & H2). exists a, (b ++ [l]). rewrite <- app_assoc. auto. Qed.
Lemma btrace_same ls s l s' : btrace ls s -> b_file s' = b_file s -> b_slurm s' = b_slurm s ->
  (3 <= rk (b_pc s') -> b_file s = true /\ b_slurm s = true) -> (4 <= rk (b_pc s') -> loaded_in ls) -> btrace (ls ++ [l]) s'.
Proof.
  intros [H1 H2 H3 H4] E1 E2 K1 K2. constructor; rewrite ?E1, ?E2; intros H.
  - apply in_or_app. left. auto.
  - apply in_or_app. left. auto.
  - auto.
  - apply loaded_more. auto.
Qed.
Lemma open_one_same su s t p : b_file (open_one su s t p) = b_file s /\ b_slurm (open_one su s t p) = b_slurm s /\
  (b_pc (open_one su s t p) = p \/ b_pc (open_one su s t p) = b_pc s).
Proof.
  unfold open_one. destruct (su_asked su t); [|cbn; auto]. destruct (match t with TCP => true | _ => su_files su t end); cbn; auto.
Qed.
Lemma btrace_step su ls s l s' : btrace ls s -> bstep su s l = Some s' -> btrace (ls ++ [l]) s'.
Proof.
  intros HT H. unfold bstep in H. destruct (b_exit s) eqn:HE; [discriminate|]. pose proof HT as [H1 H2 H3 H4].
  destruct l as [| | | | |t|t].
  - destruct (b_pc s) eqn:EP; try discriminate.
    + injection H as <-. apply (btrace_same _ s); cbn; try assumption; try reflexivity; lia.
    + injection H as <-. destruct (_ || _)%bool; apply (btrace_same _ s); cbn; rewrite ?EP; cbn; try assumption; try reflexivity; lia.
    + destruct (b_file s && b_slurm s)%bool eqn:EB; [|discriminate]. injection H as <-. apply andb_prop in EB.
      apply (btrace_same _ s); cbn; try assumption; try reflexivity; try lia. auto.
    + injection H as <-. destruct (open_one_same su s TCP PTls) as (E1 & E2 & _).
      apply (btrace_same _ s); try assumption; intros _; [apply H3|apply H4]; cbn; lia.
    + injection H as <-. destruct (open_one_same su s TLS PSsh) as (E1 & E2 & _).
      apply (btrace_same _ s); try assumption; intros _; [apply H3|apply H4]; cbn; lia.
    + injection H as <-. destruct (open_one_same su s SSH PTicker) as (E1 & E2 & _).
      apply (btrace_same _ s); try assumption; intros _; [apply H3|apply H4]; cbn; lia.
    + injection H as <-. destruct (su_interval su); apply (btrace_same _ s); cbn; try assumption; try reflexivity; intros _; [apply H3|apply H4|apply H3|apply H4]; cbn; lia.
  - destruct (b_pc s) eqn:EP; try discriminate. injection H as <-. destruct (H3 ltac:(cbn; lia)) as [F S].
    constructor; cbn [set_pc b_file b_slurm b_pc].
    + intros _. apply in_or_app. left. auto.
    + intros _. apply in_or_app. left. auto.
    + auto.
    + intros _. exists ls, []. auto.
  - destruct (b_pc s) eqn:EP; try discriminate. destruct (b_file s); [discriminate|]. injection H as <-.
    constructor; cbn; try lia.
    + intros _. apply in_or_app. right. now left.
    + intros X. apply in_or_app. left. auto.
  - destruct (b_pc s) eqn:EP; try discriminate. destruct (b_slurm s); [discriminate|]. injection H as <-.
    constructor; cbn; try lia.
    + intros X. apply in_or_app. left. auto.
    + intros _. apply in_or_app. right. now left.
  - destruct (b_http s); try discriminate. injection H as <-. destruct (su_http_ok su); apply (btrace_same _ s); cbn; auto.
  - destruct (lis s t); try discriminate. injection H as <-. destruct (su_addr su t); apply (btrace_same _ s); cbn; auto.
  - destruct (lis s t); try discriminate. injection H as <-. apply (btrace_same _ s); cbn; auto.
Qed.
Lemma btrace_run su ls : forall pre s s', btrace pre s -> brun_from su s ls = Some s' -> btrace (pre ++ ls) s'.
Proof.
  induction ls as [|l ls IH]; cbn [brun_from]; intros pre s s' HT H; [injection H as <-; now rewrite app_nil_r|].
  destruct (bstep su s l) as [s1|] eqn:E; [|discriminate]. specialize (IH (pre ++ [l]) s1 s').
  rewrite <- app_assoc in IH. apply IH; [|exact H]. eapply btrace_step; eassumption.
Qed.
Lemma brun_trace su ls s : brun su ls = Some s -> btrace ls s.
Proof. intros H. apply (btrace_run su ls [] b_init s); [|exact H]. constructor; cbn; try lia; discriminate. Qed.

(** C127 Starting: whenever a connection is taken, both downloads have been tried and what they
    gave has been published before, the flags ask for that transport and its address and files are in order. *)
Theorem C127_loaded : forall su ls t ls2 s, brun su (ls ++ BTake t :: ls2) = Some s ->
  loaded_in ls /\ su_asked su t = true /\ su_addr su t = true /\ (t <> TCP -> su_files su t = true).
Proof.
  intros su ls t ls2 s H. unfold brun in H. apply brun_app in H as (m & H1 & H2). cbn [brun_from] in H2.
  destruct (bstep su m (BTake t)) as [m'|] eqn:E; [|discriminate]. clear H2.
  pose proof (brun_inv su ls m H1) as I. pose proof (brun_trace su ls m H1) as T.
  unfold bstep in E. destruct (b_exit m); [discriminate|]. destruct (lis m t) eqn:EL; try discriminate.
  destruct (bi_on su m I t ltac:(rewrite EL; discriminate)) as [A B].
  split; [|split; [exact A|split; [exact (bi_open su m I t EL)|exact (proj2 (bi_files su m I t B A))]]].
  apply (bt_load ls m T). destruct t; cbn in B; lia.
Qed.

(** How much is left to do. *)
Definition lw (x : lst) : nat := match x with Off => 2 | Starting => 1 | Open => 0 end.
Definition bleft (s : bstate) : nat :=
  (8 - rk (b_pc s)) + (if b_file s then 0 else 1) + (if b_slurm s then 0 else 1) +
  lw (b_http s) + lw (b_tcp s) + lw (b_tls s) + lw (b_ssh s) + match b_exit s with None => 1 | Some _ => 0 end.
Lemma bleft_step su s l s' : binv su s -> bstep su s l = Some s' -> (if own l then 1 else 0) + bleft s' <= bleft s.
Proof.
  intros HI H. unfold bstep in H. destruct (b_exit s) eqn:HE; [discriminate|].
  assert (L : forall t, rk (b_pc s) < turn_of t -> lis s t = Off).
  { intros t Ht. destruct (lis s t) eqn:E; [reflexivity| |]; destruct (bi_on su s HI t ltac:(rewrite E; discriminate)); lia. }
  pose proof (bi_http0 su s HI) as H0.
  destruct l as [| | | | |t|t]; cbn [own].
  - destruct (b_pc s) eqn:EP; try discriminate.
    + injection H as <-. unfold bleft. cbn. rewrite EP, HE, (H0 eq_refl). destruct (su_http su); cbn; lia.
    + injection H as <-. destruct (_ || _)%bool; unfold bleft; cbn; rewrite ?EP, ?HE; cbn; lia.
    + destruct (_ && _)%bool; [|discriminate]. injection H as <-. unfold bleft. cbn. rewrite EP, HE. cbn. lia.
    + injection H as <-. pose proof (L TCP ltac:(cbn; lia)) as X. cbn in X. unfold open_one.
      destruct (su_asked su TCP); unfold bleft; cbn; rewrite ?EP, ?HE, ?X; cbn; lia.
    + injection H as <-. pose proof (L TLS ltac:(cbn; lia)) as X. cbn in X. unfold open_one.
      destruct (su_asked su TLS); [destruct (su_files su TLS)|]; unfold bleft; cbn; rewrite ?EP, ?HE, ?X; cbn; lia.
    + injection H as <-. pose proof (L SSH ltac:(cbn; lia)) as X. cbn in X. unfold open_one.
      destruct (su_asked su SSH); [destruct (su_files su SSH)|]; unfold bleft; cbn; rewrite ?EP, ?HE, ?X; cbn; lia.
    + injection H as <-. destruct (su_interval su); unfold bleft; cbn; rewrite ?EP, ?HE; cbn; lia.
  - destruct (b_pc s) eqn:EP; try discriminate. injection H as <-. unfold bleft. cbn. rewrite EP, HE. cbn. lia.
  - destruct (b_pc s) eqn:EP; try discriminate. destruct (b_file s) eqn:EF; [discriminate|]. injection H as <-. unfold bleft. cbn. rewrite EP, HE, EF. cbn. lia.
  - destruct (b_pc s) eqn:EP; try discriminate. destruct (b_slurm s) eqn:EF; [discriminate|]. injection H as <-. unfold bleft. cbn. rewrite EP, HE, EF. cbn. lia.
  - destruct (b_http s) eqn:EH; try discriminate. injection H as <-. destruct (su_http_ok su); unfold bleft; cbn; rewrite ?HE, ?EH; cbn; lia.
  - destruct (lis s t) eqn:EL; try discriminate. injection H as <-. destruct (su_addr su t); unfold bleft, ends, set_lis; cbn; destruct t; cbn in EL; rewrite ?HE, ?EL; cbn; lia.
  - destruct (lis s t) eqn:EL; try discriminate. injection H as <-. unfold bleft. cbn. rewrite ?HE. lia.
Qed.

(** Whatever the order of the steps, there are at most nineteen of the process itself; when
    there are none left it has either ended with an error, and then something was not in order, or
    everything was, and exactly the listeners asked for are open.  It never ends when all is in order. *)
Theorem C127_outcome : forall su ls s, brun su ls = Some s ->
  length (filter own ls) <= 19 /\
  (in_order su -> b_exit s = None) /\
  (settled su s ->
     match b_exit s with
     | Some n => n <> 0%N /\ ~ in_order su
     | None => in_order su /\ forall t, lis s t = Open <-> su_asked su t = true
     end).
Proof.
  intros su ls s H. pose proof (brun_inv su ls s H) as I. split; [|split].
  - assert (G : forall ls s s', binv su s -> brun_from su s ls = Some s' -> length (filter own ls) + bleft s' <= bleft s).
    { clear. induction ls as [|l ls IH]; cbn [brun_from]; intros s s' HI H; [injection H as <-; cbn; lia|].
      destruct (bstep su s l) as [s1|] eqn:E; [|discriminate]. pose proof (bleft_step su s l s1 HI E) as B.
      specialize (IH s1 s' (binv_step su s l s1 HI E) H). cbn [filter]. destruct (own l); cbn [length]; lia. }
    specialize (G ls b_init s (binv_init su) H). cbn in G. lia.
  - intros HO. destruct (b_exit s) eqn:E; [|reflexivity]. destruct (bi_exit su s I _ E) as [_ N]. contradiction.
  - intros HS. destruct (b_exit s) as [n|] eqn:HE.
    + destruct (bi_exit su s I n HE) as [[-> | ->] N]; (split; [discriminate|exact N]).
    + assert (P : b_pc s = PLoop).
      { pose proof (HS BMain ltac:(discriminate)) as X. pose proof (HS BLoad ltac:(discriminate)) as Y.
        pose proof (HS BFile ltac:(discriminate)) as Z. pose proof (HS BSlurm ltac:(discriminate)) as W.
        unfold bstep in X, Y, Z, W. rewrite HE in *. destruct (b_pc s); try discriminate; try reflexivity.
        destruct (b_file s), (b_slurm s); discriminate. }
      assert (Q : forall t, su_asked su t = true -> lis s t = Open).
      { intros t HA. destruct (bi_files su s I t ltac:(rewrite P; destruct t; cbn; lia) HA) as [N _].
        pose proof (HS (BListen t) ltac:(discriminate)) as X. unfold bstep in X. rewrite HE in X. destruct (lis s t); [contradiction|discriminate|reflexivity]. }
      split.
      * split; [exact (bi_some su s I ltac:(rewrite P; cbn; lia))|]. split; [|split].
        -- intros t HA. split; [exact (bi_open su s I t (Q t HA))|]. exact (proj2 (bi_files su s I t ltac:(rewrite P; destruct t; cbn; lia) HA)).
        -- intros HH. pose proof (bi_http1 su s I ltac:(rewrite P; cbn; lia) HH) as N.
           pose proof (HS BHttp ltac:(discriminate)) as X. unfold bstep in X. rewrite HE in X. destruct (b_http s) eqn:EH; [contradiction|discriminate|].
           exact (bi_http2 su s I EH).
        -- exact (bi_int su s I ltac:(rewrite P; reflexivity)).
      * intros t. split; [|apply Q]. intros HO. exact (proj1 (bi_on su s I t ltac:(rewrite HO; discriminate))).
Qed.

(** A daemon with an address that can be used and a certificate that cannot be read serves a
    router, and then ends with an error. *)
Definition su127 := mkSetup false false (fun t => match t with SSH => false | _ => true end) (fun _ => true) (fun _ => false) true.
Definition ls127 := [BMain; BMain; BSlurm; BFile; BMain; BLoad; BMain; BListen TCP; BTake TCP; BMain].
Theorem C127_taken_refuted : exists su ls s, ~ in_order su /\ brun su ls = Some s /\ settled su s /\
  b_exit s = Some 1%N /\ b_taken s = [TCP].
Proof.
  exists su127, ls127. eexists. split; [|split; [vm_compute; reflexivity|split; [|split; reflexivity]]].
  - intros (_ & K & _). destruct (K TLS eq_refl) as [_ X]. discriminate X. discriminate.
  - intros l _. reflexivity.
Qed.

(** The way to the listeners, step by step. *)
Lemma brun_join su a : forall s b m, brun_from su s a = Some m -> brun_from su s (a ++ b) = brun_from su m b.
Proof.
  induction a as [|l a IH]; cbn [app brun_from]; intros s b m H; [now injection H as ->|].
  destruct (bstep su s l); [now apply IH|discriminate].
Qed.
Lemma to_tcp su : (su_asked su TCP || su_asked su TLS || su_asked su SSH)%bool = true ->
  exists h, brun_from su b_init [BMain; BMain; BSlurm; BFile; BMain; BLoad] = Some (mkB PTcp true true h Off Off Off [] None).
Proof. intros H. eexists. cbn. rewrite H. reflexivity. Qed.
Lemma past_tcp su h : exists x, brun_from su (mkB PTcp true true h Off Off Off [] None) [BMain] = Some (mkB PTls true true h x Off Off [] None) /\ (su_asked su TCP = true -> x = Starting).
Proof. cbn. unfold open_one. destruct (su_asked su TCP); eexists; (split; [reflexivity|]); [reflexivity|discriminate]. Qed.
Lemma past_tls su h x : (su_asked su TLS = true -> su_files su TLS = true) ->
  exists y, brun_from su (mkB PTls true true h x Off Off [] None) [BMain] = Some (mkB PSsh true true h x y Off [] None) /\ (su_asked su TLS = true -> y = Starting).
Proof.
  intros F. cbn. unfold open_one. destruct (su_asked su TLS); [rewrite (F eq_refl)|]; eexists; (split; [reflexivity|]); [reflexivity|discriminate].
Qed.
Lemma past_ssh su h x y : su_asked su SSH = true -> su_files su SSH = true ->
  brun_from su (mkB PSsh true true h x y Off [] None) [BMain] = Some (mkB PTicker true true h x y Starting [] None).
Proof. intros A F. cbn. unfold open_one. rewrite A, F. reflexivity. Qed.
Lemma then_take su s t : lis s t = Starting -> b_exit s = None -> su_addr su t = true ->
  exists s', brun_from su s [BListen t; BTake t] = Some s' /\ In t (b_taken s').
Proof.
  intros L E A. cbn [brun_from]. unfold bstep at 1. rewrite E, L, A. unfold bstep. cbn [set_lis b_exit]. rewrite E, lis_set.
  destruct t; eexists; (split; [reflexivity|now left]).
Qed.
(** Exactly which connections can be taken, whether everything is in order or not: those for
    which the flag is given, the address can be bound, and the files of the transports up to
    this one in the order plain, TLS, SSH can be read.  So a daemon in which something is not in order
    serves nobody in any schedule exactly when there is no such transport.  (Missing: that this is always so.) *)
Theorem C127_taken_exact_partial : forall su t,
  (exists ls s, brun su ls = Some s /\ In t (b_taken s)) <->
  su_asked su t = true /\ su_addr su t = true /\
  forall u, not_after u t -> su_asked su u = true -> u <> TCP -> su_files su u = true.
Proof.
  intros su t. split.
  - intros (ls & s & H & HT). pose proof (brun_inv su ls s H) as I. pose proof (bi_taken su s I t HT) as EL.
    destruct (bi_on su s I t ltac:(rewrite EL; discriminate)) as [A B].
    split; [exact A|]. split; [exact (bi_open su s I t EL)|]. intros u HU HA HN.
    apply (bi_files su s I u); [|exact HA|exact HN]. destruct u, t; cbn in HU, B |- *; try contradiction; lia.
  - intros (A & B & C).
    assert (HA : (su_asked su TCP || su_asked su TLS || su_asked su SSH)%bool = true)
      by (destruct t; rewrite A; rewrite ?orb_true_r; reflexivity).
    destruct (to_tcp su HA) as (h & R1). destruct (past_tcp su h) as (x & R2 & X). unfold brun. destruct t.
    + destruct (then_take su (mkB PTls true true h x Off Off [] None) TCP) as (s & R & T); [exact (X A)|reflexivity|exact B|].
      exists ([BMain; BMain; BSlurm; BFile; BMain; BLoad] ++ [BMain] ++ [BListen TCP; BTake TCP]), s. split; [|exact T]. rewrite (brun_join _ _ _ _ _ R1), (brun_join _ _ _ _ _ R2). exact R.
    + destruct (past_tls su h x (fun E => C TLS Logic.I E ltac:(discriminate))) as (y & R3 & Y).
      destruct (then_take su (mkB PSsh true true h x y Off [] None) TLS) as (s & R & T); [exact (Y A)|reflexivity|exact B|].
      exists ([BMain; BMain; BSlurm; BFile; BMain; BLoad] ++ [BMain] ++ [BMain] ++ [BListen TLS; BTake TLS]), s. split; [|exact T]. rewrite (brun_join _ _ _ _ _ R1), (brun_join _ _ _ _ _ R2), (brun_join _ _ _ _ _ R3). exact R.
    + destruct (past_tls su h x (fun E => C TLS Logic.I E ltac:(discriminate))) as (y & R3 & Y).
      pose proof (past_ssh su h x y A (C SSH Logic.I A ltac:(discriminate))) as R4.
      destruct (then_take su (mkB PTicker true true h x y Starting [] None) SSH) as (s & R & T); [reflexivity|reflexivity|exact B|].
      exists ([BMain; BMain; BSlurm; BFile; BMain; BLoad] ++ [BMain] ++ [BMain] ++ [BMain] ++ [BListen SSH; BTake SSH]), s. split; [|exact T]. rewrite (brun_join _ _ _ _ _ R1), (brun_join _ _ _ _ _ R2), (brun_join _ _ _ _ _ R3), (brun_join _ _ _ _ _ R4). exact R.
Qed.

(** All three transports and the metrics server, in an order in which a router comes before the
    TLS listener is open: in the end all three are open and the process runs; a connection before the first
    load is not possible. *)
Definition su127ok := mkSetup true true (fun _ => true) (fun _ => true) (fun _ => true) true.
Example C127_case : in_order su127ok /\
  (exists s, brun su127ok [BMain; BMain; BFile; BHttp; BSlurm; BMain; BLoad; BMain; BListen TCP; BTake TCP; BMain; BMain; BListen SSH; BMain; BListen TLS; BTake SSH] = Some s /\
     settled su127ok s /\ b_taken s = [SSH; TCP] /\ b_exit s = None /\ lis s TLS = Open) /\
  brun su127ok [BMain; BMain; BFile; BListen TCP] = None /\
  (* with the interval 0 it ends once the listeners have been started *)
  (exists s, brun (mkSetup false false (fun t => match t with TCP => true | _ => false end) (fun _ => true) (fun _ => true) false)
     [BMain; BMain; BFile; BSlurm; BMain; BLoad; BMain; BListen TCP; BTake TCP; BMain; BMain; BMain] = Some s /\ b_exit s = Some 2%N /\ b_taken s = [TCP]).
Proof.
  split; [|split; [|split]].
  - split; [exists TCP; reflexivity|]. split; [split; [reflexivity|intros; reflexivity]|]. split; reflexivity.
  - eexists. split; [vm_compute; reflexivity|]. split; [|repeat split].
    intros l Hl. destruct l as [| | | | |t|t]; try reflexivity; destruct t; try reflexivity; exfalso; now apply (Hl _ eq_refl).
  - reflexivity.
  - eexists. split; [vm_compute; reflexivity|]. split; reflexivity.
Qed.

Print Assumptions C127_loaded.
Print Assumptions C127_outcome.
Print Assumptions C127_taken_refuted.
Print Assumptions C127_taken_exact_partial.
