(** Property C78: the metrics about clients; and C25 with SSH. *)
From Coq Require Import ZifyBool ZifyNat ZifyN String.
From Verif Require Import Lib.Str Model.ClientGauge Spec.Response Spec.Net Spec.Clients Proofs.WireP Proofs.ConnP Proofs.NetP3
  Proofs.ClientGaugeP Props.CacheProps Props.ConnProps Props.ConcProps.
Local Open Scope string_scope.
Local Open Scope list_scope.
Local Open Scope N_scope.

Definition gafter (addr : nat -> bytes) (srv : rtrserver) (sched : list glabel) : gnet :=
  match grun addr srv empty_gnet sched with Ok x => x | _ => empty_gnet end.
Definition gmany (n : nat) (l : list glabel) : list glabel := concat (repeat l n).
Definition restb (x : gnet) : bool :=
  match gn_owed x with [] => forallb (fun k => match k_prog k with [] => true | _ => false end) (n_conns (gn_net x)) | _ => false end.
Lemma restb_ok x : restb x = true -> at_rest x.
Proof.
  unfold restb, at_rest. destruct (gn_owed x); [|discriminate]. intros H. split; [reflexivity|]. intros i k Hk.
  rewrite forallb_forall in H. apply nth_error_In in Hk. specialize (H k Hk). now destruct (k_prog k).
Qed.

(** C78 rtr_clients is the number of clients connected: false.  A Serial Query in a bad
    version is counted out twice; the gauge is then -1, with nobody connected. *)
Definition on_one (i : nat) : bytes := str "192.0.2.1:8282".
Theorem C78_clients_refuted : exists cfg s sched x, grun on_one (new_rtr_server cfg s) empty_gnet sched = Ok x /\ at_rest x /\
  gn_gauge x (str "192.0.2.1:8282") = (-1)%Z /\ open_on on_one (str "192.0.2.1:8282") 0 (n_conns (gn_net x)) = 0%nat.
Proof.
  exists cfg1, 7, ([GNet (LAccept TCP); GNet (LStart 0); GMetric 0; GNet (LRead 0 (new_server 3) badserial)] ++ gmany 12 [GNet (LReader 0); GMetric 0]).
  eexists. split; [vm_compute; reflexivity|]. split; [apply restb_ok; vm_compute; reflexivity|]. split; vm_compute; reflexivity.
Qed.
(** What holds: it never shows more than the clients that are connected ... *)
Theorem C78_never_over_partial : forall addr srv sched x a, grun addr srv empty_gnet sched = Ok x -> at_rest x ->
  (gn_gauge x a <= Z.of_nat (open_on addr a 0 (n_conns (gn_net x))))%Z.
Proof.
  intros addr srv sched x a H [R1 R2].
  destruct (grun_le addr srv a sched empty_gnet x net_ok_empty ltac:(rewrite level_empty; lia) H) as [G1 G2].
  rewrite <- (listed_open addr a _ G1 R2). unfold level in G2. rewrite R1 in G2. cbn [owed] in G2. lia.
Qed.
(** Two clients on one address; the first asks in a bad version and is counted out twice. *)
Definition sched78o : list glabel :=
  [GNet (LAccept TCP); GNet (LStart 0); GMetric 0; GNet (LAccept TCP); GNet (LStart 1); GMetric 1; GNet (LRead 0 (new_server 3) badserial)] ++
  gmany 12 [GNet (LReader 0); GMetric 0].
Example C78_over_case : at_rest (gafter on_one (new_rtr_server cfg1 7) sched78o) /\
  grun on_one (new_rtr_server cfg1 7) empty_gnet sched78o = Ok (gafter on_one (new_rtr_server cfg1 7) sched78o) /\
  gn_gauge (gafter on_one (new_rtr_server cfg1 7) sched78o) (str "192.0.2.1:8282") = 0%Z /\
  open_on on_one (str "192.0.2.1:8282") 0 (n_conns (gn_net (gafter on_one (new_rtr_server cfg1 7) sched78o))) = 1%nat.
Proof. split; [apply restb_ok; vm_compute; reflexivity|]. split; [vm_compute; reflexivity|]. split; vm_compute; reflexivity. Qed.
(** ... and exactly these, per local address and over TCP, TLS and SSH, if no Serial Query
    arrives in a version other than the client's. *)
Theorem C78_clients_partial : forall addr cfg s sched x a, u16 s ->
  galong addr (new_rtr_server cfg s) in_version empty_gnet sched ->
  grun addr (new_rtr_server cfg s) empty_gnet sched = Ok x -> at_rest x ->
  gn_gauge x a = Z.of_nat (open_on addr a 0 (n_conns (gn_net x))).
Proof.
  intros addr cfg s sched x a Hs HA H [R1 R2].
  destruct (grun_eq addr cfg s a Hs sched empty_gnet x (calm_empty cfg) eq_refl (level_empty addr a) HA H) as (G1 & _ & G2).
  rewrite <- (listed_open addr a _ (proj1 G1) R2). unfold level in G2. rewrite R1 in G2. cbn [owed] in G2. lia.
Qed.
(** Three connections on two addresses, TCP, SSH and TLS; one asks, one ends. *)
Definition on_two (i : nat) : bytes := match i with 1%nat => str "[::1]:8284" | _ => str "192.0.2.1:8282" end.
Definition sched78 : list glabel :=
  map GNet [LAccept TCP; LAccept SSH; LStart 0; LSshBegin 1; LStart 1] ++ [GMetric 1; GNet (LAccept TLS); GNet (LStart 2); GMetric 2; GMetric 0;
    GNet (LRead 1 cacheA [1; 2; 0; 0; 0; 0; 0; 8])] ++ gmany 10 [GNet (LReader 1); GNet (LSender 1 WAll)] ++
    [GNet (LRead 0 cacheA [])] ++ gmany 3 [GNet (LReader 0); GMetric 0] ++ [GNet (LReturn 0)].
Fixpoint galongb (addr : nat -> bytes) (srv : rtrserver) (b : net -> label -> bool) (x : gnet) (sched : list glabel) : bool :=
  match sched with
  | [] => true
  | g :: r => match g with GNet l => b (gn_net x) l | GMetric _ => true end &&
              match gstep addr srv x g with Ok x' => galongb addr srv b x' r | _ => true end
  end.
Lemma galongb_ok addr srv (P : net -> label -> Prop) b : (forall w l, b w l = true -> P w l) ->
  forall sched x, galongb addr srv b x sched = true -> galong addr srv P x sched.
Proof.
  intros HP. induction sched as [|g r IH]; intros x H; cbn [galongb galong] in *; [exact I|].
  apply andb_prop in H as [H1 H2]. split; [destruct g; auto|]. intros x' E. rewrite E in H2. auto.
Qed.
Definition in_versionb (w : net) (l : label) : bool :=
  match l with
  | LRead i _ chunk => match nth_error (n_conns w) i, decode_bytes 64 chunk with
      | Some k, Ok (SerialQuery v _ _) => ((v =? 0) || (v =? 1)) && (negb (c_versionset (k_cli k)) || (v =? c_version (k_cli k)))
      | _, _ => true end
  | _ => true
  end.
Lemma in_versionb_ok w l : in_versionb w l = true -> in_version w l.
Proof.
  destruct l; cbn [in_version in_versionb]; try (intros; exact I).
  intros H1 k v sess n Hk Hd. rewrite Hk, Hd in H1. split; [lia|]. intros Hv. rewrite Hv in H1. cbn in H1. lia.
Qed.
Example C78_case : galong on_two srv1 in_version empty_gnet sched78 /\ at_rest (gafter on_two srv1 sched78) /\
  grun on_two srv1 empty_gnet sched78 = Ok (gafter on_two srv1 sched78) /\
  gn_gauge (gafter on_two srv1 sched78) (str "192.0.2.1:8282") = 1%Z /\ gn_gauge (gafter on_two srv1 sched78) (str "[::1]:8284") = 1%Z /\
  gn_gauge (gafter on_two srv1 (firstn 10 sched78)) (str "192.0.2.1:8282") = 2%Z /\
  gn_pdus (gafter on_two srv1 sched78) (str "reset_query") = 1.
Proof.
  split; [apply (galongb_ok _ _ _ _ in_versionb_ok); vm_compute; reflexivity|]. split; [apply restb_ok; vm_compute; reflexivity|].
  split; [vm_compute; reflexivity|]. repeat split; vm_compute; reflexivity.
Qed.

(** rtr_pdus counts the PDUs received: false.  Two in one segment count as one. *)
Theorem C78_pdus_refuted : exists cfg s sched x, grun on_one (new_rtr_server cfg s) empty_gnet
    ([GNet (LAccept TCP); GNet (LStart 0); GMetric 0; GNet (LRead 0 (new_server 3) ([1; 2; 0; 0; 0; 0; 0; 8] ++ [1; 2; 0; 0; 0; 0; 0; 8]))] ++ sched) = Ok x /\
  at_rest x /\ gn_pdus x (str "reset_query") = 1.
Proof.
  exists cfg1, 7, (gmany 5 [GNet (LReader 0)]). eexists. split; [vm_compute; reflexivity|].
  split; [apply restb_ok; vm_compute; reflexivity|vm_compute; reflexivity].
Qed.
(** What holds: each type has a counter of its own, and it is the number of PDUs of this type
    that the server has read and handled. *)
Theorem C78_pdus_partial : forall addr srv sched x p, grun addr srv empty_gnet sched = Ok x ->
  gn_pdus x (pdu_label p) = nlen (filter (fun q => get_type q =? get_type p) (pdus_read addr srv empty_gnet sched)).
Proof.
  intros addr srv sched x p H. rewrite (grun_pdus _ _ (pdu_label p) _ _ _ H). cbn [gn_pdus empty_gnet].
  rewrite N.add_0_l. f_equal. apply filter_ext. intros q. unfold of_label.
  destruct (N.eqb_spec (get_type q) (get_type p)) as [E|E].
  - apply beqb_eq. now apply label_type.
  - destruct (beqb (pdu_label q) (pdu_label p)) eqn:EB; [|reflexivity]. apply beqb_eq in EB. apply label_type in EB. contradiction.
Qed.
Example C78_pdus_case : pdus_read on_two srv1 empty_gnet sched78 = [ResetQuery 1] /\
  gn_pdus (gafter on_two srv1 sched78) (pdu_label (ResetQuery 0)) = 1 /\
  gn_pdus (gafter on_two srv1 sched78) (pdu_label (SerialQuery 0 0 0)) = 0.
Proof. repeat split; vm_compute; reflexivity. Qed.
Theorem C78_labels : map pdu_label [SerialQuery 1 0 0; ResetQuery 1; ErrorReport 1 0 [] []] =
  [str "serial_query"; str "reset_query"; str "error_report"] /\
  forall p q, pdu_label p = pdu_label q <-> get_type p = get_type q.
Proof. split; [reflexivity|exact label_type]. Qed.

(** C25 with SSH: an SSH connection counts once more as long as it lasts, and this is the only
    difference between the counter and the number of clients. *)
Lemma calm_run cfg s : u16 s -> forall sched w w', calm_inv cfg w -> count_ok w ->
  along (new_rtr_server cfg s) in_version w sched -> nrun (new_rtr_server cfg s) w sched = Ok w' -> count_ok w'.
Proof.
  intros Hs. induction sched as [|l r IH]; intros w w' HI HC HA H; cbn in H; [injection H as <-; auto|].
  destruct (nstep (new_rtr_server cfg s) w l) as [w1|e|] eqn:E; [|destruct e|discriminate].
  destruct HA as [HA HB]. cbn in H. apply (IH w1); auto; [eapply calm_step; eauto|eapply count_step; eauto].
Qed.
Theorem C25_ssh_partial : forall cfg s sched w, u16 s -> along (new_rtr_server cfg s) in_version empty_net sched ->
  nrun (new_rtr_server cfg s) empty_net sched = Ok w ->
  n_count w = (Z.of_nat (length (n_clients w)) + Z.of_nat (length (filter ssh_busy (n_conns w))))%Z.
Proof. intros cfg s sched w Hs HA H. exact (calm_run cfg s Hs _ _ _ (calm_empty cfg) eq_refl HA H). Qed.
Definition sched25s := [LAccept TCP; LStart 0; LAccept SSH; LSshBegin 1; LStart 1; LAccept SSH; LSshBegin 2; LAccept SSH; LSshBegin 3; LStart 3;
  LRead 3 cacheA []; LReader 3; LReader 3; LReader 3; LReturn 3].
Example C25_ssh_case : along srv1 in_version empty_net sched25s /\ runs srv1 sched25s = true /\
  (n_clients (after srv1 sched25s), n_count (after srv1 sched25s)) = ([0%nat; 1%nat], 4%Z).
Proof. split; [apply (alongb_ok _ _ _ in_versionb_ok)|split]; vm_compute; reflexivity. Qed.

Print Assumptions C78_clients_refuted.
Print Assumptions C78_never_over_partial.
Print Assumptions C78_clients_partial.
Print Assumptions C78_pdus_refuted.
Print Assumptions C78_pdus_partial.
Print Assumptions C78_labels.
Print Assumptions C25_ssh_partial.
