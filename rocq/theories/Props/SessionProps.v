(** Properties C85 and C86: a client session with its goroutines. *)
From Coq Require Import ZifyBool ZifyNat ZifyN.
From Verif Require Import Model.ClientConc Model.Rtrmon Model.Rtrdump Spec.Net Spec.ClientNet Proofs.WireP Proofs.NetP Proofs.SessionP Proofs.ClientConcP.
Local Open Scope list_scope.
Local Open Scope N_scope.

Definition cafter {H} (handle : H -> pdu -> H * list hact) hello (x : cc H) (sched : list clabel) : cc H :=
  match crun handle hello x sched with Ok x' => x' | _ => x end.
Definition cmany (n : nat) (l : list clabel) : list clabel := concat (repeat l n).
Fixpoint calongb {H} (handle : H -> pdu -> H * list hact) hello (b : cc H -> bool) (x : cc H) (sched : list clabel) : bool :=
  match sched with
  | [] => b x
  | l :: r => b x && match cstep1 handle hello x l with Ok x' => calongb handle hello b x' r | _ => true end
  end.
Lemma calongb_ok {H} (handle : H -> pdu -> H * list hact) hello (P : cc H -> Prop) b : (forall x, b x = true -> P x) ->
  forall sched x, calongb handle hello b x sched = true -> calong handle hello P x sched.
Proof.
  intros HP. induction sched as [|l r IH]; intros x E; cbn [calongb calong] in *; [auto|].
  apply andb_prop in E as [E1 E2]. split; [auto|]. intros x' EX. rewrite EX in E2. auto.
Qed.
(** The handler of rtrmon, and what it sends when it is connected. *)
Definition monq (break : bool) : mon -> pdu -> mon * list hact := quiet (mon_handle break 0).
Definition ask : list hact := [HSend (ResetQuery 0)].

(** C85 Queries go out in order: what is put on the channel is what is written, in order and
    once; when the sender is idle everything has been written. *)
Theorem C85_order : forall H (handle : H -> pdu -> H * list hact) hello v h b sched x,
  crun handle hello (new_cc v h b) sched = Ok x ->
  (exists rest, wire_of (cc_queued x) = cc_wire x ++ rest) /\
  nlen (cc_queue x) <= 256 /\
  (cc_up x = true -> exists sent, cc_wire x = wire_of sent /\ cc_queued x = sent ++ in_chand x ++ cc_queue x) /\
  (cc_up x = true -> cc_spc x = CSParked -> cc_wire x = wire_of (cc_queued x)).
Proof.
  intros H handle hello v h b sched x E. destruct (cfifo_run _ _ _ _ _ _ _ E) as (F1 & F2 & sent & F3 & F4 & rest & F5).
  split; [|split; [exact F2|split]].
  - exists (rest ++ wire_of (in_chand x ++ cc_queue x)). rewrite F3, wire_of_app, F5, app_assoc. reflexivity.
  - intros HU. exists sent. auto.
  - intros HU HP. rewrite F3, (F1 HP), (F4 HU). unfold in_chand. rewrite HP. cbn. now rewrite app_nil_r.
Qed.
(** The version on the wire never goes back up: false of the library.  SendPDU reads the version
    and sends in two steps; two goroutines that send while the session is downgraded can pass
    each other. *)
Definition sched85 : list clabel := [CRead; CRead; CRead; CPoll (SerialQuery 0 7 1); CRead; CPoll (SerialQuery 0 7 2); CPend 1; CPend 0].
Theorem C85_versions_refuted : exists sched x,
  crun (monq false) ask (new_cc 1 new_mon [0; 3; 0; 7; 0; 0; 0; 8]) sched = Ok x /\
  cc_queued x = [ResetQuery 1; SerialQuery 0 7 2; SerialQuery 1 7 1].
Proof. exists sched85. eexists. split; vm_compute; reflexivity. Qed.
(** What holds: never with one other goroutine that sends, and a handler that sends only when it
    is connected, as in rtrmon and rtrdump. *)
Theorem C85_versions_partial : forall H (handle : H -> pdu -> H * bool) hello v h b sched x,
  crun (quiet handle) hello (new_cc v h b) sched = Ok x ->
  calong (quiet handle) hello (fun x => (length (cc_pend x) <= 1)%nat) (new_cc v h b) sched ->
  descending (cc_queued x) /\ forall p, In p (cc_queued x) -> cc_ver x <= get_version p /\ (get_version p = v \/ (v = 1 /\ get_version p = 0)).
Proof.
  intros H handle hello v h b sched x E HA.
  assert (V : vinv v x).
  { eapply vinv_run; eauto; [split; [cbn; tauto|split; [auto|exact I]]|].
    split; [intros i j a c _ HI; destruct i; discriminate|]. split; [intros q []|]. split; [intros p q []|].
    left. split; [reflexivity|]. split; [intros q []|intros p []]. }
  destruct V as (V1 & V2 & _). split; [exact V1|]. intros p HI. split; [apply V2; apply in_or_app; now left|].
  assert (W : (cc_ver x = v \/ (v = 1 /\ cc_ver x = 0)) /\ (forall q, In q (cc_queued x ++ cc_pend x) \/ In (CPut q) (cc_prog x) -> get_version q = v \/ (v = 1 /\ get_version q = 0))).
  { revert E. apply (crun_inv (quiet handle) hello (fun x => (cc_ver x = v \/ (v = 1 /\ cc_ver x = 0)) /\
      (forall q, In q (cc_queued x ++ cc_pend x) \/ In (CPut q) (cc_prog x) -> get_version q = v \/ (v = 1 /\ get_version q = 0)))).
    - exact (vers_step handle hello v).
    - split; [now left|]. intros q [[]|[]]. }
  destruct W as [_ W]. apply W. left. apply in_or_app. now left.
Qed.
Definition sched85b : list clabel := [CRead; CPoll (SerialQuery 0 0 0); CRead; CRead; CSend CWAll; CPend 0; CSend CWAll; CSend CWAll;
  CPoll (SerialQuery 0 7 1); CRead; CPend 0; CPoll (SerialQuery 0 7 2); CPend 0] ++ cmany 11 [CSend CWAll].
Example C85_case : let x := cafter (monq false) ask (new_cc 1 new_mon [0; 3; 0; 7; 0; 0; 0; 8]) sched85b in
  crun (monq false) ask (new_cc 1 new_mon [0; 3; 0; 7; 0; 0; 0; 8]) sched85b = Ok x /\
  calong (monq false) ask (fun x => (length (cc_pend x) <= 1)%nat) (new_cc 1 new_mon [0; 3; 0; 7; 0; 0; 0; 8]) sched85b /\
  cc_queued x = [ResetQuery 1; SerialQuery 1 0 0; SerialQuery 1 7 1; SerialQuery 0 7 2] /\
  cc_up x = true /\ cc_spc x = CSParked /\
  cc_wire x = [1; 2; 0; 0; 0; 0; 0; 8] ++ [1; 1; 0; 0; 0; 0; 0; 12; 0; 0; 0; 0] ++ [1; 1; 0; 7; 0; 0; 0; 12; 0; 0; 0; 1] ++ [0; 1; 0; 7; 0; 0; 0; 12; 0; 0; 0; 2].
Proof.
  cbv zeta. split; [vm_compute; reflexivity|]. split; [|repeat split; vm_compute; reflexivity].
  apply (calongb_ok _ _ _ (fun x => (length (cc_pend x) <=? 1)%nat)); [intros y; apply Nat.leb_le|vm_compute; reflexivity].
Qed.

(** C86 A session ends cleanly.  However the goroutines interleave, StartRW does with the bytes of
    the peer what it does on its own ([start_rw], the subject of C55 to C58): ... *)
Theorem C86_alone : forall H (handle : H -> pdu -> H * bool) hello v h b sched x e, bytes_ok b -> ~ In HDisc hello ->
  crun (quiet handle) hello (new_cc v h b) sched = Ok x -> cc_pc x = REnd e ->
  let r := start_rw handle v h b in cc_ver x = o_version r /\ cc_st x = o_state r /\ e = o_end r.
Proof.
  intros H handle hello v h b sched x e HB HH E HE. cbv zeta. destruct (follows_run handle hello v h b sched x HB HH E) as [_ HF].
  rewrite HE in HF. destruct HF as (F1 & F2 & F3). auto.
Qed.
(** ... it returns, if the channel for queries never is full: ... *)
Theorem C86_returns : forall H (handle : H -> pdu -> H * bool) hello v h b sched x, bytes_ok b -> ~ In HDisc hello ->
  calong (quiet handle) hello (fun x => nlen (cc_queue x) < 256) (new_cc v h b) sched ->
  (5 * length b + 2 * length hello + 7 <= read_steps sched)%nat ->
  crun (quiet handle) hello (new_cc v h b) sched = Ok x -> exists e, cc_pc x = REnd e.
Proof.
  intros H handle hello v h b sched x HB HH HA HL E.
  assert (HM : (mu hello x <= mu hello (new_cc v h b) - read_steps sched)%nat).
  { apply (mu_run handle hello sched HH (new_cc v h b) x); auto. split; [exact HB|]. split; [reflexivity|]. split; [cbn; tauto|split; [auto|exact I]]. }
  assert (mu hello (new_cc v h b) = 5 * length b + 7 + 2 * length hello)%nat as HX by reflexivity. unfold mu at 1 in HM.
  destruct (cc_pc x); [lia|destruct (cc_flag x && negb (flags_off (cc_prog x))); lia|lia|eauto].
Qed.
Definition eod7 : bytes := [1; 3; 0; 7; 0; 0; 0; 8] ++ [1; 7; 0; 7; 0; 0; 0; 24; 0; 0; 0; 5; 0; 0; 14; 16; 0; 0; 2; 88; 0; 0; 28; 32].
Example C86_case : let x := cafter (monq true) ask (new_cc 1 new_mon eod7) (cmany 200 [CRead; CSend CWAll]) in
  crun (monq true) ask (new_cc 1 new_mon eod7) (cmany 200 [CRead; CSend CWAll]) = Ok x /\
  calong (monq true) ask (fun x => nlen (cc_queue x) < 256) (new_cc 1 new_mon eod7) (cmany 200 [CRead; CSend CWAll]) /\
  (5 * length eod7 + 2 * length ask + 7 <= read_steps (cmany 200 [CRead; CSend CWAll]))%nat /\
  cc_pc x = REnd Finished /\ mo_serial (cc_st x) = 5 /\ cc_spc x = CSDone.
Proof.
  cbv zeta. split; [vm_compute; reflexivity|]. split; [|split; [vm_compute; lia|repeat split; vm_compute; reflexivity]].
  apply (calongb_ok _ _ _ (fun x => nlen (cc_queue x) <? 256)); [intros y; apply N.ltb_lt|vm_compute; reflexivity].
Qed.
(** ... but then the sender may stay behind for ever, if Disconnect runs between its test and its
    select (rtr.break; every round of rtrmon can leave one behind).  And so may a goroutine inside
    SendPDU: with 256 queries waiting it is never woken up. *)
Definition sched86 : list clabel := [CRead; CRead; CRead] ++ cmany 4 [CSend CWAll] ++ cmany 7 [CRead] ++ [CSend CWAll].
Theorem C86_sender_refuted : exists sched x,
  crun (monq true) ask (new_cc 1 new_mon eod7) sched = Ok x /\ cc_pc x = REnd Finished /\ cc_wire x = [1; 2; 0; 0; 0; 0; 0; 8] /\
  forall sched' x', polls sched' = 0%nat -> crun (monq true) ask x sched' = Ok x' -> cc_spc x' = CSParked.
Proof.
  exists sched86. eexists. split; [vm_compute; reflexivity|]. split; [reflexivity|]. split; [reflexivity|].
  intros sched' x'. apply parked_run. repeat split.
Qed.
Definition err7 : bytes := [1; 10; 0; 1; 0; 0; 0; 16; 0; 0; 0; 0; 0; 0; 0; 0].
Definition sched86b : list clabel := cmany 3 [CRead] ++ cmany 2 [CSend CWAll] ++ cmany 257 [CPoll (SerialQuery 0 7 1); CPend 0] ++ cmany 6 [CRead] ++
  [CSend (CWFail 0); CSend CWAll].
Theorem C86_poll_refuted : exists sched x,
  crun (monq false) ask (new_cc 1 new_mon err7) sched = Ok x /\ cc_pc x = REnd Finished /\ cc_spc x = CSDone /\
  forall sched' x', crun (monq false) ask x sched' = Ok x' -> exists r, cc_pend x' = SerialQuery 1 7 1 :: r.
Proof.
  exists sched86b. eexists. split; [vm_compute; reflexivity|]. split; [reflexivity|]. split; [reflexivity|].
  intros sched' x'. apply clogged_run. split; [|repeat split]. eexists. reflexivity.
Qed.
(** What holds: once StartRW has returned, three more steps of the sender end it, unless
    Disconnect ran between its test and its select; and a goroutine inside SendPDU gets out with
    its next step if there is room. *)
Theorem C86_sender_partial : forall H (handle : H -> pdu -> H * list hact) hello v h b sched x e,
  crun handle hello (new_cc v h b) sched = Ok x -> cc_pc x = REnd e ->
  (exists s1 s2 x1 r, sched = s1 ++ CRead :: s2 /\ crun handle hello (new_cc v h b) s1 = Ok x1 /\
     cc_prog x1 = CQuit :: r /\ cc_spc x1 = CSEnter /\ cc_queue x1 = []) \/
  forall sched' x', crun handle hello x sched' = Ok x' -> (3 <= send_steps sched')%nat -> cc_spc x' = CSDone.
Proof.
  intros H handle hello v h b sched x e E HE.
  assert (HL0 : leaving (new_cc v h b)) by (split; [split; [cbn; tauto|split; [auto|exact I]]|cbn; split; [exact I|split; [auto|split; [discriminate|exact I]]]]).
  destruct (leaving_run handle hello sched (new_cc v h b) x HL0 E) as [HL|(s1 & l & s2 & x1 & K1 & K2 & -> & (r & K3) & K4 & K5)]; [right|left; eauto 10].
  intros sched' x' E' H3. destruct HL as (HS & L2 & L3 & L4 & L5). rewrite HE in L3, L5.
  assert (HF : cc_flag x = false) by (destruct (cc_flag x); [destruct (L3 eq_refl)|reflexivity]).
  assert (HG : going 3 x) by (destruct (L4 HF) as [G|G]; [exact G|rewrite L5 in G; destruct G]).
  destruct (going_run handle hello sched' 3 x x' HS HG E') as (_ & m & HM & HL').
  assert (m = 0%nat) by lia. subst m. unfold to_go in HM. destruct (cc_spc x'); try discriminate; [|reflexivity].
  destruct (cc_queue x'); discriminate.
Qed.
Theorem C86_poll_partial : forall H (handle : H -> pdu -> H * list hact) hello (x : cc H) n p,
  nth_error (cc_pend x) n = Some p -> cc_spc x = CSParked \/ nlen (cc_queue x) < 256 ->
  exists x', cstep1 handle hello x (CPend n) = Ok x' /\ length (cc_pend x') = (length (cc_pend x) - 1)%nat /\ cc_queued x' = cc_queued x ++ [p].
Proof.
  intros H handle hello x n p HN HR. cbn [cstep1]. rewrite HN.
  assert (exists x1, cput x p = Some x1) as [x1 E1].
  { unfold cput. destruct (cc_spc x); try (eexists; reflexivity); (destruct HR as [HR|HR]; [discriminate|]);
      (replace (nlen (cc_queue x) <? 256) with true by lia); eexists; reflexivity. }
  rewrite E1. eexists. split; [reflexivity|]. apply cput_fields in E1 as (_ & _ & _ & _ & _ & _ & _ & G8 & _).
  split; [|exact G8]. cbn. assert (n < length (cc_pend x))%nat by (apply nth_error_Some; congruence). rewrite app_length, firstn_length.
  change (length (match cc_pend x with [] => [] | _ :: l => skipn n l end)) with (length (skipn (Datatypes.S n) (cc_pend x))). rewrite skipn_length. lia.
Qed.
(** Disconnect while the sender writes; nothing is left behind. *)
Definition sched86c : list clabel := cmany 3 [CRead] ++ [CSend CWAll; CSend CWAll] ++ cmany 8 [CRead].
Example C86_partial_case : let x := cafter (monq true) ask (new_cc 1 new_mon eod7) sched86c in
  crun (monq true) ask (new_cc 1 new_mon eod7) sched86c = Ok x /\ cc_pc x = REnd Finished /\ cc_spc x = CSWrite (ResetQuery 1) /\
  (forall s1 s2 x1, sched86c = s1 ++ CRead :: s2 -> crun (monq true) ask (new_cc 1 new_mon eod7) s1 = Ok x1 -> ~ (cc_spc x1 = CSEnter /\ cc_queue x1 = [])).
Proof.
  cbv zeta. split; [vm_compute; reflexivity|]. split; [vm_compute; reflexivity|]. split; [vm_compute; reflexivity|].
  assert (A : forallb (fun n => match crun (monq true) ask (new_cc 1 new_mon eod7) (firstn n sched86c) with
                                | Ok y => match cc_spc y with CSEnter => match cc_queue y with [] => false | _ => true end | _ => true end
                                | _ => true end) (seq 0 14) = true) by (vm_compute; reflexivity).
  rewrite forallb_forall in A. intros s1 s2 x1 E1 E2 [E3 E4]. specialize (A (length s1)). rewrite E1, firstn_app, Nat.sub_diag, firstn_all, app_nil_r, E2, E3, E4 in A.
  discriminate A. apply in_seq. assert (length sched86c = 13%nat) as L by reflexivity. rewrite E1, app_length in L. cbn in L. lia.
Qed.

Print Assumptions C85_order.
Print Assumptions C85_versions_refuted.
Print Assumptions C85_versions_partial.
Print Assumptions C86_alone.
Print Assumptions C86_returns.
Print Assumptions C86_sender_refuted.
Print Assumptions C86_poll_refuted.
Print Assumptions C86_sender_partial.
Print Assumptions C86_poll_partial.
