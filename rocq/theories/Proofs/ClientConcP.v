(** Lemmas about a client session with its goroutines. *)
From Coq Require Import ZifyBool ZifyNat ZifyN.
From Verif Require Import Model.ClientConc Spec.Net Spec.ClientNet Proofs.WireP Proofs.NetP Proofs.SessionP.
Ltac Zify.zify_post_hook ::= Z.div_mod_to_equations.

Lemma crun_inv {H} (handle : H -> pdu -> H * list hact) hello (I : cc H -> Prop) :
  (forall x l x', I x -> cstep1 handle hello x l = Ok x' -> I x') ->
  forall sched x x', I x -> crun handle hello x sched = Ok x' -> I x'.
Proof.
  intros HS. induction sched as [|l r IH]; intros x x' HI E; cbn [crun] in E; [injection E as <-; exact HI|].
  destruct (cstep1 handle hello x l) as [x1|e|] eqn:E1; [|destruct e|discriminate]. cbn [bind] in E. eauto.
Qed.

(** *** First in, first out *)
Definition cfifo {H} (x : cc H) : Prop :=
  (cc_spc x = CSParked -> cc_queue x = []) /\ nlen (cc_queue x) <= 256 /\
  exists sent, cc_queued x = sent ++ in_chand x ++ cc_queue x /\
    (cc_up x = true -> cc_wire x = wire_of sent) /\ exists rest, wire_of sent = cc_wire x ++ rest.

Lemma cfifo_put {H} (x x' : cc H) p : cfifo x -> cput x p = Some x' -> cfifo x'.
Proof.
  intros (HP & HL & sent & HQ & HU & rest & HW). unfold cput, in_chand in *.
  destruct (cc_spc x) eqn:EP;
    try (destruct (nlen (cc_queue x) <? 256) eqn:EL; [|discriminate]; intros [=<-];
         split; [cbn; congruence|split; [cbn; unfold nlen in *; rewrite app_length; cbn; lia|]];
         exists sent; split; [unfold in_chand; cbn [cc_queued cc_spc cc_queue]; rewrite HQ, <- !app_assoc; reflexivity
         |split; [exact HU|exists rest; exact HW]]).
  intros [=<-]. split; [cbn; congruence|split; [cbn; lia|]].
  exists sent. unfold in_chand in *. cbn. rewrite HQ, (HP eq_refl).
  split; [now rewrite !app_nil_r|]. split; [exact HU|exists rest; exact HW].
Qed.
Lemma cfifo_send {H} (x x' : cc H) o : cfifo x -> csender x o = Ok x' -> cfifo x'.
Proof.
  intros (HP & HL & sent & HQ & HU & rest & HW) E. unfold csender in E. destruct (cc_spc x) eqn:EP.
  - injection E as <-. split; [congruence|]. split; [auto|]. exists sent; eauto.
  - injection E as <-. unfold cfifo, in_chand in *. rewrite EP in HQ. cbn. split; [destruct (cc_flag x); discriminate|].
    split; [auto|]. exists sent. destruct (cc_flag x); cbn; eauto.
  - unfold in_chand in HQ. rewrite EP in HQ. destruct (cc_queue x) as [|p q] eqn:EQ; injection E as <-.
    + unfold cfifo, in_chand. cbn. split; [auto|]. split; [lia|]. exists sent; eauto.
    + unfold cfifo, in_chand. cbn. split; [discriminate|].
      split; [unfold nlen in *; cbn in HL; lia|]. exists sent; eauto.
  - injection E as <-. split; [auto|]. split; [auto|]. exists sent; eauto.
  - destruct (encode p) as [b|e|] eqn:EB; [|destruct e|discriminate]. cbn in E.
    unfold in_chand in HQ. rewrite EP in HQ. rewrite app_assoc in HQ.
    assert (EW : wire_of (sent ++ [p]) = wire_of sent ++ b).
    { rewrite wire_of_app. cbn. rewrite EB, app_nil_r. reflexivity. }
    destruct (cc_up x) eqn:EU; [destruct o as [|m]|]; injection E as <-;
      (unfold cfifo, in_chand; cbn; split; [discriminate|]; split; [auto|]; exists (sent ++ [p]);
       split; [exact HQ|]; split; [intros; try discriminate|]).
    + rewrite EW, HU; auto.
    + exists []. now rewrite app_nil_r, EW, HU.
    + exists (skipn m b). rewrite EW, (HU eq_refl), <- app_assoc, firstn_skipn. reflexivity.
    + exists (rest ++ b). rewrite EW, HW, app_assoc. reflexivity.
  - injection E as <-. split; [congruence|]. split; [auto|]. exists sent; eauto.
Qed.
Lemma cfifo_same {H} (x x' : cc H) : cc_spc x' = cc_spc x -> cc_queue x' = cc_queue x -> cc_queued x' = cc_queued x ->
  cc_wire x' = cc_wire x -> cc_up x' = cc_up x -> cfifo x -> cfifo x'.
Proof. unfold cfifo, in_chand. intros -> -> -> -> -> HF. exact HF. Qed.
Lemma cfifo_step {H} (handle : H -> pdu -> H * list hact) hello (x : cc H) l x' :
  (cc_pc x = RBegin -> cc_spc x = CSNone) /\ cfifo x -> cstep1 handle hello x l = Ok x' ->
  (cc_pc x' = RBegin -> cc_spc x' = CSNone) /\ cfifo x'.
Proof.
  intros [HB HF] E. destruct l as [|o|p|n]; cbn [cstep1] in E.
  - unfold creader in E. destruct (cc_prog x) as [|[p|p| | | |] r] eqn:EP.
    + destruct (cc_pc x) as [| |e|e] eqn:EC; cbn [cc_pc] in *.
      * injection E as <-. split; [discriminate|]. specialize (HB eq_refl).
        destruct HF as (HP & HL & sent & HQ & HU & HW). unfold cfifo, in_chand in *. rewrite HB in *. cbn.
        split; [discriminate|]. split; [auto|]. exists sent; eauto.
      * destruct (cc_flag x).
        -- destruct (decode 64 (cc_in x)) as [[dec b]|e|]; [|injection E as <-|discriminate].
           ++ destruct (handle (cc_st x) dec) as [st acts]. injection E as <-. split; [discriminate|].
              now apply (cfifo_same x).
           ++ split; [discriminate|]. now apply (cfifo_same x).
        -- injection E as <-. split; [discriminate|]. now apply (cfifo_same x).
      * injection E as <-. split; [discriminate|]. now apply (cfifo_same x).
      * injection E as <-. split; [congruence|]. exact HF.
    + injection E as <-. split; [exact HB|now apply (cfifo_same x)].
    + destruct (cput x p) as [x1|] eqn:E1; injection E as <-; [|split; auto].
      pose proof (cfifo_put _ _ _ HF E1) as F1. split; [|now apply (cfifo_same x1)].
      cbn. unfold cput in E1. destruct (cc_spc x) eqn:ES; try (destruct (nlen (cc_queue x) <? 256); [|discriminate]);
        injection E1 as <-; cbn; auto. intros HH. specialize (HB HH). congruence.
    + injection E as <-. split; [exact HB|now apply (cfifo_same x)].
    + injection E as <-. split; [exact HB|now apply (cfifo_same x)].
    + injection E as <-. destruct (cc_spc x) eqn:ES;
        try (split; [cbn; rewrite ?ES; auto|apply (cfifo_same x); auto; cbn; rewrite ?ES; auto]; fail).
      split; [cbn; intros HH; specialize (HB HH); congruence|].
      destruct HF as (HP & HL & sent & HQ & HU & HW). unfold cfifo, in_chand in *. rewrite ES in *. cbn.
      split; [discriminate|]. split; [auto|]. exists sent; eauto.
    + injection E as <-. split; [exact HB|].
      destruct HF as (HP & HL & sent & HQ & HU & HW). unfold cfifo, in_chand in *. cbn.
      split; [auto|]. split; [auto|]. exists sent. split; [exact HQ|]. split; [discriminate|exact HW].
  - split; [|exact (cfifo_send _ _ _ HF E)]. unfold csender in E. destruct (cc_spc x) eqn:ES;
      try (injection E as <-; cbn; rewrite ?ES; auto; intros HH; specialize (HB HH); congruence).
    + destruct (cc_queue x); injection E as <-; cbn; intros HH; specialize (HB HH); congruence.
    + destruct (encode p) as [b|e|]; [|destruct e|discriminate]. cbn in E.
      assert (cc_pc x' = cc_pc x) as -> by (destruct (cc_up x); [destruct o|]; injection E as <-; reflexivity).
      intros HH. specialize (HB HH). congruence.
  - injection E as <-. split; [exact HB|now apply (cfifo_same x)].
  - destruct (nth_error (cc_pend x) n) as [p|]; [|injection E as <-; split; auto].
    destruct (cput x p) as [x1|] eqn:E1; injection E as <-; [|split; auto].
    pose proof (cfifo_put _ _ _ HF E1) as F1. split; [|now apply (cfifo_same x1)].
    cbn. unfold cput in E1. destruct (cc_spc x) eqn:ES; try (destruct (nlen (cc_queue x) <? 256); [|discriminate]);
      injection E1 as <-; cbn; auto. intros HH. specialize (HB HH). congruence.
Qed.
Lemma cfifo_run {H} (handle : H -> pdu -> H * list hact) hello v h b sched x :
  crun handle hello (new_cc v h b) sched = Ok x -> cfifo x.
Proof.
  intros E. refine (proj2 (crun_inv handle hello (fun x => (cc_pc x = RBegin -> cc_spc x = CSNone) /\ cfifo x) _ _ _ _ _ E)).
  - apply cfifo_step.
  - split; [reflexivity|]. split; [discriminate|]. split; [cbn; lia|]. exists []. split; [reflexivity|]. split; [reflexivity|]. exists []. reflexivity.
Qed.

(** *** StartRW as if it were alone *)
Definition flags_off (l : list cop) : bool := existsb (fun o => match o with CFlag => true | _ => false end) l.
Definition ends_as {H} (r : outcome H) (v : N) (h : H) (e : ending) : Prop :=
  o_version r = v /\ o_state r = h /\ o_end r = e.
Definition same_end {H} (r r' : outcome H) : Prop := ends_as r (o_version r') (o_state r') (o_end r').
Definition follows {H} (handle : H -> pdu -> H * bool) (r : outcome H) (x : cc H) : Prop :=
  bytes_ok (cc_in x) /\
  match cc_pc x with
  | RBegin => cc_flag x = true /\ cc_prog x = [] /\ same_end r (start_rw handle (cc_ver x) (cc_st x) (cc_in x))
  | RLoop => (cc_flag x = true /\ flags_off (cc_prog x) = false /\ same_end r (start_rw handle (cc_ver x) (cc_st x) (cc_in x)))
             \/ ((cc_flag x = false \/ flags_off (cc_prog x) = true) /\ ends_as r (cc_ver x) (cc_st x) Finished)
  | RFail e => ends_as r (cc_ver x) (cc_st x) (Failed e)
  | REnd e => ends_as r (cc_ver x) (cc_st x) e
  end.
Lemma follows_same {H} (handle : H -> pdu -> H * bool) r (x x' : cc H) : cc_in x' = cc_in x -> cc_pc x' = cc_pc x ->
  cc_flag x' = cc_flag x -> cc_prog x' = cc_prog x -> cc_ver x' = cc_ver x -> cc_st x' = cc_st x ->
  follows handle r x -> follows handle r x'.
Proof. unfold follows. intros -> -> -> -> -> ->. auto. Qed.
Lemma follows_prog {H} (handle : H -> pdu -> H * bool) r (x x' : cc H) : cc_in x' = cc_in x -> cc_pc x' = cc_pc x ->
  cc_ver x' = cc_ver x -> cc_st x' = cc_st x -> cc_prog x <> [] ->
  (cc_flag x' = false \/ flags_off (cc_prog x') = true <-> cc_flag x = false \/ flags_off (cc_prog x) = true) ->
  follows handle r x -> follows handle r x'.
Proof.
  unfold follows. intros -> -> -> -> HN HX [HB HF]. split; [exact HB|]. destruct (cc_pc x); [now destruct HF as (_ & HF & _)| |exact HF|exact HF].
  destruct HF as [(F1 & F2 & F3)|[F1 F2]]; [left|right; split; [tauto|auto]].
  assert (~ (cc_flag x = false \/ flags_off (cc_prog x) = true)) as HY by (intros [?|?]; congruence).
  destruct (cc_flag x'); [|exfalso; tauto]. destruct (flags_off (cc_prog x')); [exfalso; tauto|]. auto.
Qed.
Lemma cput_fields {H} (x x' : cc H) p : cput x p = Some x' -> cc_in x' = cc_in x /\ cc_pc x' = cc_pc x /\
  cc_ver x' = cc_ver x /\ cc_st x' = cc_st x /\ cc_flag x' = cc_flag x /\ cc_prog x' = cc_prog x /\ cc_pend x' = cc_pend x /\
  cc_queued x' = cc_queued x ++ [p] /\ cc_up x' = cc_up x /\ cc_wire x' = cc_wire x.
Proof.
  unfold cput. destruct (cc_spc x); try (destruct (nlen (cc_queue x) <? 256); [|discriminate]); intros [= <-]; cbn; tauto.
Qed.
Lemma csender_fields {H} (x x' : cc H) o : csender x o = Ok x' -> cc_in x' = cc_in x /\ cc_pc x' = cc_pc x /\
  cc_ver x' = cc_ver x /\ cc_st x' = cc_st x /\ cc_flag x' = cc_flag x /\ cc_prog x' = cc_prog x /\ cc_pend x' = cc_pend x /\
  cc_queued x' = cc_queued x.
Proof.
  unfold csender. destruct (cc_spc x); try (intros [= <-]; cbn; tauto).
  - destruct (cc_queue x); intros [= <-]; cbn; tauto.
  - destruct (encode p) as [b|e|]; [|destruct e|discriminate]. cbn.
    destruct (cc_up x); [destruct o|]; intros [= <-]; cbn; tauto.
Qed.
Lemma flags_hello l : ~ In HDisc l -> flags_off (cops l) = false.
Proof.
  induction l as [|a l IH]; intros HN; [reflexivity|]. destruct a as [p|]; [|exfalso; apply HN; now left].
  cbn. apply IH. intros HI. apply HN. now right.
Qed.
Lemma follows_step {H} (handle : H -> pdu -> H * bool) hello r (x x' : cc H) l : ~ In HDisc hello ->
  follows handle r x -> cstep1 (quiet handle) hello x l = Ok x' -> follows handle r x'.
Proof.
  intros HH HF E. destruct l as [|o|p|n]; cbn [cstep1] in E.
  - unfold creader in E. destruct (cc_prog x) as [|[p|p| | | |] q] eqn:EP.
    + destruct HF as [HB HF]. destruct (cc_pc x) as [| |e|e] eqn:EC.
      * injection E as <-. split; [exact HB|]. cbn. destruct HF as (F1 & _ & F3). left.
        split; [exact F1|]. split; [now apply flags_hello|exact F3].
      * rewrite EP in HF. destruct (cc_flag x) eqn:EF.
        -- destruct HF as [(_ & _ & F3)|[[F|F] _]]; [|discriminate|discriminate].
           rewrite start_rw_step in F3 by exact HB.
           destruct (decode 64 (cc_in x)) as [[dec b]|e|] eqn:ED; [|injection E as <-|discriminate].
           ++ destruct (decode_shorter _ _ _ HB ED) as [HB' _]. unfold quiet in E. injection E as <-.
              cbv zeta in F3. destruct (handle (cc_st x) dec) as [h' d]. cbn [fst snd].
              split; [exact HB'|]. cbn. rewrite EF. destruct d; [right|left].
              ** split; [right; reflexivity|]. exact F3.
              ** split; [reflexivity|]. split; [reflexivity|]. exact F3.
           ++ split; [exact HB|]. cbn. exact F3.
        -- injection E as <-. split; [exact HB|]. cbn. destruct HF as [(F & _)|[_ HF]]; [discriminate|exact HF].
      * injection E as <-. split; [exact HB|]. exact HF.
      * injection E as <-. split; [exact HB|]. rewrite EC. exact HF.
    + injection E as <-. apply (follows_prog handle r x); auto; [congruence|]. cbn. rewrite EP. cbn. tauto.
    + destruct (cput x p) as [x1|] eqn:E1; injection E as <-; [|exact HF].
      apply cput_fields in E1 as (G1 & G2 & G3 & G4 & G5 & G6 & _).
      apply (follows_prog handle r x); auto; [congruence|]. cbn. rewrite EP, G5. cbn. tauto.
    + injection E as <-. apply (follows_prog handle r x); auto; [congruence|]. cbn. rewrite EP. cbn. tauto.
    + injection E as <-. apply (follows_prog handle r x); auto; [congruence|]. cbn. rewrite EP. cbn. tauto.
    + injection E as <-. apply (follows_prog handle r x); auto; try (destruct (cc_spc x); reflexivity); [congruence|].
      cbn. rewrite EP. cbn. destruct (cc_spc x); cbn; tauto.
    + injection E as <-. apply (follows_prog handle r x); auto; [congruence|]. cbn. rewrite EP. cbn. tauto.
  - apply csender_fields in E as (G1 & G2 & G3 & G4 & G5 & G6 & _). apply (follows_same handle r x); auto.
  - injection E as <-. now apply (follows_same handle r x).
  - destruct (nth_error (cc_pend x) n) as [p|]; [|injection E as <-; auto].
    destruct (cput x p) as [x1|] eqn:E1; injection E as <-; [|auto].
    apply cput_fields in E1 as (G1 & G2 & G3 & G4 & G5 & G6 & _). now apply (follows_same handle r x).
Qed.
Lemma follows_run {H} (handle : H -> pdu -> H * bool) hello v h b sched x : bytes_ok b -> ~ In HDisc hello ->
  crun (quiet handle) hello (new_cc v h b) sched = Ok x -> follows handle (start_rw handle v h b) x.
Proof.
  intros HB HH E. revert E. apply crun_inv.
  - intros. eapply follows_step; eauto.
  - split; [exact HB|]. cbn. repeat split.
Qed.

(** *** Ending the sender *)
Fixpoint okp (f : bool) (l : list cop) : Prop :=
  match l with
  | [] => True
  | CFlag :: r => okp false r
  | (CGone | CQuit | CClose) :: r => f = false /\ okp f r
  | _ :: r => okp f r
  end.
Lemma okp_false f l : okp f l -> okp false l.
Proof.
  revert f. induction l as [|o r IH]; intros f; [auto|]. destruct o; cbn; eauto; intros [? ?]; split; eauto.
Qed.
Lemma okp_cops f l : okp f (cops l).
Proof.
  revert f. induction l as [|a r IH]; intros f; [exact I|]. destruct a as [p|]; cbn; auto 10.
Qed.
Definition started {H} (x : cc H) : Prop :=
  (cc_pc x = RBegin <-> cc_spc x = CSNone) /\ (cc_pc x = RBegin -> cc_prog x = []) /\ okp (cc_flag x) (cc_prog x).
Lemma started_step {H} (handle : H -> pdu -> H * list hact) hello (x x' : cc H) l :
  started x -> cstep1 handle hello x l = Ok x' -> started x'.
Proof.
  intros (S1 & S2 & S3) E. destruct l as [|o|p|n]; cbn [cstep1] in E.
  - unfold creader in E. destruct (cc_prog x) as [|[p|p| | | |] q] eqn:EP; cbn [okp] in S3.
    + destruct (cc_pc x) as [| |e|e] eqn:EC.
      * injection E as <-. split; [cbn; split; discriminate|]. split; [discriminate|]. cbn. apply okp_cops.
      * assert (cc_spc x <> CSNone) as HN by (intros HX; apply S1 in HX; discriminate).
        destruct (cc_flag x) eqn:EF.
        -- destruct (decode 64 (cc_in x)) as [[dec b]|e|]; [|injection E as <-|discriminate].
           ++ destruct (handle (cc_st x) dec) as [st acts]. injection E as <-.
              split; [cbn; split; [discriminate|intros; contradiction]|]. split; [discriminate|]. cbn. apply okp_cops.
           ++ split; [cbn; split; [discriminate|intros; contradiction]|]. split; [discriminate|]. cbn. auto.
        -- injection E as <-. split; [cbn; split; [discriminate|intros; contradiction]|]. split; [discriminate|]. cbn. now rewrite EP.
      * assert (cc_spc x <> CSNone) as HN by (intros HX; apply S1 in HX; discriminate).
        injection E as <-. split; [cbn; split; [discriminate|intros; contradiction]|]. split; [discriminate|]. cbn. now rewrite EP.
      * injection E as <-. unfold started. rewrite EC, EP. split; [exact S1|]. split; [discriminate|exact I].
    + injection E as <-. split; [exact S1|]. split; [intros HX; specialize (S2 HX); discriminate|]. exact S3.
    + destruct (cput x p) as [x1|] eqn:E1; injection E as <-; [|unfold started; rewrite EP; auto].
      pose proof E1 as E2. apply cput_fields in E1 as (G1 & G2 & G3 & G4 & G5 & G6 & _).
      assert (cc_pc x <> RBegin) as HN by (intros HX; specialize (S2 HX); discriminate).
      assert (cc_spc x1 <> CSNone) as HM.
      { unfold cput in E2. destruct (cc_spc x) eqn:ES; try (destruct (nlen (cc_queue x) <? 256); [|discriminate]); injection E2 as <-; cbn; try discriminate.
        exfalso. apply HN. now apply S1. }
      split; [cbn; rewrite G2; tauto|]. split; [cbn; rewrite G2; intros; contradiction|]. cbn. rewrite G5. exact S3.
    + injection E as <-. split; [exact S1|]. split; [intros HX; specialize (S2 HX); discriminate|]. exact S3.
    + injection E as <-. split; [exact S1|]. split; [intros HX; specialize (S2 HX); discriminate|]. exact (proj2 S3).
    + injection E as <-. assert (cc_pc x <> RBegin) as HN by (intros HX; specialize (S2 HX); discriminate).
      assert (cc_spc x <> CSNone) as HM by tauto.
      split; [destruct (cc_spc x) eqn:ES; cbn; rewrite ?ES; split; intros; try discriminate; tauto|].
      split; [intros HX; exfalso; apply HN; destruct (cc_spc x); exact HX|].
      destruct (cc_spc x); exact (proj2 S3).
    + injection E as <-. split; [exact S1|]. split; [intros HX; specialize (S2 HX); discriminate|]. exact (proj2 S3).
  - pose proof E as E2. apply csender_fields in E as (G1 & G2 & G3 & G4 & G5 & G6 & _).
    unfold started. rewrite G2, G5, G6. split; [|auto].
    unfold csender in E2. destruct (cc_spc x) eqn:ES; try (injection E2 as <-; cbn; rewrite ?ES; auto; fail).
    + injection E2 as <-. cbn. split; intros HX; [apply S1 in HX; discriminate|destruct (cc_flag x); discriminate].
    + destruct (cc_queue x); injection E2 as <-; cbn; split; intros HX; try (apply S1 in HX); discriminate.
    + destruct (encode p) as [b|e|]; [|destruct e|discriminate]. cbn in E2.
      assert (cc_spc x' = CSCheck) as -> by (destruct (cc_up x); [destruct o|]; injection E2 as <-; reflexivity).
      split; intros HX; [apply S1 in HX|]; discriminate.
  - injection E as <-. split; auto.
  - destruct (nth_error (cc_pend x) n) as [p|]; [|injection E as <-; split; auto].
    destruct (cput x p) as [x1|] eqn:E1; injection E as <-; [|split; auto].
    pose proof E1 as E2. apply cput_fields in E1 as (G1 & G2 & G3 & G4 & G5 & G6 & _).
    split; [|cbn; rewrite G2, G5, G6; auto]. cbn. rewrite G2. unfold cput in E2.
    destruct (cc_spc x) eqn:ES; try (destruct (nlen (cc_queue x) <? 256); [|discriminate]); injection E2 as <-; cbn; auto.
    split; intros HX; [apply S1 in HX|]; discriminate.
Qed.
Lemma started_run {H} (handle : H -> pdu -> H * list hact) hello v h b sched x :
  crun handle hello (new_cc v h b) sched = Ok x -> started x.
Proof. apply crun_inv; [intros; eapply started_step; eauto|]. split; [cbn; tauto|]. split; [auto|exact I]. Qed.

(** The sender is on its way out, at most so many steps away. *)
Definition to_go {H} (x : cc H) : option nat :=
  match cc_spc x with
  | CSDone => Some 0%nat | CSCheck => Some 1%nat | CSWrite _ => Some 2%nat
  | CSEnter => match cc_queue x with [] => None | _ => Some 3%nat end
  | _ => None
  end.
Definition going {H} (n : nat) (x : cc H) : Prop :=
  cc_flag x = false /\ exists m, to_go x = Some m /\ (m <= n)%nat.
Lemma going_step {H} (handle : H -> pdu -> H * list hact) hello (x x' : cc H) l n :
  started x -> going n x -> cstep1 handle hello x l = Ok x' ->
  going (match l with CSend _ => n - 1 | _ => n end) x'.
Proof.
  intros (S1 & S2 & S3) (HF & m & HT & HM) E.
  assert (HP : forall p x1, cput x p = Some x1 -> cc_flag x1 = false /\ to_go x1 = Some m).
  { intros p x1 E1. pose proof E1 as E2. apply cput_fields in E1 as (G1 & G2 & G3 & G4 & G5 & G6 & _). split; [congruence|].
    unfold to_go, cput in *. destruct (cc_spc x); try discriminate; (destruct (nlen (cc_queue x) <? 256); [|discriminate]); injection E2 as <-; cbn; auto.
    destruct (cc_queue x); [discriminate|exact HT]. }
  assert (HS : forall y : cc H, cc_spc y = cc_spc x -> cc_queue y = cc_queue x -> cc_flag y = cc_flag x \/ cc_flag y = false -> going n y).
  { intros y Y1 Y2 Y3. split; [destruct Y3; congruence|]. exists m. unfold to_go in *. rewrite Y1, Y2. auto. }
  destruct l as [|o|p|k]; cbn [cstep1] in E.
  - unfold creader in E. destruct (cc_prog x) as [|[p|p| | | |] q] eqn:EP.
    + destruct (cc_pc x) as [| |e|e] eqn:EC.
      * exfalso. pose proof (proj1 S1 eq_refl) as HX. unfold to_go in HT. rewrite HX in HT. discriminate.
      * rewrite HF in E. injection E as <-. apply HS; auto.
      * injection E as <-. apply HS; auto.
      * injection E as <-. apply HS; auto.
    + injection E as <-. apply HS; auto.
    + destruct (cput x p) as [x1|] eqn:E1; injection E as <-; [|apply HS; auto].
      destruct (HP _ _ E1) as [A B]. split; [exact A|]. exists m. split; [exact B|exact HM].
    + injection E as <-. apply HS; auto.
    + injection E as <-. apply HS; auto.
    + injection E as <-. apply HS; auto; destruct (cc_spc x) eqn:ES; auto; unfold to_go in HT; rewrite ES in HT; discriminate.
    + injection E as <-. apply HS; auto.
  - pose proof E as E2. apply csender_fields in E as (G1 & G2 & G3 & G4 & G5 & G6 & _). split; [congruence|].
    unfold to_go, csender in *. destruct (cc_spc x) eqn:ES; try discriminate.
    + injection HT as <-. injection E2 as <-. cbn. rewrite HF. exists 0%nat. split; [reflexivity|lia].
    + destruct (cc_queue x); [discriminate|]. injection HT as <-. injection E2 as <-. cbn. exists 2%nat. split; [reflexivity|lia].
    + injection HT as <-. destruct (encode p) as [b|e|]; [|destruct e|discriminate]. cbn in E2.
      assert (cc_spc x' = CSCheck) as -> by (destruct (cc_up x); [destruct o|]; injection E2 as <-; reflexivity).
      exists 1%nat. split; [reflexivity|lia].
    + injection HT as <-. injection E2 as <-. rewrite ES. exists 0%nat. split; [reflexivity|lia].
  - injection E as <-. apply HS; auto.
  - destruct (nth_error (cc_pend x) k) as [p|]; [|injection E as <-; apply HS; auto].
    destruct (cput x p) as [x1|] eqn:E1; injection E as <-; [|apply HS; auto].
    destruct (HP _ _ E1) as [A B]. split; [exact A|]. exists m. split; [exact B|exact HM].
Qed.
Lemma going_run {H} (handle : H -> pdu -> H * list hact) hello sched : forall n (x x' : cc H), started x -> going n x ->
  crun handle hello x sched = Ok x' -> going (n - send_steps sched) x'.
Proof.
  induction sched as [|l r IH]; intros n x x' HS HG E; cbn [crun] in E.
  - injection E as <-. unfold send_steps. cbn. now rewrite Nat.sub_0_r.
  - destruct (cstep1 handle hello x l) as [x1|e|] eqn:E1; [|destruct e|discriminate]. cbn [bind] in E.
    pose proof (IH _ _ _ (started_step _ _ _ _ _ HS E1) (going_step _ _ _ _ _ _ HS HG E1) E) as HI.
    unfold send_steps in *. destruct l; cbn [filter length] in *; auto.
    replace (n - Datatypes.S (length (filter (fun l => match l with CSend _ => true | _ => false end) r)))%nat
      with (n - 1 - length (filter (fun l => match l with CSend _ => true | _ => false end) r))%nat by lia. exact HI.
Qed.

(** Disconnect sends on c.quit when the sender is between its test and its select. *)
Definition unheard {H} (x : cc H) (l : clabel) : Prop :=
  l = CRead /\ (exists r, cc_prog x = CQuit :: r) /\ cc_spc x = CSEnter /\ cc_queue x = [].
Fixpoint quit_after (l : list cop) : Prop :=
  match l with CFlag :: r => In CQuit r /\ quit_after r | _ :: r => quit_after r | [] => True end.
Lemma quit_after_app a b : quit_after a -> quit_after b -> quit_after (a ++ b).
Proof.
  intros HA HB. induction a as [|o a IH]; [exact HB|]. destruct o; cbn in *; try (now apply IH). destruct HA as [H1 H2]. split; [apply in_or_app; auto|auto].
Qed.
Lemma quit_after_cops l : quit_after (cops l).
Proof.
  unfold cops. induction l as [|a l IH]; [exact I|]. cbn [flat_map]. apply quit_after_app; [|exact IH].
  destruct a; [exact I|]. cbn. tauto.
Qed.
Definition leaving {H} (x : cc H) : Prop :=
  started x /\ quit_after (cc_prog x) /\
  (cc_flag x = true -> match cc_pc x with REnd _ => False | RFail _ => In CFlag (cc_prog x) | _ => True end) /\
  (cc_flag x = false -> going 3 x \/ In CQuit (cc_prog x)) /\
  (match cc_pc x with REnd _ => cc_prog x = [] | _ => True end).
Lemma leaving_same {H} (x y : cc H) : started y -> leaving x -> cc_prog y = cc_prog x -> cc_flag y = cc_flag x -> cc_pc y = cc_pc x ->
  (going 3 x -> going 3 y) -> leaving y.
Proof.
  intros HS (_ & L2 & L3 & L4 & L5) E1 E2 E3 HG. unfold leaving. rewrite E1, E2, E3. split; [exact HS|]. split; [exact L2|]. split; [exact L3|]. split; [|exact L5].
  intros F. destruct (L4 F); auto.
Qed.
Lemma leaving_step {H} (handle : H -> pdu -> H * list hact) hello (x x' : cc H) l :
  leaving x -> cstep1 handle hello x l = Ok x' -> leaving x' \/ unheard x l.
Proof.
  intros HL E. pose proof HL as (HS & L2 & L3 & L4 & L5). pose proof (started_step _ _ _ _ _ HS E) as HS'.
  assert (HG : going 3 x -> going 3 x').
  { intros G. pose proof (going_step _ _ _ _ _ _ HS G E) as G'. destruct l; auto. destruct G' as (F & m & M1 & M2). split; [exact F|]. exists m. split; [exact M1|lia]. }
  destruct l as [|o|p|n]; cbn [cstep1] in E.
  - unfold creader in E. destruct (cc_prog x) as [|[p|p| | | |] q] eqn:EP; cbn [quit_after] in L2.
    + left. destruct (cc_pc x) as [| |e|e] eqn:EC.
      * injection E as <-. split; [exact HS'|]. cbn. split; [apply quit_after_cops|]. split; [auto|]. split; [|exact I].
        intros F. destruct (L4 F) as [G|[]]. exfalso. destruct HS as (S1 & _). destruct G as (_ & m & M & _). unfold to_go in M. rewrite (proj1 S1 EC) in M. discriminate.
      * destruct (cc_flag x) eqn:EF.
        -- destruct (decode 64 (cc_in x)) as [[dec b]|e|]; [|injection E as <-|discriminate].
           ++ destruct (handle (cc_st x) dec) as [st acts]. injection E as <-. split; [exact HS'|]. cbn. rewrite EF.
              split; [apply quit_after_cops|]. split; [auto|]. split; [discriminate|exact I].
           ++ split; [exact HS'|]. cbn. rewrite EF. split; [tauto|]. split; [auto|]. split; [discriminate|exact I].
        -- injection E as <-. split; [exact HS'|]. cbn. rewrite EF, EP. split; [exact I|]. split; [discriminate|]. split; [|reflexivity].
           intros _. destruct (L4 eq_refl) as [G|[]]. auto.
      * injection E as <-. destruct (cc_flag x) eqn:EF; [destruct (L3 eq_refl)|]. split; [exact HS'|]. cbn. rewrite EF, EP. split; [exact I|].
        split; [discriminate|]. split; [|reflexivity]. intros _. destruct (L4 eq_refl) as [G|[]]. auto.
      * injection E as <-. exact HL.
    + left. injection E as <-. split; [exact HS'|]. cbn. split; [exact L2|]. split; [|split].
      * intros F. specialize (L3 F). destruct (cc_pc x); auto. destruct L3 as [L3|L3]; [discriminate|now right].
      * intros F. destruct (L4 F) as [G|[G|G]]; [auto|discriminate|right; now right].
      * destruct (cc_pc x); auto. discriminate.
    + left. destruct (cput x p) as [x1|] eqn:E1; injection E as <-; [|exact HL].
      apply cput_fields in E1 as (G1 & G2 & G3 & G4 & G5 & G6 & _). split; [exact HS'|]. cbn. rewrite G2, G5. split; [exact L2|]. split; [|split].
      * intros F. specialize (L3 F). destruct (cc_pc x); auto. destruct L3 as [L3|L3]; [discriminate|exact L3].
      * intros F. destruct (L4 F) as [G|[G|G]]; [auto|discriminate|now right].
      * destruct (cc_pc x); auto. discriminate.
    + left. injection E as <-. destruct L2 as [L2a L2b]. split; [exact HS'|]. cbn. split; [exact L2b|]. split; [discriminate|]. split; [auto|].
      destruct (cc_pc x); auto. discriminate.
    + left. injection E as <-. assert (F : cc_flag x = false) by (destruct HS as (_ & _ & HO); rewrite EP in HO; exact (proj1 HO)).
      split; [exact HS'|]. cbn. rewrite F. split; [exact L2|]. split; [discriminate|]. split; [|destruct (cc_pc x); auto; discriminate].
      intros _. destruct (L4 F) as [G|[G|G]]; [auto|discriminate|now right].
    + assert (F : cc_flag x = false) by (destruct HS as (_ & _ & HO); rewrite EP in HO; exact (proj1 HO)).
      assert (HX : cc_spc x <> CSNone) by (intros HX; destruct HS as (S1 & S2 & _); specialize (S2 (proj2 S1 HX)); congruence).
      assert (D : (cc_spc x = CSEnter /\ cc_queue x = []) \/ going 3 x').
      { injection E as <-. unfold going, to_go. destruct (cc_spc x) eqn:ES; cbn; rewrite ?ES, ?F; try contradiction;
          try (right; split; [reflexivity|]; eexists; split; [reflexivity|lia]).
        destruct (cc_queue x) eqn:EQ; [left; auto|]. right; split; [reflexivity|]; eexists; split; [reflexivity|lia]. }
      destruct D as [[D1 D2]|D]; [right; split; [reflexivity|]; eauto|left].
      assert (V : cc_prog x' = q /\ cc_flag x' = cc_flag x /\ cc_pc x' = cc_pc x) by (injection E as <-; destruct (cc_spc x); auto).
      destruct V as (V1 & V2 & V3). split; [exact HS'|]. rewrite V1, V2, V3. split; [exact L2|]. split; [congruence|]. split; [auto|].
      destruct (cc_pc x); auto. discriminate.
    + left. injection E as <-. assert (F : cc_flag x = false) by (destruct HS as (_ & _ & HO); rewrite EP in HO; exact (proj1 HO)).
      split; [exact HS'|]. cbn. rewrite F. split; [exact L2|]. split; [discriminate|]. split; [|destruct (cc_pc x); auto; discriminate].
      intros _. destruct (L4 F) as [G|[G|G]]; [auto|discriminate|now right].
  - left. pose proof E as E2. apply csender_fields in E as (G1 & G2 & G3 & G4 & G5 & G6 & _). now apply (leaving_same x).
  - left. injection E as <-. now apply (leaving_same x).
  - left. destruct (nth_error (cc_pend x) n) as [p|]; [|injection E as <-; exact HL].
    destruct (cput x p) as [x1|] eqn:E1; injection E as <-; [|exact HL].
    apply cput_fields in E1 as (G1 & G2 & G3 & G4 & G5 & G6 & _). now apply (leaving_same x).
Qed.
Lemma leaving_run {H} (handle : H -> pdu -> H * list hact) hello : forall sched (x x' : cc H), leaving x -> crun handle hello x sched = Ok x' ->
  leaving x' \/ exists s1 l s2 x1, sched = s1 ++ l :: s2 /\ crun handle hello x s1 = Ok x1 /\ unheard x1 l.
Proof.
  induction sched as [|l r IH]; intros x x' HL E; cbn [crun] in E; [injection E as <-; now left|].
  destruct (cstep1 handle hello x l) as [x1|e|] eqn:E1; [|destruct e|discriminate]. cbn [bind] in E.
  destruct (leaving_step _ _ _ _ _ HL E1) as [G|G]; [|right; exists [], l, r, x; auto].
  destruct (IH x1 x' G E) as [?|(s1 & l' & s2 & y & K1 & K2 & K3)]; [now left|right].
  exists (l :: s1), l', s2, y. rewrite K1. split; [reflexivity|]. split; [|exact K3]. cbn [crun]. rewrite E1. exact K2.
Qed.

(** *** StartRW returns *)
Definition wop (o : cop) : nat := match o with CStamp _ => 2 | _ => 1 end.
Definition wprog (l : list cop) : nat := list_sum (map wop l).
Definition mu {H} (hello : list hact) (x : cc H) : nat :=
  match cc_pc x with
  | REnd _ => 0
  | RFail _ => wprog (cc_prog x) + 1
  | RLoop => wprog (cc_prog x) + (if cc_flag x && negb (flags_off (cc_prog x)) then 5 * length (cc_in x) + 6 else 1)
  | RBegin => 5 * length (cc_in x) + 7 + 2 * length hello
  end.
Lemma wprog_cons o l : wprog (o :: l) = (wop o + wprog l)%nat.
Proof. reflexivity. Qed.
Lemma wprog_hello l : ~ In HDisc l -> wprog (cops l) = (2 * length l)%nat.
Proof.
  induction l as [|a l IH]; intros HN; [reflexivity|]. destruct a as [p|]; [|exfalso; apply HN; now left].
  change (wprog (cops (HSend p :: l))) with (2 + wprog (cops l))%nat. rewrite IH; [cbn [length]; lia|]. intros HI. apply HN. now right.
Qed.
Definition live {H} (x : cc H) : Prop := bytes_ok (cc_in x) /\ (cc_pc x = RBegin -> cc_flag x = true) /\ started x.
Lemma mu_step {H} (handle : H -> pdu -> H * bool) hello (x x' : cc H) l : ~ In HDisc hello -> live x -> nlen (cc_queue x) < 256 ->
  cstep1 (quiet handle) hello x l = Ok x' -> live x' /\
  match l with CRead => (mu hello x' <= mu hello x - 1)%nat | _ => mu hello x' = mu hello x end.
Proof.
  intros HH (HB & HF & HS) HQ E. pose proof (started_step _ _ _ _ _ HS E) as HS'.
  assert (HG : forall p x1, cput x p = Some x1 -> mu hello x1 = mu hello x).
  { intros p x1 E1. apply cput_fields in E1 as (G1 & G2 & G3 & G4 & G5 & G6 & _). unfold mu. now rewrite G1, G2, G5, G6. }
  destruct l as [|o|p|n]; cbn [cstep1] in E.
  - unfold creader in E. destruct (cc_prog x) as [|[p|p| | | |] q] eqn:EP.
    + destruct (cc_pc x) as [| |e|e] eqn:EC.
      * injection E as <-. unfold mu. cbn [cc_set_sender cc_set_read cc_pc cc_prog cc_flag cc_in]. rewrite EC, (HF eq_refl), (flags_hello _ HH), (wprog_hello _ HH). cbn [negb andb].
        split; [split; [exact HB|split; [discriminate|exact HS']]|lia].
      * destruct (cc_flag x) eqn:EF.
        -- destruct (decode 64 (cc_in x)) as [[dec b]|e|] eqn:ED; [|injection E as <-|discriminate].
           ++ destruct (decode_shorter _ _ _ HB ED) as [HB' HL]. unfold quiet in E. destruct (handle (cc_st x) dec) as [h' d]. cbn [fst snd] in E. injection E as <-.
              split; [split; [exact HB'|split; [discriminate|exact HS']]|]. unfold mu. cbn [cc_set_read cc_pc cc_prog cc_flag cc_in]. rewrite EC, EP, EF.
              destruct d; cbn; lia.
           ++ split; [split; [exact HB|split; [discriminate|exact HS']]|]. unfold mu. cbn [cc_set_prog cc_set_pc cc_set_read cc_pc cc_prog cc_flag cc_in]. rewrite EC, EP, EF. cbn. lia.
        -- injection E as <-. split; [split; [exact HB|split; [discriminate|exact HS']]|]. unfold mu. cbn. lia.
      * injection E as <-. split; [split; [exact HB|split; [discriminate|exact HS']]|]. unfold mu. cbn. lia.
      * injection E as <-. split; [split; [exact HB|split; [congruence|exact HS']]|]. unfold mu. rewrite EC. lia.
    + assert (cc_pc x <> RBegin) as HN by (intros HX; destruct HS as (_ & HS & _); specialize (HS HX); congruence).
      injection E as <-. split; [split; [exact HB|split; [intros; contradiction|exact HS']]|]. unfold mu. cbn [cc_set_prog cc_set_read cc_pc cc_prog cc_flag cc_in]. rewrite EP.
      destruct (cc_pc x); [contradiction| |rewrite ?wprog_cons; cbn [wop]; lia|lia].
        rewrite !wprog_cons; cbn [wop flags_off existsb orb]; fold (flags_off q); destruct (cc_flag x && negb (flags_off q)); lia.
    + assert (cc_pc x <> RBegin) as HN by (intros HX; destruct HS as (_ & HS & _); specialize (HS HX); congruence).
      destruct (cput x p) as [x1|] eqn:E1; injection E as <-.
      * pose proof E1 as E2. apply cput_fields in E1 as (G1 & G2 & G3 & G4 & G5 & G6 & _).
        split; [split; [cbn; rewrite G1; exact HB|split; [cbn; rewrite G2; intros; contradiction|exact HS']]|].
        unfold mu. cbn [cc_set_prog cc_set_read cc_pc cc_prog cc_flag cc_in]. rewrite EP, G1, G2, G5.
        destruct (cc_pc x); [contradiction| |rewrite ?wprog_cons; cbn [wop]; lia|lia].
        rewrite !wprog_cons; cbn [wop flags_off existsb orb]; fold (flags_off q); destruct (cc_flag x && negb (flags_off q)); lia.
      * exfalso. unfold cput in E1. destruct (cc_spc x); try discriminate; destruct (nlen (cc_queue x) <? 256) eqn:EL; try discriminate; lia.
    + assert (cc_pc x <> RBegin) as HN by (intros HX; destruct HS as (_ & HS & _); specialize (HS HX); congruence).
      injection E as <-. split; [split; [exact HB|split; [intros; contradiction|exact HS']]|]. unfold mu. cbn [cc_set_prog cc_set_flag cc_set_read cc_pc cc_prog cc_flag cc_in]. rewrite EP.
      destruct (cc_pc x); [contradiction| |rewrite ?wprog_cons; cbn [wop]; lia|lia]. cbn [flags_off existsb orb negb andb]. rewrite andb_false_r, wprog_cons. cbn [wop]. lia.
    + assert (cc_pc x <> RBegin) as HN by (intros HX; destruct HS as (_ & HS & _); specialize (HS HX); congruence).
      injection E as <-. split; [split; [exact HB|split; [intros; contradiction|exact HS']]|]. unfold mu. cbn [cc_set_prog cc_set_read cc_pc cc_prog cc_flag cc_in]. rewrite EP.
      destruct (cc_pc x); [contradiction| |rewrite ?wprog_cons; cbn [wop]; lia|lia].
        rewrite !wprog_cons; cbn [wop flags_off existsb orb]; fold (flags_off q); destruct (cc_flag x && negb (flags_off q)); lia.
    + assert (cc_pc x <> RBegin) as HN by (intros HX; destruct HS as (_ & HS & _); specialize (HS HX); congruence).
      assert (exists y : cc H, x' = cc_set_prog q y /\ cc_pc y = cc_pc x /\ cc_flag y = cc_flag x /\ cc_in y = cc_in x) as (y & -> & Y1 & Y2 & Y3)
        by (injection E as <-; eexists; split; [reflexivity|]; destruct (cc_spc x); auto).
      split; [split; [cbn; rewrite Y3; exact HB|split; [cbn; rewrite Y1; intros; contradiction|exact HS']]|].
      unfold mu. cbn [cc_set_prog cc_set_read cc_pc cc_prog cc_flag cc_in]. rewrite EP, Y1, Y2, Y3.
      destruct (cc_pc x); [contradiction| |rewrite ?wprog_cons; cbn [wop]; lia|lia].
        rewrite !wprog_cons; cbn [wop flags_off existsb orb]; fold (flags_off q); destruct (cc_flag x && negb (flags_off q)); lia.
    + assert (cc_pc x <> RBegin) as HN by (intros HX; destruct HS as (_ & HS & _); specialize (HS HX); congruence).
      injection E as <-. split; [split; [exact HB|split; [intros; contradiction|exact HS']]|]. unfold mu. cbn [cc_set_prog cc_set_sender cc_set_read cc_pc cc_prog cc_flag cc_in]. rewrite EP.
      destruct (cc_pc x); [contradiction| |rewrite ?wprog_cons; cbn [wop]; lia|lia].
        rewrite !wprog_cons; cbn [wop flags_off existsb orb]; fold (flags_off q); destruct (cc_flag x && negb (flags_off q)); lia.
  - apply csender_fields in E as (G1 & G2 & G3 & G4 & G5 & G6 & _).
    split; [split; [now rewrite G1|split; [now rewrite G2, G5|exact HS']]|]. unfold mu. now rewrite G1, G2, G5, G6.
  - injection E as <-. split; [split; [exact HB|split; [exact HF|exact HS']]|reflexivity].
  - destruct (nth_error (cc_pend x) n) as [p|]; [|injection E as <-; split; [split; [exact HB|split; auto]|reflexivity]].
    destruct (cput x p) as [x1|] eqn:E1; injection E as <-; [|split; [split; [exact HB|split; auto]|reflexivity]].
    pose proof E1 as E2. apply cput_fields in E1 as (G1 & G2 & G3 & G4 & G5 & G6 & _).
    split; [split; [cbn; now rewrite G1|split; [cbn; now rewrite G2, G5|exact HS']]|]. exact (HG _ _ E2).
Qed.
Lemma mu_run {H} (handle : H -> pdu -> H * bool) hello sched : ~ In HDisc hello -> forall x x' : cc H, live x ->
  calong (quiet handle) hello (fun x => nlen (cc_queue x) < 256) x sched -> crun (quiet handle) hello x sched = Ok x' ->
  (mu hello x' <= mu hello x - read_steps sched)%nat.
Proof.
  intros HH. induction sched as [|l r IH]; intros x x' HL HA E; cbn [crun calong] in *.
  - injection E as <-. unfold read_steps. cbn. lia.
  - destruct HA as [HA HA']. destruct (cstep1 (quiet handle) hello x l) as [x1|e|] eqn:E1; [|destruct e|discriminate]. cbn [bind] in E.
    destruct (mu_step handle hello x x1 l HH HL HA E1) as [L1 M1]. specialize (IH _ _ L1 (HA' _ eq_refl) E).
    unfold read_steps in *. destruct l; cbn [filter length]; lia.
Qed.

(** *** Versions on the wire *)
Lemma version_set v p : get_version (set_version v p) = v.
Proof. destruct p; reflexivity. Qed.
Lemma down_le v p : downgrade v p <= v.
Proof. unfold downgrade. destruct (v =? 1) eqn:E; cbn; [destruct (get_version p =? 0); lia|lia]. Qed.
Lemma descending_snoc l p : descending l -> (forall q, In q l -> get_version p <= get_version q) -> descending (l ++ [p]).
Proof.
  intros HD HP i j a b HL HA HB. destruct (Nat.lt_ge_cases j (length l)) as [Hj|Hj].
  - rewrite nth_error_app1 in HA by lia. rewrite nth_error_app1 in HB by lia. exact (HD i j a b HL HA HB).
  - rewrite nth_error_app2 in HB by lia. destruct (j - length l)%nat as [|m] eqn:EM; [|destruct m; discriminate]. injection HB as <-.
    destruct (Nat.lt_ge_cases i (length l)) as [Hi|Hi].
    + rewrite nth_error_app1 in HA by lia. apply HP. eapply nth_error_In; eauto.
    + rewrite nth_error_app2 in HA by lia. destruct (i - length l)%nat as [|m] eqn:EN; [|destruct m; discriminate]. injection HA as <-. lia.
Qed.
Definition is_send (o : cop) : bool := match o with CStamp _ | CPut _ => true | _ => false end.
(** Before the first PDU has been read everything is in the first version; afterwards StartRW sends nothing. *)
Definition early {H} (v : N) (x : cc H) : Prop :=
  cc_ver x = v /\ (forall q, In q (cc_queued x ++ cc_pend x) -> get_version q = v) /\
  (forall p, In (CPut p) (cc_prog x) -> get_version p = v).
Definition vinv {H} (v : N) (x : cc H) : Prop :=
  descending (cc_queued x) /\ (forall q, In q (cc_queued x ++ cc_pend x) -> cc_ver x <= get_version q) /\
  (forall p q, In p (cc_pend x) -> In q (cc_queued x) -> get_version p <= get_version q) /\
  (early v x \/ (cc_pc x <> RBegin /\ forallb (fun o => negb (is_send o)) (cc_prog x) = true)).
Lemma no_put l p : forallb (fun o => negb (is_send o)) l = true -> ~ In (CPut p) l.
Proof. intros HF HI. rewrite forallb_forall in HF. specialize (HF _ HI). discriminate. Qed.
Lemma cops_no_put l p : ~ In (CPut p) (cops l).
Proof.
  intros HI. unfold cops in HI. apply in_flat_map in HI as ([q|] & _ & HI); cbn in HI; firstorder discriminate.
Qed.
Lemma vinv_same {H} v (x x' : cc H) : cc_queued x' = cc_queued x -> cc_pend x' = cc_pend x -> cc_ver x' = cc_ver x ->
  (cc_pc x' = RBegin -> cc_pc x = RBegin) -> (forall o, In o (cc_prog x') -> In o (cc_prog x)) -> vinv v x -> vinv v x'.
Proof.
  intros G1 G2 G3 G4 G5 (V1 & V2 & V3 & V4). unfold vinv, early in *. rewrite G1, G2, G3. repeat split; auto.
  destruct V4 as [(E1 & E2 & E3)|[E1 E2]]; [left; auto|right; split; [auto|]].
  rewrite forallb_forall in *. auto.
Qed.
Lemma in_cut {A} n (l : list A) y : In y (firstn n l ++ skipn (Datatypes.S n) l) -> In y l.
Proof.
  intros HI. apply in_app_or in HI as [HI|HI].
  - rewrite <- (firstn_skipn n l). apply in_or_app. now left.
  - rewrite <- (firstn_skipn (Datatypes.S n) l). apply in_or_app. now right.
Qed.
Lemma vinv_step {H} (handle : H -> pdu -> H * bool) hello v (x x' : cc H) l : (length (cc_pend x) <= 1)%nat -> started x ->
  vinv v x -> cstep1 (quiet handle) hello x l = Ok x' -> vinv v x'.
Proof.
  intros HP HS HV E. destruct l as [|o|p|n]; cbn [cstep1] in E.
  - unfold creader in E. destruct (cc_prog x) as [|[p|p| | | |] q] eqn:EP.
    + destruct (cc_pc x) as [| |e|e] eqn:EC.
      * injection E as <-. destruct HV as (V1 & V2 & V3 & [(E1 & E2 & E3)|[E1 _]]); [|congruence].
        split; [exact V1|]. split; [exact V2|]. split; [exact V3|]. left. split; [exact E1|]. split; [exact E2|].
        intros p HI. exfalso. exact (cops_no_put _ _ HI).
      * destruct (cc_flag x).
        -- destruct (decode 64 (cc_in x)) as [[dec b]|e|]; [|injection E as <-|discriminate].
           ++ unfold quiet in E. injection E as <-. destruct HV as (V1 & V2 & V3 & V4).
              split; [exact V1|]. split; [intros y HI; cbn in *; specialize (V2 y HI); pose proof (down_le (cc_ver x) dec); lia|].
              split; [exact V3|]. right. split; [discriminate|]. cbn. destruct (snd (handle (cc_st x) dec)); reflexivity.
           ++ destruct HV as (V1 & V2 & V3 & V4). split; [exact V1|]. split; [exact V2|]. split; [exact V3|]. right. split; [discriminate|reflexivity].
        -- injection E as <-. apply (vinv_same v x); auto. discriminate.
      * injection E as <-. apply (vinv_same v x); auto. discriminate.
      * injection E as <-. exact HV.
    + injection E as <-. destruct HV as (V1 & V2 & V3 & [(E1 & E2 & E3)|[_ E2]]); [|rewrite EP in E2; discriminate].
      split; [exact V1|]. split; [exact V2|]. split; [exact V3|]. left. split; [exact E1|]. split; [exact E2|].
      intros y [HI|HI]; [injection HI as <-; unfold cs_send; rewrite version_set; exact E1|apply E3; rewrite EP; now right].
    + destruct (cput x p) as [x1|] eqn:E1; injection E as <-; [|exact HV].
      apply cput_fields in E1 as (G1 & G2 & G3 & G4 & G5 & G6 & G7 & G8 & _).
      destruct HV as (V1 & V2 & V3 & [(E1 & E2 & E3)|[_ E2]]); [|rewrite EP in E2; discriminate].
      assert (get_version p = v) as HPv by (apply E3; rewrite EP; now left).
      assert (HA : forall y, In y (cc_queued x1 ++ cc_pend x1) -> get_version y = v).
      { intros y HI. rewrite G7, G8 in HI. apply in_app_or in HI as [HI|HI]; [apply in_app_or in HI as [HI|[HI|[]]]|].
        - apply E2. apply in_or_app. now left.
        - congruence.
        - apply E2. apply in_or_app. now right. }
      split; [cbn; rewrite G8; apply descending_snoc; [exact V1|intros y HI; rewrite HPv, E2; [lia|apply in_or_app; now left]]|].
      split; [intros y HI; cbn in *; rewrite G3, (HA y HI), E1; lia|].
      split; [intros y z HI HJ; cbn in *; rewrite (HA y), (HA z); [lia|apply in_or_app; now left|apply in_or_app; now right]|].
      left. split; [cbn; congruence|]. split; [exact HA|]. intros y HI. cbn in HI. apply E3. rewrite EP. now right.
    + injection E as <-. apply (vinv_same v x); auto. intros o HI. rewrite EP. now right.
    + injection E as <-. apply (vinv_same v x); auto. intros o HI. rewrite EP. now right.
    + injection E as <-. apply (vinv_same v x); auto; try (destruct (cc_spc x); reflexivity); [destruct (cc_spc x); auto|]. intros o HI. rewrite EP. now right.
    + injection E as <-. apply (vinv_same v x); auto. intros o HI. rewrite EP. now right.
  - apply csender_fields in E as (G1 & G2 & G3 & G4 & G5 & G6 & G7 & G8). apply (vinv_same v x); auto; [congruence|]. intros y. now rewrite G6.
  - injection E as <-. destruct HV as (V1 & V2 & V3 & V4).
    split; [exact V1|]. split; [|split].
    + intros y HI. cbn in *. rewrite app_assoc in HI. apply in_app_or in HI as [HI|[HI|[]]]; [auto|]. subst y. unfold cs_send. rewrite version_set. lia.
    + intros y z HI HJ. cbn in *. apply in_app_or in HI as [HI|[HI|[]]]; [auto|]. subst y. unfold cs_send. rewrite version_set. apply V2. apply in_or_app. now left.
    + destruct V4 as [(E1 & E2 & E3)|V4]; [left|now right]. split; [exact E1|]. split; [|exact E3].
      intros y HI. cbn in *. rewrite app_assoc in HI. apply in_app_or in HI as [HI|[HI|[]]]; [auto|]. subst y. unfold cs_send. now rewrite version_set.
  - destruct (nth_error (cc_pend x) n) as [p|] eqn:EN; [|injection E as <-; exact HV].
    destruct (cput x p) as [x1|] eqn:E1; injection E as <-; [|exact HV].
    apply cput_fields in E1 as (G1 & G2 & G3 & G4 & G5 & G6 & G7 & G8 & _).
    pose proof (nth_error_In _ _ EN) as HIn.
    assert (cc_pend x = [p] /\ n = 0%nat) as [EL ->].
    { destruct (cc_pend x) as [|a [|? ?]]; [destruct n; discriminate| |cbn in HP; lia]. destruct n as [|[|?]]; try discriminate. injection EN as ->. auto. }
    rewrite EL. cbn [firstn skipn app]. destruct HV as (V1 & V2 & V3 & V4).
    split; [cbn; rewrite G8; apply descending_snoc; auto|]. split; [|split].
    + intros y HI. cbn in *. rewrite G3. rewrite G8, app_nil_r in HI. apply V2. apply in_app_or in HI as [HI|[HI|[]]]; apply in_or_app; [now left|right; now subst y].
    + intros y z [].
    + destruct V4 as [(E1 & E2 & E3)|[E1 E2]].
      * left. split; [cbn; congruence|]. split; [|cbn; now rewrite G6].
        intros y HI. cbn in *. rewrite G8, app_nil_r in HI. apply E2. apply in_app_or in HI as [HI|[HI|[]]]; apply in_or_app; [now left|right; now subst y].
      * right. cbn. now rewrite G2, G6.
Qed.
Lemma vinv_run {H} (handle : H -> pdu -> H * bool) hello v sched : forall x x' : cc H, started x -> vinv v x ->
  calong (quiet handle) hello (fun x => (length (cc_pend x) <= 1)%nat) x sched -> crun (quiet handle) hello x sched = Ok x' -> vinv v x'.
Proof.
  induction sched as [|l r IH]; intros x x' HS HV HA E; cbn [crun calong] in *; [injection E as <-; exact HV|].
  destruct HA as [HA HA']. destruct (cstep1 (quiet handle) hello x l) as [x1|e|] eqn:E1; [|destruct e|discriminate]. cbn [bind] in E.
  eapply (IH x1); eauto; [eapply started_step; eauto|eapply vinv_step; eauto].
Qed.
(** Only the first version and 0 occur. *)
Lemma vers_step {H} (handle : H -> pdu -> H * bool) hello v (x : cc H) l x' :
  (cc_ver x = v \/ (v = 1 /\ cc_ver x = 0)) /\
  (forall q, In q (cc_queued x ++ cc_pend x) \/ In (CPut q) (cc_prog x) -> get_version q = v \/ (v = 1 /\ get_version q = 0)) ->
  cstep1 (quiet handle) hello x l = Ok x' ->
  (cc_ver x' = v \/ (v = 1 /\ cc_ver x' = 0)) /\
  (forall q, In q (cc_queued x' ++ cc_pend x') \/ In (CPut q) (cc_prog x') -> get_version q = v \/ (v = 1 /\ get_version q = 0)).
Proof.
  intros [W1 W2] E.
  assert (HS : forall y : cc H, cc_ver y = cc_ver x -> cc_queued y = cc_queued x -> cc_pend y = cc_pend x ->
    (forall p, In (CPut p) (cc_prog y) -> In (CPut p) (cc_prog x)) ->
    (cc_ver y = v \/ (v = 1 /\ cc_ver y = 0)) /\ (forall q, In q (cc_queued y ++ cc_pend y) \/ In (CPut q) (cc_prog y) -> get_version q = v \/ (v = 1 /\ get_version q = 0))).
  { intros y Y1 Y2 Y3 Y4. rewrite Y1, Y2, Y3. split; [exact W1|]. intros q [HI|HI]; apply W2; auto. }
  destruct l as [|o|p|n]; cbn [cstep1] in E.
  - unfold creader in E. destruct (cc_prog x) as [|[p|p| | | |] r] eqn:EP.
    + destruct (cc_pc x) as [| |e|e].
      * injection E as <-. apply HS; auto. intros p HI. exfalso. exact (cops_no_put _ _ HI).
      * destruct (cc_flag x).
        -- destruct (decode 64 (cc_in x)) as [[dec b]|e|]; [|injection E as <-|discriminate].
           ++ unfold quiet in E. injection E as <-. cbn. split.
              ** unfold downgrade. destruct ((cc_ver x =? 1) && (get_version dec =? 0)) eqn:EX; [|exact W1]. right. apply andb_prop in EX as [EX _]. lia.
              ** intros q [HI|HI]; [apply W2; now left|]. exfalso. exact (cops_no_put _ _ HI).
           ++ apply HS; auto. cbn. intros p HI. firstorder discriminate.
        -- injection E as <-. apply HS; auto. cbn. rewrite EP. auto.
      * injection E as <-. apply HS; auto. cbn. rewrite EP. auto.
      * injection E as <-. apply HS; auto. now rewrite EP.
    + injection E as <-. cbn. split; [exact W1|]. intros q [HI|[HI|HI]]; [apply W2; now left|injection HI as <-; unfold cs_send; rewrite version_set; exact W1|].
      apply W2. right. now right.
    + destruct (cput x p) as [x1|] eqn:E1; injection E as <-; [|split; auto; now rewrite EP].
      apply cput_fields in E1 as (G1 & G2 & G3 & G4 & G5 & G6 & G7 & G8 & _). cbn. rewrite G3, G7, G8. split; [exact W1|].
      intros q [HI|HI]; [|apply W2; right; now right]. apply in_app_or in HI as [HI|HI]; [apply in_app_or in HI as [HI|[HI|[]]]|].
      * apply W2. left. apply in_or_app. now left.
      * subst q. apply W2. right. now left.
      * apply W2. left. apply in_or_app. now right.
    + injection E as <-. apply HS; auto. intros p HI. now right.
    + injection E as <-. apply HS; auto. intros p HI. now right.
    + injection E as <-. apply HS; auto; try (destruct (cc_spc x); reflexivity). intros p HI. now right.
    + injection E as <-. apply HS; auto. intros p HI. now right.
  - apply csender_fields in E as (G1 & G2 & G3 & G4 & G5 & G6 & G7 & G8). apply HS; auto. now rewrite G6.
  - injection E as <-. cbn. split; [exact W1|]. intros q [HI|HI]; [|apply W2; auto]. rewrite app_assoc in HI. apply in_app_or in HI as [HI|[HI|[]]]; [apply W2; auto|].
    subst q. unfold cs_send. rewrite version_set. exact W1.
  - destruct (nth_error (cc_pend x) n) as [p|] eqn:EN; [|injection E as <-; split; auto].
    destruct (cput x p) as [x1|] eqn:E1; injection E as <-; [|split; auto].
    apply cput_fields in E1 as (G1 & G2 & G3 & G4 & G5 & G6 & G7 & G8 & _). pose proof (nth_error_In _ _ EN) as HIn. cbn. rewrite G3, G6, G8. split; [exact W1|].
    intros q [HI|HI]; [|apply W2; auto]. apply in_app_or in HI as [HI|HI]; [apply in_app_or in HI as [HI|[HI|[]]]|].
    + apply W2. left. apply in_or_app. now left.
    + subst q. apply W2. left. apply in_or_app. now right.
    + apply W2. left. apply in_or_app. right. apply (in_cut n). exact HI.
Qed.

(** *** Left behind *)
Lemma parked_run {H} (handle : H -> pdu -> H * list hact) hello sched : forall x x' : cc H,
  (cc_spc x = CSParked /\ cc_pc x = REnd Finished /\ cc_prog x = [] /\ cc_pend x = []) -> polls sched = 0%nat ->
  crun handle hello x sched = Ok x' -> cc_spc x' = CSParked.
Proof.
  induction sched as [|l r IH]; intros x x' (P1 & P2 & P3 & P4) HP E; cbn [crun] in E; [injection E as <-; exact P1|].
  destruct l as [|o|p|n]; cbn [cstep1] in E.
  - unfold creader in E. rewrite P3, P2 in E. apply (IH x); auto.
  - unfold csender in E. rewrite P1 in E. apply (IH x); auto.
  - discriminate HP.
  - rewrite P4 in E. destruct n; apply (IH x); auto.
Qed.
Lemma clogged_run {H} (handle : H -> pdu -> H * list hact) hello p sched : forall x x' : cc H,
  ((exists r, cc_pend x = p :: r) /\ cc_spc x = CSDone /\ cc_pc x = REnd Finished /\ cc_prog x = [] /\ nlen (cc_queue x) = 256) ->
  crun handle hello x sched = Ok x' -> exists r, cc_pend x' = p :: r.
Proof.
  induction sched as [|l r IH]; intros x x' ([q P0] & P1 & P2 & P3 & P4) E; cbn [crun] in E; [injection E as <-; eauto|].
  destruct l as [|o|p'|n]; cbn [cstep1] in E.
  - unfold creader in E. rewrite P3, P2 in E. apply (IH x); eauto 10.
  - unfold csender in E. rewrite P1 in E. apply (IH x); eauto 10.
  - cbn [bind] in E. refine (IH _ _ _ E). cbn. rewrite P0. split; [eexists; reflexivity|auto].
  - destruct (nth_error (cc_pend x) n) as [y|]; [|apply (IH x); eauto 10].
    unfold cput in E. rewrite P1, P4 in E. apply (IH x); eauto 10.
Qed.
