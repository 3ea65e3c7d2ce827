(** Property C24, exactly: what the server does on a PDU in a version that is not the client's. *)
From Coq Require Import String ZArith ZifyBool ZifyNat ZifyN.
From Verif Require Import Lib.Str Model.Conn Spec.Sets Spec.History Spec.Response Proofs.DataP Proofs.CacheP Proofs.ConnP Props.CacheProps Props.ConnProps.
From Coq Require Import List.
Import ListNotations.
Local Open Scope list_scope.
Local Open Scope N_scope.

Definition is_query (p : pdu) : bool := match p with SerialQuery _ _ _ | ResetQuery _ => true | _ => false end.
(** Something is queued behind a fatal error report. *)
Definition something_follows (a : list act) : Prop :=
  exists before e behind q, a = before ++ Queue e :: behind /\ fatal e /\ In (Queue q) behind.

Lemma unacceptable c v : ~ acceptable c v ->
  ((negb (c_versionset c) || (v =? c_version c)) && ((v =? 1) || (v =? 0)))%bool = false.
Proof.
  intros H. apply Bool.not_true_is_false. intros E. apply H. apply Bool.andb_true_iff in E as [E1 E2]. apply Bool.orb_true_iff in E1, E2.
  split; [destruct E2 as [E2|E2]; apply N.eqb_eq in E2; auto|]. intros V. rewrite V in E1. destruct E1 as [E1|E1]; [discriminate E1|now apply N.eqb_eq in E1].
Qed.
Lemma process_bad cfg s tr cache c p : cinv cfg tr c -> ~ acceptable c (get_version p) ->
  exists c4, cinv cfg tr c4 /\ c_version c4 = c_version c /\ c_connected c4 = false /\
    process (new_rtr_server cfg s) cache c p =
    (do r <- pass_simple_handler (new_rtr_server cfg s) cache c4 p; Ok (fst r, [Queue (bad_version (c_version c)); Disc] ++ snd r)).
Proof.
  intros (I1 & I2 & I3 & I4 & I5 & I6 & I7 & I8 & I9) HA.
  exists (match p with SerialQuery _ _ serial => c_set_curserial serial (c_set_disconnected c) | _ => c_set_disconnected c end).
  split; [|split; [|split]].
  - destruct p; cbn; unfold cinv; cbn; auto 10.
  - now destruct p.
  - now destruct p.
  - unfold process. rewrite I4. unfold check_version. rewrite (unacceptable _ _ HA). cbn [disconnect].
    replace (c_enforce (c_set_disconnected c)) with false by (symmetry; exact I3).
    set (c3 := match p with SerialQuery _ _ serial => _ | _ => _ end).
    assert (V : c_version c3 = c_version c) by (unfold c3; now destruct p).
    assert (H4 : server_handle_pdu (new_rtr_server cfg s) c3 = (c3, [])).
    { unfold server_handle_pdu. cbn [new_rtr_server s_enforce baseVersion]. rewrite V.
      assert ((cfg_enforce cfg && negb (c_version c =? cfg_version cfg))%bool = false) as ->.
      { destruct (cfg_enforce cfg); [|reflexivity]. destruct (I5 eq_refl) as [_ ->]. now rewrite N.eqb_refl. }
      rewrite V. replace (cfg_version cfg <? c_version c) with false by (symmetry; apply N.ltb_ge; exact I1). reflexivity. }
    rewrite H4. cbn [app]. destruct (pass_simple_handler _ _ c3 p) as [r|e|]; reflexivity.
Qed.

(** C24 Nothing follows a fatal error. What the code does, for every client and every PDU: a PDU in
    a version that is not acceptable is answered with the error report, the connection is marked down,
    no later PDU is looked at; but if it is a query it is answered all the same, in the client's version.
    So something follows a fatal error report if and only if a query came in such a version. *)
Theorem C24_exact_partial : forall cfg s tr keep h c p,
  u16 s -> cfg_version cfg < 256 -> Forall (Forall wf_sd) h ->
  reach (new_rtr_server cfg s) tr c -> c_connected c = true ->
  let cache := run (new_server keep) h in
  let w := c_version c in
  exists c' a, process (new_rtr_server cfg s) cache c p = Ok (c', a) /\
    (something_follows a <-> ~ acceptable c (get_version p) /\ is_query p = true) /\
    (~ acceptable c (get_version p) ->
     (forall reads, session (new_rtr_server cfg s) c' reads = Ok (c', [])) /\
     exists rest, a = [Queue (bad_version w); Disc] ++ rest /\
       match p with
       | ResetQuery _ => rest = map Queue (if is_nil (get_current_sds cache) then [no_data w]
           else response w (session_of s w) (sdCurrentSerial cache)
                  (timer (cfg_refresh cfg) 3600) (timer (cfg_retry cfg) 600) (timer (cfg_expire cfg) 7200)
                  (keys_off tr cfg) (get_current_sds cache))
       | SerialQuery _ sess q =>
           (sess <> session_of s w /\ rest = [Queue (corrupt_data w); Disc])
           \/ (sess = session_of s w /\
               ((get_current_sds cache = [] /\ rest = [Queue (no_data w)])
                \/ (get_current_sds cache <> [] /\
                    (sdCurrentSerial cache < q \/ q + nlen (sdListDiff cache) < sdCurrentSerial cache) /\
                    rest = [Queue (CacheReset w)])
                \/ (exists d, get_current_sds cache <> [] /\ get_sds_serial_diff cache q = Ok d /\
                    rest = map Queue (response w sess (sdCurrentSerial cache)
                      (timer (cfg_refresh cfg) 3600) (timer (cfg_retry cfg) 600) (timer (cfg_expire cfg) 7200)
                      (keys_off tr cfg) d))))
       | _ => rest = []
       end).
Proof.
  intros cfg s tr keep h c p Hs Hb Hh Hr Hc. cbv zeta. set (cache := run (new_server keep) h).
  pose proof (reach_cinv cfg s tr c Hs Hb Hr) as HI.
  assert (D : acceptable c (get_version p) \/ ~ acceptable c (get_version p)).
  { unfold acceptable. destruct (c_versionset c); destruct (N.eq_dec (get_version p) 0), (N.eq_dec (get_version p) 1), (N.eq_dec (get_version p) (c_version c));
    first [left; split; [tauto|intros; (assumption || discriminate)]|right; intros [X Y]; (tauto || (specialize (Y eq_refl); tauto))]. }
  destruct D as [HA|HA].
  - destruct (process_total cfg s tr cache c p Hs Hb HI) as (c' & a & E & _). exists c', a. split; [exact E|]. split; [|tauto].
    split; [|tauto]. intros (b & e & r & q & -> & F & Q). exfalso.
    destruct (C24_fatal_last_partial cfg s tr cache c p c' _ e Hs Hb Hr Hc HA E (in_elt _ _ _) F) as [X _].
    destruct b as [|x [|y b]]; cbn [app] in X; injection X as X; subst.
    + destruct Q as [Q|[]]; discriminate Q.
    + discriminate.
    + match goal with H : b ++ _ = [] |- _ => now destruct b end.
  - destruct (process_bad cfg s tr cache c p HI HA) as (c4 & HI4 & V4 & D4 & E).
    assert (HP : exists c' rest, pass_simple_handler (new_rtr_server cfg s) cache c4 p = Ok (c', rest) /\ c_connected c' = false /\
      (is_query p = true -> exists q, In (Queue q) rest) /\
      match p with
       | ResetQuery _ => rest = map Queue (if is_nil (get_current_sds cache) then [no_data (c_version c)]
           else response (c_version c) (session_of s (c_version c)) (sdCurrentSerial cache)
                  (timer (cfg_refresh cfg) 3600) (timer (cfg_retry cfg) 600) (timer (cfg_expire cfg) 7200)
                  (keys_off tr cfg) (get_current_sds cache))
       | SerialQuery _ sess q =>
           (sess <> session_of s (c_version c) /\ rest = [Queue (corrupt_data (c_version c)); Disc])
           \/ (sess = session_of s (c_version c) /\
               ((get_current_sds cache = [] /\ rest = [Queue (no_data (c_version c))])
                \/ (get_current_sds cache <> [] /\
                    (sdCurrentSerial cache < q \/ q + nlen (sdListDiff cache) < sdCurrentSerial cache) /\
                    rest = [Queue (CacheReset (c_version c))])
                \/ (exists d, get_current_sds cache <> [] /\ get_sds_serial_diff cache q = Ok d /\
                    rest = map Queue (response (c_version c) sess (sdCurrentSerial cache)
                      (timer (cfg_refresh cfg) 3600) (timer (cfg_retry cfg) 600) (timer (cfg_expire cfg) 7200)
                      (keys_off tr cfg) d))))
       | _ => rest = []
       end).
    { destruct p as [v sess q|v sess q|v|v sess|v f m n pr|v f m n pr|v sess q r1 r2 r3|v|v f k n key|v code pd tx]; cbn [pass_simple_handler is_query].
      all: try (exists c4, []; split; [reflexivity|]; split; [exact D4|]; split; [discriminate|reflexivity]; fail).
      - pose proof (request_new_version_eq cfg s tr cache c4 sess q Hs Hb HI4) as HR. cbv zeta in HR.
        rewrite HR by (intros d; now apply serial_diff_wf). clear HR. rewrite V4. unfold get_current_sds.
        destruct (sess =? session_of s (c_version c)) eqn:ES; cbn [negb].
        + exists c4. eexists. split; [reflexivity|]. split; [exact D4|].
          destruct (sdCurrent cache) as [|x l] eqn:EC.
          { split; [intros _; eexists; left; reflexivity|]. right. split; [lia|]. left. auto. }
          split; [intros _; destruct (get_sds_serial_diff cache q); eexists; left; reflexivity|]. right. split; [lia|].
          destruct (serial_diff_cases cache q) as [(_ & E0)|[(H & E0)|(_ & _ & d & _ & E0)]]; rewrite E0.
          * right. right. exists []. split; [discriminate|]. auto.
          * right. left. split; [discriminate|]. split; [lia|reflexivity].
          * right. right. exists d. split; [discriminate|]. auto.
        + exists (c_set_disconnected c4). eexists. split; [reflexivity|]. split; [reflexivity|].
          split; [intros _; eexists; left; reflexivity|]. left. split; [lia|reflexivity].
      - rewrite (request_cache_eq cfg s tr) by (auto; apply run_inv; auto using inv_new). rewrite V4. exists c4. eexists. split; [reflexivity|].
        split; [exact D4|]. unfold get_current_sds. destruct (sdCurrent cache) as [|x l]; (split; [intros _; eexists; left; reflexivity|reflexivity]). }
    destruct HP as (c' & rest & EP & D' & HQ & HM). rewrite EP in E. cbn [bind fst snd] in E.
    exists c', ([Queue (bad_version (c_version c)); Disc] ++ rest). split; [exact E|]. split.
    + split.
      * intros (b & e & r & q & EQ & F & Q). split; [exact HA|]. destruct (is_query p) eqn:IQ; [reflexivity|]. exfalso.
        assert (rest = []) as -> by (destruct p; (discriminate IQ || exact HM)).
        destruct b as [|x [|y b]]; cbn [app] in EQ; injection EQ as X; subst.
        -- destruct Q as [Q|[]]; discriminate Q.
        -- discriminate.
        -- match goal with H : _ = b ++ _ |- _ => now destruct b end.
      * intros [_ IQ]. destruct (HQ IQ) as (q & Hq). exists [], (bad_version (c_version c)), (Disc :: rest), q.
        split; [reflexivity|]. split; [right; reflexivity|]. now right.
    + intros _. split; [intros reads; now apply session_down|]. exists rest. split; [reflexivity|exact HM].
Qed.
(** A client of version 1 asks in version 0, for a session it does not have: two fatal error reports. *)
Example C24_exact_case : ~ acceptable est1 0 /\ c_version est1 = 1 /\
  process (new_rtr_server cfg1 7) (new_server 3) est1 (SerialQuery 0 9 0) =
    Ok (c_set_disconnected (c_set_curserial 0 est1), [Queue (bad_version 1); Disc; Queue (corrupt_data 1); Disc]) /\
  process (new_rtr_server cfg1 7) (new_server 3) est1 (CacheReset 0) = Ok (c_set_disconnected est1, [Queue (bad_version 1); Disc]).
Proof.
  split; [intros [_ H]; discriminate (H eq_refl)|]. split; [reflexivity|]. split; vm_compute; reflexivity.
Qed.

Print Assumptions C24_exact_partial.
