(** Properties C110 and C111: everything sent is valid, and answers are complete. *)
From Coq Require Import String ZArith ZifyBool ZifyNat ZifyN.
From Verif Require Import Lib.Str Model.Concurrent Model.Main Model.State Spec.Wire Spec.Refresh Spec.Sets Spec.Response Spec.Net Spec.Rfc8210 Spec.Conversation
  Proofs.NetP Proofs.NetP2 Proofs.JsonStateP Proofs.ValidP Proofs.ConversationP
  Props.CacheProps Props.ConnProps Props.StateProps Props.JsonProps Props.ConcProps Props.FlagProps Props.EndToEndProps.
From Coq Require Import List.
Local Open Scope string_scope.
Local Open Scope list_scope.
Local Open Scope N_scope.

(** C110 Everything sent is valid RFC 8210: whatever the flags, the files, the SLURM files, the
    clock, the bytes the routers send and the interleaving of the goroutines, what a router has
    been sent is a sequence of PDUs that RFC 8210 lets a cache send; only a PDU during which the
    connection broke may lack its end. *)
Theorem C110_valid : forall e c f s sched w i k, wf_env e -> u16 s -> Forall (fed e c) sched ->
  nrun (new_rtr_server (server_config f) s) empty_net sched = Ok w -> nth_error (n_conns w) i = Some k ->
  exists frames rest, Forall valid_frame frames /\ concat frames = k_wire k ++ rest /\ (k_up k = true -> rest = []).
Proof.
  intros e c f s sched w i k HE Hs HL H Hk. eapply all_valid; eauto. unfold cfg_ok, server_config. cbn.
  split; [unfold protover_to_lib; destruct (f_protocol f =? 1)%Z; discriminate|].
  assert (U : forall z, u32 (to_u32 z)) by (intros z; unfold u32, to_u32; lia). repeat split; apply U.
Qed.

(** A router that asks for everything twice: after the first file in version 0, and on another
    connection, in version 1, after the second file; a Serial Notify; a Serial Query with an
    unknown session. *)
Definition cache_of (h : list input) := st_server (State.after text_env cfgN h).
Definition sched110 := [LAccept TCP; LStart 0; LSender 0 WAll; LRead 0 (cache_of [at_h 1 fileV]) [0; 2; 0; 0; 0; 0; 0; 8]]
  ++ many 8 [LReader 0; LSender 0 WAll; LSender 0 WAll]
  ++ [LAccept TCP; LStart 1; LSender 1 WAll; LRead 1 (cache_of [at_h 1 fileV; at_h 2 file2]) [1; 2; 0; 0; 0; 0; 0; 8]]
  ++ many 8 [LReader 1; LSender 1 WAll; LSender 1 WAll] ++ [LNotify 1] ++ many 8 [LNotifier; LSender 1 WAll; LSender 1 WAll]
  ++ [LRead 1 (cache_of [at_h 1 fileV; at_h 2 file2]) [1; 1; 99; 99; 0; 0; 0; 12; 0; 0; 0; 0]] ++ many 4 [LReader 1; LSender 1 WAll; LSender 1 WAll].
Definition srv110 := new_rtr_server (server_config defaults) 7.
Definition keys_short (l : list sd) : bool :=
  forallb (fun x => match x with RK _ _ k => nlen k + 32 <? 4294967296 | _ => true end) (ids l).
Lemma keys_short_ok s a x k : keys_short (get_current_sds (st_server s)) = true -> served s (RK a x k) -> nlen k + 32 < 4294967296.
Proof. intros H HS. unfold keys_short in H. rewrite forallb_forall in H. specialize (H _ HS). cbn in H. lia. Qed.
Lemma fed110 : Forall (fed text_env cfgN) sched110.
Proof.
  assert (S0 : keys_short (get_current_sds (cache_of [])) = true) by (vm_compute; reflexivity).
  assert (S1 : keys_short (get_current_sds (cache_of [at_h 1 fileV])) = true) by (vm_compute; reflexivity).
  assert (S2 : keys_short (get_current_sds (cache_of [at_h 1 fileV; at_h 2 file2])) = true) by (vm_compute; reflexivity).
  assert (A1 : short_keys text_env cfgN [at_h 1 fileV]).
  { intros [|x [|y h1]] h2 a s k E HS; [exact (keys_short_ok _ _ _ _ S0 HS)|injection E as <- _; exact (keys_short_ok _ _ _ _ S1 HS)|discriminate E]. }
  assert (A2 : short_keys text_env cfgN [at_h 1 fileV; at_h 2 file2]).
  { intros [|x [|y [|z h1]]] h2 a s k E HS; [exact (keys_short_ok _ _ _ _ S0 HS)|injection E as <- _; exact (keys_short_ok _ _ _ _ S1 HS)|
      injection E as <- <- _; exact (keys_short_ok _ _ _ _ S2 HS)|discriminate E]. }
  unfold sched110, many. cbn [repeat concat app].
  repeat (constructor; [cbn [fed]; first [exact I|reflexivity|eexists; split; [reflexivity|first [exact A1|exact A2]]]|]). constructor.
Qed.
Example C110_case : wf_env text_env /\ Forall (fed text_env cfgN) sched110 /\ runs srv110 sched110 = true /\
  exists k0 k1, nth_error (n_conns (after srv110 sched110)) 0 = Some k0 /\ nth_error (n_conns (after srv110 sched110)) 1 = Some k1 /\
    map (fun p => (get_version p, get_type p)) (k_queued k0) = [(0, 3); (0, 4); (0, 7); (0, 0)] /\
    map get_type (k_queued k1) = [3; 4; 4; 9; 7; 0; 10] /\ k_up k1 = true /\ length (k_wire k1) = 182%nat.
Proof.
  split; [apply (reads_wf (fun _ => 0%nat)); apply text_env_reads|]. split; [exact fed110|]. split; [vm_compute; reflexivity|].
  eexists. eexists. split; [vm_compute; reflexivity|]. split; [vm_compute; reflexivity|]. vm_compute. auto 6.
Qed.
(** valid_frame is not met by everything: a prefix longer than its longest prefix allowed, a flag
    of 2, a router key in version 0, a length that is not that of the bytes. *)
Example C110_not : let v4 f l m := [1; 4; 0; 0; 0; 0; 0; 20; f; l; m; 0; 10; 0; 0; 0; 0; 0; 0; 1] in
  valid_frame (v4 1 8 24) /\ ~ valid_frame (v4 1 25 24) /\ ~ valid_frame (v4 2 8 24) /\ ~ valid_frame (v4 1 8 33) /\
  ~ valid_frame (v4 1 8 24 ++ [0]) /\ ~ valid_frame [0; 9; 1; 0; 0; 0; 0; 8] /\ ~ valid_frame [2; 8; 0; 0; 0; 0; 0; 8].
Proof.
  cbv zeta. assert (NO : forall b, (forall z, z = b -> from_cache z -> False) -> ~ valid_frame b).
  { intros b H (_ & _ & _ & F). exact (H b eq_refl F). }
  split; [|split; [|split; [|split; [|split; [|split]]]]].
  - split; [repeat constructor|]. split; [discriminate|]. split; [reflexivity|]. apply F_v4; [reflexivity|reflexivity|].
    repeat split; vm_compute; first [reflexivity|discriminate].
  - apply NO. intros z -> [T|T|T _ P|T|T|T|T|lp lt T]; try discriminate T. destruct P as (_ & _ & P & _). now apply P.
  - apply NO. intros z -> [T|T|T _ P|T|T|T|T|lp lt T]; try discriminate T. destruct P as (_ & P & _). now apply P.
  - apply NO. intros z -> [T|T|T _ P|T|T|T|T|lp lt T]; try discriminate T. destruct P as (_ & _ & _ & P & _). now apply P.
  - intros (_ & _ & L & _). discriminate L.
  - apply NO. intros z -> [T|T|T|T|T|T|T V|lp lt T]; try discriminate T. discriminate V.
  - intros (_ & V & _). now apply V.
Qed.

(** C111 Answers are complete and in one piece: what is put on the channel of a connection, apart
    from Serial Notifies, is a sequence of answers (a Cache Response with its data and its End of
    Data; a Cache Reset; an Error Report), the last of which may lack its end only while the reader
    is still at it. *)
Theorem C111_answers : forall cfg s sched w i k, nrun (new_rtr_server cfg s) empty_net sched = Ok w -> nth_error (n_conns w) i = Some k ->
  exists bs rest, Forall answer bs /\ concat bs = answers (k_queued k) ++ rest /\ (k_prog k = [] -> rest = []).
Proof. intros cfg s sched w i k. apply all_whole. Qed.
(** An answer with a Serial Notify inside it; in between, its end is still to come. *)
Example C111_case : runs srv1 sched31 = true /\ exists k, nth_error (n_conns (after srv1 sched31)) 0 = Some k /\
  map get_type (k_queued k) = [3; 0; 4; 9; 6; 7] /\ map get_type (answers (k_queued k)) = [3; 4; 9; 6; 7] /\ k_prog k = [] /\ answer (answers (k_queued k)).
Proof.
  split; [vm_compute; reflexivity|]. eexists. split; [vm_compute; reflexivity|].
  split; [vm_compute; reflexivity|]. split; [vm_compute; reflexivity|]. split; [reflexivity|].
  match goal with |- answer ?l => let l' := eval vm_compute in l in change (answer l') end.
  match goal with |- answer (?x :: ?a :: ?b :: ?c :: ?y :: nil) => refine (A_data _ _ _ _ _ _ [a; b; c] _) end.
  repeat constructor.
Qed.
Example C111_part : runs srv1 (firstn 10 sched31) = true /\ exists k, nth_error (n_conns (after srv1 (firstn 10 sched31))) 0 = Some k /\
  map get_type (k_queued k) = [3] /\ k_prog k <> [].
Proof. split; [vm_compute; reflexivity|]. eexists. split; [vm_compute; reflexivity|]. vm_compute. split; [reflexivity|discriminate]. Qed.

Print Assumptions C110_valid.
Print Assumptions C111_answers.
