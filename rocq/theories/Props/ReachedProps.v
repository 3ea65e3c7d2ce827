(** Property C114: a notification reaches every router. *)
From Coq Require Import ZArith ZifyBool ZifyNat ZifyN.
From Verif Require Import Model.Concurrent Spec.Wire Spec.Sets Spec.History Spec.Response Spec.Net Spec.Conversation Spec.Answered Spec.Reached
  Proofs.DataP Proofs.ConnP Proofs.NetP Proofs.AnsweredP Proofs.ReachedP Props.CacheProps Props.ConnProps Props.ConcProps.
Local Open Scope list_scope.
Local Open Scope N_scope.

(** C114 A notification reaches every router: as long as all routers listed stay connected and read
    what they are sent, and the goroutines go on getting turns, NotifyClientsLatest returns, and
    then each of these routers has been sent exactly one more Serial Notify, with the new serial
    number, together with the rest of the answer it was being sent.  To a router that was not being
    answered it is in its version and with the session of that version.  Connections may come, ask
    and go meanwhile, and the channels may have been full. *)
Theorem C114_notified : forall cfg s w n w0, u16 s -> cfg_version cfg < 256 ->
  let srv := new_rtr_server cfg s in
  nreach srv w -> n_notif w = NIdle -> (forall i k, In i (n_clients w) -> nth_error (n_conns w) i = Some k -> staying k) ->
  nstep srv w (LNotify n) = Ok w0 ->
  forall rs w', Forall (turn_all (n_clients w)) rs -> nrun srv w0 (concat rs) = Ok w' -> (patience w <= length rs)%nat ->
    exists r1 r2 w1, concat rs = r1 ++ r2 /\ nrun srv w0 r1 = Ok w1 /\ n_notif w1 = NIdle /\
      forall i k, In i (n_clients w) -> nth_error (n_conns w) i = Some k ->
        exists k1 v sess, nth_error (n_conns w1) i = Some k1 /\ written k1 /\
          notes k1 = notes k ++ [SerialNotify v sess n] /\ (k_prog k = [] -> v = k_ver k /\ sess = session_of s v) /\
          answers (k_queued k1) = answers (k_queued k) ++ rest_of_answer k.
Proof. exact all_reached. Qed.

(** Three routers: the first is in the middle of an answer, the second has asked in version 0, the
    third has asked nothing; a fourth comes and asks meanwhile. *)
Definition start114 := [LAccept TCP; LStart 0; LAccept TCP; LStart 1; LAccept SSH; LSshBegin 2; LStart 2; LRead 0 cacheA [1; 2; 0; 0; 0; 0; 0; 8]]
  ++ many 4 [LReader 0] ++ [LRead 1 cacheA [0; 2; 0; 0; 0; 0; 0; 8]] ++ many 8 [LReader 1; LSender 1 WAll].
Definition before114 := after srv1 start114.
Definition rounds114 := let all i := [LReader i; LSender i WAll] in
  repeat (all 0%nat ++ all 1%nat ++ [LNotifier] ++ all 2%nat) 5
  ++ [all 0%nat ++ all 1%nat ++ all 2%nat ++ [LNotifier; LAccept TLS; LStart 3; LRead 3 cacheA [1; 2; 0; 0; 0; 0; 0; 8]]]
  ++ repeat (all 3%nat ++ [LNotifier] ++ all 2%nat ++ all 1%nat ++ all 0%nat) 90.
Example C114_case : nrun srv1 empty_net start114 = Ok before114 /\ n_notif before114 = NIdle /\ n_clients before114 = [0; 1; 2]%nat /\
  (forall i k, In i (n_clients before114) -> nth_error (n_conns before114) i = Some k -> staying k) /\
  Forall (turn_all (n_clients before114)) rounds114 /\ (patience before114 <= length rounds114)%nat /\
  map (fun k => (length (k_queue k), length (k_prog k))) (n_conns before114) = [(2, 3); (1, 0); (0, 0)]%nat /\
  runs srv1 (start114 ++ [LNotify 9] ++ concat rounds114) = true /\
  map notes (n_conns (after srv1 (start114 ++ [LNotify 9] ++ concat rounds114))) =
    [[SerialNotify 1 107 9]; [SerialNotify 0 7 9]; [SerialNotify 0 7 9]; []].
Proof.
  split; [apply after_ok; vm_compute; reflexivity|]. split; [vm_compute; reflexivity|]. assert (C : n_clients before114 = [0; 1; 2]%nat) by (vm_compute; reflexivity).
  split; [exact C|]. rewrite C. split.
  { intros i k Hi Hk.
    assert (X : forallb (fun j => match nth_error (n_conns before114) j with
      | Some k => k_flag k && k_up k && forallb (fun o => match o with OFlag => false | _ => true end) (k_prog k) | None => true end) [0; 1; 2]%nat = true) by (vm_compute; reflexivity).
    rewrite forallb_forall in X. specialize (X i Hi). rewrite Hk in X. apply andb_prop in X as [X X3]. apply andb_prop in X as [X1 X2].
    split; [exact X1|]. split; [exact X2|]. intros F. rewrite forallb_forall in X3. specialize (X3 _ F). discriminate X3. }
  split.
  { apply Forall_forall. intros r Hr. unfold rounds114 in Hr. cbv zeta in Hr. rewrite !in_app_iff in Hr.
    destruct Hr as [Hr|[Hr|Hr]]; [apply repeat_spec in Hr|destruct Hr as [Hr|[]]; symmetry in Hr|apply repeat_spec in Hr]; rewrite Hr; clear Hr r; cbn [app].
    all: split; [|split; [repeat (first [left; reflexivity|right])|intros n X; repeat (destruct X as [X|X]; [discriminate X|]); exact X]].
    all: intros i [<-|[<-|[<-|[]]]]; (split; [repeat (first [left; reflexivity|right])|split; [repeat (first [left; reflexivity|right])|]]).
    all: repeat (apply Forall_cons; [cbv beta iota; first [exact I|intros _; exact eq_refl|intros X; discriminate X]|]). all: apply Forall_nil. }
  split; [apply Nat.leb_le; vm_compute; reflexivity|]. split; [vm_compute; reflexivity|]. split; vm_compute; reflexivity.
Qed.

Print Assumptions C114_notified.
