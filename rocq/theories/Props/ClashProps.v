(** Property C53 for all files: which listed objects the map of rtrmon shows, exactly. *)
From Coq Require Import String ZArith ZifyBool ZifyNat ZifyN.
From Verif Require Import Lib.Str Spec.Monitor Spec.Clash Proofs.FormatP Proofs.DataP Proofs.JsonP Proofs.MonitorP Proofs.ClashP.
From Verif Require Import Props.CacheProps Props.MonitorProps.
From Coq Require Import List.
Import ListNotations.
Local Open Scope string_scope.
Local Open Scope list_scope.
Local Open Scope N_scope.

(** C53 Map rebuild contract, without conditions on the file or on what came before: an object is shown after a
    round exactly when the file lists it, and nothing that clashes with it further on. *)
Theorem C53_shown_partial : forall grace h t vs bs o,
  shown (after grace ((t, Listing vs bs) :: h)) o <->
  exists l1 l2, file_objs vs bs = l1 ++ o :: l2 /\ Forall (fun o' => ~ clash o o') l2.
Proof.
  intros grace h t vs bs o. change (after grace ((t, Listing vs bs) :: h)) with (fst (build_new_vrp_map grace (after grace h) vs bs t)). split.
  - intros (e & H & V). now destruct (round _ _ _ _ _ _ _ H V) as [_ R].
  - intros (l1 & l2 & E & F). now apply (round_back _ _ _ _ _ _ l1 l2).
Qed.
(** So the map shows the whole file exactly when no two objects in it clash. *)
Theorem C53_whole_partial : forall grace h t vs bs,
  (forall o, shown (after grace ((t, Listing vs bs) :: h)) o <-> In o (file_objs vs bs)) <->
  (forall o o', In o (file_objs vs bs) -> In o' (file_objs vs bs) -> clash o o' -> o = o').
Proof.
  intros grace h t vs bs. split.
  - intros H o o' I1 I2 C. apply H in I1, I2. apply C53_shown_partial in I1 as (l1 & l2 & E & F). apply C53_shown_partial in I2 as (m1 & m2 & E' & F').
    rewrite E in E'. rewrite Forall_forall in F, F'.
    assert (IO : In o (file_objs vs bs)) by (rewrite E; apply in_app_iff; right; now left).
    assert (IO' : In o' (file_objs vs bs)) by (rewrite E, E'; apply in_app_iff; right; now left).
    destruct (in_later _ _ _ _ _ _ E') as [X|[X|X]]; [now elim (F o' X)| |exact X].
    elim (F' o X). apply key_clash; [now apply (file_okp vs bs)|now apply (file_okp vs bs)|]. symmetry. apply key_clash; [now apply (file_okp vs bs)|now apply (file_okp vs bs)|exact C].
  - intros H o. rewrite C53_shown_partial. split; [intros (l1 & l2 & E & _); rewrite E; apply in_app_iff; right; now left|]. intros HI.
    assert (X : forall l, In o l -> exists l1 l2, l = l1 ++ o :: l2 /\ ~ In o l2).
    { clear - o. induction l as [|x l IH]; [intros []|]. intros HI. destruct (in_dec obj_dec o l) as [Y|N].
      - destruct (IH Y) as (l1 & l2 & -> & E). now exists (x :: l1), l2.
      - destruct HI as [->|HI]; [now exists [], l|contradiction]. }
    destruct (X _ HI) as (l1 & l2 & E & N). exists l1, l2. split; [exact E|]. apply Forall_forall. intros o' HO C. apply N.
    rewrite (H o o'); [exact HO|exact HI|rewrite E; apply in_app_iff; right; now right|exact C].
Qed.
(** A VRP and the key that poses as it; two keys, the identifier of one going on with the AS of the other;
    and a file in which nothing clashes although an identifier contains - and /. *)
Definition pose : brkjson := mkBJ 24 None [] (str "65001") (str "10.0.0.0/24").
Definition key_a : brkjson := mkBJ 7 None [] (str "8-k") (str "a").
Definition key_b : brkjson := mkBJ 8 None [] (str "k") (str "a-7").
Definition odd_key : brkjson := mkBJ 25 None [] (str "65001") (str "10.0.0.0/24-1").
Example C53_shown_case :
  clash o1 (bj_obj pose) /\ clash (bj_obj key_a) (bj_obj key_b) /\
  ~ shown (after 10 [(1%Z, Listing [fv "10.0.0.0/24" 24 "AS65001"] [pose])]) o1 /\
  shown (after 10 [(1%Z, Listing [] [key_a; key_b])]) (bj_obj key_b) /\
  (forall o o', In o [o1; bj_obj odd_key] -> In o' [o1; bj_obj odd_key] -> clash o o' -> o = o') /\
  file_objs [fv "10.0.0.0/24" 24 "AS65001"] [odd_key] = [o1; bj_obj odd_key].
Proof.
  split; [vm_compute; auto|]. split; [right; left; left; split; vm_compute; reflexivity|]. split.
  - intros H. apply C53_shown_partial in H as (l1 & l2 & E & F). change (file_objs _ _) with [o1; bj_obj pose] in E.
    destruct l1 as [|a [|b [|d l1]]]; try discriminate E. injection E as <-. apply Forall_inv in F. apply F. vm_compute. auto.
  - split; [apply C53_shown_partial; exists [bj_obj key_a], []; split; [reflexivity|constructor]|]. split; [|vm_compute; reflexivity].
    intros o o' [<-|[<-|[]]] [<-|[<-|[]]] C; try reflexivity; exfalso; destruct C as (E & _); vm_compute in E; discriminate E.
Qed.
Print Assumptions C53_shown_partial.
Print Assumptions C53_whole_partial.
