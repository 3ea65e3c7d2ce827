(** Go string literals as byte lists. *)
From Coq Require Export Ascii String.
From Coq Require Import NArith List.
From Verif Require Import Lib.Bytes.
Definition str (s : string) : bytes := map N_of_ascii (list_ascii_of_string s).
Lemma str_ok s : bytes_ok (str s).
Proof.
  unfold bytes_ok, str. apply Forall_forall. intros x Hx. apply in_map_iff in Hx as (c & <- & _).
  unfold u8. apply N_ascii_bounded.
Qed.
