(** What the metrics about downloads and times should show, by their descriptions. *)
From Verif Require Export Model.MetricTimes Spec.Refresh.
From Coq Require Import List.
Local Open Scope list_scope.
Local Open Scope N_scope.

(** The status of the answer to a request, if it was one and was answered. *)
Definition answer_of (d : download) : option N :=
  if is_http (dl_file d) then match dl_web d with Response status _ _ _ => Some status | NoResponse => None end else None.
(** "Total number of HTTP requests by status code". *)
Fixpoint answers (file : bytes) (code : N) (l : list download) : N :=
  match l with
  | [] => 0
  | d :: l' => answers file code l' +
      (if beqb (dl_file d) file then match answer_of d with Some k => if k =? code then 1 else 0 | None => 0 end else 0)
  end.
(** "Last successful request for the given URL": answered with 200 or 304. *)
Fixpoint last_success (file : bytes) (l : list download) : option Z :=
  match l with
  | [] => None
  | d :: l' =>
      match last_success file l' with
      | Some t => Some t
      | None => if beqb (dl_file d) file then
          match answer_of d with Some k => if (k =? 200) || (k =? 304) then Some (Z.quot (dl_now d) 1000000000) else None | None => None end
        else None
      end
  end.
(** The refresh [j] is the last one in the history that brought a new file. *)
Definition last_new (e : env) (h h1 : list input) (j : input) (h2 : list input) : Prop :=
  h = h1 ++ j :: h2 /\ is_new (e_decode e) (files h1) (i_file j) /\
  forall a k b, h2 = a ++ k :: b -> ~ is_new (e_decode e) (files (h1 ++ j :: a)) (i_file k).
