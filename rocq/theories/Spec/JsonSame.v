(** JSON texts that say the same: objects with their members in another order, and members
    of names no format of stayrtr has.  Of the model only the type of JSON values is used. *)
From Coq Require Import Permutation.
From Verif Require Import Lib.Str Model.JsonText.
Local Open Scope string_scope.
Local Open Scope list_scope.
Local Open Scope N_scope.

(** A name with no long s (U+017F) and no Kelvin sign (U+212A), here in UTF-8. *)
Definition ordinary (k : bytes) : Prop :=
  ~ (exists a b, k = a ++ [197; 191] ++ b) /\ ~ (exists a b, k = a ++ [226; 132; 170] ++ b).
Definition lower (k : bytes) : bytes := map (fun c => if (65 <=? c) && (c <=? 90) then c + 32 else c) k.
(** No two members have the same name, whatever the case of its letters. *)
Definition distinct (l : list (bytes * json)) : Prop :=
  Forall (fun m => ordinary (fst m)) l /\ NoDup (map (fun m => lower (fst m)) l).
(** The names in the file with the validated data and in the SLURM file. *)
Definition names : list bytes :=
  map str ["metadata"; "roas"; "bgpsec_keys"; "vrps"; "bgpsec_pubkeys"; "buildtime"; "generated"; "sessionid"; "serial";
           "prefix"; "maxlength"; "asn"; "ta"; "expires"; "pubkey"; "ski"; "comment"; "maxprefixlength"; "routerpublickey";
           "slurmversion"; "validationoutputfilters"; "locallyaddedassertions"; "prefixfilters"; "bgpsecfilters";
           "prefixassertions"; "bgpsecassertions"].
Definition unknown (k : bytes) : Prop := ordinary k /\ ~ In (lower k) names.
(** All numbers in it are written without an exponent and with at most 307 characters. *)
Fixpoint at_dot (s : bytes) : bytes * bytes :=
  match s with
  | [] => ([], [])
  | c :: t => if c =? 46 then ([], t) else let (a, b) := at_dot t in (c :: a, b)
  end.
Definition only_digits (s : bytes) : bool := forallb (fun c => (48 <=? c) && (c <=? 57)) s.
Definition short (lit : bytes) : bool :=
  let (a, b) := at_dot (match lit with c :: t => if c =? 45 then t else lit | [] => [] end) in
  (length lit <=? 307)%nat && only_digits a && only_digits b.
Fixpoint tame (v : json) : bool :=
  match v with
  | JNum lit => short lit
  | JArr l => forallb tame l
  | JObj l => forallb (fun m => tame (snd m)) l
  | _ => true
  end.
Inductive same : json -> json -> Prop :=
| sm_refl v : same v v
| sm_trans v w x : same v w -> same w x -> same v x
| sm_elem l1 v w l2 : same v w -> same (JArr (l1 ++ v :: l2)) (JArr (l1 ++ w :: l2))
| sm_mem l1 k v w l2 : same v w -> same (JObj (l1 ++ (k, v) :: l2)) (JObj (l1 ++ (k, w) :: l2))
| sm_perm l l' : distinct l -> Permutation l l' -> same (JObj l) (JObj l')
| sm_drop l1 k v l2 : unknown k -> tame v = true -> same (JObj (l1 ++ (k, v) :: l2)) (JObj (l1 ++ l2)).
