(** rtrmon at run time: what its two sources have told it, in terms of a schedule. *)
From Verif Require Export Model.MonProc Spec.Monitor Spec.Wire.

Definition side_eqb (a b : side) : bool := match a, b with Pri, Pri | Sec, Sec => true | _, _ => false end.
(** The rounds of a source that is a file, newest first. *)
Definition rounds_of (i : side) (ls : list mlabel) : list (Z * fetched) :=
  rev (flat_map (fun l => match l with LFetch j t r => if side_eqb i j then [(t, r)] else [] | _ => [] end) ls).
(** The PDUs received from a source that is an RTR server, oldest first. *)
Definition pdus_of (i : side) (ls : list mlabel) : list (Z * pdu) :=
  flat_map (fun l => match l with LPdu j t p => if side_eqb i j then [(t, p)] else [] | _ => [] end) ls.
(** What the source [i] has told until now: the map of C52 to C55. *)
Definition told_rtr (cfg : mcfg) (i : side) (ls : list mlabel) : mon := mon_pdus (k_break cfg i) new_mon (pdus_of i ls).
Definition told_map (cfg : mcfg) (i : side) (ls : list mlabel) : vmap :=
  if k_file cfg i then after (k_grace cfg) (rounds_of i ls) else mo_vrps (told_rtr cfg i ls).
(** Sources as in C52. *)
Definition good_label (l : mlabel) : Prop :=
  match l with LFetch _ _ r => plain_file r | LPdu _ _ p => good_pdu p | _ => True end.
(** Nothing is under way. *)
Definition at_rest (s : mstate) : Prop :=
  mc_phase (ms_c1 s) = MIdle /\ mc_phase (ms_c2 s) = MIdle /\ ms_comp s = KIdle.
(** Steps that need nothing from outside. *)
Definition internal (l : mlabel) : Prop := match l with LFetch _ _ _ | LPdu _ _ _ => False | _ => True end.
(** [b] differs from [a] at most in the flag Visible, which may have been cleared. *)
Definition dimmed (a b : mentry) : Prop := b = a \/ b = set_visible false a.

(** The newest round of a file that gave something (rounds as above, newest first). *)
Fixpoint newest (h : list (Z * fetched)) : option Z :=
  match h with
  | [] => None
  | (t, (NotModified | Listing _ _)) :: _ => Some t
  | _ :: h' => newest h'
  end.
(** The source has delivered a complete set at least once. *)
Definition delivered (cfg : mcfg) (i : side) (ls : list mlabel) : bool :=
  if k_file cfg i then match newest (rounds_of i ls) with Some _ => true | None => false end
  else existsb (fun x => get_type (snd x) =? PDU_ID_END_OF_DATA) (pdus_of i ls).
(** When the data of an RTR server was last put in place. *)
Definition renewed (i : side) (ls : list mlabel) : option Z :=
  fold_left (fun o l => match l with LAssign j t => if side_eqb i j then Some t else o | _ => o end) ls None.
(** No response is open: the last Cache Response was followed by End of Data. *)
Definition closed (i : side) (ls : list mlabel) : bool :=
  fold_left (fun b x => match snd x with CacheResponse _ _ => false | EndOfData _ _ _ _ _ _ => true | _ => b end)
            (pdus_of i ls) true.

(** The PDUs after which rtrmon hangs up: End of Data with -*.rtr.break, and those a server should
    not send unless something is wrong. *)
Definition hangs_up (break : bool) (p : pdu) : bool :=
  match p with
  | EndOfData _ _ _ _ _ _ => break
  | ErrorReport _ _ _ _ | SerialQuery _ _ _ | ResetQuery _ => true
  | _ => false
  end.
