(** What the gauges about the data should show. *)
From Verif Require Export Model.Metrics Spec.Refresh.

(** [n] is the number of things with property [P]. *)
Definition number_of {A} (P : A -> Prop) (n : N) : Prop := exists l, NoDup l /\ (forall x, In x l <-> P x) /\ n = nlen l.
Definition is_v4 (x : rid) : Prop := match x with RV (mkPrefix (A4 _) _) _ _ => True | _ => False end.
Definition is_v6 (x : rid) : Prop := match x with RV (mkPrefix (A6 _) _) _ _ => True | _ => False end.
Definition is_key (x : rid) : Prop := match x with RK _ _ _ => True | _ => False end.
(** The entries of a file, after SLURM. *)
Definition entries (sl : option slurm) (d : rpkilist) : list vrpjson :=
  match sl with None => roa_of d | Some s => fst (filter_assert s (roa_of d) (rl_brk d)) end.
(** The router keys of a file, after SLURM. *)
Definition key_entries (sl : option slurm) (d : rpkilist) : list brkjson :=
  match sl with None => rl_brk d | Some s => snd (filter_assert s (roa_of d) (rl_brk d)) end.
(** What the gauges should show after the history [h]: the serial and the number of VRPs that
    are served; the number of usable entries, duplicates included, the number of router keys, also
    with duplicates, and the number of entries listed, as of the refresh that last changed what is served. *)
Definition gauge_ok (e : env) (c : scfg) (h : list input) (g : gauges) : Prop :=
  let s := after e c h in
  g_serial g = serial_of s /\
  number_of (fun x => served s x /\ is_v4 x) (g_eff4 g) /\ number_of (fun x => served s x /\ is_v6 x) (g_eff6 g) /\
  exists h1 i h2, last_change e c h h1 i h2 /\
    let s1 := after e c (h1 ++ [i]) in
    let vs := entries (st_slurm s1) (st_data s1) in
    counts (fun v => exists p asn, entry_ok (i_proc i / 1000000000) v p asn /\ is4 (p_addr p) = true) vs (g_v4 g) /\
    counts (fun v => exists p asn, entry_ok (i_proc i / 1000000000) v p asn /\ is4 (p_addr p) = false) vs (g_v6 g) /\
    (no_dup_keys (st_slurm s1) (st_data s1) -> number_of (fun x => served s x /\ is_key x) (g_keys g)) /\
    counts (fun k => exists ski, fresh (i_proc i / 1000000000) (bj_expires k) /\ is_hex_of (bj_ski k) ski)
      (key_entries (st_slurm s1) (st_data s1)) (g_keys g) /\
    g_count g = nlen vs.
(** Since the history [h0] what is served only ever changed to nothing. *)
Definition nothing_since (e : env) (c : scfg) (h0 h2 : list input) : Prop := forall a i b, h2 = a ++ i :: b ->
  same_served (after e c (h0 ++ a)) (after e c (h0 ++ a ++ [i])) \/ get_current_sds (st_server (after e c (h0 ++ a ++ [i]))) = [].
