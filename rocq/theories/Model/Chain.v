(** A second server fed from the first: what it decodes when it is given the file written
    by rtrdump, or the document served under -export.path.  Here are the
    records it decodes; that reading the texts yields them is proved in Props.JsonProps (C90).
    encoding/json writes the fields and reads them again; an AS number held as a uint32 comes
    back as a float64. *)
From Verif Require Export Model.State Model.Rtrdump.

(** The file of rtrdump, rtrdump.go:167-175, 246-250: neither buildtime nor generated is set,
    and roas is an empty list, not null, when there is none.  [sp], [bsp]: the room behind the
    slices the decoder makes. *)
Definition dump_list (sp bsp : nat) (d : dump) : rpkilist :=
  mkRL [] None (Some (fst (reread d))) sp (snd (reread d)) bsp.

(** An entry of prefixfile.go:26-32 written and read again (encoding/json). *)
Definition again (v : vrpjson) : vrpjson :=
  mkVJ (vj_prefix v) (vj_length v) (match vj_asn v with AsnU32 n => AsnFloat (Z.of_N n) 0 | a => a end) (vj_ta v) (vj_expires v).
(** exporter, stayrtr.go:631-637, of the list made at 435-442 (which has no generated), once
    there has been one; before that roas is null. *)
Definition export_list (sp bsp : nat) (s : state) : rpkilist :=
  mkRL (ex_build (st_exported s)) None (Some (map again (exported_roa s))) sp (exported_brk s) bsp.
