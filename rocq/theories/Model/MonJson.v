(** Model of the text served under diff.json, /repo/cmd/rtrmon/rtrmon.go:703-761. *)
From Verif Require Import Lib.Str.
From Verif Require Export Model.MonProc Model.JsonFile.
Local Open Scope string_scope.
Local Open Scope list_scope.
Local Open Scope N_scope.

(** diffMetadata, rtrmon.go:711-721; [url] is the flag -primary.host or -secondary.host (609-634). *)
Definition mdata_json (url : bytes) (d : mdata) : json :=
  JObj [(str "last-fetch", JNum (zdec (MonProc.md_last d))); (str "url", JStr url);
        (str "serial", JNum (dec (MonProc.md_serial d))); (str "session-id", JNum (dec (MonProc.md_session d)));
        (str "count", JNum (dec (MonProc.md_count d))); (str "rtr-refresh", JNum (dec (MonProc.md_refresh d)));
        (str "rtr-retry", JNum (dec (MonProc.md_retry d))); (str "rtr-expire", JNum (dec (MonProc.md_expire d)))].
(** VRPJsonSimple, rtrmon.go:723-731. *)
Definition mentry_json (e : mentry) : json :=
  JObj ([(str "asn", JNum (dec (m_asn e))); (str "max-length", JNum (dec (m_length e))); (str "prefix", JStr (m_prefix e));
         (str "first-seen", JNum (zdec (m_first e))); (str "last-seen", JNum (zdec (m_last e)));
         (str "visible", JBool (m_visible e))]
        ++ match m_key e with Some b => [(str "bgpsec", brk_json b)] | None => [] end).
(** diffExport, rtrmon.go:734-739.  VRPArray (703-709) makes the slices, so they are never nil. *)
Definition diff_json (url1 url2 : bytes) (md : option (mdata * mdata)) (l1 l2 : list mentry) : json :=
  JObj [(str "metadata-primary", match md with Some d => mdata_json url1 (fst d) | None => JNull end);
        (str "metadata-secondary", match md with Some d => mdata_json url2 (snd d) | None => JNull end);
        (str "only-primary", JArr (map mentry_json l1)); (str "only-secondary", JArr (map mentry_json l2))].
(** ServeDiff, rtrmon.go:741-761: Encode ends the document with a newline.  [l1] and [l2] are the
    entries of the two maps in the order in which VRPArray meets them.  The pointers are followed
    at one moment (in the code while the text is written, without a lock). *)
Definition diff_text (url1 url2 : bytes) (md : option (mdata * mdata)) (l1 l2 : list mentry) : bytes :=
  print (diff_json url1 url2 md l1 l2) ++ [10].
