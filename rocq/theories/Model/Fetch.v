(** Model of /repo/utils/utils.go:13-172, FetchConfig and FetchFile, and of its use of the
    lock by the two downloads that run in parallel (/repo/cmd/stayrtr/stayrtr.go:566-605 and
    812-853).

    Transport settings, the User-Agent and Accept headers and the proxy are left out; an
    error in setting up the request counts as no response.  Redirections are followed by
    the library: the response is the last one. *)

From Verif Require Export Lib.Str Model.Go.
Local Open Scope string_scope.
Local Open Scope list_scope.
Local Open Scope N_scope.

(** EnableEtags, EnableLastModified; utils.go:20-21. *)
Record fcfg := mkFC { fc_etags : bool; fc_lm : bool }.
(** The maps etags and lastModified, utils.go:17-18; times in seconds since 1970. *)
Record fstate := mkFS { f_etags : bytes -> option bytes; f_lms : bytes -> option Z }.
(** NewFetchConfig, utils.go:24-31. *)
Definition new_fetch : fstate := mkFS (fun _ => None) (fun _ => None).
(** Assignment to and deletion from a map. utils/utils.go:127-128, 140, 155-157. *)
Definition put {A} (m : bytes -> option A) (k : bytes) (a : option A) : bytes -> option A :=
  fun k' => if beqb k k' then a else m k'.

(** The conditional headers of a request: If-None-Match, If-Modified-Since.
    utils/utils.go:84-97. *)
Record request := mkRq { rq_inm : option bytes; rq_ims : option Z }.
(** What happens: no response; or a response with status, the ETag header (empty when absent),
    the Last-Modified header ([None] when it does not parse), and the body ([None] when reading
    it fails). utils/utils.go:110-171. *)
Inductive exchange :=
| NoResponse
| Response (status : N) (etag : bytes) (lm : option Z) (body : option bytes).
(** Errors of FetchFile. utils/utils.go:33-48, 110-171. *)
Inductive ferr := ENoResponse | ENotModified | EStatus (status : N) | EIdentical | ERead | EOpen.

(** The test for a URL, utils.go:53. *)
Definition is_http (file : bytes) : bool :=
  (8 <? nlen file) && (beqb (firstn 7 file) (str "http://") || beqb (firstn 8 file) (str "https://")).

(** The conditional headers, utils.go:84-97. *)
Definition request_of (c : fcfg) (s : fstate) (file : bytes) : request :=
  mkRq (if fc_etags c then f_etags s file else None) (if fc_lm c then f_lms s file else None).

(** Line 138: the ETag is absent, not used, or differs from the one stored (an entry that
    is not there reads as empty). utils/utils.go:138. *)
Definition etag_differs (c : fcfg) (s : fstate) (file etag : bytes) : bool :=
  negb (fc_etags c) || beqb etag [] || negb (beqb etag (match f_etags s file with Some t => t | None => [] end)).

(** FetchFile for a URL, utils.go:110-160, 167-171. *)
Definition fetch_http (c : fcfg) (s : fstate) (file : bytes) (x : exchange) : fstate * res bytes ferr :=
  match x with
  | NoResponse => (s, Err ENoResponse)
  | Response status etag lm body =>
      if status =? 304 then (s, Err ENotModified)
      else if negb (status =? 200) then (mkFS (put (f_etags s) file None) (put (f_lms s) file None), Err (EStatus status))
      else if etag_differs c s file etag then
        let e' := put (f_etags s) file (Some etag) in
        let l' := if fc_lm c then put (f_lms s) file lm else f_lms s in
        (mkFS e' l', match body with Some b => Ok b | None => Err ERead end)
      else (s, Err EIdentical)
  end.
(** FetchFile, utils.go:50-172.  [web]: the outcome of a request; [disk]: the outcome of
    opening and reading a file. *)
Definition fetch_file (c : fcfg) (s : fstate) (file : bytes) (web : bytes -> request -> exchange)
  (disk : bytes -> option (option bytes)) : fstate * res bytes ferr :=
  if is_http file then fetch_http c s file (web file (request_of c s file))
  else (s, match disk file with None => Err EOpen | Some None => Err ERead | Some (Some b) => Ok b end).

(** * The lock *)
(** The operations on conditionalRequestLock and the accesses to the two maps ([false] is
    etags, [true] lastModified). utils/utils.go:84-97, 126-129, 138-141, 153-159. *)
Inductive op := ORLock | ORUnlock | OLock | OUnlock | ORead (m : bool) | OWrite (m : bool).
(** Code under an if, utils/utils.go:85, 91, 149. *)
Definition when {A} (b : bool) (l : list A) : list A := if b then l else [].
(** The operations of one FetchFile, utils.go:84-97, 125-131, 138-141, 149-160.  [same]: the
    ETag is the one found in the map. *)
Definition ops (c : fcfg) (file : bytes) (x : exchange) (same : bool) : list op :=
  when (is_http file)
    ([ORLock] ++ when (fc_etags c) [ORead false] ++ when (fc_lm c) [ORead true] ++ [ORUnlock] ++
     match x with
     | NoResponse => []
     | Response status etag lm _ =>
         if status =? 304 then []
         else if negb (status =? 200) then [OLock; OWrite false; OWrite true; OUnlock]
         else when (fc_etags c && negb (beqb etag [])) [ORead false] ++
              when (negb (fc_etags c) || beqb etag [] || negb same)
                ([OLock; OWrite false; OUnlock] ++ when (fc_lm c) [OLock; OWrite true; OUnlock])
     end).
(** A sync.RWMutex and goroutines using it; a waiting writer blocking new readers is
    left out, which allows more executions. utils/utils.go:13-20. *)
Record lstate := mkL { l_readers : nat; l_writer : bool; l_ths : list (list op) }.
(** No counterpart in /repo: replaces an element of the list of goroutines
    (stayrtr.go:567-592, calling utils/utils.go:50). *)
Fixpoint set_nth {A} (l : list A) (n : nat) (a : A) : list A :=
  match l, n with
  | [], _ => []
  | _ :: l', O => a :: l'
  | b :: l', S n' => b :: set_nth l' n' a
  end.
(** One step of goroutine [i]; [None] when it is finished or must wait.
    utils/utils.go:84-159. *)
Definition lstep (s : lstate) (i : nat) : option lstate :=
  match nth_error (l_ths s) i with
  | Some (o :: p) =>
      let ths := set_nth (l_ths s) i p in
      match o with
      | ORLock => if l_writer s then None else Some (mkL (S (l_readers s)) false ths)
      | ORUnlock => Some (mkL (pred (l_readers s)) (l_writer s) ths)
      | OLock => if l_writer s || negb (l_readers s =? 0)%nat then None else Some (mkL 0 true ths)
      | OUnlock => Some (mkL (l_readers s) false ths)
      | ORead _ | OWrite _ => Some (mkL (l_readers s) (l_writer s) ths)
      end
  | _ => None
  end.
(** Goroutines before they start. utils/utils.go:50. *)
Definition lstart (ths : list (list op)) : lstate := mkL 0 false ths.
(** Any interleaving, utils/utils.go:50-172, called from stayrtr.go:567-592. *)
Fixpoint lrun (s : lstate) (l : list nat) : option lstate :=
  match l with [] => Some s | i :: r => match lstep s i with Some s' => lrun s' r | None => None end end.
