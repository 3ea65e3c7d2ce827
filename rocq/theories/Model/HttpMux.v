(** Model of the HTTP endpoints: which handler answers which request, and whether the process
    survives registering them.  /repo/cmd/stayrtr/stayrtr.go:172-175, 770-806,
    /repo/cmd/rtrmon/rtrmon.go:1006-1012.  The handlers are put into http.DefaultServeMux,
    modelled here after net/http of Go 1.23 (pattern.go, routing_tree.go, server.go), which
    go.mod:3 asks for.  Left out: CONNECT requests, the request URI *, and what the handlers
    write (see State.v, Trigger.v, MonProc.v). *)
From Coq Require Import String.
From Verif Require Export Model.Go Model.Format.
From Verif Require Import Lib.Str.
Local Open Scope string_scope.
Local Open Scope list_scope.
Local Open Scope N_scope.

(** * Text *)
(** strings.Split at a slash. Standard library (loop of parsePattern, firstSegment, path.Clean),
    used for stayrtr.go:800-804. *)
Fixpoint split_slash (s : bytes) : list bytes :=
  match s with
  | [] => [[]]
  | c :: s' => if c =? 47 then [] :: split_slash s'
               else match split_slash s' with w :: r => (c :: w) :: r | [] => [[c]] end
  end.
(** url.PathUnescape; [None] is an error. Standard library (net/url), used for stayrtr.go:800-804. *)
Fixpoint unescape (s : bytes) : option bytes :=
  match s with
  | [] => Some []
  | c :: s' =>
      if c =? 37 then
        match s' with
        | a :: b :: r => match hexval a, hexval b, unescape r with
                         | Some x, Some y, Some t => Some (16 * x + y :: t)
                         | _, _, _ => None
                         end
        | _ => None
        end
      else option_map (cons c) (unescape s')
  end.
(** pathUnescape of net/http: the text itself if it is malformed. Used for stayrtr.go:800-804. *)
Definition path_unescape (s : bytes) : bytes := match unescape s with Some t => t | None => s end.
(** The parts path.Clean keeps of a path that begins with a slash; [acc] is reversed. Standard
    library (path), used for stayrtr.go:174. *)
Fixpoint clean_parts (acc : list bytes) (parts : list bytes) : list bytes :=
  match parts with
  | [] => rev acc
  | w :: r => if beqb w [] || beqb w (str ".") then clean_parts acc r
              else if beqb w (str "..") then clean_parts (tl acc) r
              else clean_parts (w :: acc) r
  end.
(** path.Clean of such a path. Standard library (path), used for stayrtr.go:174. *)
Definition rooted_clean (s : bytes) : bytes :=
  match clean_parts [] (split_slash s) with [] => [47] | ws => flat_map (cons 47) ws end.
(** Whether the last byte is a slash; Go's s[len(s)-1] == '/' (standard library, used for
    stayrtr.go:174). *)
Definition slash_end (s : bytes) : bool := match rev s with c :: _ => c =? 47 | [] => false end.
(** cleanPath of net/http, used for stayrtr.go:174, rtrmon.go:1011. *)
Definition clean_path (s : bytes) : bytes :=
  let s := match s with c :: _ => if c =? 47 then s else 47 :: s | [] => [47] end in
  let np := rooted_clean s in
  if slash_end s && negb (beqb np [47]) then np ++ [47] else np.

(** * Patterns *)
(** segment and pattern of net/http, used for stayrtr.go:173, 800-804. *)
Record segment := mkSeg { sg_s : bytes; sg_wild : bool; sg_multi : bool }.
(** pattern of net/http, used for stayrtr.go:173, 800-804. *)
Record pattern := mkPat { pt_method : bytes; pt_host : bytes; pt_segs : list segment }.
(** The position of the first byte that satisfies a test. strings.IndexAny, IndexByte (standard
    library, used for stayrtr.go:800-804). *)
Fixpoint index_of (f : N -> bool) (s : bytes) : option nat :=
  match s with [] => None | c :: s' => if f c then Some O else option_map S (index_of f s') end.
(** strings.TrimLeft of blanks. Standard library, used for stayrtr.go:800-804. *)
Fixpoint trim_blanks (s : bytes) : bytes :=
  match s with c :: s' => if (c =? 32) || (c =? 9) then trim_blanks s' else s | [] => [] end.
(** The bytes of a token: validMethod of net/http. Used for stayrtr.go:800-804. *)
Definition token_byte (c : N) : bool :=
  ((48 <=? c) && (c <=? 57)) || ((65 <=? c) && (c <=? 90)) || ((97 <=? c) && (c <=? 122)) ||
  existsb (N.eqb c) (str "!#$%&'*+-.^_`|~").
(** strings.CutSuffix with three dots. Standard library, used for stayrtr.go:800-804. *)
Definition cut_dots (s : bytes) : bytes * bool :=
  match rev s with
  | a :: b :: c :: r => if (a =? 46) && (b =? 46) && (c =? 46) then (rev r, true) else (s, false)
  | _ => (s, false)
  end.
(** The loop of parsePattern over the parts behind the first slash. [wname]:
    isValidWildcardName, which asks Unicode tables.  net/http, used for stayrtr.go:800-804. *)
Fixpoint parse_segs (wname : bytes -> bool) (seen : list bytes) (parts : list bytes) : option (list segment) :=
  match parts with
  | [] => Some []
  | w :: r =>
      if beqb w [] && match r with [] => true | _ => false end then Some [mkSeg [] true true]
      else match index_of (N.eqb 123) w with
      | None => option_map (cons (mkSeg (path_unescape w) false false)) (parse_segs wname seen r)
      | Some i =>
          if negb (Nat.eqb i 0) then None
          else match rev (tl w) with
          | c :: mid =>
              if negb (c =? 125) then None
              else let name := rev mid in
              if beqb name (str "$") then match r with [] => Some [mkSeg [47] false false] | _ => None end
              else let (name, multi) := cut_dots name in
              if multi && match r with [] => false | _ => true end then None
              else if beqb name [] || negb (wname name) || existsb (beqb name) seen then None
              else option_map (cons (mkSeg name true multi)) (parse_segs wname (name :: seen) r)
          | [] => None
          end
      end
  end.
(** parsePattern of net/http; [None] is an error. Used for stayrtr.go:173, 800-804. *)
Definition parse_pattern (wname : bytes -> bool) (s : bytes) : option pattern :=
  let '(method, rest) := match index_of (fun c => (c =? 32) || (c =? 9)) s with
                         | Some i => (firstn i s, trim_blanks (skipn (S i) s))
                         | None => ([], s)
                         end in
  if negb (forallb token_byte method) then None
  else match index_of (N.eqb 47) rest with
  | None => None
  | Some i =>
      let host := firstn i rest in
      let path := skipn i rest in
      if existsb (N.eqb 123) host then None
      else if negb (beqb method []) && negb (beqb method (str "CONNECT")) && negb (beqb path (clean_path path)) then None
      else match parse_segs wname [] (split_slash (tl path)) with
           | Some segs => Some (mkPat method host segs)
           | None => None
           end
  end.

(** relationship of net/http, used for stayrtr.go:173, 800-804. *)
Inductive relation := Equivalent | MoreGeneral | MoreSpecific | Disjoint | Overlaps.
(** combineRelationships of net/http, used for stayrtr.go:173, 800-804. *)
Definition combine_rel (r1 r2 : relation) : relation :=
  match r1 with
  | Equivalent => r2
  | Disjoint => Disjoint
  | Overlaps => match r2 with Disjoint => Disjoint | _ => Overlaps end
  | MoreGeneral => match r2 with Equivalent => MoreGeneral | MoreSpecific => Overlaps | _ => r2 end
  | MoreSpecific => match r2 with Equivalent => MoreSpecific | MoreGeneral => Overlaps | _ => r2 end
  end.
(** compareSegments of net/http, used for stayrtr.go:173, 800-804. *)
Definition compare_segs (s1 s2 : segment) : relation :=
  if sg_multi s1 && sg_multi s2 then Equivalent
  else if sg_multi s1 then MoreGeneral
  else if sg_multi s2 then MoreSpecific
  else if sg_wild s1 && sg_wild s2 then Equivalent
  else if sg_wild s1 then (if beqb (sg_s s2) [47] then Disjoint else MoreGeneral)
  else if sg_wild s2 then (if beqb (sg_s s1) [47] then Disjoint else MoreSpecific)
  else if beqb (sg_s s1) (sg_s s2) then Equivalent else Disjoint.
(** pattern.lastSegment().multi of net/http, used for stayrtr.go:173, 800-804. *)
Definition last_multi (l : list segment) : bool := match rev l with s :: _ => sg_multi s | [] => false end.
(** The loop of comparePaths and what follows it; [m1], [m2]: whether the patterns end in a
    multi wildcard. net/http, used for stayrtr.go:173, 800-804. *)
Fixpoint compare_loop (m1 m2 : bool) (rel : relation) (l1 l2 : list segment) : relation :=
  match l1, l2 with
  | s1 :: r1, s2 :: r2 =>
      match combine_rel rel (compare_segs s1 s2) with
      | Disjoint => Disjoint
      | rel' => compare_loop m1 m2 rel' r1 r2
      end
  | [], [] => rel
  | [], _ => if m1 then combine_rel rel MoreGeneral else Disjoint
  | _, [] => if m2 then combine_rel rel MoreSpecific else Disjoint
  end.
(** comparePaths of net/http, used for stayrtr.go:173, 800-804. *)
Definition compare_paths (l1 l2 : list segment) : relation :=
  if negb (Nat.eqb (List.length l1) (List.length l2)) && negb (last_multi l1) && negb (last_multi l2) then Disjoint
  else compare_loop (last_multi l1) (last_multi l2) Equivalent l1 l2.
(** compareMethods of net/http, used for stayrtr.go:173, 800-804. *)
Definition compare_methods (a b : bytes) : relation :=
  if beqb a b then Equivalent
  else if beqb a [] then MoreGeneral
  else if beqb b [] then MoreSpecific
  else if beqb a (str "GET") && beqb b (str "HEAD") then MoreGeneral
  else if beqb b (str "GET") && beqb a (str "HEAD") then MoreSpecific
  else Disjoint.
(** conflictsWith of net/http, used for stayrtr.go:173, 800-804. *)
Definition conflicts (p1 p2 : pattern) : bool :=
  beqb (pt_host p1) (pt_host p2) &&
  match compare_methods (pt_method p1) (pt_method p2) with
  | Disjoint => false
  | mrel => match combine_rel mrel (compare_paths (pt_segs p1) (pt_segs p2)) with
            | Equivalent | Overlaps => true
            | _ => false
            end
  end.

(** * The routing tree *)
(** routingNode of net/http with handlers of type [H]: the pattern of a leaf, children by key,
    the child for the empty key (any host, any method, a wildcard), the one for a multi
    wildcard. Used for stayrtr.go:173, 800-804. *)
Inductive node (H : Type) :=
| Node (leaf : option (pattern * H)) (kids : list (bytes * node H)) (any : option (node H)) (multi : option (pattern * H)).
Arguments Node {H}.
(** An empty routingNode. net/http, used for stayrtr.go:173, 800-804. *)
Definition node0 {H} : node H := Node None [] None None.
(** mapping.find of net/http, used for stayrtr.go:173, 800-804. *)
Fixpoint kid {H} (k : bytes) (l : list (bytes * node H)) : option (node H) :=
  match l with [] => None | (k', n) :: r => if beqb k k' then Some n else kid k r end.
(** findChild of net/http, used for stayrtr.go:174. *)
Definition find_child {H} (k : bytes) (n : node H) : option (node H) :=
  let '(Node _ kids any _) := n in if beqb k [] then any else kid k kids.
(** A child replaced or added. net/http (mapping.add), used for stayrtr.go:173, 800-804. *)
Fixpoint kid_set {H} (k : bytes) (c : node H) (l : list (bytes * node H)) : list (bytes * node H) :=
  match l with [] => [(k, c)] | (k', n) :: r => if beqb k k' then (k', c) :: r else (k', n) :: kid_set k c r end.
(** addChild of net/http and then a change of the child. Used for stayrtr.go:173, 800-804. *)
Definition with_child {H} (k : bytes) (f : node H -> option (node H)) (n : node H) : option (node H) :=
  let c := match find_child k n with Some c => c | None => node0 end in
  let '(Node leaf kids any multi) := n in
  option_map (fun c => if beqb k [] then Node leaf kids (Some c) multi else Node leaf (kid_set k c kids) any multi) (f c).
(** addSegments and set of net/http; [None]: set panics because there is a pattern already.
    Used for stayrtr.go:173, 800-804. *)
Fixpoint add_segs {H} (segs : list segment) (p : pattern) (h : H) (n : node H) : option (node H) :=
  match segs with
  | [] => let '(Node leaf kids any multi) := n in
          match leaf with None => Some (Node (Some (p, h)) kids any multi) | Some _ => None end
  | s :: r =>
      if sg_multi s then let '(Node leaf kids any _) := n in Some (Node leaf kids any (Some (p, h)))
      else with_child (if sg_wild s then [] else sg_s s) (add_segs r p h) n
  end.
(** addPattern of net/http, used for stayrtr.go:173, 800-804. *)
Definition add_pattern {H} (p : pattern) (h : H) (root : node H) : option (node H) :=
  with_child (pt_host p) (with_child (pt_method p) (add_segs (pt_segs p) p h)) root.

(** firstSegment of net/http applied until the path is used up; used for stayrtr.go:174. *)
Definition path_segs (s : bytes) : list bytes :=
  let parts := split_slash (tl s) in
  match rev parts with
  | [] :: r => map path_unescape (rev r) ++ [[47]]
  | _ => map path_unescape parts
  end.
(** matchPath of net/http, on those segments; used for stayrtr.go:174. *)
Fixpoint match_path {H} (segs : list bytes) (n : node H) : option (pattern * H) :=
  let '(Node leaf _ any multi) := n in
  match segs with
  | [] => leaf
  | s :: r =>
      match (match find_child s n with Some c => match_path r c | None => None end) with
      | Some x => Some x
      | None =>
          match (if beqb s [47] then None else match any with Some c => match_path r c | None => None end) with
          | Some x => Some x
          | None => multi
          end
      end
  end.
(** matchMethodAndPath of net/http, used for stayrtr.go:174. *)
Definition match_method {H} (method : bytes) (segs : list bytes) (n : option (node H)) : option (pattern * H) :=
  let try k := match n with
               | Some n => match find_child k n with Some c => match_path segs c | None => None end
               | None => None
               end in
  match try method with
  | Some x => Some x
  | None => match (if beqb method (str "HEAD") then try (str "GET") else None) with
            | Some x => Some x
            | None => try []
            end
  end.
(** match of net/http, used for stayrtr.go:174. *)
Definition match_root {H} (host method path : bytes) (root : node H) : option (pattern * H) :=
  match (if beqb host [] then None else match_method method (path_segs path) (find_child host root)) with
  | Some x => Some x
  | None => match_method method (path_segs path) (find_child [] root)
  end.
(** exactMatch of net/http, used for stayrtr.go:174. *)
Definition exact_match {H} (m : option (pattern * H)) (path : bytes) : bool :=
  match m with
  | None => false
  | Some (p, _) =>
      if negb (last_multi (pt_segs p)) then true
      else if negb (slash_end path) then false
      else Nat.eqb (List.length (pt_segs p)) (List.length (filter (N.eqb 47) path))
  end.
(** matchingMethods of net/http, as far as it is empty or not; used for stayrtr.go:174. *)
Definition other_method {H} (host path : bytes) (root : node H) : bool :=
  let under n segs := match n with
                      | Some (Node _ kids _ _) => existsb (fun x => match match_path segs (snd x) with Some _ => true | None => false end) kids
                      | None => false
                      end in
  let at_path segs := (negb (beqb host []) && under (find_child host root) segs) || under (find_child [] root) segs in
  at_path (path_segs path) || (negb (slash_end path) && at_path (path_segs (path ++ [47]))).

(** A request: its method (not CONNECT), the host without the port, the escaped path
    (URL.EscapedPath) and the path of the URL. net/http, used for stayrtr.go:174. *)
Record request := mkRq { rq_method : bytes; rq_host : bytes; rq_path : bytes; rq_upath : bytes }.
(** What happens to it: a handler gets it, a permanent redirection, 405, 404. net/http, used
    for stayrtr.go:174. *)
Inductive answer (H : Type) := Serve (h : H) | Moved (path : bytes) | NotAllowed | NotFound.
Arguments Serve {H}. Arguments Moved {H}. Arguments NotAllowed {H}. Arguments NotFound {H}.
(** findHandler with matchOrRedirect of net/http, used for stayrtr.go:174, rtrmon.go:1011. *)
Definition find_handler {H} (root : node H) (r : request) : answer H :=
  let path := clean_path (rq_path r) in
  let m := match_root (rq_host r) (rq_method r) path root in
  if negb (exact_match m path) && negb (slash_end path) &&
     exact_match (match_root (rq_host r) (rq_method r) (path ++ [47]) root) (path ++ [47])
  then Moved (clean_path (rq_upath r) ++ [47])
  else if negb (beqb path (rq_path r)) then Moved path
  else match m with
       | Some (_, h) => Serve h
       | None => if other_method (rq_host r) path root then NotAllowed else NotFound
       end.

(** * Registering *)
(** ServeMux of net/http: the patterns so far and the tree. Used for stayrtr.go:173, 800-804. *)
Record mux (H : Type) := mkMux { mx_pats : list pattern; mx_tree : node H }.
Arguments mkMux {H}. Arguments mx_pats {H}. Arguments mx_tree {H}.
(** An empty one. net/http, used for stayrtr.go:173, 800-804. *)
Definition mux0 {H} : mux H := mkMux [] node0.
(** http.Handle, register of net/http; [None] is a panic.  All patterns are compared; the index
    net/http keeps only saves comparisons. Used at stayrtr.go:173, 800-804, rtrmon.go:1007-1009. *)
Definition handle {H} (wname : bytes -> bool) (s : bytes) (h : H) (m : mux H) : option (mux H) :=
  match parse_pattern wname s with
  | None => None
  | Some p =>
      if existsb (conflicts p) (mx_pats m) then None
      else match add_pattern p h (mx_tree m) with
           | Some t => Some (mkMux (p :: mx_pats m) t)
           | None => None
           end
  end.
(** Several in a row. No counterpart in /repo (stayrtr.go:800-804, rtrmon.go:1007-1009). *)
Fixpoint handle_all {H} (wname : bytes -> bool) (l : list (bytes * H)) (m : mux H) : option (mux H) :=
  match l with
  | [] => Some m
  | (s, h) :: r => match handle wname s h m with Some m => handle_all wname r m | None => None end
  end.

(** * The programs *)
(** The handlers, stayrtr.go:173, 800-804, rtrmon.go:1007-1009. *)
Inductive page := Export | Update | Metrics | DiffJson | Index.
(** Flags, stayrtr.go:49-53; for the address: whether it is not empty. *)
Record hflags := mkHF { hf_addr : bool; hf_metrics : bytes; hf_export : bytes; hf_update : bool }.
(** No HTTP server, a panic (in run or in the goroutine serveHTTP: either ends the process), or
    this one. stayrtr.go:172-175, 770-806. *)
Inductive http := NoHttp | HttpPanic | Http (m : mux page).
(** What run and serveHTTP register, stayrtr.go:172-175, 798-806. *)
Definition stayrtr_routes (f : hflags) : list (bytes * page) :=
  (if beqb (hf_export f) [] then [] else [(hf_export f, Export)]) ++
  (if hf_update f then [(str "/api/update", Update)] else []) ++
  [(hf_metrics f, Metrics)].
(** The HTTP server of stayrtr, stayrtr.go:172-175, 770-806. *)
Definition stayrtr_http (wname : bytes -> bool) (f : hflags) : http :=
  if hf_addr f then match handle_all wname (stayrtr_routes f) mux0 with Some m => Http m | None => HttpPanic end
  else NoHttp.
(** What rtrmon registers, rtrmon.go:1007-1009. *)
Definition rtrmon_routes (file metrics : bytes) : list (bytes * page) :=
  [(47 :: file, DiffJson); (metrics, Metrics); ([47], Index)].
(** The HTTP server of rtrmon, rtrmon.go:1006-1012. *)
Definition rtrmon_http (wname : bytes -> bool) (file metrics : bytes) : http :=
  match handle_all wname (rtrmon_routes file metrics) mux0 with Some m => Http m | None => HttpPanic end.
(** What a server does with a request; without one nothing answers. stayrtr.go:174,
    rtrmon.go:1011. *)
Definition http_answer (h : http) (r : request) : option (answer page) :=
  match h with Http m => Some (find_handler (mx_tree m) r) | _ => None end.
