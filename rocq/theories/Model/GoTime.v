(** Dates and times as text: time.Parse(time.RFC3339, _) (/repo/cmd/stayrtr/stayrtr.go:345, 382,
    /repo/prefixfile/prefixfile.go:48), http.ParseTime and Format(http.TimeFormat)
    (/repo/utils/utils.go:94, 152), after the source of Go 1.23 (time/format.go,
    format_rfc3339.go, time.go, net/http/header.go).  An instant is in nanoseconds since 1970;
    the location a Time also has is left out, it does not matter for comparisons. *)
From Verif Require Export Lib.Str Model.Format.
Local Open Scope string_scope.
Local Open Scope list_scope.
Local Open Scope Z_scope.

(** ** The calendar *)

(** isLeap of time.go, for stayrtr.go:345. *)
Definition is_leap (y : Z) : bool := (y mod 4 =? 0) && (negb (y mod 100 =? 0) || (y mod 400 =? 0)).
(** daysBefore of time.go, for stayrtr.go:345. *)
Definition days_before (m : Z) : Z :=
  nth (Z.to_nat m) [0; 31; 59; 90; 120; 151; 181; 212; 243; 273; 304; 334; 365] 0.
(** daysIn of time.go, for stayrtr.go:345. *)
Definition days_in (m y : Z) : Z := if (m =? 2) && is_leap y then 29 else days_before m - days_before (m - 1).
(** daysSinceEpoch of time.go, for stayrtr.go:345.  The library counts from the year
    -292277022399, which is a multiple of 400 years before the year 1 used here, in 64 bits. *)
Definition days_since (year : Z) : Z :=
  let y := year - 1 in
  let n4 := y / 400 in let y := y - 400 * n4 in
  let n1 := y / 100 in let y := y - 100 * n1 in
  let n := y / 4 in let y := y - 4 * n in
  146097 * n4 + 36524 * n1 + 1461 * n + 365 * y.
(** The days before a date in Date of time.go, for stayrtr.go:345; since January 1 of the
    year 1. *)
Definition abs_days (y m d : Z) : Z :=
  days_since y + days_before (m - 1) + (if is_leap y && (3 <=? m) then 1 else 0) + (d - 1).
(** absoluteToInternal + internalToUnix of time.go in days, for stayrtr.go:345: from the year
    1 to 1970. *)
Definition to_1970 : Z := 719162.
(** Date of time.go, for stayrtr.go:345; the fields are within their ranges. *)
Definition go_date (y m d h mi s ns : Z) : Z :=
  ((abs_days y m d - to_1970) * 86400 + h * 3600 + mi * 60 + s) * 1000000000 + ns.

(** absDate of time.go, for utils.go:94: year, month, day of the month. *)
Definition abs_date (d : Z) : Z * Z * Z :=
  let n := d / 146097 in let y := 400 * n in let d := d - 146097 * n in
  let n := d / 36524 in let n := n - n / 4 in let y := y + 100 * n in let d := d - 36524 * n in
  let n := d / 1461 in let y := y + 4 * n in let d := d - 1461 * n in
  let n := d / 365 in let n := n - n / 4 in let y := y + n in let d := d - 365 * n in
  let year := y + 1 in
  if is_leap year && (d =? 31 + 29 - 1) then (year, 2, 29)
  else
    let d := if is_leap year && (31 + 29 - 1 <? d) then d - 1 else d in
    let m := d / 31 in
    if days_before (m + 1) <=? d then (year, m + 2, d - days_before (m + 1) + 1)
    else (year, m + 1, d - days_before m + 1).

(** ** Reading *)

(** isDigit of format.go, for stayrtr.go:345. *)
Definition digit_at (s : bytes) (i : nat) : bool := match nth_error s i with Some c => is_digit c | None => false end.
(** The value of a digit (format.go, for stayrtr.go:345). *)
Definition dig (c : N) : Z := Z.of_N (c - 48).
(** The value of digits (atoi, leadingInt and parseUint of the time package, for
    stayrtr.go:345). *)
Definition digs (s : bytes) : Z := fold_left (fun x c => x * 10 + dig c) s 0.
(** getnum of format.go, for stayrtr.go:345. *)
Definition getnum (s : bytes) (fixed : bool) : option (Z * bytes) :=
  match s with
  | a :: r =>
      if is_digit a then
        match r with
        | b :: r' => if is_digit b then Some (dig a * 10 + dig b, r') else if fixed then None else Some (dig a, r)
        | [] => if fixed then None else Some (dig a, r)
        end
      else None
  | [] => None
  end.
(** The digits a text starts with, counted (the loops of format.go and format_rfc3339.go,
    for stayrtr.go:345). *)
Fixpoint run_digits (s : bytes) : nat :=
  match s with c :: r => if is_digit c then S (run_digits r) else O | [] => O end.
(** parseNanoseconds of format.go on the digits after the point, for stayrtr.go:345: at most
    nine count. *)
Definition nanos (ds : bytes) : Z :=
  let ds := firstn 9 ds in digs ds * 10 ^ Z.of_nat (9 - length ds).

(** cutspace of format.go, for utils.go:152. *)
Fixpoint cutspace (s : bytes) : bytes := match s with c :: r => if (c =? 32)%N then cutspace r else s | [] => [] end.
(** skip of format.go, for stayrtr.go:345, utils.go:152; the prefixes here have no two spaces
    in a row. *)
Fixpoint skip (value prefix : bytes) : option bytes :=
  match prefix with
  | [] => Some value
  | p :: ps =>
      if (p =? 32)%N then
        match value with
        | v :: _ => if (v =? 32)%N then skip (cutspace value) ps else None
        | [] => skip [] ps
        end
      else match value with
           | v :: vs => if (v =? p)%N then skip vs ps else None
           | [] => None
           end
  end.
(** match of format.go, for utils.go:152: ASCII letters regardless of case. *)
Definition same_letter (a b : N) : bool :=
  (a =? b)%N || ((N.lor a 32 =? N.lor b 32)%N && (97 <=? N.lor a 32)%N && (N.lor a 32 <=? 122)%N).
(** As [same_letter]: the text starts with the name; format.go, for utils.go:152. *)
Fixpoint starts (s name : bytes) : option bytes :=
  match name, s with
  | [], _ => Some s
  | n :: ns, c :: r => if same_letter c n then starts r ns else None
  | _ :: _, [] => None
  end.
(** lookup of format.go, for utils.go:152: the first name the text starts with, counted from
    [i]. *)
Fixpoint lookup (tab : list bytes) (s : bytes) (i : Z) : option (Z * bytes) :=
  match tab with
  | [] => None
  | n :: t => match starts s n with Some r => Some (i, r) | None => lookup t s (i + 1) end
  end.
(** shortDayNames of format.go, for utils.go:94, 152. *)
Definition day_names : list bytes := map str ["Sun"; "Mon"; "Tue"; "Wed"; "Thu"; "Fri"; "Sat"].
(** shortMonthNames of format.go, for utils.go:94, 152. *)
Definition month_names : list bytes :=
  map str ["Jan"; "Feb"; "Mar"; "Apr"; "May"; "Jun"; "Jul"; "Aug"; "Sep"; "Oct"; "Nov"; "Dec"].

(** longDayNames of format.go, for utils.go:152. *)
Definition long_day_names : list bytes :=
  map str ["Sunday"; "Monday"; "Tuesday"; "Wednesday"; "Thursday"; "Friday"; "Saturday"].
(** atoi of format.go of two bytes, for utils.go:152: a sign and a digit, or two digits. *)
Definition atoi2 (a b : N) : option Z :=
  if ((a =? 43) || (a =? 45))%N then
    if is_digit b then Some (if (a =? 45)%N then - dig b else dig b) else None
  else if is_digit a && is_digit b then Some (dig a * 10 + dig b) else None.

(** The pieces nextStdChunk (format.go) makes of the layouts, for stayrtr.go:345 and
    utils.go:152: text, 2006, 01, Jan, Mon, 02, 15, 04, 05, Z07:00; Monday, 06, _2. *)
Inductive chunk := Lit (s : bytes) | KYear | KMonth | KMonthName | KDayName | KDay | KHour | KMinute | KSecond | KZone
  | KLongDay | KShortYear | KUnderDay.
(** The variables of parse (format.go), for stayrtr.go:345; [p_off]: the zone's offset in
    seconds. *)
Record parsed := mkP { p_year : Z; p_month : Z; p_day : Z; p_hour : Z; p_min : Z; p_sec : Z; p_ns : Z; p_off : Z }.
(** One piece of the layout: the loop of parse (format.go), for stayrtr.go:345. *)
Definition chunk_step (k : chunk) (p : parsed) (v : bytes) : option (parsed * bytes) :=
  match k with
  | Lit s => match skip v s with Some r => Some (p, r) | None => None end
  | KYear =>
      if (4 <=? length v)%nat && forallb is_digit (firstn 4 v)
      then Some (mkP (digs (firstn 4 v)) (p_month p) (p_day p) (p_hour p) (p_min p) (p_sec p) (p_ns p) (p_off p), skipn 4 v)
      else None
  | KMonth =>
      match getnum v true with
      | Some (m, r) => if (1 <=? m) && (m <=? 12)
                       then Some (mkP (p_year p) m (p_day p) (p_hour p) (p_min p) (p_sec p) (p_ns p) (p_off p), r) else None
      | None => None
      end
  | KMonthName =>
      match lookup month_names v 1 with
      | Some (m, r) => Some (mkP (p_year p) m (p_day p) (p_hour p) (p_min p) (p_sec p) (p_ns p) (p_off p), r)
      | None => None
      end
  | KDayName => match lookup day_names v 0 with Some (_, r) => Some (p, r) | None => None end
  | KDay =>
      match getnum v true with
      | Some (d, r) => Some (mkP (p_year p) (p_month p) d (p_hour p) (p_min p) (p_sec p) (p_ns p) (p_off p), r)
      | None => None
      end
  | KHour =>
      match getnum v false with
      | Some (h, r) => if h <? 24 then Some (mkP (p_year p) (p_month p) (p_day p) h (p_min p) (p_sec p) (p_ns p) (p_off p), r) else None
      | None => None
      end
  | KMinute =>
      match getnum v true with
      | Some (m, r) => if m <? 60 then Some (mkP (p_year p) (p_month p) (p_day p) (p_hour p) m (p_sec p) (p_ns p) (p_off p), r) else None
      | None => None
      end
  | KSecond =>
      match getnum v true with
      | Some (s, r) =>
          if s <? 60 then
            let set ns r := Some (mkP (p_year p) (p_month p) (p_day p) (p_hour p) (p_min p) s ns (p_off p), r) in
            match r with
            | c :: r' => if ((c =? 46) || (c =? 44))%N && digit_at r' 0
                         then set (nanos (firstn (run_digits r') r')) (skipn (run_digits r') r')
                         else set (p_ns p) r
            | [] => set (p_ns p) r
            end
          else None
      | None => None
      end
  | KZone =>
      let set off r := Some (mkP (p_year p) (p_month p) (p_day p) (p_hour p) (p_min p) (p_sec p) (p_ns p) off, r) in
      match v with
      | sg :: r0 =>
          if (sg =? 90)%N then set 0 r0
          else match r0 with
               | h1 :: h2 :: co :: m1 :: m2 :: r =>
                   if (co =? 58)%N then
                     match getnum [h1; h2] true, getnum [m1; m2] true with
                     | Some (hr, _), Some (mm, _) =>
                         if (hr <=? 24) && (mm <=? 60) then
                           if (sg =? 43)%N then set ((hr * 60 + mm) * 60) r
                           else if (sg =? 45)%N then set (- ((hr * 60 + mm) * 60)) r else None
                         else None
                     | _, _ => None
                     end
                   else None
               | _ => None
               end
      | [] => None
      end
  | KLongDay => match lookup long_day_names v 0 with Some (_, r) => Some (p, r) | None => None end
  | KShortYear =>
      match v with
      | a :: b :: r =>
          match atoi2 a b with
          | Some y => Some (mkP (if 69 <=? y then y + 1900 else y + 2000) (p_month p) (p_day p) (p_hour p) (p_min p) (p_sec p) (p_ns p) (p_off p), r)
          | None => None
          end
      | _ => None
      end
  | KUnderDay =>
      match getnum (match v with c :: r => if (c =? 32)%N then r else v | [] => v end) false with
      | Some (d, r) => Some (mkP (p_year p) (p_month p) d (p_hour p) (p_min p) (p_sec p) (p_ns p) (p_off p), r)
      | None => None
      end
  end.
(** The loop and what follows it, parse of format.go, for stayrtr.go:345, utils.go:152. *)
Fixpoint parse_chunks (l : list chunk) (p : parsed) (v : bytes) : option parsed :=
  match l with
  | [] => match v with [] => Some p | _ => None end
  | k :: r => match chunk_step k p v with Some (p', v') => parse_chunks r p' v' | None => None end
  end.
(** parse of format.go, for stayrtr.go:345, utils.go:152. *)
Definition parse_with (l : list chunk) (v : bytes) : option Z :=
  match parse_chunks l (mkP 0 1 1 0 0 0 0 0) v with
  | Some p =>
      if (1 <=? p_day p) && (p_day p <=? days_in (p_month p) (p_year p))
      then Some (go_date (p_year p) (p_month p) (p_day p) (p_hour p) (p_min p) (p_sec p) (p_ns p) - p_off p * 1000000000)
      else None
  | None => None
  end.
(** time.RFC3339 "2006-01-02T15:04:05Z07:00", stayrtr.go:345, 382, prefixfile.go:48. *)
Definition layout_rfc3339 : list chunk :=
  [KYear; Lit (str "-"); KMonth; Lit (str "-"); KDay; Lit (str "T"); KHour; Lit (str ":"); KMinute; Lit (str ":"); KSecond; KZone].

(** parseUint inside parseRFC3339 (format_rfc3339.go), for stayrtr.go:345. *)
Definition uint_in (s : bytes) (lo hi : Z) : option Z :=
  if forallb is_digit s && (lo <=? digs s) && (digs s <=? hi) then Some (digs s) else None.
(** s[a:b], for stayrtr.go:345. *)
Definition cut (a b : nat) (s : bytes) : bytes := firstn (b - a) (skipn a s).
(** s[i], for stayrtr.go:345; [i] is within [s]. *)
Definition at_is (s : bytes) (i : nat) (c : N) : bool := match nth_error s i with Some x => (x =? c)%N | None => false end.
(** parseRFC3339 of format_rfc3339.go, for stayrtr.go:345. *)
Definition parse_fast (s : bytes) : option Z :=
  if (length s <? 19)%nat then None
  else
    match uint_in (cut 0 4 s) 0 9999, uint_in (cut 5 7 s) 1 12 with
    | Some y, Some m =>
        match uint_in (cut 8 10 s) 1 (days_in m y), uint_in (cut 11 13 s) 0 23, uint_in (cut 14 16 s) 0 59, uint_in (cut 17 19 s) 0 59 with
        | Some d, Some h, Some mi, Some sec =>
            if at_is s 4 45 && at_is s 7 45 && at_is s 10 84 && at_is s 13 58 && at_is s 16 58 then
              let r := skipn 19 s in
              let '(ns, r) :=
                match r with
                | c :: r' => if (c =? 46)%N && digit_at r' 0
                             then (nanos (firstn (run_digits r') r'), skipn (run_digits r') r') else (0, r)
                | [] => (0, r)
                end in
              let t := go_date y m d h mi sec ns in
              if beqb r [90%N] then Some t
              else if (length r =? 6)%nat then
                match uint_in (cut 1 3 r) 0 23, uint_in (cut 4 6 r) 0 59 with
                | Some hr, Some mm =>
                    if at_is r 3 58 then
                      if at_is r 0 43 then Some (t - (hr * 60 + mm) * 60 * 1000000000)
                      else if at_is r 0 45 then Some (t + (hr * 60 + mm) * 60 * 1000000000)
                      else None
                    else None
                | _, _ => None
                end
              else None
            else None
        | _, _, _, _ => None
        end
    | _, _ => None
    end.
(** time.Parse(time.RFC3339, s), stayrtr.go:345, 382, prefixfile.go:48. *)
Definition parse_time (s : bytes) : option Z :=
  match parse_fast s with Some t => Some t | None => parse_with layout_rfc3339 s end.

(** ** Last-Modified and If-Modified-Since *)

(** http.TimeFormat "Mon, 02 Jan 2006 15:04:05 GMT", utils.go:94, 152. *)
Definition layout_http : list chunk :=
  [KDayName; Lit (str ", "); KDay; Lit (str " "); KMonthName; Lit (str " "); KYear; Lit (str " ");
   KHour; Lit (str ":"); KMinute; Lit (str ":"); KSecond; Lit (str " GMT")].
(** time.ANSIC "Mon Jan _2 15:04:05 2006", the third format http.ParseTime tries, for
    utils.go:152. *)
Definition layout_ansic : list chunk :=
  [KDayName; Lit (str " "); KMonthName; Lit (str " "); KUnderDay; Lit (str " ");
   KHour; Lit (str ":"); KMinute; Lit (str ":"); KSecond; Lit (str " "); KYear].
(** time.RFC850 "Monday, 02-Jan-06 15:04:05 MST", the second, up to its zone; for
    utils.go:152. *)
Definition layout_rfc850 : list chunk :=
  [KLongDay; Lit (str ", "); KDay; Lit (str "-"); KMonthName; Lit (str "-"); KShortYear; Lit (str " ");
   KHour; Lit (str ":"); KMinute; Lit (str ":"); KSecond; Lit (str " ")].
(** parseSignedOffset of format.go, for utils.go:152: how much of the text is a sign and at most
    23 hours.  The library also gives up on more than 63 bits, which are over 23. *)
Definition signed_offset (v : bytes) : nat :=
  match v with
  | c :: r =>
      let n := run_digits r in
      if ((c =? 43) || (c =? 45))%N && (0 <? n)%nat && (digs (firstn n r) <=? 23) then S n else 0%nat
  | [] => 0%nat
  end.
(** The loop over capital letters in parseTimeZone of format.go, for utils.go:152: up to [k]. *)
Fixpoint capitals (k : nat) (v : bytes) : nat :=
  match k, v with
  | S k', c :: r => if ((65 <=? c) && (c <=? 90))%N then S (capitals k' r) else 0%nat
  | _, _ => 0%nat
  end.
(** parseTimeZone of format.go, for utils.go:152: how much of the text is the name of a zone. *)
Definition zone_name (v : bytes) : option nat :=
  if (length v <? 3)%nat then None
  else if beqb (firstn 4 v) (str "ChST") || beqb (firstn 4 v) (str "MeST") then Some 4%nat
  else if beqb (firstn 3 v) (str "GMT") then Some (3 + signed_offset (skipn 3 v))%nat
  else if at_is v 0 43 || at_is v 0 45 then
    match signed_offset v with 0%nat => None | n => Some n end
  else
    match capitals 6 v with
    | 3%nat => Some 3%nat
    | 4%nat => if at_is v 3 84 || beqb (firstn 4 v) (str "WITA") then Some 4%nat else None
    | 5%nat => if at_is v 4 84 then Some 5%nat else None
    | _ => None
    end.
(** The loop of parse (format.go) up to the zone's name, for utils.go:152. *)
Fixpoint run_chunks (l : list chunk) (p : parsed) (v : bytes) : option (parsed * bytes) :=
  match l with
  | [] => Some (p, v)
  | k :: r => match chunk_step k p v with Some (p', v') => run_chunks r p' v' | None => None end
  end.
(** time.Parse(time.RFC850, s) as in http.ParseTime, utils.go:152.  [local]: lookupName of the
    machine's own zone (zoneinfo.go), the offset of a zone by its name at a time in seconds; a
    zone it does not know is taken for UTC, whatever it is called. *)
Definition parse_rfc850 (local : bytes -> Z -> option Z) (s : bytes) : option Z :=
  match run_chunks layout_rfc850 (mkP 0 1 1 0 0 0 0 0) s with
  | Some (p, v) =>
      let t := go_date (p_year p) (p_month p) (p_day p) (p_hour p) (p_min p) (p_sec p) (p_ns p) in
      let at_zone (name : option bytes) :=
        if (1 <=? p_day p) && (p_day p <=? days_in (p_month p) (p_year p)) then
          match name with
          | None => Some t
          | Some n => match local n (t / 1000000000) with Some off => Some (t - off * 1000000000) | None => Some t end
          end
        else None in
      if beqb (firstn 3 v) (str "UTC") then
        match skipn 3 v with [] => at_zone None | _ => None end
      else
        match zone_name v with
        | Some n => match skipn n v with [] => at_zone (Some (firstn n v)) | _ => None end
        | None => None
        end
  | None => None
  end.
(** http.ParseTime (net/http/header.go), utils.go:152. *)
Definition http_parse_time (local : bytes -> Z -> option Z) (s : bytes) : option Z :=
  match parse_with layout_http s with
  | Some t => Some t
  | None => match parse_rfc850 local s with Some t => Some t | None => parse_with layout_ansic s end
  end.
(** appendInt of format.go, for utils.go:94: at least [w] digits; not for negative numbers. *)
Definition pad (w : nat) (n : Z) : bytes :=
  let d := dec (Z.to_N n) in repeat 48%N (w - length d) ++ d.
(** t.UTC().Format(http.TimeFormat), utils.go:94, for years from 0 on; [t] in nanoseconds.
    appendFormat of format.go, absWeekday and absClock of time.go. *)
Definition http_format (t : Z) : bytes :=
  let secs := t / 1000000000 in
  let days := secs / 86400 + to_1970 in
  let '(y, m, d) := abs_date days in
  let s := secs mod 86400 in
  nth (Z.to_nat ((days + 1) mod 7)) day_names [] ++ str ", " ++ pad 2 d ++ str " " ++
  nth (Z.to_nat (m - 1)) month_names [] ++ str " " ++ pad 4 y ++ str " " ++
  pad 2 (s / 3600) ++ str ":" ++ pad 2 (s mod 3600 / 60) ++ str ":" ++ pad 2 (s mod 60) ++ str " GMT".
(** The Last-Modified header as kept in the map, utils.go:152-157; in seconds as in
    Model/Fetch.v.  The library keeps a fraction of a second, if the header had one, until the
    time is formatted, which drops it (utils.go:94). *)
Definition last_modified (local : bytes -> Z -> option Z) (header : bytes) : option Z :=
  option_map (fun t => t / 1000000000) (http_parse_time local header).
(** The If-Modified-Since header for a time in the map, utils.go:94. *)
Definition if_modified_since (secs : Z) : bytes := http_format (secs * 1000000000).
