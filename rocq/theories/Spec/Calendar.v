(** The Gregorian calendar, RFC 3339 and the dates of HTTP. *)
From Verif Require Import Lib.Bytes Lib.Str.
From Coq Require Import ZArith NArith List.
Import ListNotations.
Local Open Scope string_scope.
Local Open Scope list_scope.
Local Open Scope Z_scope.

Record day := mkDay { year : Z; month : Z; mday : Z }.
Definition leap_year (y : Z) : Prop := (4 | y) /\ (~ (100 | y) \/ (400 | y)).
Inductive month_length (y : Z) : Z -> Z -> Prop :=
| ml_31 m : In m [1; 3; 5; 7; 8; 10; 12] -> month_length y m 31
| ml_30 m : In m [4; 6; 9; 11] -> month_length y m 30
| ml_leap : leap_year y -> month_length y 2 29
| ml_feb : ~ leap_year y -> month_length y 2 28.
Definition real_day (d : day) : Prop := exists n, month_length (year d) (month d) n /\ 1 <= mday d <= n.
(** One day and the next. *)
Inductive next_day : day -> day -> Prop :=
| nd_month y m d n : month_length y m n -> 1 <= d < n -> next_day (mkDay y m d) (mkDay y m (d + 1))
| nd_first y m n : month_length y m n -> m < 12 -> next_day (mkDay y m n) (mkDay y (m + 1) 1)
| nd_year y : next_day (mkDay y 12 31) (mkDay (y + 1) 1 1).
(** Days counted from January 1, 1970. *)
Inductive day_number : day -> Z -> Prop :=
| dn_epoch : day_number (mkDay 1970 1 1) 0
| dn_later d d' n : day_number d n -> next_day d d' -> day_number d' (n + 1)
| dn_earlier d d' n : day_number d' n -> next_day d d' -> day_number d (n - 1).

(** Numbers in so many digits. *)
Definition digit_char (c : N) : Prop := (48 <= c <= 57)%N.
Fixpoint value (t : bytes) (acc : Z) : Z := match t with [] => acc | c :: r => value r (acc * 10 + (Z.of_N c - 48)) end.
Definition number (w : nat) (n : Z) (t : bytes) : Prop := length t = w /\ Forall digit_char t /\ value t 0 = n.

(** A time of day in nanoseconds; [f]: the digits after the point, of which nine count. *)
Definition in_day (h mi s : Z) (f : bytes) : Z :=
  ((h * 60 + mi) * 60 + s) * 1000000000 + value f 0 * 1000000000 / 10 ^ Z.of_nat (length f).
(** The digits after the point: none, or a point and at least one. *)
Inductive fraction (point : N -> Prop) : bytes -> bytes -> Prop :=
| fr_none : fraction point [] []
| fr_some c f : point c -> f <> [] -> Forall digit_char f -> fraction point f (c :: f).
(** The offset from UTC in minutes; hours up to [hh], minutes up to [mm]. *)
Inductive offset (zulu : N -> Prop) (hh mm : Z) : Z -> bytes -> Prop :=
| of_zulu c : zulu c -> offset zulu hh mm 0 [c]
| of_east h m th tm : number 2 h th -> number 2 m tm -> h <= hh -> m <= mm -> offset zulu hh mm (60 * h + m) (str "+" ++ th ++ str ":" ++ tm)
| of_west h m th tm : number 2 h th -> number 2 m tm -> h <= hh -> m <= mm -> offset zulu hh mm (- (60 * h + m)) (str "-" ++ th ++ str ":" ++ tm).

(** A text and the instant it stands for; [tee], [zulu], [point]: the letters and points allowed,
    [ow]: the digits an hour may have, [last]: the last second of a minute. *)
Inductive stamp (tee zulu point : N -> Prop) (ow : nat -> Prop) (last hh mm : Z) : Z -> bytes -> Prop :=
| st_stamp y m d h mi s f off n tz ty tm td th tmi ts tf toff w :
    number 4 y ty -> number 2 m tm -> number 2 d td -> real_day (mkDay y m d) -> day_number (mkDay y m d) n ->
    tee tz -> ow w -> number w h th -> h <= 23 -> number 2 mi tmi -> mi <= 59 -> number 2 s ts -> s <= last ->
    fraction point f tf -> offset zulu hh mm off toff ->
    stamp tee zulu point ow last hh mm (n * (24 * 3600 * 1000000000) + in_day h mi s f - off * (60 * 1000000000))
      (ty ++ str "-" ++ tm ++ str "-" ++ td ++ tz :: th ++ str ":" ++ tmi ++ str ":" ++ ts ++ tf ++ toff).
(** RFC 3339, section 5.6: T and Z may be small letters, a minute may have a second 60. *)
Definition rfc3339 : Z -> bytes -> Prop :=
  stamp (fun c => c = 84%N \/ c = 116%N) (fun c => c = 90%N \/ c = 122%N) (eq 46%N) (eq 2%nat) 60 23 59.
(** The same with capital letters and without leap seconds. *)
Definition rfc3339_capital : Z -> bytes -> Prop := stamp (eq 84%N) (eq 90%N) (eq 46%N) (eq 2%nat) 59 23 59.
(** What else is taken: hours of one digit, a comma as the point, offsets of 24 hours or 60
    minutes. *)
Definition loose3339 : Z -> bytes -> Prop :=
  stamp (eq 84%N) (eq 90%N) (fun c => c = 46%N \/ c = 44%N) (fun w => w = 1%nat \/ w = 2%nat) 59 24 60.

(** IMF-fixdate of RFC 9110, 5.6.7, and the instant it stands for, with its day of the week. *)
Definition week : list bytes := map str ["Thu"; "Fri"; "Sat"; "Sun"; "Mon"; "Tue"; "Wed"].
Definition months : list bytes :=
  map str ["Jan"; "Feb"; "Mar"; "Apr"; "May"; "Jun"; "Jul"; "Aug"; "Sep"; "Oct"; "Nov"; "Dec"].
Inductive fixdate : Z -> bytes -> Prop :=
| fx_date y m d h mi s n ty td th tmi ts wd mo :
    number 4 y ty -> number 2 d td -> real_day (mkDay y m d) -> day_number (mkDay y m d) n ->
    number 2 h th -> h <= 23 -> number 2 mi tmi -> mi <= 59 -> number 2 s ts -> s <= 59 ->
    nth_error week (Z.to_nat (n mod 7)) = Some wd -> nth_error months (Z.to_nat (m - 1)) = Some mo ->
    fixdate (n * (24 * 3600 * 1000000000) + in_day h mi s [])
      (wd ++ str ", " ++ td ++ str " " ++ mo ++ str " " ++ ty ++ str " " ++ th ++ str ":" ++ tmi ++ str ":" ++ ts ++ str " GMT").

(** The two older forms of RFC 9110, 5.6.7.  The year of the first has two digits; [y]: the year
    its writer meant. *)
Definition long_week : list bytes :=
  map str ["Thursday"; "Friday"; "Saturday"; "Sunday"; "Monday"; "Tuesday"; "Wednesday"].
Inductive date850 : Z -> Z -> bytes -> Prop :=
| d850 y m d h mi s n ty td th tmi ts wd mo :
    number 2 (y mod 100) ty -> number 2 d td -> real_day (mkDay y m d) -> day_number (mkDay y m d) n ->
    number 2 h th -> h <= 23 -> number 2 mi tmi -> mi <= 59 -> number 2 s ts -> s <= 59 ->
    nth_error long_week (Z.to_nat (n mod 7)) = Some wd -> nth_error months (Z.to_nat (m - 1)) = Some mo ->
    date850 y (n * (24 * 3600 * 1000000000) + in_day h mi s [])
      (wd ++ str ", " ++ td ++ str "-" ++ mo ++ str "-" ++ ty ++ str " " ++ th ++ str ":" ++ tmi ++ str ":" ++ ts ++ str " GMT").
(** A day of the month in two places, the first of them a digit or a space. *)
Inductive place2 : Z -> bytes -> Prop :=
| p2_two d t : number 2 d t -> place2 d t
| p2_one d t : number 1 d t -> place2 d (str " " ++ t).
Inductive asctime : Z -> bytes -> Prop :=
| asc y m d h mi s n ty td th tmi ts wd mo :
    number 4 y ty -> place2 d td -> real_day (mkDay y m d) -> day_number (mkDay y m d) n ->
    number 2 h th -> h <= 23 -> number 2 mi tmi -> mi <= 59 -> number 2 s ts -> s <= 59 ->
    nth_error week (Z.to_nat (n mod 7)) = Some wd -> nth_error months (Z.to_nat (m - 1)) = Some mo ->
    asctime (n * (24 * 3600 * 1000000000) + in_day h mi s [])
      (wd ++ str " " ++ mo ++ str " " ++ td ++ str " " ++ th ++ str ":" ++ tmi ++ str ":" ++ ts ++ str " " ++ ty).
(** A date in one of the three forms; the first form of the two older ones for a hundred years. *)
Inductive http_date (from : Z) : Z -> bytes -> Prop :=
| hd_fixdate x t : fixdate x t -> http_date from x t
| hd_850 y x t : date850 y x t -> from <= y < from + 100 -> http_date from x t
| hd_asctime x t : asctime x t -> http_date from x t.
