(** JSON text, as read and written by encoding/json (Go 1.23) for decodeJSON
    (/repo/cmd/stayrtr/stayrtr.go:184-191, /repo/cmd/rtrmon/rtrmon.go:200-207), DecodeJSONSlurm
    (/repo/prefixfile/slurm.go:82-91), the exporter (stayrtr.go:631-637) and rtrdump
    (/repo/cmd/rtrdump/rtrdump.go:243-247).

    The library scans a value twice, first to find its end and then to store it.  Here one
    pass builds a syntax tree; storing it is in [Model.JsonFile].  The names in the comments
    are those of the library's scanner.go, decode.go and encode.go. *)
From Verif Require Export Lib.Str Model.Format.
Local Open Scope string_scope.
Local Open Scope list_scope.
Local Open Scope N_scope.

(** A JSON value.  Numbers are kept as written, strings are unquoted, members are in the
    order of the text.  (Read at stayrtr.go:184-191.) *)
Inductive json :=
| JNull | JBool (b : bool) | JNum (lit : bytes) | JStr (s : bytes)
| JArr (l : list json) | JObj (l : list (bytes * json)).

(** ** Strings *)

(** utf8.DecodeRune: the length of the UTF-8 sequence a string starts with (first byte 128
    or more), 0 if it is not valid.  Standard library, used for stayrtr.go:189. *)
Definition cont (c : N) : bool := (128 <=? c) && (c <=? 191).
(** utf8.DecodeRune of the standard library (stayrtr.go:189), as [cont]. *)
Definition utf8_len (s : bytes) : nat :=
  match s with
  | a :: b :: r =>
      if (194 <=? a) && (a <=? 223) && cont b then 2%nat
      else match r with
      | c :: r' =>
          if (((a =? 224) && (160 <=? b) && (b <=? 191))
              || ((225 <=? a) && (a <=? 236) && cont b)
              || ((a =? 237) && (128 <=? b) && (b <=? 159))
              || ((238 <=? a) && (a <=? 239) && cont b)) && cont c then 3%nat
          else match r' with
          | d :: _ =>
              if (((a =? 240) && (144 <=? b) && (b <=? 191))
                  || ((241 <=? a) && (a <=? 243) && cont b)
                  || ((a =? 244) && (128 <=? b) && (b <=? 143))) && cont c && cont d then 4%nat
              else 0%nat
          | [] => 0%nat
          end
      | [] => 0%nat
      end
  | _ => 0%nat
  end.
(** utf8.RuneError, U+FFFD (stayrtr.go:189). *)
Definition fffd : bytes := [239; 191; 189].
(** utf8.EncodeRune of a rune that is not a surrogate (stayrtr.go:189). *)
Definition utf8_enc (r : N) : bytes :=
  if r <? 128 then [r]
  else if r <? 2048 then [192 + r / 64; 128 + r mod 64]
  else if r <? 65536 then [224 + r / 4096; 128 + r / 64 mod 64; 128 + r mod 64]
  else [240 + r / 262144; 128 + r / 4096 mod 64; 128 + r / 64 mod 64; 128 + r mod 64].
(** The value of a hexadecimal digit in getu4; the scanner has checked that it is one
    (stateInStringEscU...).  stayrtr.go:189. *)
Definition hexd (c : N) : N :=
  if c <=? 57 then c - 48 else if c <=? 70 then c - 55 else c - 87.
(** Is it one (scanner.go, stateInStringEscU).  stayrtr.go:189. *)
Definition is_hexd (c : N) : bool :=
  ((48 <=? c) && (c <=? 57)) || ((65 <=? c) && (c <=? 70)) || ((97 <=? c) && (c <=? 102)).
(** getu4 on the four digits (stayrtr.go:189). *)
Definition u4 (a b c d : N) : N := hexd a * 4096 + hexd b * 256 + hexd c * 16 + hexd d.
(** utf16.IsSurrogate, and the two halves (stayrtr.go:189). *)
Definition is_high (r : N) : bool := (55296 <=? r) && (r <=? 56319).
(** As [is_high]: the second half of a pair (stayrtr.go:189). *)
Definition is_low (r : N) : bool := (56320 <=? r) && (r <=? 57343).
(** utf16.DecodeRune of a valid pair (stayrtr.go:189). *)
Definition pair (h l : N) : N := (h - 55296) * 1024 + (l - 56320) + 65536.
(** The escapes of one letter, unquoteBytes (stayrtr.go:189). *)
Definition esc1 (c : N) : N :=
  if c =? 98 then 8 else if c =? 102 then 12 else if c =? 110 then 10 else if c =? 114 then 13
  else if c =? 116 then 9 else c.
(** unquoteBytes: what stands between the quotes, with escapes replaced; what is not UTF-8
    and a surrogate without its other half become U+FFFD.  The scanner has seen to it that
    every escape is complete.  Standard library, used for stayrtr.go:189. *)
Fixpoint unquote (s : bytes) : bytes :=
  match s with
  | [] => []
  | x :: t =>
      if x =? 92 then
        match t with
        | y :: t1 =>
            if y =? 117 then
              match t1 with
              | a :: b :: c :: d :: t2 =>
                  let r := u4 a b c d in
                  if is_high r || is_low r then
                    match t2 with
                    | e :: f :: a' :: b' :: c' :: d' :: t3 =>
                        if (e =? 92) && (f =? 117) && is_high r && is_low (u4 a' b' c' d')
                        then utf8_enc (pair r (u4 a' b' c' d')) ++ unquote t3
                        else fffd ++ unquote t2
                    | _ => fffd ++ unquote t2
                    end
                  else utf8_enc r ++ unquote t2
              | _ => []
              end
            else esc1 y :: unquote t1
        | [] => []
        end
      else if x <? 128 then x :: unquote t
      else match utf8_len s, t with
           | 2%nat, b :: t1 => x :: b :: unquote t1
           | 3%nat, b :: c :: t1 => x :: b :: c :: unquote t1
           | 4%nat, b :: c :: d :: t1 => x :: b :: c :: d :: unquote t1
           | _, _ => fffd ++ unquote t
           end
  end.
(** Hexadecimal digits as appendString writes them. Standard library, stayrtr.go:635. *)
Definition hexlow (d : N) : N := if d <? 10 then 48 + d else 87 + d.
(** appendString with escapeHTML, for one byte below 128 (stayrtr.go:635). *)
Definition esc_ascii (c : N) : bytes :=
  if (c =? 34) || (c =? 92) then [92; c]
  else if c =? 8 then [92; 98]
  else if c =? 12 then [92; 102]
  else if c =? 10 then [92; 110]
  else if c =? 13 then [92; 114]
  else if c =? 9 then [92; 116]
  else if (c <? 32) || (c =? 60) || (c =? 62) || (c =? 38) then [92; 117; 48; 48; hexlow (c / 16); hexlow (c mod 16)]
  else [c].
(** appendString, without the quotes.  Standard library, used by json.Encoder at
    stayrtr.go:635 and rtrdump.go:243. *)
Fixpoint quote (s : bytes) : bytes :=
  match s with
  | [] => []
  | x :: t =>
      if x <? 128 then esc_ascii x ++ quote t
      else match utf8_len s, t with
           | 2%nat, b :: t1 => x :: b :: quote t1
           | 3%nat, b :: c :: t1 =>
               if (x =? 226) && (b =? 128) && ((c =? 168) || (c =? 169))
               then [92; 117; 50; 48; 50; hexlow (c - 160)] ++ quote t1
               else x :: b :: c :: quote t1
           | 4%nat, b :: c :: d :: t1 => x :: b :: c :: d :: quote t1
           | _, _ => [92; 117; 102; 102; 102; 100] ++ quote t
           end
  end.

(** ** The scanner *)

(** Where in a number (state1, state0, stateDot ...): after the minus sign, after a leading
    zero, in the digits, after the point, in the fraction, after e, after its sign, in the
    exponent.  Standard library, stayrtr.go:189. *)
Inductive numst := NNeg | NZero | NInt | NDot | NFrac | NE | NESign | NExp.
(** The step function of the scanner.  LBegin: stateBeginValue; LBeginOrEnd:
    stateBeginValueOrEmpty; LKey, LKeyOrEnd: stateBeginString, stateBeginStringOrEmpty; LEnd:
    stateEndValue; LStr, LEsc, LHex: stateInString, stateInStringEsc, stateInStringEscU with
    [n] digits to come; LLit: inside true, false or null; LNum.  stayrtr.go:189. *)
Inductive lex :=
| LBegin | LBeginOrEnd | LKey | LKeyOrEnd | LEnd
| LStr (raw : bytes) | LEsc (raw : bytes) | LHex (n : nat) (raw : bytes)
| LLit (rest : bytes) (v : json) | LNum (q : numst) (lit : bytes).
(** parseState, with what has been read: an array; an object before a key (FObj), between
    key and colon (FCol; both parseObjectKey), before a value (FVal) and after it (FMem; both
    parseObjectValue).  stayrtr.go:189. *)
Inductive frame :=
| FArr (l : list json) | FObj (l : list (bytes * json)) | FCol (l : list (bytes * json)) (k : bytes)
| FVal (l : list (bytes * json)) (k : bytes) | FMem (l : list (bytes * json)).
(** Scanning; a complete top-level value; a syntax error.  stayrtr.go:189. *)
Inductive pstate := PRun (s : lex) (k : list frame) | PDone (v : json) | PBad.

(** isSpace.  Standard library, stayrtr.go:189. *)
Definition is_space (c : N) : bool := (c =? 32) || (c =? 9) || (c =? 13) || (c =? 10).
(** A value is complete.  At top level the library looks for nothing after it: what follows
    is left in the buffer (Decoder.readValue), and decodeJSON does not look at it.
    stayrtr.go:184-191. *)
Definition deliver (v : json) (k : list frame) : pstate :=
  match k with
  | [] => PDone v
  | FArr l :: k' => PRun LEnd (FArr (l ++ [v]) :: k')
  | FObj l :: k' => match v with JStr s => PRun LEnd (FCol l s :: k') | _ => PBad end
  | FVal l s :: k' => PRun LEnd (FMem (l ++ [(s, v)]) :: k')
  | _ => PBad
  end.
(** pushParseState: maxNestingDepth is 10000.  Standard library, stayrtr.go:189. *)
Definition push (s : lex) (f : frame) (k : list frame) : pstate :=
  if nlen (f :: k) <=? 10000 then PRun s (f :: k) else PBad.
(** stateBeginValue, after white space.  Standard library, stayrtr.go:189. *)
Definition begin_value (c : N) (k : list frame) : pstate :=
  if c =? 123 then push LKeyOrEnd (FObj []) k
  else if c =? 91 then push LBeginOrEnd (FArr []) k
  else if c =? 34 then PRun (LStr []) k
  else if c =? 45 then PRun (LNum NNeg [c]) k
  else if c =? 48 then PRun (LNum NZero [c]) k
  else if c =? 116 then PRun (LLit (str "rue") (JBool true)) k
  else if c =? 102 then PRun (LLit (str "alse") (JBool false)) k
  else if c =? 110 then PRun (LLit (str "ull") JNull) k
  else if (49 <=? c) && (c <=? 57) then PRun (LNum NInt [c]) k
  else PBad.
(** stateBeginString, after white space.  Standard library, stayrtr.go:189. *)
Definition begin_key (c : N) (k : list frame) : pstate :=
  if c =? 34 then PRun (LStr []) k else PBad.
(** stateEndValue, after white space.  Standard library, stayrtr.go:189. *)
Definition end_value (c : N) (k : list frame) : pstate :=
  match k with
  | FCol l s :: k' => if c =? 58 then PRun LBegin (FVal l s :: k') else PBad
  | FMem l :: k' =>
      if c =? 44 then PRun LKey (FObj l :: k')
      else if c =? 125 then deliver (JObj l) k' else PBad
  | FArr l :: k' =>
      if c =? 44 then PRun LBegin (FArr l :: k')
      else if c =? 93 then deliver (JArr l) k' else PBad
  | _ => PBad
  end.
(** Which state of a number follows; [None]: the number may end here; [Some None]: error.
    state0, state1, stateDot, stateDot0, stateE, stateESign, stateE0, stateNeg of the
    standard library, stayrtr.go:189. *)
Definition num_next (q : numst) (c : N) : option (option numst) :=
  let dig := (48 <=? c) && (c <=? 57) in
  let e := (c =? 101) || (c =? 69) in
  match q with
  | NNeg => Some (if c =? 48 then Some NZero else if dig then Some NInt else None)
  | NZero => if c =? 46 then Some (Some NDot) else if e then Some (Some NE) else None
  | NInt => if dig then Some (Some NInt) else if c =? 46 then Some (Some NDot) else if e then Some (Some NE) else None
  | NDot => Some (if dig then Some NFrac else None)
  | NFrac => if dig then Some (Some NFrac) else if e then Some (Some NE) else None
  | NE => Some (if (c =? 43) || (c =? 45) then Some NESign else if dig then Some NExp else None)
  | NESign => Some (if dig then Some NExp else None)
  | NExp => if dig then Some (Some NExp) else None
  end.
(** One byte.  Standard library: scanner.step; stayrtr.go:189. *)
Definition pstep (p : pstate) (c : N) : pstate :=
  match p with
  | PDone _ | PBad => p
  | PRun s k =>
      match s with
      | LBegin => if is_space c then p else begin_value c k
      | LBeginOrEnd => if is_space c then p else if c =? 93 then end_value c k else begin_value c k
      | LKey => if is_space c then p else begin_key c k
      | LKeyOrEnd => if is_space c then p
                     else if c =? 125 then match k with FObj l :: k' => deliver (JObj l) k' | _ => PBad end
                     else begin_key c k
      | LEnd => if is_space c then p else end_value c k
      | LStr raw => if c =? 34 then deliver (JStr (unquote raw)) k
                    else if c =? 92 then PRun (LEsc (raw ++ [c])) k
                    else if c <? 32 then PBad
                    else PRun (LStr (raw ++ [c])) k
      | LEsc raw => if c =? 117 then PRun (LHex 4 (raw ++ [c])) k
                    else if existsb (N.eqb c) (str "bfnrt\/" ++ [34]) then PRun (LStr (raw ++ [c])) k
                    else PBad
      | LHex n raw => if is_hexd c then
                        match n with
                        | S (S m) => PRun (LHex (S m) (raw ++ [c])) k
                        | _ => PRun (LStr (raw ++ [c])) k
                        end
                      else PBad
      | LLit rest v => match rest with
                       | [x] => if c =? x then deliver v k else PBad
                       | x :: rest' => if c =? x then PRun (LLit rest' v) k else PBad
                       | [] => PBad
                       end
      | LNum q lit =>
          match num_next q c with
          | Some (Some q') => PRun (LNum q' (lit ++ [c])) k
          | Some None => PBad
          | None =>
              match deliver (JNum lit) k with
              | PRun s' k' => if is_space c then PRun s' k' else end_value c k'
              | p' => p'
              end
          end
      end
  end.
(** Decoder.readValue and the end of the input: a number at top level ends there, anything
    else that is not complete is io.ErrUnexpectedEOF (or io.EOF).  [None] is an error.
    Standard library, stayrtr.go:189, slurm.go:86. *)
Definition at_eof (p : pstate) : option json :=
  match p with
  | PDone v => Some v
  | PRun (LNum q lit) [] => match num_next q 32 with None => Some (JNum lit) | _ => None end
  | _ => None
  end.
(** The first value of a text.  stayrtr.go:184-191, slurm.go:82-91. *)
Definition parse (t : bytes) : option json := at_eof (fold_left pstep t (PRun LBegin [])).

(** ** Numbers *)

(** The digits a string starts with.  Part of the next functions (standard library, called
    for prefixfile.go:17-45). *)
Fixpoint span_digits (s : bytes) : bytes * bytes :=
  match s with
  | c :: t => if is_digit c then let (a, b) := span_digits t in (c :: a, b) else ([], s)
  | [] => ([], [])
  end.
(** The value of decimal digits.  As [span_digits], prefixfile.go:17-45. *)
Definition dval (s : bytes) : N := undig 10 (map (fun c => c - 48) s).
(** strconv.ParseUint(s, 10, 64) on a number of the scanner; [None] is an error.  Standard
    library, called for the fields of prefixfile.go:17-45. *)
Definition lit_uint (lit : bytes) : option N :=
  match span_digits lit with
  | (d, []) => if dval d <? 2 ^ 64 then Some (dval d) else None
  | _ => None
  end.
(** strconv.ParseInt(s, 10, 64) likewise.  prefixfile.go:17-45. *)
Definition lit_int (lit : bytes) : option Z :=
  match lit with
  | c :: r =>
      if c =? 45 then
        match span_digits r with
        | (d, []) => if dval d <=? 2 ^ 63 then Some (- Z.of_N (dval d))%Z else None
        | _ => None
        end
      else match span_digits lit with
        | (d, []) => if dval d <? 2 ^ 63 then Some (Z.of_N (dval d)) else None
        | _ => None
        end
  | [] => None
  end.
(** The number [num]/[den] rounded to a float64 (53 bits, to nearest, ties to even), as
    m * 2^e; an integer is given with e = 0 if it is below 2^53.  [None]: too large.
    strconv.ParseFloat, standard library, called for prefixfile.go:29. *)
Definition div_even (a b : Z) : Z :=
  (let q := a / b in
   let r := a mod b in
   if 2 * r <? b then q else if b <? 2 * r then q + 1 else if Z.even q then q else q + 1)%Z.
(** The exponent of the last place: 2^52 <= num/den / 2^e < 2^53 unless that is too small.
    As [div_even], prefixfile.go:29. *)
Definition last_place (num den : Z) : Z :=
  (let e := Z.log2 num - Z.log2 den - 52 in
   let e := if num * 2 ^ (Z.max 0 (- e - 52)) <? den * 2 ^ (Z.max 0 (e + 52)) then e - 1 else e in
   Z.max (-1074) e)%Z.
(** As [div_even], prefixfile.go:29. *)
Definition round64 (num den : Z) : option (Z * Z) :=
  (if num =? 0 then Some (0, 0)
   else
     let e := last_place num den in
     let m := div_even (num * 2 ^ Z.max 0 (- e)) (den * 2 ^ Z.max 0 e) in
     let '(m, e) := if m =? 2 ^ 53 then (2 ^ 52, e + 1) else (m, e) in
     if 2 ^ 1024 <=? m * 2 ^ Z.max 0 e then None
     else if (e <? 0) && (m mod 2 ^ (- e) =? 0) then Some (m / 2 ^ (- e), 0)
     else Some (m, e))%Z.
(** A number taken apart: its digits without the point, and the power of ten.  Standard
    library (readFloat), as [div_even]. *)
Definition num_parts (lit : bytes) : bool * N * Z :=
  let neg := match lit with c :: _ => c =? 45 | [] => false end in
  let '(i, r) := span_digits (if neg then tl lit else lit) in
  let '(f, r) := match r with
                 | c :: r' => if c =? 46 then span_digits r' else ([], r)
                 | [] => ([], r)
                 end in
  let x := match r with
           | _ :: c :: r' =>
               if c =? 45 then (- Z.of_N (dval (fst (span_digits r'))))%Z
               else Z.of_N (dval (fst (span_digits (if c =? 43 then r' else c :: r'))))
           | _ => 0%Z
           end in
  (neg, dval (i ++ f), (x - Z.of_nat (length f))%Z).
(** convertNumber: strconv.ParseFloat(lit, 64), [None] when out of range.  Minus zero is read
    as zero.  (The library cuts exponents of more than four digits, which only shows with as
    many digits before or after the point.)  Called for prefixfile.go:29. *)
Definition lit_float (lit : bytes) : option (Z * Z) :=
  let '(neg, d, x) := num_parts lit in
  match round64 (Z.of_N d * 10 ^ Z.max 0 x)%Z (10 ^ Z.max 0 (- x))%Z with
  | Some (m, e) => Some (if neg then (- m)%Z else m, e)
  | None => None
  end.

(** ** Writing *)

(** strconv.AppendInt (intEncoder, uintEncoder).  Standard library, stayrtr.go:635. *)
Definition zdec (z : Z) : bytes :=
  if (z <? 0)%Z then 45 :: dec (Z.to_N (- z)) else dec (Z.to_N z).
(** The output of the encoder for a value: no white space, members in the order given.
    Standard library (encode.go), stayrtr.go:635, rtrdump.go:243. *)
Fixpoint print (v : json) : bytes :=
  match v with
  | JNull => str "null"
  | JBool true => str "true"
  | JBool false => str "false"
  | JNum lit => lit
  | JStr s => 34 :: quote s ++ [34]
  | JArr l =>
      91 :: (fix go l := match l with
                         | [] => []
                         | [x] => print x
                         | x :: r => print x ++ 44 :: go r
                         end) l ++ [93]
  | JObj l =>
      123 :: (fix go l := match l with
                          | [] => []
                          | [(k, x)] => 34 :: quote k ++ 34 :: 58 :: print x
                          | (k, x) :: r => 34 :: quote k ++ 34 :: 58 :: print x ++ 44 :: go r
                          end) l ++ [125]
  end.
