(** The grammar of JSON, after RFC 8259, and what a string stands for.  Of the model only the
    type of JSON values is used. *)
From Verif Require Import Lib.Str Model.JsonText.
Local Open Scope string_scope.
Local Open Scope list_scope.
Local Open Scope N_scope.

(** Section 2: white space. *)
Definition ws (b : bytes) : Prop := Forall (fun c => In c [32; 9; 10; 13]) b.

(** Section 6: numbers. *)
Definition digit (c : N) : Prop := 48 <= c <= 57.
Definition digits1 (d : bytes) : Prop := d <> [] /\ Forall digit d.
Definition jint (i : bytes) : Prop := i = [48] \/ exists c d, i = c :: d /\ 49 <= c <= 57 /\ Forall digit d.
Definition jfrac (f : bytes) : Prop := f = [] \/ exists d, f = 46 :: d /\ digits1 d.
Definition jexp (x : bytes) : Prop :=
  x = [] \/ exists e s d, x = e :: s ++ d /\ (e = 101 \/ e = 69) /\ (s = [] \/ s = [43] \/ s = [45]) /\ digits1 d.
Definition jnumber (lit : bytes) : Prop :=
  exists s i f x, lit = s ++ i ++ f ++ x /\ (s = [] \/ s = [45]) /\ jint i /\ jfrac f /\ jexp x.

(** Section 7: strings.  What may stand between the quotes. *)
Definition hexdig (c : N) : Prop := 48 <= c <= 57 \/ 65 <= c <= 70 \/ 97 <= c <= 102.
Inductive jchars : bytes -> Prop :=
| jc_nil : jchars []
| jc_plain c r : 32 <= c -> c <> 34 -> c <> 92 -> jchars r -> jchars (c :: r)
| jc_esc c r : In c (str "\/bfnrt" ++ [34]) -> jchars r -> jchars (92 :: c :: r)
| jc_uni a b c d r : hexdig a -> hexdig b -> hexdig c -> hexdig d -> jchars r ->
    jchars (92 :: 117 :: a :: b :: c :: d :: r).

(** UTF-8 (RFC 3629) of a code point. *)
Definition utf8 (r : N) : bytes :=
  if r <? 128 then [r]
  else if r <? 2048 then [192 + r / 64; 128 + r mod 64]
  else if r <? 65536 then [224 + r / 4096; 128 + r / 64 mod 64; 128 + r mod 64]
  else [240 + r / 262144; 128 + r / 4096 mod 64; 128 + r / 64 mod 64; 128 + r mod 64].
(** Unicode scalar values, and well-formed text. *)
Definition scalar (r : N) : Prop := r < 55296 \/ (57344 <= r /\ r < 1114112).
Inductive is_text : bytes -> Prop :=
| tx_nil : is_text []
| tx_cons r t : scalar r -> is_text t -> is_text (utf8 r ++ t).

(** The text a well-formed string stands for. *)
Definition hexval4 (a b c d : N) (r : N) : Prop :=
  exists w x y z, r = w * 4096 + x * 256 + y * 16 + z /\
    Forall2 (fun c v => v < 16 /\ (c = 48 + v /\ v < 10 \/ c = 55 + v /\ 10 <= v \/ c = 87 + v /\ 10 <= v))
            [a; b; c; d] [w; x; y; z].
Definition escapes : list (N * N) := [(34, 34); (92, 92); (47, 47); (98, 8); (102, 12); (110, 10); (114, 13); (116, 9)].
Inductive means : bytes -> bytes -> Prop :=
| mn_nil : means [] []
| mn_char r t s : scalar r -> 32 <= r -> r <> 34 -> r <> 92 -> means t s -> means (utf8 r ++ t) (utf8 r ++ s)
| mn_esc c x t s : In (c, x) escapes -> means t s -> means (92 :: c :: t) (x :: s)
| mn_uni a b c d r t s : hexval4 a b c d r -> scalar r -> means t s ->
    means (92 :: 117 :: a :: b :: c :: d :: t) (utf8 r ++ s)
| mn_pair a b c d h a' b' c' d' l r t s :
    hexval4 a b c d h -> hexval4 a' b' c' d' l -> 65536 <= r -> r < 1114112 ->
    h = 55296 + (r - 65536) / 1024 -> l = 56320 + (r - 65536) mod 1024 -> means t s ->
    means (92 :: 117 :: a :: b :: c :: d :: 92 :: 117 :: a' :: b' :: c' :: d' :: t) (utf8 r ++ s).

(** Sections 3 to 5: [jtext M n v b] says that [b] is a text of the value [v] (without white
    space around it) in which arrays and objects are nested at most [n] deep, strings being
    read by [M]. *)
Inductive jtext (M : bytes -> bytes -> Prop) : nat -> json -> bytes -> Prop :=
| jt_null n : jtext M n JNull (str "null")
| jt_true n : jtext M n (JBool true) (str "true")
| jt_false n : jtext M n (JBool false) (str "false")
| jt_num n lit : jnumber lit -> jtext M n (JNum lit) lit
| jt_str n raw s : M raw s -> jtext M n (JStr s) (34 :: raw ++ [34])
| jt_arr0 n w : ws w -> jtext M (S n) (JArr []) (91 :: w ++ [93])
| jt_arr n l b : jelems M n l b -> jtext M (S n) (JArr l) (91 :: b ++ [93])
| jt_obj0 n w : ws w -> jtext M (S n) (JObj []) (123 :: w ++ [125])
| jt_obj n l b : jmembers M n l b -> jtext M (S n) (JObj l) (123 :: b ++ [125])
with jelems (M : bytes -> bytes -> Prop) : nat -> list json -> bytes -> Prop :=
| je_one n v w b w' : ws w -> jtext M n v b -> ws w' -> jelems M n [v] (w ++ b ++ w')
| je_more n l v bl w b w' : jelems M n l bl -> ws w -> jtext M n v b -> ws w' ->
    jelems M n (l ++ [v]) (bl ++ 44 :: w ++ b ++ w')
with jmembers (M : bytes -> bytes -> Prop) : nat -> list (bytes * json) -> bytes -> Prop :=
| jm_one n m b : jmember M n m b -> jmembers M n [m] b
| jm_more n l m bl b : jmembers M n l bl -> jmember M n m b -> jmembers M n (l ++ [m]) (bl ++ 44 :: b)
with jmember (M : bytes -> bytes -> Prop) : nat -> bytes * json -> bytes -> Prop :=
| jmem n raw s v w1 w2 w3 b w4 : ws w1 -> M raw s -> ws w2 -> ws w3 -> jtext M n v b -> ws w4 ->
    jmember M n (s, v) (w1 ++ 34 :: raw ++ 34 :: w2 ++ 58 :: w3 ++ b ++ w4).

(** A JSON text as RFC 8259 has it: one value with white space around it. *)
Definition json_doc (n : nat) (v : json) (t : bytes) : Prop :=
  exists w b w', ws w /\ jtext means n v b /\ ws w' /\ t = w ++ b ++ w'.

(** Leniency in strings: one that is not well-formed (bytes that are no UTF-8, half of a
    surrogate pair) may be read as some text; the others as what they stand for. *)
Definition lenient (raw s : bytes) : Prop := jchars raw /\ is_text s /\ forall s', means raw s' -> s = s'.
