(** * JsonSpec: the grammar of JSON texts, RFC 8259, and the values they stand for.

    A specification for [Json.loads], stated without its helpers.  A number with a fraction or an
    exponent stands for itself: nothing in keyczar reads its value. *)
From Coq Require Import Strings.String.
From Coq Require Import List ZArith NArith.
From Coq.Init Require Import Byte.
From Verif Require Import PyBase Json.
Import ListNotations.
Local Open Scope Z_scope.

(** ws, section 2: space, tab, line feed, carriage return. *)
Definition ws (s : str) : Prop := Forall (fun c => In c [x20; x09; x0a; x0d]) s.

(** int, section 6: zero, or digits of which the first is not zero, after an optional minus. *)
Definition digit (c : byte) : Prop := 48 <= ord c <= 57.
Definition decimal (s : str) (n : Z) : Prop :=
  s <> [] /\ Forall digit s /\ (hd_error s = Some x30 -> s = [x30]) /\
  n = fold_left (fun acc c => acc * 10 + (ord c - 48)) s 0.
Definition number (s : str) (n : Z) : Prop :=
  decimal s n \/ exists s' m, s = x2d :: s' /\ decimal s' m /\ n = - m.

(** number, section 6: with a fraction, an exponent or both it is not an integer. *)
Definition frac (s : str) : Prop := exists d, s = x2e :: d /\ d <> [] /\ Forall digit d.
Definition expo (s : str) : Prop :=
  exists e g d, s = e :: g ++ d /\ In e [x65; x45] /\ In g [[]; [x2d]; [x2b]] /\ d <> [] /\ Forall digit d.
Definition float (s : str) : Prop :=
  exists g d n f e, s = g ++ d ++ f ++ e /\ In g [[]; [x2d]] /\ decimal d n /\
    (f = [] \/ frac f) /\ (e = [] \/ expo e) /\ f ++ e <> [].

(** Not JSON, but accepted by the libraries of Python. *)
Definition constants : list str := [bs "NaN"; bs "Infinity"; bs "-Infinity"].

(** 4HEXDIG, section 7, in upper or lower case. *)
Inductive hexdigit : byte -> N -> Prop :=
| hex_dec : forall c, 48 <= ord c <= 57 -> hexdigit c (Z.to_N (ord c - 48))
| hex_lower : forall c, 97 <= ord c <= 102 -> hexdigit c (Z.to_N (ord c - 97 + 10))
| hex_upper : forall c, 65 <= ord c <= 70 -> hexdigit c (Z.to_N (ord c - 65 + 10)).
Definition hex4 (s : str) (n : N) : Prop :=
  exists a b c d x y z w, s = [a; b; c; d] /\ hexdigit a x /\ hexdigit b y /\ hexdigit c z /\ hexdigit d w /\
    n = (((x * 16 + y) * 16 + z) * 16 + w)%N.

(** Surrogates, used for characters outside the basic plane. *)
Definition is_high (n : N) : Prop := (55296 <= n <= 56319)%N.
Definition is_low (n : N) : Prop := (56320 <= n <= 57343)%N.

(** UTF-8, RFC 3629 section 3, for characters other than ASCII.  (The decoder of Python 2 lets
    surrogates pass.) *)
Definition utf8_of (n : N) : str :=
  let cont k := chr (128 + Z.of_N (k mod 64)) in
  if (n <? 2048)%N then [chr (192 + Z.of_N (n / 64)); cont n]
  else if (n <? 65536)%N then [chr (224 + Z.of_N (n / 4096)); cont (n / 64)%N; cont n]
  else [chr (240 + Z.of_N (n / 262144)); cont (n / 4096)%N; cont (n / 64)%N; cont n].

(** The escapes of section 7 that are one letter. *)
Definition short_escapes : list (byte * N) :=
  [(x22, 34); (x5c, 92); (x2f, 47); (x62, 8); (x66, 12); (x6e, 10); (x72, 13); (x74, 9)]%N.

(** One character of a string and what stands for it. *)
Inductive jchar : str -> N -> Prop :=
| char_ascii : forall c, 32 <= ord c <= 127 -> c <> x22 -> c <> x5c -> jchar [c] (Z.to_N (ord c))
| char_utf8 : forall n, (128 <= n < 1114112)%N -> jchar (utf8_of n) n
| char_short : forall c n, In (c, n) short_escapes -> jchar [x5c; c] n
| char_unit : forall h n, hex4 h n -> jchar (x5c :: x75 :: h) n
| char_pair : forall h l u w, hex4 h u -> hex4 l w -> is_high u -> is_low w ->
    jchar (x5c :: x75 :: h ++ x5c :: x75 :: l) (65536 + (u - 55296) * 1024 + (w - 56320))%N.

(** Does an escaped surrogate stand at the end and the beginning of two neighbours?  Then they
    are one character, by [char_pair]. *)
Definition joins (s r : str) : Prop :=
  exists h l u w r', s = x5c :: x75 :: h /\ r = x5c :: x75 :: l ++ r' /\ hex4 h u /\ hex4 l w /\ is_high u /\ is_low w.

(** The characters between the quotes. *)
Inductive jchars : str -> text -> Prop :=
| chars_nil : jchars [] []
| chars_cons : forall s n r t, jchar s n -> jchars r t -> ~ joins s r -> jchars (s ++ r) (n :: t).
Definition jstring (s : str) (t : text) : Prop := exists b, s = x22 :: b ++ [x22] /\ jchars b t.

(** Values, sections 3 to 5; elements and members are what is between the brackets. *)
Inductive jvalue : str -> json -> Prop :=
| value_null : jvalue (bs "null") JNull
| value_true : jvalue (bs "true") (JBool true)
| value_false : jvalue (bs "false") (JBool false)
| value_number : forall s n, number s n -> jvalue s (JInt n)
| value_float : forall s, float s -> jvalue s (JFloat s)
| value_constant : forall s, In s constants -> jvalue s (JFloat s)
| value_string : forall s t, jstring s t -> jvalue s (JStr t)
| value_empty_array : forall a, ws a -> jvalue (x5b :: a ++ [x5d]) (JArr [])
| value_array : forall s l, jelements s l -> jvalue (x5b :: s ++ [x5d]) (JArr l)
| value_empty_object : forall a, ws a -> jvalue (x7b :: a ++ [x7d]) (JObj [])
| value_object : forall s m, jmembers s m -> jvalue (x7b :: s ++ [x7d]) (JObj m)
with jelements : str -> list json -> Prop :=
| elements_one : forall a s v b, ws a -> jvalue s v -> ws b -> jelements (a ++ s ++ b) [v]
| elements_more : forall a s v b r l, ws a -> jvalue s v -> ws b -> jelements r l -> jelements (a ++ s ++ b ++ x2c :: r) (v :: l)
with jmembers : str -> list (text * json) -> Prop :=
| members_one : forall a k t b c s v d, ws a -> jstring k t -> ws b -> ws c -> jvalue s v -> ws d ->
    jmembers (a ++ k ++ b ++ x3a :: c ++ s ++ d) [(t, v)]
| members_more : forall a k t b c s v d r m, ws a -> jstring k t -> ws b -> ws c -> jvalue s v -> ws d -> jmembers r m ->
    jmembers (a ++ k ++ b ++ x3a :: c ++ s ++ d ++ x2c :: r) ((t, v) :: m).

(** JSON-text = ws value ws, section 2. *)
Definition json_text (s : str) (v : json) : Prop := exists a x b, s = a ++ x ++ b /\ ws a /\ jvalue x v /\ ws b.
