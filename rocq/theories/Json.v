(** * Json: [json.dumps] and [json.loads] (simplejson), as used by keydata.py and keys.py.

    Simplifications: a number with a fraction or exponent is kept as it is written and not
    rounded to a float (nothing in keyczar reads one), and so are NaN and Infinity; objects keep
    their members in the order in which they were written or read (Python 2 dictionaries have no
    useful order); there is no limit on the nesting. *)
From Coq Require Import Strings.String.
From Coq Require Import List ZArith NArith Bool.
From Coq.Init Require Import Byte.
From Verif Require Import PyBase.
Import ListNotations.
Local Open Scope Z_scope.

Inductive json : Type :=
| JNull
| JBool (b : bool)
| JInt (n : Z)
| JFloat (s : str)
| JStr (s : text)
| JArr (l : list json)
| JObj (m : list (text * json)).

(** ** Printing *)

Fixpoint digits (fuel : nat) (n : Z) (acc : str) : str :=
  match fuel with
  | O => acc
  | S f =>
      let acc := chr (48 + n mod 10) :: acc in
      if n <? 10 then acc else digits f (n / 10) acc
  end.

(** [str(n)] *)
Definition int_to_str (n : Z) : str :=
  if n <? 0 then "-"%byte :: digits (Z.to_nat (Z.log2 (- n) + 1)) (- n) []
  else digits (Z.to_nat (Z.log2 n + 1)) n [].

Definition hex_digit (n : N) : byte :=
  if (n <? 10)%N then chr (48 + Z.of_N n) else chr (87 + Z.of_N n).

(** [\uXXXX] for a 16-bit unit. *)
Definition u_escape (n : N) : str :=
  ["\"; "u"; hex_digit (n / 4096 mod 16)%N; hex_digit (n / 256 mod 16)%N;
   hex_digit (n / 16 mod 16)%N; hex_digit (n mod 16)%N]%byte.

(** One character of a JSON string, [ensure_ascii=True]. *)
Definition escape_char (c : N) : str :=
  if (c =? 34)%N then ["\"; """"]%byte
  else if (c =? 92)%N then ["\"; "\"]%byte
  else if (c =? 10)%N then ["\"; "n"]%byte
  else if (c =? 13)%N then ["\"; "r"]%byte
  else if (c =? 9)%N then ["\"; "t"]%byte
  else if (c =? 12)%N then ["\"; "f"]%byte
  else if (c =? 8)%N then ["\"; "b"]%byte
  else if ((32 <=? c) && (c <=? 126))%N then [chr (Z.of_N c)]
  else if (c <? 65536)%N then u_escape c
  else u_escape (55296 + (c - 65536) / 1024)%N ++ u_escape (56320 + (c - 65536) mod 1024)%N.

Definition dump_string (s : text) : str :=
  [""""%byte] ++ concat (map escape_char s) ++ [""""%byte].

Definition sep (first : bool) : str := if first then [] else [","; " "]%byte.

(** [json.dumps] with the default separators. *)
Fixpoint dumps (v : json) : str :=
  match v with
  | JNull => bs "null"
  | JBool true => bs "true"
  | JBool false => bs "false"
  | JInt n => int_to_str n
  | JFloat s => s
  | JStr s => dump_string s
  | JArr l =>
      ["["%byte] ++
      (fix go (first : bool) (l : list json) : str :=
         match l with
         | [] => []
         | v :: l' => sep first ++ dumps v ++ go false l'
         end) true l ++ ["]"%byte]
  | JObj m =>
      ["{"%byte] ++
      (fix go (first : bool) (m : list (text * json)) : str :=
         match m with
         | [] => []
         | (k, v) :: m' => sep first ++ dump_string k ++ [":"; " "]%byte ++ dumps v ++ go false m'
         end) true m ++ ["}"%byte]
  end.

(** ** Parsing *)

Definition is_ws (c : byte) : bool :=
  beqb c " "%byte || beqb c x09 || beqb c x0a || beqb c x0d.

Fixpoint skip_ws (s : str) : str :=
  match s with
  | c :: s' => if is_ws c then skip_ws s' else s
  | [] => []
  end.

Definition is_digit (c : byte) : bool := (48 <=? ord c) && (ord c <=? 57).

Fixpoint parse_digits (s : str) (acc : Z) : Z * str :=
  match s with
  | c :: s' => if is_digit c then parse_digits s' (acc * 10 + (ord c - 48)) else (acc, s)
  | [] => (acc, s)
  end.

(** The integer part of a number: [0] or [[1-9][0-9]*]. *)
Definition parse_nat (s : str) : res (Z * str) :=
  match s with
  | c :: s' =>
      if beqb c "0"%byte then Ok (0, s')
      else if is_digit c then Ok (parse_digits s 0)
      else Raise ValueError
  | [] => Raise ValueError
  end.

(** The digits that [s] starts with. *)
Fixpoint span_digits (s : str) : str * str :=
  match s with
  | c :: s' => if is_digit c then let (d, r) := span_digits s' in (c :: d, r) else ([], s)
  | [] => ([], [])
  end.

(** [(\.\d+)?] *)
Definition parse_frac (s : str) : str * str :=
  match s with
  | c :: s' =>
      if beqb c "."%byte then
        match span_digits s' with ([], _) => ([], s) | (d, r) => (c :: d, r) end
      else ([], s)
  | [] => ([], s)
  end.

(** [[-+]?] *)
Definition parse_sign (s : str) : str * str :=
  match s with
  | c :: s' => if beqb c "-"%byte || beqb c "+"%byte then ([c], s') else ([], s)
  | [] => ([], s)
  end.

(** [([eE][-+]?\d+)?] *)
Definition parse_exp (s : str) : str * str :=
  match s with
  | c :: s' =>
      if beqb c "e"%byte || beqb c "E"%byte then
        let (g, s'') := parse_sign s' in
        match span_digits s'' with ([], _) => ([], s) | (d, r) => (c :: g ++ d, r) end
      else ([], s)
  | [] => ([], s)
  end.

(** A number whose integer part, with its sign [sg], is [d] and has the value [n]. *)
Definition finish_number (sg d : str) (n : Z) (s : str) : json * str :=
  let (f, r) := parse_frac s in
  let (e, r') := parse_exp r in
  match f ++ e with
  | [] => (JInt n, r')
  | _ => (JFloat (sg ++ d ++ f ++ e), r')
  end.

(** [NUMBER_RE] of the scanner. *)
Definition parse_number (s : str) : res (json * str) :=
  match s with
  | c :: s' =>
      if beqb c "-"%byte then
        let* (n, r) := parse_nat s' in
        Ok (finish_number [c] (firstn (length s' - length r) s') (- n) r)
      else
        let* (n, r) := parse_nat s in
        Ok (finish_number [] (firstn (length s - length r) s) n r)
  | [] => Raise ValueError
  end.

Definition hex_val (c : byte) : option N :=
  let n := ord c in
  if (48 <=? n) && (n <=? 57) then Some (Z.to_N (n - 48))
  else if (97 <=? n) && (n <=? 102) then Some (Z.to_N (n - 87))
  else if (65 <=? n) && (n <=? 70) then Some (Z.to_N (n - 55))
  else None.

(** Four hexadecimal digits. *)
Definition parse_hex4 (s : str) : option (N * str) :=
  match s with
  | a :: b :: c :: d :: s' =>
      match hex_val a, hex_val b, hex_val c, hex_val d with
      | Some a, Some b, Some c, Some d => Some (a * 4096 + b * 256 + c * 16 + d, s')%N
      | _, _, _, _ => None
      end
  | _ => None
  end.

(** A [\uXXXX] escape after the 'u'; a high surrogate directly followed by an escaped
    low surrogate is one character. *)
Definition parse_u (s : str) : res (N * str) :=
  match parse_hex4 s with
  | None => Raise ValueError
  | Some (u, s1) =>
      if ((55296 <=? u) && (u <=? 56319))%N then
        match s1 with
        | a :: b :: s2 =>
            if beqb a "\"%byte && beqb b "u"%byte then
              match parse_hex4 s2 with
              | None => Raise ValueError
              | Some (l, s3) =>
                  if ((56320 <=? l) && (l <=? 57343))%N
                  then Ok (65536 + (u - 55296) * 1024 + (l - 56320), s3)%N
                  else Ok (u, s1)
              end
            else Ok (u, s1)
        | _ => Ok (u, s1)
        end
      else Ok (u, s1)
  end.

(** UTF-8 continuation byte. *)
Definition cont (c : byte) : option N :=
  if (128 <=? ord c) && (ord c <=? 191) then Some (Z.to_N (ord c - 128)) else None.

(** One non-ASCII character of a string, UTF-8 encoded in the input. *)
Definition parse_utf8 (c : byte) (s : str) : res (N * str) :=
  let n := Z.to_N (ord c) in
  if ((194 <=? n) && (n <=? 223))%N then
    match s with
    | a :: s' => match cont a with
                 | Some x => Ok ((n - 192) * 64 + x, s')%N
                 | None => Raise UnicodeError end
    | _ => Raise UnicodeError
    end
  else if ((224 <=? n) && (n <=? 239))%N then
    match s with
    | a :: b :: s' =>
        match cont a, cont b with
        | Some x, Some y =>
            let u := ((n - 224) * 4096 + x * 64 + y)%N in
            if (u <? 2048)%N then Raise UnicodeError else Ok (u, s')
        | _, _ => Raise UnicodeError end
    | _ => Raise UnicodeError
    end
  else if ((240 <=? n) && (n <=? 244))%N then
    match s with
    | a :: b :: d :: s' =>
        match cont a, cont b, cont d with
        | Some x, Some y, Some z =>
            let u := ((n - 240) * 262144 + x * 4096 + y * 64 + z)%N in
            if ((u <? 65536) || (1114111 <? u))%N then Raise UnicodeError else Ok (u, s')
        | _, _, _ => Raise UnicodeError end
    | _ => Raise UnicodeError
    end
  else Raise UnicodeError.

(** The body of a string after the opening quote. *)
Fixpoint parse_string (fuel : nat) (s : str) : res (text * str) :=
  match fuel with
  | O => Raise Diverge
  | S f =>
      match s with
      | [] => Raise ValueError
      | c :: s' =>
          if beqb c """"%byte then Ok ([], s')
          else
            let* (u, r) :=
              (if beqb c "\"%byte then
                 match s' with
                 | e :: s'' =>
                     if beqb e "u"%byte then parse_u s''
                     else if beqb e """"%byte then Ok (34%N, s'')
                     else if beqb e "\"%byte then Ok (92%N, s'')
                     else if beqb e "/"%byte then Ok (47%N, s'')
                     else if beqb e "b"%byte then Ok (8%N, s'')
                     else if beqb e "f"%byte then Ok (12%N, s'')
                     else if beqb e "n"%byte then Ok (10%N, s'')
                     else if beqb e "r"%byte then Ok (13%N, s'')
                     else if beqb e "t"%byte then Ok (9%N, s'')
                     else Raise ValueError
                 | [] => Raise ValueError
                 end
               else if ord c <? 32 then Raise ValueError
               else if ord c <? 128 then Ok (Z.to_N (ord c), s')
               else parse_utf8 c s') in
            let* (t, rest) := parse_string f r in
            Ok (u :: t, rest)
      end
  end.

(** Does [s] start with [p]?  The rest if so. *)
Fixpoint strip_prefix (p s : str) : option str :=
  match p, s with
  | [], _ => Some s
  | a :: p', b :: s' => if beqb a b then strip_prefix p' s' else None
  | _, [] => None
  end.

(** Values, array elements (after '[') and object members (after '{'). *)
Fixpoint parse_value (fuel : nat) (s : str) : res (json * str) :=
  match fuel with
  | O => Raise Diverge
  | S f =>
      match s with
      | [] => Raise ValueError
      | c :: s' =>
          if beqb c """"%byte then
            let* (t, r) := parse_string (S (length s')) s' in Ok (JStr t, r)
          else if beqb c "{"%byte then
            let r := skip_ws s' in
            match strip_prefix ["}"%byte] r with
            | Some r' => Ok (JObj [], r')
            | None => let* (m, r') := parse_members f r in Ok (JObj m, r')
            end
          else if beqb c "["%byte then
            let r := skip_ws s' in
            match strip_prefix ["]"%byte] r with
            | Some r' => Ok (JArr [], r')
            | None => let* (l, r') := parse_elements f r in Ok (JArr l, r')
            end
          else match strip_prefix (bs "null") s with
          | Some r => Ok (JNull, r)
          | None => match strip_prefix (bs "true") s with
          | Some r => Ok (JBool true, r)
          | None => match strip_prefix (bs "false") s with
          | Some r => Ok (JBool false, r)
          | None => match strip_prefix (bs "NaN") s with
          | Some r => Ok (JFloat (bs "NaN"), r)
          | None => match strip_prefix (bs "Infinity") s with
          | Some r => Ok (JFloat (bs "Infinity"), r)
          | None => match strip_prefix (bs "-Infinity") s with
          | Some r => Ok (JFloat (bs "-Infinity"), r)
          | None => parse_number s
          end end end end end end
      end
  end
with parse_elements (fuel : nat) (s : str) : res (list json * str) :=
  match fuel with
  | O => Raise Diverge
  | S f =>
      let* (v, r) := parse_value f s in
      match skip_ws r with
      | c :: r' =>
          if beqb c "]"%byte then Ok ([v], r')
          else if beqb c ","%byte then
            let* (l, r'') := parse_elements f (skip_ws r') in Ok (v :: l, r'')
          else Raise ValueError
      | [] => Raise ValueError
      end
  end
with parse_members (fuel : nat) (s : str) : res (list (text * json) * str) :=
  match fuel with
  | O => Raise Diverge
  | S f =>
      match s with
      | q :: s' =>
          if beqb q """"%byte then
            let* (k, r) := parse_string (S (length s')) s' in
            match skip_ws r with
            | c :: r' =>
                if beqb c ":"%byte then
                  let* (v, r) := parse_value f (skip_ws r') in
                  match skip_ws r with
                  | c :: r' =>
                      if beqb c "}"%byte then Ok ([(k, v)], r')
                      else if beqb c ","%byte then
                        let* (m, r'') := parse_members f (skip_ws r') in Ok ((k, v) :: m, r'')
                      else Raise ValueError
                  | [] => Raise ValueError
                  end
                else Raise ValueError
            | [] => Raise ValueError
            end
          else Raise ValueError
      | [] => Raise ValueError
      end
  end.

(** [json.loads]: one value, surrounded by white space only. *)
Definition loads (s : str) : res json :=
  let* (v, r) := parse_value (S (2 * length s)) (skip_ws s) in
  match skip_ws r with [] => Ok v | _ => Raise ValueError end.

(** ** Access *)

(** [obj[key]]: the last member of that name; KeyError if there is none, TypeError if
    the value is not an object. *)
Fixpoint last_member (m : list (text * json)) (k : text) : option json :=
  match m with
  | [] => None
  | (k', v) :: m' =>
      match last_member m' k with
      | Some w => Some w
      | None => if text_eqb k' k then Some v else None
      end
  end.

Definition get (v : json) (k : string) : res json :=
  match v with
  | JObj m => match last_member m (tx k) with Some w => Ok w | None => Raise KeyError end
  | _ => Raise TypeError
  end.

(** Typed access; a value of another type is refused with TypeError (in the source some
    of these are found out only later). *)
Definition get_str (v : json) (k : string) : res text :=
  let* w := get v k in match w with JStr s => Ok s | _ => Raise TypeError end.
Definition get_int (v : json) (k : string) : res Z :=
  let* w := get v k in match w with JInt n => Ok n | _ => Raise TypeError end.
Definition get_bool (v : json) (k : string) : res bool :=
  let* w := get v k in match w with JBool b => Ok b | _ => Raise TypeError end.
Definition get_arr (v : json) (k : string) : res (list json) :=
  let* w := get v k in match w with JArr l => Ok l | _ => Raise TypeError end.

(** A dictionary display [{"a": x, ...}]. *)
Definition jobj (m : list (string * json)) : json := JObj (map (fun p => (tx (fst p), snd p)) m).
