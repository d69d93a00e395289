(** * PyBase: the Python values and operations the model is written in.

    Byte-string dialect (see DESIGN.md, section 1): a Python [str] is a list of
    bytes, a Python int is a [Z], an exception is a value of [exn]. *)
From Coq Require Import List ZArith NArith Bool Lia.
From Coq Require Import Strings.String.
From Coq.Init Require Import Byte.
Import ListNotations.
Local Open Scope Z_scope.

Notation byte := Byte.byte.

(** A Python 2 [str]: a byte string. *)
Definition str : Type := list byte.

(** A Python 2 [unicode]: a list of code points.  JSON strings are read as these. *)
Definition text : Type := list N.

(** Byte-string literals. *)
Definition bs (s : string) : str := String.list_byte_of_string s.

(** Exceptions.  The first group is python/src/keyczar/errors.py:22-68, with the
    constructor arguments of those classes; the second group is the built-in and
    library exceptions the modelled code can raise.  [Diverge] is not an exception:
    it is the outcome of a loop that used up the fuel given to the model. *)
Inductive exn : Type :=
| KeyczarError
| BadVersionError (v : Z)
| Base64DecodingError
| InvalidSignatureError
| KeyNotFoundError (h : str)
| ShortCiphertextError (n : Z)
| ShortSignatureError (n : Z)
| NoPrimaryKeyError
| ValueError
| TypeError
| IndexError
| KeyError
| StructError
| AssertionError
| PyAsn1Error
| IOError
| UnicodeError
| NameError
| AttributeError
| Diverge.

(** [isinstance(e, errors.KeyczarError)], errors.py:22-68. *)
Definition is_keyczar_error (e : exn) : bool :=
  match e with
  | KeyczarError | BadVersionError _ | Base64DecodingError | InvalidSignatureError
  | KeyNotFoundError _ | ShortCiphertextError _ | ShortSignatureError _
  | NoPrimaryKeyError => true
  | _ => false
  end.

(** The result of a Python call. *)
Inductive res (A : Type) : Type :=
| Ok (a : A)
| Raise (e : exn).
Arguments Ok {A} a.
Arguments Raise {A} e.

Definition bind {A B} (r : res A) (k : A -> res B) : res B :=
  match r with Ok a => k a | Raise e => Raise e end.

Notation "'let*' x := e 'in' k" := (bind e (fun x => k))
  (at level 200, x pattern, e at level 100, k at level 200, right associativity).

Definition rmap {A B} (f : A -> B) (r : res A) : res B :=
  match r with Ok a => Ok (f a) | Raise e => Raise e end.

Fixpoint mapM {A B} (f : A -> res B) (l : list A) : res (list B) :=
  match l with
  | [] => Ok []
  | a :: l' => let* b := f a in let* bs := mapM f l' in Ok (b :: bs)
  end.

Definition is_ok {A} (r : res A) : bool := match r with Ok _ => true | Raise _ => false end.

(** ** Bytes *)

(** [ord(c)] *)
Definition ord (b : byte) : Z := Z.of_N (Byte.to_N b).

(** [chr(n)] for [0 <= n < 256].  Python raises ValueError outside that range; every
    call in the modelled code is within it, and the model reduces modulo 256. *)
Definition chr (n : Z) : byte :=
  match Byte.of_N (Z.to_N (n mod 256)) with Some b => b | None => x00 end.

(** [chr(ord(a) ^ ord(b))] *)
Definition bxor (a b : byte) : byte := chr (Z.lxor (ord a) (ord b)).

Definition beqb : byte -> byte -> bool := Byte.eqb.

(** ** Sequences *)

(** [len(l)] *)
Definition len {A} (l : list A) : Z := Z.of_nat (List.length l).

(** Clamping of a slice bound, as in Python: negative bounds count from the end. *)
Definition clamp (n i : Z) : Z :=
  if i <? 0 then Z.max 0 (n + i) else Z.min n i.

(** [l[a:b]] *)
Definition slice {A} (l : list A) (a b : Z) : list A :=
  let n := len l in
  let a' := clamp n a in
  let b' := clamp n b in
  firstn (Z.to_nat (b' - a')) (skipn (Z.to_nat a') l).

(** [l[a:]] *)
Definition slice_from {A} (l : list A) (a : Z) : list A := slice l a (len l).

(** [l[:b]] *)
Definition slice_to {A} (l : list A) (b : Z) : list A := slice l 0 b.

(** [l[i]], with negative [i] counting from the end. *)
Definition index {A} (l : list A) (i : Z) : res A :=
  let j := if i <? 0 then len l + i else i in
  if j <? 0 then Raise IndexError
  else match nth_error l (Z.to_nat j) with
       | Some a => Ok a
       | None => Raise IndexError
       end.

(** [n * c] for a one-character string [c] (empty when [n <= 0]). *)
Definition rep (n : Z) (c : byte) : str := repeat c (Z.to_nat n).

(** [s == t] on byte strings. *)
Fixpoint str_eqb (s t : str) : bool :=
  match s, t with
  | [], [] => true
  | a :: s', b :: t' => beqb a b && str_eqb s' t'
  | _, _ => false
  end.

(** [s.lstrip(c)] *)
Fixpoint lstrip (c : byte) (s : str) : str :=
  match s with
  | [] => []
  | a :: s' => if beqb a c then lstrip c s' else s
  end.

(** [u == v] on unicode strings. *)
Fixpoint text_eqb (s t : text) : bool :=
  match s, t with
  | [], [] => true
  | a :: s', b :: t' => N.eqb a b && text_eqb s' t'
  | _, _ => false
  end.

(** A byte string seen as unicode text; the code only mixes the two for ASCII. *)
Definition text_of_str (s : str) : text := map Byte.to_N s.

(** Text literals. *)
Definition tx (s : string) : text := text_of_str (bs s).

(** [str(u)]: UnicodeEncodeError unless every code point is ASCII. *)
Definition str_of_text (u : text) : res str :=
  mapM (fun c => if (c <? 128)%N then
                   match Byte.of_N c with Some b => Ok b | None => Raise UnicodeError end
                 else Raise UnicodeError) u.

(** ** Randomness: [os.urandom] as an infinite tape of bytes. *)
Definition tape : Type := nat -> byte.

(** The tape after [n] bytes were drawn. *)
Definition advance (n : nat) (r : tape) : tape := fun i => r (n + i)%nat.
