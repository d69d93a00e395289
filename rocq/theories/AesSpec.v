(** * AesSpec: the Advanced Encryption Standard, written from FIPS 197.

    Independent of Aes.v: bytes are polynomials over GF(2), the state is a 4x4 array, the S-box is
    computed from inverses, and the key schedule is a recurrence.  Only [byte], [ord], [chr] and
    [bxor] (bitwise xor) are shared. *)
From Coq Require Import List ZArith Bool.
From Coq.Init Require Import Byte.
From Verif Require Import PyBase.
Import ListNotations.
Local Open Scope Z_scope.

(** ** 4: the field GF(2^8) *)

(** Polynomials over GF(2) as the bits of a number.  Product, and remainder modulo
    m(x) = x^8 + x^4 + x^3 + x + 1 (4.2) of a polynomial of degree below 15. *)
Definition poly_mul (a b : Z) : Z :=
  fold_left (fun acc i => Z.lxor acc (if Z.testbit b i then Z.shiftl a i else 0)) [0; 1; 2; 3; 4; 5; 6; 7] 0.
Definition m_x : Z := 2 ^ 8 + 2 ^ 4 + 2 ^ 3 + 2 + 1.
Definition poly_mod (a : Z) : Z :=
  fold_left (fun acc i => if Z.testbit acc i then Z.lxor acc (Z.shiftl m_x (i - 8)) else acc) [14; 13; 12; 11; 10; 9; 8] a.
Definition gmul (a b : byte) : byte := chr (poly_mod (poly_mul (ord a) (ord b))).
Fixpoint gpow (a : byte) (n : nat) : byte := match n with O => x01 | S n' => gmul a (gpow a n') end.

(** ** 5.1.1: SubBytes.  The inverse in the field (0 for 0), then the affine map (5.1). *)
Definition is_inverse (a b : byte) : Prop := a = x00 /\ b = x00 \/ gmul a b = x01.
Definition bit_of (b : byte) (i : Z) : bool := Z.testbit (ord b) i.
Definition is_affine (b b' : byte) : Prop :=
  forall i, 0 <= i < 8 -> bit_of b' i =
    xorb (bit_of b i) (xorb (bit_of b ((i + 4) mod 8)) (xorb (bit_of b ((i + 5) mod 8)) (xorb (bit_of b ((i + 6) mod 8)) (xorb (bit_of b ((i + 7) mod 8)) (bit_of x63 i))))).
Definition is_sbox (S : byte -> byte) : Prop := forall a, exists b, is_inverse a b /\ is_affine b (S a).

(** ** 3.4: the state, s[r,c], and the transformations of 5.1 *)
Definition state : Type := nat -> nat -> byte.
Definition input_state (block : list byte) : state := fun r c => nth (r + 4 * c) block x00.
Definition SubBytes (S : byte -> byte) (s : state) : state := fun r c => S (s r c).
Definition ShiftRows (s : state) : state := fun r c => s r ((c + r) mod 4)%nat.
(** 5.1.3: each column times {03}x^3 + {01}x^2 + {01}x + {02} modulo x^4 + 1. *)
Definition coefficient (i : nat) : byte := nth i [x02; x01; x01; x03] x00.
Definition MixColumns (s : state) : state := fun r c =>
  fold_left bxor (map (fun j => gmul (coefficient ((4 + r - j) mod 4)) (s j c)) [0; 1; 2; 3]%nat) x00.
(** 5.1.4: [w i r] is byte [r] of word [i] of the key schedule. *)
Definition AddRoundKey (w : nat -> nat -> byte) (round : nat) (s : state) : state := fun r c => bxor (s r c) (w (4 * round + c)%nat r).

(** ** 5.2: key expansion *)
Definition Rcon (i : nat) (r : nat) : byte := match r with O => gpow x02 (i - 1) | _ => x00 end.
Definition key_expansion (S : byte -> byte) (Nk : nat) (key : list byte) (w : nat -> nat -> byte) : Prop :=
  (forall i r, (i < Nk)%nat -> (r < 4)%nat -> w i r = nth (4 * i + r) key x00) /\
  forall i r, (Nk <= i < 4 * (Nk + 7))%nat -> (r < 4)%nat ->
    w i r = bxor (w (i - Nk)%nat r)
      (if (i mod Nk =? 0)%nat then bxor (S (w (i - 1)%nat ((r + 1) mod 4)%nat)) (Rcon (i / Nk) r)
       else if (6 <? Nk)%nat && (i mod Nk =? 4)%nat then S (w (i - 1)%nat r)
       else w (i - 1)%nat r).

(** ** 5.1: the cipher, Nr = Nk + 6 rounds; the state after each round *)
Fixpoint after_round (S : byte -> byte) (w : nat -> nat -> byte) (Nr n : nat) (s : state) : state :=
  match n with
  | O => AddRoundKey w 0 s
  | Datatypes.S n' =>
      let t := ShiftRows (SubBytes S (after_round S w Nr n' s)) in
      AddRoundKey w n (if (n =? Nr)%nat then t else MixColumns t)
  end.

(** [out] is the encryption of [block] under [key] (3.2, 5.1: key length 4*Nk bytes). *)
Definition fips197 (key block out : list byte) : Prop :=
  exists S Nk w, is_sbox S /\ In Nk [4; 6; 8]%nat /\ length key = (4 * Nk)%nat /\ length block = 16%nat /\ length out = 16%nat /\
    key_expansion S Nk key w /\
    forall r c, (r < 4)%nat -> (c < 4)%nat -> input_state out r c = after_round S w (Nk + 6) (Nk + 6) (input_state block) r c.
