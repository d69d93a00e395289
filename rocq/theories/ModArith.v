(** * ModArith: the modular arithmetic of Python and PyCrypto. *)
From Coq Require Import ZArith List Bool.
From Coq.Init Require Import Byte.
From Verif Require Import PyBase Util.
Import ListNotations.
Local Open Scope Z_scope.

(** [pow(b, e, n)] for e >= 1. *)
Fixpoint powmod_pos (b : Z) (e : positive) (n : Z) : Z :=
  match e with
  | xH => b mod n
  | xO e' => let t := powmod_pos b e' n in (t * t) mod n
  | xI e' => let t := powmod_pos b e' n in (((t * t) mod n) * b) mod n
  end.

(** [pow(b, e, n)] for e >= 0 (a negative exponent, a ValueError, does not occur). *)
Definition powmod (b e n : Z) : Z :=
  match e with
  | Zpos p => powmod_pos b p n
  | _ => 1 mod n
  end.

(** The loop of PyCrypto's [number.inverse(u, v)]:
    while v3 > 0: q = u3 / v3; u1, v1 = v1, u1 - v1*q; u3, v3 = v3, u3 - v3*q. *)
Fixpoint inverse_loop (fuel : nat) (u1 v1 u3 v3 : Z) : Z :=
  match fuel with
  | O => u1
  | S f =>
      if 0 <? v3 then
        let q := u3 / v3 in inverse_loop f v1 (u1 - v1 * q) v3 (u3 - v3 * q)
      else u1
  end.

(** [number.inverse(u, v)]; the final loop adds [v] until the value is not negative.  The
    fuel is always enough ([inverse_ok] in ModFacts.v). *)
Definition inverse (u v : Z) : Z :=
  let u1 := inverse_loop (Z.to_nat (2 * Z.log2 v + 4)) 1 0 u v in
  if u1 <? 0 then u1 mod v else u1.

(** PyCrypto's [number.bytes_to_long]: the same function as util.BytesToLong, in Horner
    form. *)
Definition bytes_to_long (s : str) : Z := fold_left (fun acc c => acc * 256 + ord c) s 0.

(** PyCrypto's [number.long_to_bytes]: no leading zero bytes, but "\0" for 0. *)
Definition long_to_bytes (n : Z) : str := if n =? 0 then [x00] else BigIntToBytes n.
