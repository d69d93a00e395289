(** * Sha1: SHA-1 (FIPS 180-1) and HMAC-SHA1 (RFC 2104).

    Models Python's [hashlib.sha1] and [hmac.new(key, msg, sha1).digest()], used at
    python/src/keyczar/util.py:323-336 and python/src/keyczar/keys.py:552,594,597,605.
    The hash object's [update] calls are modelled by concatenating their arguments. *)
From Coq Require Import List ZArith Bool.
From Coq.Init Require Import Byte.
From Verif Require Import PyBase.
Import ListNotations.
Local Open Scope Z_scope.

Definition w32 : Z := 4294967296.

(** Big-endian bytes of a 32-bit word. *)
Definition be32 (n : Z) : str :=
  [chr (n / 16777216); chr (n / 65536); chr (n / 256); chr n].

(** 32-bit word from four big-endian bytes. *)
Definition of_be32 (a b c d : byte) : Z :=
  ord a * 16777216 + ord b * 65536 + ord c * 256 + ord d.

Definition rotl (n x : Z) : Z :=
  Z.lor ((x * 2 ^ n) mod w32) (x / 2 ^ (32 - n)).

Definition add32 (x y : Z) : Z := (x + y) mod w32.

Record hstate := HS { hA : Z; hB : Z; hC : Z; hD : Z; hE : Z }.

Definition sha1_init : hstate := HS 1732584193 4023233417 2562383102 271733878 3285377520.

Definition sha1_f (t : Z) (b c d : Z) : Z :=
  if t <? 20 then Z.lor (Z.land b c) (Z.land (w32 - 1 - b) d)
  else if t <? 40 then Z.lxor b (Z.lxor c d)
  else if t <? 60 then Z.lor (Z.land b c) (Z.lor (Z.land b d) (Z.land c d))
  else Z.lxor b (Z.lxor c d).

Definition sha1_k (t : Z) : Z :=
  if t <? 20 then 1518500249 else if t <? 40 then 1859775393
  else if t <? 60 then 2400959708 else 3395469782.

(** [n] rounds, [t] counting up; [w] is the window of the next 16 message words. *)
Fixpoint sha1_rounds (n : nat) (t : Z) (w : list Z) (h : hstate) : hstate :=
  match n with
  | O => h
  | S n' =>
      let wt := nth 0 w 0 in
      let tmp := add32 (add32 (add32 (add32 (rotl 5 (hA h)) (sha1_f t (hB h) (hC h) (hD h))) (hE h)) wt)
                   (sha1_k t) in
      let wn := rotl 1 (Z.lxor (nth 13 w 0) (Z.lxor (nth 8 w 0) (Z.lxor (nth 2 w 0) (nth 0 w 0)))) in
      sha1_rounds n' (t + 1) (tl w ++ [wn])
        (HS tmp (hA h) (rotl 30 (hB h)) (hC h) (hD h))
  end.

(** The 32-bit words of a byte string (a trailing incomplete word is dropped). *)
Fixpoint words (s : str) : list Z :=
  match s with
  | a :: b :: c :: d :: s' => of_be32 a b c d :: words s'
  | _ => []
  end.

Definition sha1_block (h : hstate) (blk : str) : hstate :=
  let h' := sha1_rounds 80 0 (words blk) h in
  HS (add32 (hA h) (hA h')) (add32 (hB h) (hB h')) (add32 (hC h) (hC h'))
     (add32 (hD h) (hD h')) (add32 (hE h) (hE h')).

(** [n] blocks of 64 bytes. *)
Fixpoint sha1_blocks (n : nat) (h : hstate) (s : str) : hstate :=
  match n with
  | O => h
  | S n' => sha1_blocks n' (sha1_block h (firstn 64 s)) (skipn 64 s)
  end.

(** Message padding: 0x80, zeros, 64-bit bit length. *)
Definition sha1_pad (s : str) : str :=
  let bits := 8 * len s in
  s ++ [x80] ++ rep ((55 - len s) mod 64) x00 ++ be32 (bits / w32) ++ be32 bits.

Definition sha1 (s : str) : str :=
  let p := sha1_pad s in
  let h := sha1_blocks (Z.to_nat (len p / 64)) sha1_init p in
  be32 (hA h) ++ be32 (hB h) ++ be32 (hC h) ++ be32 (hD h) ++ be32 (hE h).

(** The HMAC key block: long keys are hashed, then zero-padded to 64 bytes. *)
Definition hmac_key_block (k : str) : str :=
  let k := if 64 <? len k then sha1 k else k in
  k ++ rep (64 - len k) x00.

Definition hmac_sha1 (k m : str) : str :=
  let kb := hmac_key_block k in
  sha1 (map (bxor x5c) kb ++ sha1 (map (bxor x36) kb ++ m)).
