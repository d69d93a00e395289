(** * ShaSpec: SHA-1 and HMAC, written from FIPS 180-4 and RFC 2104.

    Independent of Sha1.v: only [byte], [ord] and [len] are shared.  Messages are whole bytes. *)
From Coq Require Import List ZArith Bool.
From Coq.Init Require Import Byte.
From Verif Require Import PyBase.
Import ListNotations.
Local Open Scope Z_scope.

(** ** 2.2, 3.2, 4.1: words are numbers below 2^32 *)
Definition number (s : list byte) : Z := fold_left (fun n b => 256 * n + ord b) s 0.
Definition ROTL (n x : Z) : Z := Z.lor (Z.land (Z.shiftl x n) (Z.ones 32)) (Z.shiftr x (32 - n)).
Definition NOT (x : Z) : Z := Z.land (Z.lnot x) (Z.ones 32).
Definition Ch (x y z : Z) : Z := Z.lxor (Z.land x y) (Z.land (NOT x) z).
Definition Parity (x y z : Z) : Z := Z.lxor (Z.lxor x y) z.
Definition Maj (x y z : Z) : Z := Z.lxor (Z.lxor (Z.land x y) (Z.land x z)) (Z.land y z).
Definition f_t (t : nat) : Z -> Z -> Z -> Z :=
  if (t <? 20)%nat then Ch else if (t <? 40)%nat then Parity else if (t <? 60)%nat then Maj else Parity.
(** 4.2.1 *)
Definition K_t (t : nat) : Z :=
  if (t <? 20)%nat then 0x5a827999 else if (t <? 40)%nat then 0x6ed9eba1 else if (t <? 60)%nat then 0x8f1bbcdc else 0xca62c1d6.

(** ** 5.1.1: padding *)
Definition is_padded (m p : list byte) : Prop :=
  exists k l, 0 <= k < 64 /\ (len m + 1 + k) mod 64 = 56 /\ len l = 8 /\ number l = 8 * len m /\
    p = m ++ [x80] ++ repeat x00 (Z.to_nat k) ++ l.

(** ** 6.1.2: hash computation *)
Record hash : Type := H { H0 : Z; H1 : Z; H2 : Z; H3 : Z; H4 : Z }.
Definition initial_hash : hash := H 0x67452301 0xefcdab89 0x98badcfe 0x10325476 0xc3d2e1f0.
Definition is_schedule (block : list byte) (W : nat -> Z) : Prop :=
  (forall t, (t < 16)%nat -> W t = number (firstn 4 (skipn (4 * t) block))) /\
  (forall t, (16 <= t < 80)%nat -> W t = ROTL 1 (Z.lxor (Z.lxor (Z.lxor (W (t - 3)%nat) (W (t - 8)%nat)) (W (t - 14)%nat)) (W (t - 16)%nat))).
Fixpoint working (W : nat -> Z) (t : nat) (h : hash) : hash :=
  match t with
  | O => h
  | S t' =>
      let '(H a b c d e) := working W t' h in
      H ((ROTL 5 a + f_t t' b c d + e + K_t t' + W t') mod 2 ^ 32) a (ROTL 30 b) c d
  end.
Definition compresses (h : hash) (block : list byte) (h' : hash) : Prop :=
  exists W, is_schedule block W /\
    let w := working W 80 h in
    h' = H ((H0 w + H0 h) mod 2 ^ 32) ((H1 w + H1 h) mod 2 ^ 32) ((H2 w + H2 h) mod 2 ^ 32) ((H3 w + H3 h) mod 2 ^ 32) ((H4 w + H4 h) mod 2 ^ 32).
Inductive hashes : hash -> list (list byte) -> hash -> Prop :=
| HashNil h : hashes h [] h
| HashCons h b h1 bs h2 : len b = 64 -> compresses h b h1 -> hashes h1 bs h2 -> hashes h (b :: bs) h2.
Definition is_digest (h : hash) (d : list byte) : Prop :=
  exists a b c e f, d = a ++ b ++ c ++ e ++ f /\ len a = 4 /\ len b = 4 /\ len c = 4 /\ len e = 4 /\ len f = 4 /\
    number a = H0 h /\ number b = H1 h /\ number c = H2 h /\ number e = H3 h /\ number f = H4 h.
(** [d] is the SHA-1 digest of [m]. *)
Definition fips180 (m d : list byte) : Prop :=
  exists blocks h, is_padded m (concat blocks) /\ hashes initial_hash blocks h /\ is_digest h d.

(** ** RFC 2104 with SHA-1: B = 64, L = 20 *)
Definition pad_key (k k0 : list byte) : Prop :=
  len k0 = 64 /\ exists n,
    (len k <= 64 -> k0 = k ++ repeat x00 n) /\
    (len k > 64 -> exists h, fips180 k h /\ k0 = h ++ repeat x00 n).
(** [x] is [k] with each byte xored with [b]. *)
Definition xor_each (k : list byte) (b : byte) (x : list byte) : Prop :=
  Forall2 (fun c d => ord d = Z.lxor (ord c) (ord b)) k x.
Definition rfc2104 (k m tag : list byte) : Prop :=
  exists k0 ik ok inner, pad_key k k0 /\ xor_each k0 x36 ik /\ xor_each k0 x5c ok /\ fips180 (ik ++ m) inner /\ fips180 (ok ++ inner) tag.
