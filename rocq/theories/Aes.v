(** * Aes: the AES block cipher (FIPS 197) and CBC mode cipher objects.

    Models [Crypto.Cipher.AES] (PyCrypto), used at python/src/keyczar/keys.py:202, 468, 1047
    and 1305, and [M2Crypto.EVP.Cipher] with padding=0, used at keys.py:278-283. *)
From Coq Require Import List ZArith Bool.
From Coq.Init Require Import Byte.
From Verif Require Import PyBase.
Import ListNotations.
Local Open Scope Z_scope.

(** The S-box and its inverse (FIPS 197, figures 7 and 14). *)
Definition sbox_table : list byte := [
   x63; x7c; x77; x7b; xf2; x6b; x6f; xc5; x30; x01; x67; x2b; xfe; xd7; xab; x76;
   xca; x82; xc9; x7d; xfa; x59; x47; xf0; xad; xd4; xa2; xaf; x9c; xa4; x72; xc0;
   xb7; xfd; x93; x26; x36; x3f; xf7; xcc; x34; xa5; xe5; xf1; x71; xd8; x31; x15;
   x04; xc7; x23; xc3; x18; x96; x05; x9a; x07; x12; x80; xe2; xeb; x27; xb2; x75;
   x09; x83; x2c; x1a; x1b; x6e; x5a; xa0; x52; x3b; xd6; xb3; x29; xe3; x2f; x84;
   x53; xd1; x00; xed; x20; xfc; xb1; x5b; x6a; xcb; xbe; x39; x4a; x4c; x58; xcf;
   xd0; xef; xaa; xfb; x43; x4d; x33; x85; x45; xf9; x02; x7f; x50; x3c; x9f; xa8;
   x51; xa3; x40; x8f; x92; x9d; x38; xf5; xbc; xb6; xda; x21; x10; xff; xf3; xd2;
   xcd; x0c; x13; xec; x5f; x97; x44; x17; xc4; xa7; x7e; x3d; x64; x5d; x19; x73;
   x60; x81; x4f; xdc; x22; x2a; x90; x88; x46; xee; xb8; x14; xde; x5e; x0b; xdb;
   xe0; x32; x3a; x0a; x49; x06; x24; x5c; xc2; xd3; xac; x62; x91; x95; xe4; x79;
   xe7; xc8; x37; x6d; x8d; xd5; x4e; xa9; x6c; x56; xf4; xea; x65; x7a; xae; x08;
   xba; x78; x25; x2e; x1c; xa6; xb4; xc6; xe8; xdd; x74; x1f; x4b; xbd; x8b; x8a;
   x70; x3e; xb5; x66; x48; x03; xf6; x0e; x61; x35; x57; xb9; x86; xc1; x1d; x9e;
   xe1; xf8; x98; x11; x69; xd9; x8e; x94; x9b; x1e; x87; xe9; xce; x55; x28; xdf;
   x8c; xa1; x89; x0d; xbf; xe6; x42; x68; x41; x99; x2d; x0f; xb0; x54; xbb; x16].

Definition inv_sbox_table : list byte := [
   x52; x09; x6a; xd5; x30; x36; xa5; x38; xbf; x40; xa3; x9e; x81; xf3; xd7; xfb;
   x7c; xe3; x39; x82; x9b; x2f; xff; x87; x34; x8e; x43; x44; xc4; xde; xe9; xcb;
   x54; x7b; x94; x32; xa6; xc2; x23; x3d; xee; x4c; x95; x0b; x42; xfa; xc3; x4e;
   x08; x2e; xa1; x66; x28; xd9; x24; xb2; x76; x5b; xa2; x49; x6d; x8b; xd1; x25;
   x72; xf8; xf6; x64; x86; x68; x98; x16; xd4; xa4; x5c; xcc; x5d; x65; xb6; x92;
   x6c; x70; x48; x50; xfd; xed; xb9; xda; x5e; x15; x46; x57; xa7; x8d; x9d; x84;
   x90; xd8; xab; x00; x8c; xbc; xd3; x0a; xf7; xe4; x58; x05; xb8; xb3; x45; x06;
   xd0; x2c; x1e; x8f; xca; x3f; x0f; x02; xc1; xaf; xbd; x03; x01; x13; x8a; x6b;
   x3a; x91; x11; x41; x4f; x67; xdc; xea; x97; xf2; xcf; xce; xf0; xb4; xe6; x73;
   x96; xac; x74; x22; xe7; xad; x35; x85; xe2; xf9; x37; xe8; x1c; x75; xdf; x6e;
   x47; xf1; x1a; x71; x1d; x29; xc5; x89; x6f; xb7; x62; x0e; xaa; x18; xbe; x1b;
   xfc; x56; x3e; x4b; xc6; xd2; x79; x20; x9a; xdb; xc0; xfe; x78; xcd; x5a; xf4;
   x1f; xdd; xa8; x33; x88; x07; xc7; x31; xb1; x12; x10; x59; x27; x80; xec; x5f;
   x60; x51; x7f; xa9; x19; xb5; x4a; x0d; x2d; xe5; x7a; x9f; x93; xc9; x9c; xef;
   xa0; xe0; x3b; x4d; xae; x2a; xf5; xb0; xc8; xeb; xbb; x3c; x83; x53; x99; x61;
   x17; x2b; x04; x7e; xba; x77; xd6; x26; xe1; x69; x14; x63; x55; x21; x0c; x7d].

Definition sbox (b : byte) : byte := nth (Z.to_nat (ord b)) sbox_table x00.
Definition inv_sbox (b : byte) : byte := nth (Z.to_nat (ord b)) inv_sbox_table x00.

(** Multiplication by x in GF(2^8). *)
Definition xtime (b : byte) : byte :=
  let n := ord b in
  if n <? 128 then chr (2 * n) else chr (Z.lxor (2 * n - 256) 27).

Definition mul2 (b : byte) : byte := xtime b.
Definition mul3 (b : byte) : byte := bxor (xtime b) b.
Definition mul9 (b : byte) : byte := bxor (xtime (xtime (xtime b))) b.
Definition mul11 (b : byte) : byte := bxor (xtime (bxor (xtime (xtime b)) b)) b.
Definition mul13 (b : byte) : byte := bxor (xtime (xtime (bxor (xtime b) b))) b.
Definition mul14 (b : byte) : byte := xtime (bxor (xtime (bxor (xtime b) b)) b).

(** The state is the list of its 16 bytes, column by column. *)
Definition sub_bytes (s : str) : str := map sbox s.
Definition inv_sub_bytes (s : str) : str := map inv_sbox s.

Definition permute (p : list nat) (s : str) : str := map (fun i => nth i s x00) p.
Definition shift_rows : str -> str := permute [0;5;10;15;4;9;14;3;8;13;2;7;12;1;6;11]%nat.
Definition inv_shift_rows : str -> str := permute [0;13;10;7;4;1;14;11;8;5;2;15;12;9;6;3]%nat.

Definition mix_column (a b c d : byte) : str :=
  [bxor (mul2 a) (bxor (mul3 b) (bxor c d));
   bxor a (bxor (mul2 b) (bxor (mul3 c) d));
   bxor a (bxor b (bxor (mul2 c) (mul3 d)));
   bxor (mul3 a) (bxor b (bxor c (mul2 d)))].

Definition inv_mix_column (a b c d : byte) : str :=
  [bxor (mul14 a) (bxor (mul11 b) (bxor (mul13 c) (mul9 d)));
   bxor (mul9 a) (bxor (mul14 b) (bxor (mul11 c) (mul13 d)));
   bxor (mul13 a) (bxor (mul9 b) (bxor (mul14 c) (mul11 d)));
   bxor (mul11 a) (bxor (mul13 b) (bxor (mul9 c) (mul14 d)))].

Fixpoint by_columns (f : byte -> byte -> byte -> byte -> str) (s : str) : str :=
  match s with
  | a :: b :: c :: d :: s' => f a b c d ++ by_columns f s'
  | _ => []
  end.

Definition mix_columns : str -> str := by_columns mix_column.
Definition inv_mix_columns : str -> str := by_columns inv_mix_column.

(** Bytewise xor of two strings of the same length. *)
Fixpoint xor_str (a b : str) : str :=
  match a, b with
  | x :: a', y :: b' => bxor x y :: xor_str a' b'
  | _, _ => []
  end.

(** ** Key expansion (FIPS 197, 5.2): words are 4-byte strings, newest first. *)
Definition rot_word (w : str) : str := match w with a :: w' => w' ++ [a] | [] => [] end.

Fixpoint rcon (n : nat) : byte := match n with O => x01 | S m => xtime (rcon m) end.

(** The [i]-th word, from the previous word and the one [nk] words back. *)
Definition expand_word (nk i : nat) (prev back : str) : str :=
  let t := if (i mod nk =? 0)%nat then
             xor_str (map sbox (rot_word prev)) [rcon (i / nk - 1); x00; x00; x00]
           else if (6 <? nk)%nat && (i mod nk =? 4)%nat then map sbox prev
           else prev in
  xor_str back t.

Fixpoint expand_loop (n nk i : nat) (acc : list str) : list str :=
  match n with
  | O => acc
  | S n' => expand_loop n' nk (S i) (expand_word nk i (nth 0 acc []) (nth (nk - 1) acc []) :: acc)
  end.

Fixpoint group4 (s : str) : list str :=
  match s with
  | a :: b :: c :: d :: s' => [a; b; c; d] :: group4 s'
  | _ => []
  end.

(** Four words make one round key. *)
Fixpoint round_keys (ws : list str) : list str :=
  match ws with
  | a :: b :: c :: d :: ws' => (a ++ b ++ c ++ d) :: round_keys ws'
  | _ => []
  end.

Definition key_schedule (key : str) : list str :=
  let nk := (length key / 4)%nat in
  let total := (4 * (nk + 7))%nat in
  round_keys (rev (expand_loop (total - nk) nk nk (rev (group4 key)))).

(** ** The block cipher *)
Fixpoint enc_rounds (ks : list str) (s : str) : str :=
  match ks with
  | [] => s
  | [k] => xor_str (shift_rows (sub_bytes s)) k
  | k :: ks' => enc_rounds ks' (xor_str (mix_columns (shift_rows (sub_bytes s))) k)
  end.

(** The inverse cipher: the last round key first. *)
Fixpoint dec_rounds (ks : list str) (s : str) : str :=
  match ks with
  | [] => s
  | [k] => inv_sub_bytes (inv_shift_rows (xor_str s k))
  | k :: ks' => inv_sub_bytes (inv_shift_rows (inv_mix_columns (xor_str (dec_rounds ks' s) k)))
  end.

Definition aes_encrypt_block (ks : list str) (s : str) : str :=
  match ks with [] => s | k :: ks' => enc_rounds ks' (xor_str s k) end.

Definition aes_decrypt_block (ks : list str) (s : str) : str :=
  match ks with [] => s | k :: ks' => xor_str (dec_rounds ks' s) k end.

(** ** PyCrypto cipher objects in CBC mode *)

(** [AES.block_size] *)
Definition block_size : Z := 16.

(** A CBC cipher object: the key schedule and the current chaining value. *)
Record cipher := MkCipher { c_keys : list str; c_iv : str }.

(** [AES.new(key, AES.MODE_CBC, iv)]: ValueError on a bad key or IV length. *)
Definition AES_new (key iv : str) : res cipher :=
  if ((len key =? 16) || (len key =? 24) || (len key =? 32)) && (len iv =? block_size)
  then Ok (MkCipher (key_schedule key) iv) else Raise ValueError.

(** [n] blocks of CBC encryption: ciphertext and last chaining value. *)
Fixpoint cbc_enc (n : nat) (ks : list str) (iv data : str) : str * str :=
  match n with
  | O => ([], iv)
  | S n' =>
      let c := aes_encrypt_block ks (xor_str (firstn 16 data) iv) in
      let (rest, iv') := cbc_enc n' ks c (skipn 16 data) in
      (c ++ rest, iv')
  end.

Fixpoint cbc_dec (n : nat) (ks : list str) (iv data : str) : str * str :=
  match n with
  | O => ([], iv)
  | S n' =>
      let c := firstn 16 data in
      let p := xor_str (aes_decrypt_block ks c) iv in
      let (rest, iv') := cbc_dec n' ks c (skipn 16 data) in
      (p ++ rest, iv')
  end.

(** [cipher.encrypt(data)]: ValueError unless the length is a multiple of 16. *)
Definition cipher_encrypt (c : cipher) (data : str) : res (str * cipher) :=
  if len data mod 16 =? 0 then
    let (out, iv) := cbc_enc (Z.to_nat (len data / 16)) (c_keys c) (c_iv c) data in
    Ok (out, MkCipher (c_keys c) iv)
  else Raise ValueError.

(** [cipher.decrypt(data)] *)
Definition cipher_decrypt (c : cipher) (data : str) : res (str * cipher) :=
  if len data mod 16 =? 0 then
    let (out, iv) := cbc_dec (Z.to_nat (len data / 16)) (c_keys c) (c_iv c) data in
    Ok (out, MkCipher (c_keys c) iv)
  else Raise ValueError.

(** ** M2Crypto's EVP.Cipher for encryption with padding=0: incomplete blocks are kept. *)
Record evp := MkEvp { e_cipher : cipher; e_buf : str }.

(** [EVP.Cipher(alg='aes_%s_cbc' % bits, key, iv, op, padding=0)]: ValueError
    ("unknown cipher") unless the key has 16, 24 or 32 bytes. *)
Definition EVP_new (key iv : str) : res evp :=
  let* c := AES_new key iv in Ok (MkEvp c []).

(** [update(data)]: encrypts all complete blocks. *)
Definition evp_update (e : evp) (data : str) : res (str * evp) :=
  let buf := e_buf e ++ data in
  let n := 16 * (len buf / 16) in
  let* (out, c) := cipher_encrypt (e_cipher e) (slice_to buf n) in
  Ok (out, MkEvp c (slice_from buf n)).

(** [final()]: EVPError (modelled as ValueError) when bytes remain, as padding is off. *)
Definition evp_final (e : evp) : res str :=
  match e_buf e with [] => Ok [] | _ => Raise ValueError end.
