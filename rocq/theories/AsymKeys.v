(** * AsymKeys: RSA and DSA keys, python/src/keyczar/keys.py:609-1021, over PyCrypto's RSA and
    DSA objects.

    PyCrypto (2.x) is outside /repo.  Its textbook operations are modelled here; blinding and
    the choice between its C and Python back ends are not.  Simplification: a key file with a
    zero modulus makes Python raise ZeroDivisionError or ValueError, here [mod 0] is total;
    every theorem assumes positive moduli. *)
From Coq Require Import Strings.String.
From Coq Require Import List ZArith NArith Bool.
From Coq.Init Require Import Byte.
From Verif Require Import PyBase Base64 Util Json KeyInfo SymKeys ModArith Der.
Import ListNotations.
Local Open Scope Z_scope.

(** ** PyCrypto's RSA object *)

Record rsapub_nums := MkRsaPubNums { rn_n : Z; rn_e : Z }.
Record rsa_nums := MkRsaNums { rn_pub : rsapub_nums; rn_d : Z; rn_p : Z; rn_q : Z; rn_u : Z }.

(** [key._encrypt(m)]: ValueError "Plaintext too large" unless m < n. *)
Definition rsa_public (k : rsapub_nums) (m : Z) : res Z :=
  if rn_n k <=? m then Raise ValueError else Ok (powmod m (rn_e k) (rn_n k)).

(** [key._decrypt(c)] and [key._sign(c)]: ValueError unless c < n, then the CRT formula with
    u = p^-1 mod q. *)
Definition rsa_private (k : rsa_nums) (c : Z) : res Z :=
  if rn_n (rn_pub k) <=? c then Raise ValueError
  else
    let m1 := powmod c (rn_d k mod (rn_p k - 1)) (rn_p k) in
    let m2 := powmod c (rn_d k mod (rn_q k - 1)) (rn_q k) in
    let h := (rn_u k * (m2 - m1)) mod rn_q k in
    Ok (h * rn_p k + m1).

(** [key.encrypt(s, None)[0]] and [key.decrypt(s)] on byte strings. *)
Definition rsa_encrypt_str (k : rsapub_nums) (s : str) : res str :=
  let* c := rsa_public k (bytes_to_long s) in Ok (long_to_bytes c).
Definition rsa_decrypt_str (k : rsa_nums) (s : str) : res str :=
  let* m := rsa_private k (bytes_to_long s) in Ok (long_to_bytes m).

(** [key.verify(s, (sig,))]: the message as an integer equals sig^e mod n; a signature that is
    not below the modulus is not valid. *)
Definition rsa_verify (k : rsapub_nums) (s : str) (sig : Z) : bool :=
  match rsa_public k sig with
  | Ok m => m =? bytes_to_long s
  | Raise _ => false
  end.

(** ** OAEP *)

(** [int(math.floor(math.log(n, 256)) + 1)], keys.py:725 and 939.  Simplification: the exact
    number of bytes of n; the floating-point logarithm is off by one only when n is within
    about n/2^43 of the next power of 256. *)
Definition num_bytes (n : Z) : Z := len (BigIntToBytes n).

(** [RsaPublicKey.__Encode], keys.py:936-958, with the empty label, the modulus length [k] and
    the random seed. *)
Definition oaep_encode (k : Z) (msg seed : str) : res str :=
  if k - 2 * HLEN - 2 <? len msg then Raise KeyczarError
  else
    let label_hash := Hash [[]] in
    let pad_octets := k - len msg - 2 * HLEN - 2 in
    if pad_octets <? 0 then Raise KeyczarError
    else
      let datablock := label_hash ++ rep pad_octets x00 ++ x01 :: msg in
      let* datablock_mask := MGF seed (k - HLEN - 1) in
      let masked_datablock := Xor datablock datablock_mask in
      let* seed_mask := MGF masked_datablock HLEN in
      let masked_seed := Xor seed seed_mask in
      Ok (x00 :: masked_seed ++ masked_datablock).

(** [RsaPrivateKey.__Decode], keys.py:715-754, with the empty label. *)
Definition oaep_decode (k : Z) (encoded_message : str) : res str :=
  if len encoded_message <? 2 * HLEN + 2 then Raise KeyczarError
  else
    let diff_len := k - len encoded_message in
    let encoded_message :=
      if 1 <? diff_len then rep (diff_len - 1) x00 ++ encoded_message else encoded_message in
    let masked_seed := slice_to encoded_message HLEN in
    let masked_datablock := slice_from encoded_message HLEN in
    let* seed_mask := MGF masked_datablock HLEN in
    let seed := Xor masked_seed seed_mask in
    let* datablock_mask := MGF seed (len masked_datablock) in
    let datablock := Xor masked_datablock datablock_mask in
    let label_hash := slice_to datablock HLEN in
    if negb (str_eqb label_hash (Hash [[]])) then Raise KeyczarError
    else
      let delimited_message := lstrip x00 (slice_from datablock HLEN) in
      let* c := index delimited_message 0 in
      if negb (beqb c x01) then Raise KeyczarError
      else Ok (slice_from delimited_message 1).

(** ** RSA public keys *)

(** [RsaPublicKey], keys.py:927-934: the parameter byte strings, the PyCrypto key and the
    size. *)
Record rsapub := MkRsaPub { rp_modulus : str; rp_exponent : str; rp_key : rsapub_nums; rp_size : Z }.

(** [RsaPublicKey(params, key, size)] *)
Definition RsaPublicKey_new (m e : str) (k : rsapub_nums) (size : Z) : rsapub :=
  MkRsaPub m e k (set_size RSA_PUB size).

(** A Base64 string member of a JSON object, [util.Base64WSEncode(params[name])]. *)
Definition jb64 (s : str) : json := JStr (text_of_str (Base64WSEncode s)).

(** [RsaPublicKey.__str__], keys.py:960-964. *)
Definition rsapub_str (k : rsapub) : str :=
  dumps (jobj [("modulus"%string, jb64 (rp_modulus k));
               ("publicExponent"%string, jb64 (rp_exponent k));
               ("size"%string, JInt (rp_size k))]).

(** [RsaPublicKey._Hash], keys.py:966-969. *)
Definition rsapub_hash_id (k : rsapub) : str :=
  short_hash (PrefixHash [TrimBytes (rp_modulus k); TrimBytes (rp_exponent k)]).

(** [util.Base64WSDecode(obj[name])] *)
Definition get_b64 (v : json) (name : string) : res str :=
  let* s := get_str v name in Base64WSDecode_u s.

(** [RsaPublicKey.Read], keys.py:971-988. *)
Definition RsaPublicKey_Read (key : str) : res rsapub :=
  let* rsa := loads key in
  let* m := get_b64 rsa "modulus" in
  let* e := get_b64 rsa "publicExponent" in
  let* size := get_int rsa "size" in
  Ok (RsaPublicKey_new m e (MkRsaPubNums (BytesToLong m) (BytesToLong e)) size).

(** [RsaPublicKey.Encrypt], keys.py:990-1002; the OAEP seed is drawn from [r]. *)
Definition RsaPublicKey_Encrypt (k : rsapub) (r : tape) (data : str) : res str :=
  let* em := oaep_encode (num_bytes (rn_n (rp_key k))) data (RandBytes r HLEN) in
  let* ciph_bytes := rsa_encrypt_str (rp_key k) em in
  let* h := make_header (rsapub_hash_id k) in
  Ok (h ++ ciph_bytes).

(** [RsaPublicKey.Verify], keys.py:1004-1021. *)
Definition RsaPublicKey_Verify (k : rsapub) (msg sig : str) : bool :=
  rsa_verify (rp_key k) (MakeEmsaMessage msg (rp_size k)) (BytesToLong sig).

(** ** RSA private keys *)

(** [RsaPrivateKey], keys.py:704-712. *)
Record rsapriv := MkRsaPriv {
  rs_d : str; rs_primeP : str; rs_primeQ : str; rs_expP : str; rs_expQ : str; rs_crt : str;
  rs_pub : rsapub; rs_key : rsa_nums; rs_size : Z }.

(** [RsaPrivateKey.__str__], keys.py:756-765. *)
Definition rsapriv_str (k : rsapriv) : res str :=
  let* pub := loads (rsapub_str (rs_pub k)) in
  Ok (dumps (jobj [("publicKey"%string, pub);
                   ("privateExponent"%string, jb64 (rs_d k));
                   ("primeP"%string, jb64 (rs_primeP k));
                   ("primeQ"%string, jb64 (rs_primeQ k));
                   ("primeExponentP"%string, jb64 (rs_expP k));
                   ("primeExponentQ"%string, jb64 (rs_expQ k));
                   ("crtCoefficient"%string, jb64 (rs_crt k));
                   ("size"%string, JInt (rs_size k))])).

(** [util.PadBytes(util.BigIntToBytes(n), 1)] *)
Definition padded_int (n : Z) : str := PadBytes (BigIntToBytes n) 1.

(** [RsaPrivateKey.Generate], keys.py:767-792, given the numbers [RSA.generate] returns. *)
Definition RsaPrivateKey_Generate (key : rsa_nums) (size : Z) : rsapriv :=
  let pub := RsaPublicKey_new (padded_int (rn_n (rn_pub key))) (padded_int (rn_e (rn_pub key)))
                              (rn_pub key) size in
  MkRsaPriv (padded_int (rn_d key)) (padded_int (rn_q key)) (padded_int (rn_p key))
            (padded_int (rn_d key mod (rn_q key - 1))) (padded_int (rn_d key mod (rn_p key - 1)))
            (padded_int (rn_u key)) pub key (set_size RSA_PRIV size).

(** [RsaPrivateKey.Read], keys.py:794-821: PyCrypto's p is primeQ and its q is primeP. *)
Definition RsaPrivateKey_Read (key : str) : res rsapriv :=
  let* rsa := loads key in
  let* pk := get rsa "publicKey" in
  let* pub := RsaPublicKey_Read (dumps pk) in
  let* d := get_b64 rsa "privateExponent" in
  let* pp := get_b64 rsa "primeP" in
  let* pq := get_b64 rsa "primeQ" in
  let* ep := get_b64 rsa "primeExponentP" in
  let* eq := get_b64 rsa "primeExponentQ" in
  let* crt := get_b64 rsa "crtCoefficient" in
  let k := MkRsaNums (MkRsaPubNums (BytesToLong (rp_modulus pub)) (BytesToLong (rp_exponent pub)))
                     (BytesToLong d) (BytesToLong pq) (BytesToLong pp) (BytesToLong crt) in
  let* size := get_int rsa "size" in
  Ok (MkRsaPriv d pp pq ep eq crt pub k (set_size RSA_PRIV size)).

(** [RsaPrivateKey.Decrypt], keys.py:827-839. *)
Definition RsaPrivateKey_Decrypt (k : rsapriv) (input_bytes : str) : res str :=
  let ciph_bytes := slice_from input_bytes HEADER_SIZE in
  let* decrypted := rsa_decrypt_str (rs_key k) ciph_bytes in
  oaep_decode (num_bytes (rn_n (rn_pub (rs_key k)))) decrypted.

(** [RsaPrivateKey.Sign], keys.py:841-853. *)
Definition RsaPrivateKey_Sign (k : rsapriv) (msg : str) : res str :=
  let emsa_encoded := MakeEmsaMessage msg (rs_size k) in
  let* s := rsa_private (rs_key k) (bytes_to_long emsa_encoded) in
  let byte_string := BigIntToBytes s in
  Ok (PadBytes byte_string (rs_size k / 8 - len byte_string)).

(** ** PyCrypto's DSA object *)

Record dsapub_nums := MkDsaPubNums { dn_y : Z; dn_g : Z; dn_p : Z; dn_q : Z }.
Record dsa_nums := MkDsaNums { dn_pub : dsapub_nums; dn_x : Z }.

(** [key._sign(M, k)]: ValueError unless 1 < k < q; no retry when r or s is 0. *)
Definition dsa_sign (key : dsa_nums) (M k : Z) : res (Z * Z) :=
  let 'MkDsaPubNums _ g p q := dn_pub key in
  if (k <? 2) || (q <=? k) then Raise ValueError
  else
    let r := powmod g k p mod q in
    let s := (inverse k q * (M + dn_x key * r)) mod q in
    Ok (r, s).

(** [key._verify(M, (r, s))] *)
Definition dsa_verify (key : dsapub_nums) (M r s : Z) : bool :=
  let 'MkDsaPubNums y g p q := key in
  if (r <=? 0) || (q <=? r) || (s <=? 0) || (q <=? s) then false
  else
    let w := inverse s q in
    let u1 := (M * w) mod q in
    let u2 := (r * w) mod q in
    ((powmod g u1 p * powmod y u2 p) mod p) mod q =? r.

(** ** DSA public keys *)

(** [DsaPublicKey], keys.py:859-867. *)
Record dsapub := MkDsaPub { dp_p : str; dp_q : str; dp_g : str; dp_y : str; dp_key : dsapub_nums; dp_size : Z }.

(** [DsaPublicKey.__str__], keys.py:869-874. *)
Definition dsapub_str (k : dsapub) : str :=
  dumps (jobj [("p"%string, jb64 (dp_p k)); ("q"%string, jb64 (dp_q k)); ("g"%string, jb64 (dp_g k));
               ("y"%string, jb64 (dp_y k)); ("size"%string, JInt (dp_size k))]).

(** [DsaPublicKey._Hash], keys.py:876-881. *)
Definition dsapub_hash_id (k : dsapub) : str :=
  short_hash (PrefixHash [TrimBytes (dp_p k); TrimBytes (dp_q k); TrimBytes (dp_g k); TrimBytes (dp_y k)]).

(** [DsaPublicKey.Read], keys.py:883-904. *)
Definition DsaPublicKey_Read (key : str) : res dsapub :=
  let* dsa := loads key in
  let* y := get_b64 dsa "y" in
  let* p := get_b64 dsa "p" in
  let* g := get_b64 dsa "g" in
  let* q := get_b64 dsa "q" in
  let* size := get_int dsa "size" in
  Ok (MkDsaPub p q g y (MkDsaPubNums (BytesToLong y) (BytesToLong g) (BytesToLong p) (BytesToLong q))
               (set_size DSA_PUB size)).

(** [DsaPublicKey.Verify], keys.py:906-925: only KeyczarErrors from the parser are turned into
    False. *)
Definition DsaPublicKey_Verify (k : dsapub) (msg sig : str) : res bool :=
  match ParseDsaSig sig with
  | Ok (r, s) => Ok (dsa_verify (dp_key k) (bytes_to_long (Hash [msg])) r s)
  | Raise e => if is_keyczar_error e then Ok false else Raise e
  end.

(** ** DSA private keys *)

(** [DsaPrivateKey], keys.py:625-634. *)
Record dsapriv := MkDsaPriv { ds_x : str; ds_pub : dsapub; ds_key : dsa_nums; ds_size : Z }.

(** [DsaPrivateKey.__str__], keys.py:636-639. *)
Definition dsapriv_str (k : dsapriv) : res str :=
  let* pub := loads (dsapub_str (ds_pub k)) in
  Ok (dumps (jobj [("publicKey"%string, pub); ("x"%string, jb64 (ds_x k)); ("size"%string, JInt (ds_size k))])).

(** [DsaPrivateKey.Generate], keys.py:641-661, given the numbers [DSA.generate] returns. *)
Definition DsaPrivateKey_Generate (key : dsa_nums) (size : Z) : dsapriv :=
  let 'MkDsaPubNums y g p q := dn_pub key in
  let pub := MkDsaPub (padded_int p) (padded_int q) (padded_int g) (padded_int y) (dn_pub key)
                      (set_size DSA_PUB size) in
  MkDsaPriv (padded_int (dn_x key)) pub key (set_size DSA_PRIV size).

(** [DsaPrivateKey.Read], keys.py:663-682. *)
Definition DsaPrivateKey_Read (key : str) : res dsapriv :=
  let* dsa := loads key in
  let* pk := get dsa "publicKey" in
  let* pub := DsaPublicKey_Read (dumps pk) in
  let* x := get_b64 dsa "x" in
  let k := MkDsaNums (MkDsaPubNums (BytesToLong (dp_y pub)) (BytesToLong (dp_g pub))
                                   (BytesToLong (dp_p pub)) (BytesToLong (dp_q pub))) (BytesToLong x) in
  let* size := get_int dsa "size" in
  Ok (MkDsaPriv x pub k (set_size DSA_PRIV size)).

(** [random.SystemRandom().randint(2, q-1)] from a random integer [z]: ValueError for an
    empty range. *)
Definition randint2 (q z : Z) : res Z :=
  if q - 1 <? 2 then Raise ValueError else Ok (2 + z mod (q - 2)).

(** [DsaPrivateKey.Sign], keys.py:684-698, with the random integer [z]. *)
Definition DsaPrivateKey_Sign (k : dsapriv) (z : Z) (msg : str) : res str :=
  let* kk := randint2 (dn_q (dn_pub (ds_key k))) z in
  let* rs := dsa_sign (ds_key k) (bytes_to_long (Hash [msg])) kk in
  MakeDsaSig (fst rs) (snd rs).
