(** * SymKeys: HMAC and AES keys, python/src/keyczar/keys.py:117-606. *)
From Coq Require Import Strings.String.
From Coq Require Import List ZArith NArith Bool.
From Coq.Init Require Import Byte.
From Verif Require Import PyBase Base64 Sha1 Util Aes Json KeyInfo.
Import ListNotations.
Local Open Scope Z_scope.

(** ** Identifiers *)

(** [util.Base64WSEncode(fullhash[:keyczar.KEY_HASH_SIZE])], keys.py:144 and overrides. *)
Definition short_hash (fullhash : str) : str := Base64WSEncode (slice_to fullhash KEY_HASH_SIZE).

(** [Key.Header], keys.py:157-159, for a key with the given [hash_id]. *)
Definition make_header (hash_id : str) : res str :=
  let* h := Base64WSDecode hash_id in Ok (chr VERSION :: h).

(** ** HMAC keys *)

(** [HmacKey], keys.py:495-500: the Base64 key string (text, as read from JSON) and the
    size in bits. *)
Record hmackey := MkHmac { hk_string : text; hk_size : Z }.

(** [HmacKey(key_string, size)], keys.py:498-500. *)
Definition HmacKey_new (s : text) (size : Z) : hmackey := MkHmac s (set_size HMAC_SHA1 size).

(** [key_bytes], keys.py:154. *)
Definition hmac_bytes (k : hmackey) : res str := Base64WSDecode_u (hk_string k).

(** [HmacKey.__str__], keys.py:502-503. *)
Definition hmac_str (k : hmackey) : str :=
  dumps (jobj [("size"%string, JInt (hk_size k)); ("hmacKeyString"%string, JStr (hk_string k))]).

(** [HmacKey._Hash], keys.py:505-507. *)
Definition hmac_hash_id (k : hmackey) : res str :=
  let* b := hmac_bytes k in Ok (short_hash (Hash [b])).

(** [HmacKey.Generate], keys.py:513-526. *)
Definition HmacKey_Generate (r : tape) (size : Z) : hmackey :=
  HmacKey_new (text_of_str (Base64WSEncode (RandBytes r (size / 8)))) size.

(** [HmacKey.Read], keys.py:528-540. *)
Definition HmacKey_Read (key : str) : res hmackey :=
  let* mac := loads key in
  let* s := get_str mac "hmacKeyString" in
  let* size := get_int mac "size" in
  Ok (HmacKey_new s size).

(** [HmacKey.Sign], keys.py:542-552. *)
Definition HmacKey_Sign (k : hmackey) (msg : str) : res str :=
  let* b := hmac_bytes k in Ok (hmac_sha1 b msg).

(** The loop of [VerifySignedData], keys.py:584-586. *)
Definition or_diff (mac sig : str) : Z :=
  fold_left (fun result p => Z.lor result (Z.lxor (ord (fst p)) (ord (snd p)))) (combine mac sig) 0.

(** [HmacKey.VerifySignedData], keys.py:569-587. *)
Definition VerifySignedData (mac sig : str) : bool :=
  if negb (len sig =? len mac) then false else or_diff mac sig =? 0.

(** [HmacKey.Verify], keys.py:554-567. *)
Definition HmacKey_Verify (k : hmackey) (msg sig : str) : res bool :=
  let* mac := HmacKey_Sign k msg in Ok (VerifySignedData mac sig).

(** ** HMAC over a stream of updates *)

(** [HmacKeyStream], keys.py:589-606: the key bytes and the data fed so far; the digest
    of an [hmac] object is the HMAC of the concatenation of its updates. *)
Record hmacstream := MkHs { hs_key : str; hs_data : str }.

(** [HmacKey.CreateStreamable], keys.py:509-511, 592-594. *)
Definition CreateStreamable (k : hmackey) : res hmacstream :=
  let* b := hmac_bytes k in Ok (MkHs b []).

(** [HmacKeyStream.Update], keys.py:596-597. *)
Definition hs_update (h : hmacstream) (data : str) : hmacstream := MkHs (hs_key h) (hs_data h ++ data).

(** [HmacKeyStream.Sign], keys.py:599-606. *)
Definition hs_sign (h : hmacstream) : str := hmac_sha1 (hs_key h) (hs_data h).

(** ** The cipher adaptors *)

(** [ACTIVE_CRYPT_LIB], keys.py:48. *)
Inductive cryptlib := PyCrypto | M2Crypto.

(** [AESAdaptor] (keys.py:182-215) holds a PyCrypto cipher; [EVPAdaptor]
    (keys.py:217-250) holds the key and IV and the ciphers created so far, at most one
    per direction. *)
Inductive adaptor :=
| AESAdaptor (c : cipher)
| EVPAdaptor (key iv : str) (enc dec : option evp).

(** [AesKey.__CreateCipher], keys.py:471-493. *)
Definition CreateCipher (lib : cryptlib) (key iv : str) : res adaptor :=
  match lib with
  | M2Crypto => Ok (EVPAdaptor key iv None None)
  | PyCrypto => let* c := AES_new key iv in Ok (AESAdaptor c)
  end.

(** [adaptor.encrypt(data)], keys.py:204-206 and 302-312 (with 252-288). *)
Definition adaptor_encrypt (a : adaptor) (data : str) : res (str * adaptor) :=
  match a with
  | AESAdaptor c => let* (out, c') := cipher_encrypt c data in Ok (out, AESAdaptor c')
  | EVPAdaptor key iv enc dec =>
      let* e := match enc with Some e => Ok e | None => EVP_new key iv end in
      let* (out, e') := evp_update e data in
      Ok (out, EVPAdaptor key iv (Some e') dec)
  end.

(** [adaptor.final()], keys.py:208-215 and 314-320 (selector OP_ACTIVE, 261-270). *)
Definition adaptor_final (a : adaptor) : res str :=
  match a with
  | AESAdaptor _ => Ok []
  | EVPAdaptor _ _ (Some e) None => evp_final e
  | EVPAdaptor _ _ None (Some e) => evp_final e
  | EVPAdaptor _ _ _ _ => Raise AssertionError
  end.

(** ** AES keys *)

(** [AesKey], keys.py:322-332. *)
Record aeskey := MkAes { ak_string : text; ak_hmac : hmackey; ak_size : Z }.

(** [AesKey(key_string, hmac_key, size, mode)]: AssertionError unless the mode is CBC. *)
Definition AesKey_new (s : text) (h : hmackey) (size : Z) (m : mode) : res aeskey :=
  match m with
  | CBC => Ok (MkAes s h (set_size AES size))
  | _ => Raise AssertionError
  end.

Definition aes_bytes (k : aeskey) : res str := Base64WSDecode_u (ak_string k).

(** [AesKey.__str__], keys.py:334-338. *)
Definition aes_str (k : aeskey) : res str :=
  let* h := loads (hmac_str (ak_hmac k)) in
  Ok (dumps (jobj [("mode"%string, JStr (tx (mode_name CBC)));
                   ("size"%string, JInt (ak_size k));
                   ("aesKeyString"%string, JStr (ak_string k));
                   ("hmacKey"%string, h)])).

(** [AesKey._Hash], keys.py:340-344. *)
Definition aes_hash_id (k : aeskey) : res str :=
  let* b := aes_bytes k in
  let* h := hmac_bytes (ak_hmac k) in
  Ok (short_hash (Hash [IntToBytes (len b); b; h])).

Definition aes_header (k : aeskey) : res str :=
  let* h := aes_hash_id k in make_header h.

(** [AesKey.Generate], keys.py:346-360: the AES key bytes are drawn first, then the
    bytes of the HMAC key. *)
Definition AesKey_Generate (r : tape) (size : Z) : res aeskey :=
  let key_bytes := RandBytes r (size / 8) in
  let hmac_key := HmacKey_Generate (advance (Z.to_nat (size / 8)) r) (default_size HMAC_SHA1) in
  AesKey_new (text_of_str (Base64WSEncode key_bytes)) hmac_key size CBC.

(** [AesKey.Read], keys.py:362-377. *)
Definition AesKey_Read (key : str) : res aeskey :=
  let* aes := loads key in
  let* hmac_val := get aes "hmacKey" in
  let* s := get_str aes "aesKeyString" in
  let* hs := get_str hmac_val "hmacKeyString" in
  let* hsize := get_int hmac_val "size" in
  let* size := get_int aes "size" in
  let* mn := get_str aes "mode" in
  let* m := GetMode mn in
  AesKey_new s (HmacKey_new hs hsize) size m.

(** [AesKey._Pad], keys.py:379-393. *)
Definition Pad (data : str) : str :=
  let pad := block_size - len data mod block_size in
  data ++ rep pad (chr pad).

(** [AesKey._UnPad], keys.py:395-406. *)
Definition UnPad (padded : str) : res str :=
  let* c := index padded (-1) in
  Ok (slice_to padded (- ord c)).

(** [AesKey._NoPadBufferSize], keys.py:408-423. *)
Definition NoPadBufferSize (buffer_size : Z) : Z :=
  Z.max (block_size * (buffer_size / block_size)) block_size.

(** [AesKey.Encrypt], keys.py:425-442, with the IV drawn from [r]. *)
Definition AesKey_Encrypt (lib : cryptlib) (k : aeskey) (r : tape) (data : str) : res str :=
  let data := Pad data in
  let iv_bytes := RandBytes r block_size in
  let* kb := aes_bytes k in
  let* cipher := CreateCipher lib kb iv_bytes in
  let* (ciph_bytes, cipher) := adaptor_encrypt cipher data in
  let* last := adaptor_final cipher in
  let ciph_bytes := ciph_bytes ++ last in
  let* h := aes_header k in
  let msg_bytes := h ++ iv_bytes ++ ciph_bytes in
  let* sig_bytes := HmacKey_Sign (ak_hmac k) msg_bytes in
  Ok (msg_bytes ++ sig_bytes).

(** [AesKey.Decrypt], keys.py:444-469. *)
Definition AesKey_Decrypt (k : aeskey) (input_bytes : str) : res str :=
  let data_bytes := slice_from input_bytes HEADER_SIZE in
  if len data_bytes <? block_size + HLEN then Raise (ShortCiphertextError (len data_bytes))
  else
    let iv_bytes := slice_to data_bytes block_size in
    let ciph_bytes := slice data_bytes block_size (- HLEN) in
    let sig_bytes := slice_from data_bytes (- HLEN) in
    let* ok := HmacKey_Verify (ak_hmac k) (slice_to input_bytes (- HLEN)) sig_bytes in
    if negb ok then Raise InvalidSignatureError
    else
      let* kb := aes_bytes k in
      let* c := AES_new kb iv_bytes in
      let* (plain, _) := cipher_decrypt c ciph_bytes in
      UnPad plain.
