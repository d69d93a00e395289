(** * Unicode: byte strings and unicode texts as arguments of the operations (Python 2).

    The other files give the operations on byte strings.  A Python 2 program can pass a unicode
    text wherever a string is expected, and a web framework usually does.  Here a value is one or
    the other, and every place where the code, a library or the interpreter converts one into the
    other is made explicit.  The keys, which hold byte strings, are those of the other files.

    Not modelled: unicode ciphertexts and signatures without a decoder. *)
From Coq Require Import List ZArith NArith Bool.
From Coq.Init Require Import Byte.
From Verif Require Import PyBase Base64 Aes Sha1 Der ModArith Util SymKeys AsymKeys KeyInfo Keys KeyData Keyczar Streams.
Import ListNotations.
Local Open Scope Z_scope.

(** A [str] or a [unicode]; a unicode text is a list of code points. *)
Inductive pystr := B (s : str) | U (t : text).

(** ** What the interpreter and the libraries do *)

(** [len(v)] *)
Definition u_len (v : pystr) : Z := match v with B s => len s | U t => len t end.

(** The bytes a C function gets (format "s#" or "s*"), and [str(v)]: a unicode text is encoded
    as ASCII; UnicodeEncodeError for other characters. *)
Definition as_bytes (v : pystr) : res str := match v with B s => Ok s | U t => str_of_text t end.

(** [unicode(s)] as done when a [str] meets a [unicode]: UnicodeDecodeError for bytes over 127. *)
Definition to_unicode (s : str) : res text :=
  if forallb (fun c => ord c <? 128) s then Ok (text_of_str s) else Raise UnicodeError.

(** [a + b] *)
Definition u_add (a b : pystr) : res pystr :=
  match a, b with
  | B x, B y => Ok (B (x ++ y))
  | U x, U y => Ok (U (x ++ y))
  | U x, B y => let* y := to_unicode y in Ok (U (x ++ y))
  | B x, U y => let* x := to_unicode x in Ok (U (x ++ y))
  end.

(** [adaptor.encrypt(data)], keys.py:204-206 and 302-312.  PyCrypto takes the bytes as above.  What
    M2Crypto takes from a unicode object is left open: [m2]. *)
Definition u_adaptor_encrypt (m2 : text -> res str) (a : adaptor) (data : pystr) : res (str * adaptor) :=
  let* s := match data, a with
            | U t, EVPAdaptor _ _ _ _ => m2 t
            | _, _ => as_bytes data
            end in
  adaptor_encrypt a s.

(** ** util.py *)

(** [Hash] of one value, util.py:323-328. *)
Definition u_Hash (v : pystr) : res str := let* s := as_bytes v in Ok (Hash [s]).

(** [Xor(a, b)] with a byte string [b], util.py:293-304: [chr] raises ValueError over 255. *)
Definition u_Xor (a : pystr) (b : str) : res str :=
  match a with
  | B s => Ok (Xor s b)
  | U t =>
      let* s := mapM (fun c => match Byte.of_N c with Some x => Ok x | None => Raise ValueError end) t in
      Ok (Xor s b)
  end.

(** [PackByteArray], util.py:400-408. *)
Definition u_PackByteArray (array : option pystr) : res pystr :=
  match array with
  | None => Ok (B [])
  | Some a => let* h := struct_pack_i (u_len a) in u_add (B h) a
  end.

(** [MakeEmsaMessage], util.py:244-250. *)
Definition u_MakeEmsaMessage (msg : pystr) (modulus_size : Z) : res str :=
  let* h := u_Hash msg in
  let encoded := magic_sha1_header ++ h in
  let pad_string := rep (modulus_size / 8 - len encoded - 3) (chr 255) in
  Ok ([chr 1] ++ pad_string ++ [chr 0] ++ encoded).

(** [Base64WSDecode], util.py:365-394. *)
Definition u_Base64WSDecode (v : pystr) : res str :=
  match v with B s => Base64WSDecode s | U t => Base64WSDecode_u t end.

(** ** keys.py *)

(** [AesKey._Pad], keys.py:379-393. *)
Definition u_Pad (data : pystr) : res pystr :=
  let pad := block_size - u_len data mod block_size in
  u_add data (B (rep pad (chr pad))).

(** [AesKey.Encrypt], keys.py:425-442. *)
Definition u_AesKey_Encrypt (m2 : text -> res str) (lib : cryptlib) (k : aeskey) (r : tape) (data : pystr) : res str :=
  let* data := u_Pad data in
  let iv_bytes := RandBytes r block_size in
  let* kb := aes_bytes k in
  let* cipher := CreateCipher lib kb iv_bytes in
  let* (ciph_bytes, cipher) := u_adaptor_encrypt m2 cipher data in
  let* last := adaptor_final cipher in
  let ciph_bytes := ciph_bytes ++ last in
  let* h := aes_header k in
  let msg_bytes := h ++ iv_bytes ++ ciph_bytes in
  let* sig_bytes := HmacKey_Sign (ak_hmac k) msg_bytes in
  Ok (msg_bytes ++ sig_bytes).

(** [RsaPublicKey.__Encode], keys.py:936-959. *)
Definition u_oaep_encode (k : Z) (msg : pystr) (seed : str) : res str :=
  if k - 2 * HLEN - 2 <? u_len msg then Raise KeyczarError
  else
    let label_hash := Hash [[]] in
    let pad_octets := k - u_len msg - 2 * HLEN - 2 in
    if pad_octets <? 0 then Raise KeyczarError
    else
      let* datablock := u_add (B (label_hash ++ rep pad_octets x00 ++ [x01])) msg in
      let* datablock_mask := MGF seed (k - HLEN - 1) in
      let* masked_datablock := u_Xor datablock datablock_mask in
      let* seed_mask := MGF masked_datablock HLEN in
      let masked_seed := Xor seed seed_mask in
      Ok (x00 :: masked_seed ++ masked_datablock).

(** [RsaPublicKey.Encrypt], keys.py:990-1002. *)
Definition u_RsaPublicKey_Encrypt (k : rsapub) (r : tape) (data : pystr) : res str :=
  let* em := u_oaep_encode (num_bytes (rn_n (rp_key k))) data (RandBytes r HLEN) in
  let* ciph_bytes := rsa_encrypt_str (rp_key k) em in
  let* h := make_header (rsapub_hash_id k) in
  Ok (h ++ ciph_bytes).

(** [key.Encrypt(data)]: AesKey, keys.py:425-442; RsaPublicKey, 990-1002; RsaPrivateKey, 823-825. *)
Definition u_key_Encrypt (m2 : text -> res str) (e : env) (k : key) (data : pystr) : res str :=
  match k with
  | KAes k => u_AesKey_Encrypt m2 (e_lib e) k (e_tape e) data
  | KRsaPub k => u_RsaPublicKey_Encrypt k (e_tape e) data
  | KRsaPriv k => u_RsaPublicKey_Encrypt (rs_pub k) (e_tape e) data
  | _ => Raise AttributeError
  end.

(** [HmacKey.Sign], keys.py:542-552. *)
Definition u_HmacKey_Sign (k : hmackey) (msg : pystr) : res str :=
  let* b := hmac_bytes k in
  let* m := as_bytes msg in
  Ok (hmac_sha1 b m).

(** [RsaPrivateKey.Sign], keys.py:841-853. *)
Definition u_RsaPrivateKey_Sign (k : rsapriv) (msg : pystr) : res str :=
  let* emsa_encoded := u_MakeEmsaMessage msg (rs_size k) in
  let* s := rsa_private (rs_key k) (bytes_to_long emsa_encoded) in
  let byte_string := BigIntToBytes s in
  Ok (PadBytes byte_string (rs_size k / 8 - len byte_string)).

(** [DsaPrivateKey.Sign], keys.py:684-698. *)
Definition u_DsaPrivateKey_Sign (k : dsapriv) (z : Z) (msg : pystr) : res str :=
  let* kk := randint2 (dn_q (dn_pub (ds_key k))) z in
  let* h := u_Hash msg in
  let* rs := dsa_sign (ds_key k) (bytes_to_long h) kk in
  MakeDsaSig (fst rs) (snd rs).

(** [key.Sign(msg)] *)
Definition u_key_Sign (e : env) (k : key) (msg : pystr) : res str :=
  match k with
  | KHmac k => u_HmacKey_Sign k msg
  | KDsaPriv k => u_DsaPrivateKey_Sign k (e_int e) msg
  | KRsaPriv k => u_RsaPrivateKey_Sign k msg
  | _ => Raise AttributeError
  end.

(** [HmacKey.Verify], keys.py:554-567; the signature is a byte string. *)
Definition u_HmacKey_Verify (k : hmackey) (msg : pystr) (sig : str) : res bool :=
  let* mac := u_HmacKey_Sign k msg in Ok (VerifySignedData mac sig).

(** [DsaPublicKey.Verify], keys.py:906-925. *)
Definition u_DsaPublicKey_Verify (k : dsapub) (msg : pystr) (sig : str) : res bool :=
  match (let* (r, s) := ParseDsaSig sig in
         let* h := u_Hash msg in
         Ok (dsa_verify (dp_key k) (bytes_to_long h) r s)) with
  | Ok b => Ok b
  | Raise e => if is_keyczar_error e then Ok false else Raise e
  end.

(** [RsaPublicKey.Verify], keys.py:1004-1021: a UnicodeEncodeError is a ValueError, so the handler
    at 1019 turns it into False. *)
Definition u_RsaPublicKey_Verify (k : rsapub) (msg : pystr) (sig : str) : res bool :=
  match u_MakeEmsaMessage msg (rp_size k) with
  | Ok em => Ok (rsa_verify (rp_key k) em (BytesToLong sig))
  | Raise UnicodeError | Raise ValueError => Ok false
  | Raise e => Raise e
  end.

(** [key.Verify(msg, sig)] *)
Definition u_key_Verify (k : key) (msg : pystr) (sig : str) : res bool :=
  match k with
  | KHmac k => u_HmacKey_Verify k msg sig
  | KDsaPriv k => u_DsaPublicKey_Verify (ds_pub k) msg sig
  | KDsaPub k => u_DsaPublicKey_Verify k msg sig
  | KRsaPriv k => u_RsaPublicKey_Verify (rs_pub k) msg sig
  | KRsaPub k => u_RsaPublicKey_Verify k msg sig
  | KAes _ => Raise AttributeError
  end.

(** ** keyczar.py *)

(** [encoder(v) if encoder else v].  An encoder is given as its action on byte strings; like
    Base64WSEncode (util.py:357) it applies [str] first. *)
Definition u_encode (c : codec) (v : pystr) : res pystr :=
  match c with
  | None => Ok v
  | Some f => let* s := as_bytes v in let* r := f s in Ok (B r)
  end.

(** [Encrypter.Encrypt], keyczar.py:320-340. *)
Definition u_Encrypt (m2 : text -> res str) (e : env) (ks : keyset) (data : pystr) (encoder : codec) : res pystr :=
  let* k := primary_key ks in
  let* c := u_key_Encrypt m2 e k data in
  u_encode encoder (B c).

(** [Crypter.Decrypt] with the Base64 decoder, keyczar.py:511-535. *)
Definition u_Decrypt (ks : keyset) (ciphertext : pystr) : res str :=
  let* data_bytes := u_Base64WSDecode ciphertext in
  if len data_bytes <? HEADER_SIZE then Raise (ShortCiphertextError (len data_bytes))
  else
    let* k := ParseHeader ks (slice_to data_bytes HEADER_SIZE) in
    key_Decrypt k data_bytes.

(** [data + util.PackByteArray(nonce) + VERSION_BYTE], keyczar.py:437 and 628. *)
Definition u_payload (data : pystr) (nonce : option pystr) : res pystr :=
  let* p := u_PackByteArray nonce in
  let* x := u_add data p in
  u_add x (B VERSION_BYTE).

(** [Verifier.__InternalVerify], keyczar.py:435-437. *)
Definition u_InternalVerify (ks : keyset) (header signature : str) (data : pystr) (nonce : option pystr) : res bool :=
  let* k := ParseHeader ks header in
  let* m := u_payload data nonce in
  u_key_Verify k m signature.

(** [Verifier.Verify] with the Base64 decoder, keyczar.py:390-406. *)
Definition u_Verify (ks : keyset) (data sig : pystr) : res bool :=
  let* sig_bytes := u_Base64WSDecode sig in
  if len sig_bytes <? HEADER_SIZE then Raise (ShortSignatureError (len sig_bytes))
  else u_InternalVerify ks (slice_to sig_bytes HEADER_SIZE) (slice_from sig_bytes HEADER_SIZE) data None.

(** [Verifier.AttachedVerify] with the Base64 decoder, keyczar.py:408-433. *)
Definition u_AttachedVerify (ks : keyset) (signed_data : pystr) (nonce : option pystr) : res (option str) :=
  let* decoded := u_Base64WSDecode signed_data in
  let* (data, offset) := UnpackByteArray decoded HEADER_SIZE in
  let signature := slice_from decoded offset in
  let* b := u_InternalVerify ks (slice_to decoded HEADER_SIZE) signature (B data) nonce in
  Ok (if b then Some data else None).

(** [Signer.__InternalSign], keyczar.py:624-628. *)
Definition u_InternalSign (e : env) (ks : keyset) (data : pystr) (nonce : option pystr) : res str :=
  let* k := primary_key ks in
  let* m := u_payload data nonce in
  u_key_Sign e k m.

(** [Signer.Sign], keyczar.py:587-600. *)
Definition u_Sign (e : env) (ks : keyset) (data : pystr) (encoder : codec) : res pystr :=
  let* k := primary_key ks in
  let* h := key_header k in
  let* s := u_InternalSign e ks data None in
  u_encode encoder (B (h ++ s)).

(** [Signer.AttachedSign], keyczar.py:602-621. *)
Definition u_AttachedSign (e : env) (ks : keyset) (data : pystr) (nonce : option pystr) (encoder : codec) : res pystr :=
  let* k := primary_key ks in
  let* h := key_header k in
  let* d := u_PackByteArray (Some data) in
  let* hd := u_add (B h) d in
  let* s := u_InternalSign e ks data nonce in
  let* signature := u_add hd (B s) in
  u_encode encoder signature.

(** [UnversionedSigner.Sign], keyczar.py:654-674. *)
Definition u_UnversionedSign (e : env) (ks : keyset) (data : pystr) (encoder : codec) : res pystr :=
  let* k := primary_key ks in
  let* s := u_key_Sign e k data in
  u_encode encoder (B s).

(** The loop of [UnversionedVerifier.Verify], keyczar.py:479-487. *)
Fixpoint u_verify_any (l : list (nat * key)) (data : pystr) (sig : str) : res bool :=
  match l with
  | [] => Ok false
  | (_, k) :: l' =>
      let* r := u_key_Verify k data sig in
      if r then Ok true else u_verify_any l' data sig
  end.

(** [UnversionedVerifier.Verify] with the Base64 decoder, keyczar.py:462-487. *)
Definition u_UnversionedVerify (ks : keyset) (data sig : pystr) : res bool :=
  let* sig_bytes := u_Base64WSDecode sig in
  u_verify_any (ks_vkeys ks) data sig_bytes.

(** ** EncryptingStreamWriter *)

(** The fields of [EncryptingStreamWriter], keys.py:1029-1051; the buffer starts as a [str]. *)
Record u_esw := MkUEsw {
  uw_cipher : cipher; uw_hmac : hmacstream; uw_data : pystr; uw_closed : bool; uw_sink : sink }.

(** A writer on byte strings, seen as one that takes both. *)
Definition uw_of (w : esw) : u_esw :=
  MkUEsw (ew_cipher w) (ew_hmac w) (B (ew_data w)) (ew_closed w) (ew_sink w).

(** [v[:n]] and [v[n:]] *)
Definition u_slice_to (v : pystr) (n : Z) : pystr := match v with B s => B (slice_to s n) | U t => U (slice_to t n) end.
Definition u_slice_from (v : pystr) (n : Z) : pystr := match v with B s => B (slice_from s n) | U t => U (slice_from t n) end.

Definition uw_set (w : u_esw) (d : pystr) : u_esw := MkUEsw (uw_cipher w) (uw_hmac w) d (uw_closed w) (uw_sink w).

(** [__WriteEncrypted], keys.py:1091-1110; the cipher is PyCrypto's. *)
Definition u_WriteEncrypted (w : u_esw) (data : pystr) (pad : bool) : u_esw * res unit :=
  match (let* d := if pad then u_Pad data else Ok data in
         let* s := as_bytes d in
         cipher_encrypt (uw_cipher w) s) with
  | Raise e => (w, Raise e)
  | Ok (out, c) => (MkUEsw c (hs_update (uw_hmac w) out) (uw_data w) (uw_closed w) (sink_write (uw_sink w) out), Ok tt)
  end.

(** [write], keys.py:1053-1069: [self.__data += data] is done first and stays done. *)
Definition uw_write (w : u_esw) (data : pystr) : u_esw * res unit :=
  if uw_closed w then (w, Raise ValueError)
  else
    match u_add (uw_data w) data with
    | Raise e => (w, Raise e)
    | Ok d =>
        let w := uw_set w d in
        let n := NoPadBufferSize (u_len d) in
        if n <=? u_len d then
          match u_WriteEncrypted w (u_slice_to d n) false with
          | (w', Ok _) => (uw_set w' (u_slice_from (uw_data w') n), Ok tt)
          | (w', Raise e) => (w', Raise e)
          end
        else (uw_set w (u_slice_from d 0), Ok tt)
    end.

(** [flush], keys.py:1071-1080. *)
Definition uw_flush (w : u_esw) : u_esw * res unit :=
  if uw_closed w then (w, Raise ValueError)
  else
    match u_WriteEncrypted w (uw_data w) true with
    | (w', Ok _) =>
        let s := sink_write (uw_sink w') (hs_sign (uw_hmac w')) in
        (MkUEsw (uw_cipher w') (uw_hmac w') (uw_data w') (uw_closed w') (sink_flush s), Ok tt)
    | (w', Raise e) => (w', Raise e)
    end.

(** Successive calls of [write]: the final state and the outcomes. *)
Fixpoint uw_writes (w : u_esw) (ds : list pystr) : u_esw * list (res unit) :=
  match ds with
  | [] => (w, [])
  | d :: ds' => let (w1, r) := uw_write w d in let (w2, rs) := uw_writes w1 ds' in (w2, r :: rs)
  end.
