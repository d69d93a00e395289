(** * Session: session encryption, python/src/keyczar/keyczar.py:674-843. *)
From Coq Require Import Strings.String.
From Coq Require Import List ZArith NArith Bool.
From Coq.Init Require Import Byte.
From Verif Require Import PyBase Base64 Util Json KeyInfo SymKeys AsymKeys Keys KeyData Keyczar.
Import ListNotations.
Local Open Scope Z_scope.

(** [SESSION_NONCE_SIZE], keyczar.py:674. *)
Definition SESSION_NONCE_SIZE : Z := 16.

(** [_Session], keyczar.py:676-727. *)
Record session := MkSession { se_key : aeskey; se_nonce : option str }.

(** [_Session.New], keyczar.py:683-689: the AES key bytes, the HMAC key bytes and the nonce are
    drawn in this order. *)
Definition Session_New (r : tape) : res session :=
  let* k := AesKey_Generate r (default_size AES) in
  let drawn := Z.to_nat (default_size AES / 8 + default_size HMAC_SHA1 / 8) in
  Ok (MkSession k (Some (RandBytes (advance drawn r) SESSION_NONCE_SIZE))).

(** [_Session.LoadPackedKey], keyczar.py:691-705; [fuel] bounds the loop that unpacks. *)
Definition LoadPackedKey (fuel : nat) (packed_key_data : str) : res session :=
  let* unpacked := UnpackMultipleByteArrays fuel packed_key_data in
  match unpacked with
  | [aes_key_bytes; hmac_key_bytes] =>
      let hmac_key := HmacKey_new (text_of_str (Base64WSEncode hmac_key_bytes)) (len hmac_key_bytes * 8) in
      let* k := AesKey_new (text_of_str (Base64WSEncode aes_key_bytes)) hmac_key (len aes_key_bytes * 8) CBC in
      Ok (MkSession k None)
  | _ => Raise AssertionError
  end.

(** [_Session.LoadJsonSession], keyczar.py:707-717. *)
Definition LoadJsonSession (json_session_data : str) : res session :=
  let* d := loads json_session_data in
  let* kj := get d "key" in
  let* k := AesKey_Read (dumps kj) in
  let* n := get_b64 d "nonce" in
  Ok (MkSession k (Some n)).

(** [crypter], keyczar.py:729-735.  [Memoize] (util.py:849-867) returns the object made by an
    earlier call for an equal session; the model makes it anew, which gives an equal one. *)
Definition session_crypter (s : session) : res keyset :=
  open_keyset Crypter (StaticKeyReader (KAes (se_key s)) DECRYPT_AND_ENCRYPT).

(** [packed_key], keyczar.py:741-747. *)
Definition packed_key (s : session) : res str :=
  let* kb := aes_bytes (se_key s) in
  let* hb := hmac_bytes (ak_hmac (se_key s)) in
  PackMultipleByteArrays [Some kb; Some hb].

(** [json], keyczar.py:749-755.  Without a nonce encoding it fails. *)
Definition session_json (s : session) : res str :=
  let* ks := aes_str (se_key s) in
  let* kj := loads ks in
  match se_nonce s with
  | None => Raise TypeError
  | Some n => Ok (dumps (jobj [("key"%string, kj); ("nonce"%string, JStr (text_of_str (Base64WSEncode n)))]))
  end.

(** [SessionEncrypter(encrypter)], keyczar.py:765-767: the session and its material. *)
Definition SessionEncrypter (r : tape) (e : env) (encrypter : keyset) : res (session * str) :=
  let* s := Session_New r in
  let* p := packed_key s in
  let* m := Encrypt e encrypter p b64_encoder in
  Ok (s, m).

(** [SessionEncrypter.Encrypt], keyczar.py:777-781. *)
Definition Session_Encrypt (e : env) (s : session) (plaintext : str) (encoder : codec) : res str :=
  let* c := session_crypter s in Encrypt e c plaintext encoder.

(** [SessionDecrypter(crypter, session_material)], keyczar.py:790-791. *)
Definition SessionDecrypter (fuel : nat) (crypter : keyset) (material : str) : res session :=
  let* d := Decrypt crypter material b64_decoder in LoadPackedKey fuel d.

(** [SessionDecrypter.Decrypt], keyczar.py:793-798. *)
Definition Session_Decrypt (s : session) (ciphertext : str) (decoder : codec) : res str :=
  let* c := session_crypter s in Decrypt c ciphertext decoder.

(** [SignedSessionEncrypter(encrypter, signer)], keyczar.py:807-810. *)
Definition SignedSessionEncrypter (r : tape) (e : env) (encrypter : keyset) : res (session * str) :=
  let* s := Session_New r in
  let* p := session_json s in
  let* m := Encrypt e encrypter p b64_encoder in
  Ok (s, m).

(** [SignedSessionEncrypter.Encrypt], keyczar.py:820-822; [e] is used to encrypt, [e'] to sign. *)
Definition SignedSession_Encrypt (e e' : env) (s : session) (signer : keyset) (plaintext : str) : res str :=
  let* c := session_crypter s in
  let* ct := Encrypt e c plaintext None in
  AttachedSign e' signer ct (se_nonce s) b64_encoder.

(** [SignedSessionDecrypter(crypter, verifier, session_material)], keyczar.py:831-833. *)
Definition SignedSessionDecrypter (crypter : keyset) (material : str) : res session :=
  let* d := Decrypt crypter material b64_decoder in LoadJsonSession d.

(** [SignedSessionDecrypter.Decrypt], keyczar.py:835-843; [Ok None] is the result None. *)
Definition SignedSession_Decrypt (s : session) (verifier : keyset) (signed_ciphertext : str) : res (option str) :=
  let* v := AttachedVerify verifier signed_ciphertext (se_nonce s) b64_decoder in
  match v with
  | None | Some [] => Ok None
  | Some ciphertext =>
      let* c := session_crypter s in
      let* p := Decrypt c ciphertext None in
      Ok (Some p)
  end.
