(** * Messages: the texts of the exceptions that report on an input.

    [str(e)] for the classes of errors.py that make their own text, and the functions of keyczar.py
    and keys.py that refuse ciphertexts and signatures with the texts they give.  Each definition
    ending in [_m] repeats the one of the same name in AsymKeys.v, Keys.v or Keyczar.v; that the outcomes are
    the same is proved in Props_Messages.v.  Texts made by the interpreter or by a library are not modelled. *)
From Coq Require Import Strings.String.
From Coq Require Import List ZArith NArith Bool.
From Coq.Init Require Import Byte.
From Verif Require Import PyBase Base64 Sha1 Util Json KeyInfo SymKeys AsymKeys Keys KeyData Keyczar.
Import ListNotations.
Local Open Scope Z_scope.

(** A result, or an exception with [str(e)]; [None] is a text made outside keyczar. *)
Inductive told (A : Type) : Type :=
| Fine (a : A)
| Refused (e : exn) (text : option str).
Arguments Fine {A} a.
Arguments Refused {A} e text.

(** The constructors of errors.py:27-67.  [Base64DecodingError] has none and is raised without an
    argument (util.py:385 and 394), so that its text is empty; the text of a [KeyczarError] is given where it is raised. *)
Definition error_text (e : exn) : option str :=
  match e with
  | BadVersionError v => Some (bs "Received a bad version number: " ++ int_to_str v)
  | Base64DecodingError => Some []
  | InvalidSignatureError => Some (bs "Invalid ciphertext signature")
  | KeyNotFoundError h => Some (bs "Key with hash_val identifier " ++ h ++ bs " not found.")
  | ShortCiphertextError n => Some (bs "Input of length " ++ int_to_str n ++ bs " is too short to be valid ciphertext.")
  | ShortSignatureError n => Some (bs "Input of length " ++ int_to_str n ++ bs " is too short to be valid signature.")
  | NoPrimaryKeyError => Some (bs "No primary key found")
  | _ => None
  end.

(** A call whose exceptions have the texts of their class. *)
Definition tell {A} (r : res A) : told A :=
  match r with Ok a => Fine a | Raise e => Refused e (error_text e) end.

Definition mbind {A B} (t : told A) (k : A -> told B) : told B :=
  match t with Fine a => k a | Refused e x => Refused e x end.
Notation "'let?' x := t 'in' k" := (mbind t (fun x => k)) (at level 200, x name, t at level 100, k at level 200).

(** [raise errors.KeyczarError(text)] *)
Definition complain {A} (text : str) : told A := Refused KeyczarError (Some text).

(** [MGF], util.py:482-502: its one text, on line 498. *)
Definition MGF_m (seed : str) (mlen : Z) : told str :=
  match MGF seed mlen with Ok s => Fine s | Raise _ => complain (bs "MGF1 mask length too long.") end.

(** [RsaPrivateKey.__Decode], keys.py:715-754, with the empty label. *)
Definition oaep_decode_m (k : Z) (encoded_message : str) : told str :=
  if len encoded_message <? 2 * HLEN + 2 then
    complain (bs "OAEP Decoding Error - encoded_message is too small: " ++ int_to_str (len encoded_message))
  else
    let diff_len := k - len encoded_message in
    let padded := if 1 <? diff_len then rep (diff_len - 1) x00 ++ encoded_message else encoded_message in
    let masked_seed := slice_to padded HLEN in
    let masked_datablock := slice_from padded HLEN in
    let? seed_mask := MGF_m masked_datablock HLEN in
    let seed := Xor masked_seed seed_mask in
    let? datablock_mask := MGF_m seed (len masked_datablock) in
    let datablock := Xor masked_datablock datablock_mask in
    let label_hash := slice_to datablock HLEN in
    if negb (str_eqb label_hash (Hash [[]])) then complain (bs "OAEP Decoding Error - hash_id is invalid")
    else
      let delimited_message := lstrip x00 (slice_from datablock HLEN) in
      let? c := tell (index delimited_message 0) in
      if negb (beqb c x01) then complain (bs "OAEP Decoding Error - expected a 1 value")
      else Fine (slice_from delimited_message 1).

(** [RsaPrivateKey.Decrypt], keys.py:827-839. *)
Definition RsaPrivateKey_Decrypt_m (k : rsapriv) (input_bytes : str) : told str :=
  let ciph_bytes := slice_from input_bytes HEADER_SIZE in
  let? decrypted := tell (rsa_decrypt_str (rs_key k) ciph_bytes) in
  oaep_decode_m (num_bytes (rn_n (rn_pub (rs_key k)))) decrypted.

(** [key.Decrypt(input_bytes)]: AesKey, keys.py:444-469, raises no plain KeyczarError; RsaPrivateKey, 827-839. *)
Definition key_Decrypt_m (k : key) (data : str) : told str :=
  match k with
  | KRsaPriv k => RsaPrivateKey_Decrypt_m k data
  | _ => tell (key_Decrypt k data)
  end.

(** [Crypter.Decrypt], keyczar.py:511-535. *)
Definition Decrypt_m (ks : keyset) (ciphertext : str) (decoder : codec) : told str :=
  let? data_bytes := tell (apply_codec decoder ciphertext) in
  if len data_bytes <? HEADER_SIZE then tell (Raise (ShortCiphertextError (len data_bytes)))
  else
    let? k := tell (ParseHeader ks (slice_to data_bytes HEADER_SIZE)) in
    key_Decrypt_m k data_bytes.

(** [Verifier.Verify], [Verifier.AttachedVerify] and [UnversionedVerifier.Verify], keyczar.py:390-437 and 462-487: no
    plain KeyczarError reaches their caller (DsaPublicKey.Verify, keys.py:920-925, catches those of util.ParseDsaSig). *)
Definition Verify_m (ks : keyset) (data sig : str) (decoder : codec) : told bool := tell (Verify ks data sig decoder).
Definition AttachedVerify_m (ks : keyset) (signed : str) (nonce : option str) (decoder : codec) : told (option str) :=
  tell (AttachedVerify ks signed nonce decoder).
Definition UnversionedVerify_m (ks : keyset) (data sig : str) (decoder : codec) : told bool := tell (UnversionedVerify ks data sig decoder).
