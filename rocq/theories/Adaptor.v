(** * Adaptor: the cipher objects that [AesKey.__CreateCipher] makes, used in any way:
    python/src/keyczar/keys.py:182-320 (SymKeys.v has the part that [AesKey.Encrypt] uses). *)
From Coq Require Import Strings.String.
From Coq Require Import List ZArith NArith Bool.
From Coq.Init Require Import Byte.
From Verif Require Import PyBase Aes SymKeys.
Import ListNotations.
Local Open Scope Z_scope.

(** M2Crypto's EVP.Cipher for decryption with padding=0, [update(data)]: decrypts all complete blocks,
    as [evp_update] encrypts them. *)
Definition evp_update_dec (e : evp) (data : str) : res (str * evp) :=
  let buf := e_buf e ++ data in
  let n := 16 * (len buf / 16) in
  let* (out, c) := cipher_decrypt (e_cipher e) (slice_to buf n) in
  Ok (out, MkEvp c (slice_from buf n)).

(** [OP_TYPES], keys.py:225-228. *)
Inductive selector := OP_ACTIVE | OP_DECRYPT | OP_ENCRYPT.

(** [EVPAdaptor.__Cipher], keys.py:252-288: the cipher selected and the ciphers kept afterwards. *)
Definition evp_Cipher (key iv : str) (enc dec : option evp) (s : selector) : res (evp * (option evp * option evp)) :=
  match s with
  | OP_ACTIVE =>
      match enc, dec with
      | Some e, None | None, Some e => Ok (e, (enc, dec))
      | _, _ => Raise AssertionError
      end
  | OP_DECRYPT => let* e := match dec with Some e => Ok e | None => EVP_new key iv end in Ok (e, (enc, Some e))
  | OP_ENCRYPT => let* e := match enc with Some e => Ok e | None => EVP_new key iv end in Ok (e, (Some e, dec))
  end.

(** [adaptor.decrypt(data)], keys.py:204-206 and 290-300. *)
Definition adaptor_decrypt (a : adaptor) (data : str) : res (str * adaptor) :=
  match a with
  | AESAdaptor c => let* (out, c') := cipher_decrypt c data in Ok (out, AESAdaptor c')
  | EVPAdaptor key iv enc dec =>
      let* (e, (enc, _)) := evp_Cipher key iv enc dec OP_DECRYPT in
      let* (out, e') := evp_update_dec e data in
      Ok (out, EVPAdaptor key iv enc (Some e'))
  end.

(** [adaptor.final(selector)], keys.py:314-320; [AESAdaptor.final] (keys.py:208-215) has no parameter.
    A cipher that was finished can be used further (OpenSSL's state is not changed when nothing is left). *)
Definition adaptor_final_of (a : adaptor) (s : selector) : res (str * adaptor) :=
  match a with
  | AESAdaptor c => Raise TypeError
  | EVPAdaptor key iv enc dec =>
      let* (e, (enc, dec)) := evp_Cipher key iv enc dec s in
      let* out := evp_final e in
      Ok (out, EVPAdaptor key iv enc dec)
  end.

(** The calls on a cipher object: [encrypt(d)], [decrypt(d)], [final()] and [final(selector)]. *)
Inductive ccall := CEnc (d : str) | CDec (d : str) | CFinal | CFinalOf (s : selector).
Definition ad_step (a : adaptor) (c : ccall) : adaptor * res str :=
  match (match c with
         | CEnc d => adaptor_encrypt a d
         | CDec d => adaptor_decrypt a d
         | CFinal => let* out := adaptor_final a in Ok (out, a)
         | CFinalOf s => adaptor_final_of a s
         end) with
  | Ok (out, a') => (a', Ok out)
  | Raise e => (a, Raise e)
  end.

(** Successive calls, the caller going on after an exception: the outcomes. *)
Fixpoint outcomes (a : adaptor) (cs : list ccall) : list (res str) :=
  match cs with
  | [] => []
  | c :: cs' => let (a', r) := ad_step a c in r :: outcomes a' cs'
  end.
