(** * Keys: the common interface of the six key classes, python/src/keyczar/keys.py:59-159, and
    the dispatch of their methods. *)
From Coq Require Import Strings.String.
From Coq Require Import List ZArith NArith Bool.
From Coq.Init Require Import Byte.
From Verif Require Import PyBase Base64 Util Json KeyInfo SymKeys AsymKeys.
Import ListNotations.
Local Open Scope Z_scope.

(** A key object of one of the six concrete classes. *)
Inductive key :=
| KAes (k : aeskey)
| KHmac (k : hmackey)
| KDsaPriv (k : dsapriv)
| KDsaPub (k : dsapub)
| KRsaPriv (k : rsapriv)
| KRsaPub (k : rsapub).

(** [key.type], keys.py:121 and the constructors. *)
Definition key_type (k : key) : ktype :=
  match k with
  | KAes _ => AES | KHmac _ => HMAC_SHA1 | KDsaPriv _ => DSA_PRIV | KDsaPub _ => DSA_PUB
  | KRsaPriv _ => RSA_PRIV | KRsaPub _ => RSA_PUB
  end.

(** [key.size], keys.py:151-152. *)
Definition key_size (k : key) : Z :=
  match k with
  | KAes k => ak_size k | KHmac k => hk_size k | KDsaPriv k => ds_size k | KDsaPub k => dp_size k
  | KRsaPriv k => rs_size k | KRsaPub k => rp_size k
  end.

(** [key.key_string], keys.py:134-139, 165-168: None for asymmetric keys. *)
Definition key_string (k : key) : option text :=
  match k with KAes k => Some (ak_string k) | KHmac k => Some (hk_string k) | _ => None end.

Definition opt_text_eqb (a b : option text) : bool :=
  match a, b with
  | None, None => true
  | Some s, Some t => text_eqb s t
  | _, _ => false
  end.

(** [Key.__eq__], keys.py:125-128. *)
Definition key_eq (a b : key) : bool :=
  ktype_eqb (key_type a) (key_type b) && (key_size a =? key_size b) &&
  opt_text_eqb (key_string a) (key_string b).

(** [str(key)]: the [__str__] methods. *)
Definition key_str (k : key) : res str :=
  match k with
  | KAes k => aes_str k
  | KHmac k => Ok (hmac_str k)
  | KDsaPriv k => dsapriv_str k
  | KDsaPub k => Ok (dsapub_str k)
  | KRsaPriv k => rsapriv_str k
  | KRsaPub k => Ok (rsapub_str k)
  end.

(** [key.hash_id], keys.py:141-150 and the overrides; a private key uses its public half's,
    keys.py:616-617. *)
Definition key_hash_id (k : key) : res str :=
  match k with
  | KAes k => aes_hash_id k
  | KHmac k => hmac_hash_id k
  | KDsaPriv k => Ok (dsapub_hash_id (ds_pub k))
  | KDsaPub k => Ok (dsapub_hash_id k)
  | KRsaPriv k => Ok (rsapub_hash_id (rs_pub k))
  | KRsaPub k => Ok (rsapub_hash_id k)
  end.

(** [key.Header()], keys.py:157-159. *)
Definition key_header (k : key) : res str :=
  let* h := key_hash_id k in make_header h.

(** [key.public_key], keys.py:614: only private keys have one. *)
Definition public_key (k : key) : res key :=
  match k with
  | KDsaPriv k => Ok (KDsaPub (ds_pub k))
  | KRsaPriv k => Ok (KRsaPub (rs_pub k))
  | _ => Raise AttributeError
  end.

(** [except KeyError: raise errors.KeyczarError(...)] *)
Definition key_error_to_keyczar {A} (r : res A) : res A :=
  match r with Raise KeyError => Raise KeyczarError | _ => r end.

(** [ReadKey], keys.py:94-115. *)
Definition ReadKey (t : ktype) (s : str) : res key :=
  key_error_to_keyczar
    match t with
    | AES => let* k := AesKey_Read s in Ok (KAes k)
    | HMAC_SHA1 => let* k := HmacKey_Read s in Ok (KHmac k)
    | DSA_PRIV => let* k := DsaPrivateKey_Read s in Ok (KDsaPriv k)
    | RSA_PRIV => let* k := RsaPrivateKey_Read s in Ok (KRsaPriv k)
    | DSA_PUB => let* k := DsaPublicKey_Read s in Ok (KDsaPub k)
    | RSA_PUB => let* k := RsaPublicKey_Read s in Ok (KRsaPub k)
    end.

(** What one key generation draws: random bytes, or the numbers of a PyCrypto key. *)
Record draw := MkDraw { d_tape : tape; d_rsa : rsa_nums; d_dsa : dsa_nums }.

(** [GenKey], keys.py:59-92. *)
Definition GenKey (d : draw) (t : ktype) (size : option Z) : res key :=
  let size := match size with Some s => s | None => default_size t end in
  if negb (IsValidSize t size) then Raise KeyczarError
  else
    match t with
    | AES => let* k := AesKey_Generate (d_tape d) size in Ok (KAes k)
    | HMAC_SHA1 => Ok (KHmac (HmacKey_Generate (d_tape d) size))
    | DSA_PRIV => Ok (KDsaPriv (DsaPrivateKey_Generate (d_dsa d) size))
    | RSA_PRIV => Ok (KRsaPriv (RsaPrivateKey_Generate (d_rsa d) size))
    | DSA_PUB | RSA_PUB => Raise KeyczarError
    end.

(** What one call of an operation uses from its environment: the active AES library
    (keys.py:48), random bytes and a random integer. *)
Record env := MkEnv { e_lib : cryptlib; e_tape : tape; e_int : Z }.

(** [key.Encrypt(data)]: AesKey, keys.py:425-442; RsaPublicKey, 990-1002; RsaPrivateKey,
    823-825.  The other classes have no such method. *)
Definition key_Encrypt (e : env) (k : key) (data : str) : res str :=
  match k with
  | KAes k => AesKey_Encrypt (e_lib e) k (e_tape e) data
  | KRsaPub k => RsaPublicKey_Encrypt k (e_tape e) data
  | KRsaPriv k => RsaPublicKey_Encrypt (rs_pub k) (e_tape e) data
  | _ => Raise AttributeError
  end.

(** [key.Decrypt(input_bytes)]: AesKey, keys.py:444-469; RsaPrivateKey, 827-839. *)
Definition key_Decrypt (k : key) (data : str) : res str :=
  match k with
  | KAes k => AesKey_Decrypt k data
  | KRsaPriv k => RsaPrivateKey_Decrypt k data
  | _ => Raise AttributeError
  end.

(** [key.Sign(msg)]: HmacKey, keys.py:542-552; DsaPrivateKey, 684-698; RsaPrivateKey,
    841-853. *)
Definition key_Sign (e : env) (k : key) (msg : str) : res str :=
  match k with
  | KHmac k => HmacKey_Sign k msg
  | KDsaPriv k => DsaPrivateKey_Sign k (e_int e) msg
  | KRsaPriv k => RsaPrivateKey_Sign k msg
  | _ => Raise AttributeError
  end.

(** [key.Verify(msg, sig)]: HmacKey, keys.py:554-567; DsaPublicKey, 906-925; RsaPublicKey,
    1004-1021; the private keys delegate, 700-702 and 855-857. *)
Definition key_Verify (k : key) (msg sig : str) : res bool :=
  match k with
  | KHmac k => HmacKey_Verify k msg sig
  | KDsaPriv k => DsaPublicKey_Verify (ds_pub k) msg sig
  | KDsaPub k => DsaPublicKey_Verify k msg sig
  | KRsaPriv k => Ok (RsaPublicKey_Verify (rs_pub k) msg sig)
  | KRsaPub k => Ok (RsaPublicKey_Verify k msg sig)
  | KAes _ => Raise AttributeError
  end.
