(** * Keyczar: key sets and the classes that use them, python/src/keyczar/keyczar.py:40-674,
    and the readers of python/src/keyczar/readers.py that do not touch the disk. *)
From Coq Require Import Strings.String.
From Coq Require Import List ZArith NArith Bool.
From Coq.Init Require Import Byte.
From Verif Require Import PyBase Base64 Util Json KeyInfo SymKeys AsymKeys Keys KeyData.
Import ListNotations.
Local Open Scope Z_scope.

(** A [Reader], readers.py:46-89: what its two methods answer, and whether it is an instance
    of [EncryptedReader].  A reader that fails raises. *)
Record reader := MkReader { rd_meta : res str; rd_key : Z -> res str; rd_encrypted : bool }.

(** A [Keyczar] object, keyczar.py:43-68.  Version objects are shared between the metadata,
    the key dictionary and [primary_version], and their status is assigned to, so they live in
    a small heap: an object is its position in [ks_objs].  The dictionary [_keys] is split
    by the kind of its keys, version objects and hash identifiers (its values and its order
    within a kind are those of the source; dictionaries keep insertion order). *)
Record keyset := MkKs {
  ks_name : text; ks_purpose : purpose; ks_type : ktype; ks_encrypted : bool;
  ks_objs : list kversion;
  ks_mvers : list (Z * nat);
  ks_vkeys : list (nat * key);
  ks_hkeys : list (str * key);
  ks_primary : option nat }.

(** The version object at a position; positions in use are always in range. *)
Definition deref (objs : list kversion) (o : nat) : kversion :=
  nth o objs (MkVersion 0 INACTIVE false).

Definition set_objs (ks : keyset) (objs : list kversion) : keyset :=
  MkKs (ks_name ks) (ks_purpose ks) (ks_type ks) (ks_encrypted ks) objs (ks_mvers ks) (ks_vkeys ks) (ks_hkeys ks) (ks_primary ks).
Definition set_mvers (ks : keyset) (m : list (Z * nat)) : keyset :=
  MkKs (ks_name ks) (ks_purpose ks) (ks_type ks) (ks_encrypted ks) (ks_objs ks) m (ks_vkeys ks) (ks_hkeys ks) (ks_primary ks).
Definition set_keys (ks : keyset) (vk : list (nat * key)) (hk : list (str * key)) : keyset :=
  MkKs (ks_name ks) (ks_purpose ks) (ks_type ks) (ks_encrypted ks) (ks_objs ks) (ks_mvers ks) vk hk (ks_primary ks).
(** [self.primary_version = v] *)
Definition set_primary (ks : keyset) (p : option nat) : keyset :=
  MkKs (ks_name ks) (ks_purpose ks) (ks_type ks) (ks_encrypted ks) (ks_objs ks) (ks_mvers ks) (ks_vkeys ks) (ks_hkeys ks) p.
Definition set_encrypted (ks : keyset) (b : bool) : keyset :=
  MkKs (ks_name ks) (ks_purpose ks) (ks_type ks) b (ks_objs ks) (ks_mvers ks) (ks_vkeys ks) (ks_hkeys ks) (ks_primary ks).

Fixpoint upd_nth (l : list kversion) (o : nat) (f : kversion -> kversion) : list kversion :=
  match l, o with
  | [], _ => []
  | v :: l', O => f v :: l'
  | v :: l', S o' => v :: upd_nth l' o' f
  end.

(** [version.status = s] *)
Definition set_status (ks : keyset) (o : nat) (s : status) : keyset :=
  set_objs ks (upd_nth (ks_objs ks) o (fun v => with_status v s)).

(** [self.metadata]: the metadata object with its versions as they are now. *)
Definition ks_meta (ks : keyset) : metadata :=
  MkMeta (ks_name ks) (ks_purpose ks) (ks_type ks) (ks_encrypted ks)
    (map (fun p => (fst p, deref (ks_objs ks) (snd p))) (ks_mvers ks)).

(** [self.versions], keyczar.py:69-71: the version objects that are keys of [_keys]. *)
Definition ks_versions (ks : keyset) : list nat := map fst (ks_vkeys ks).

(** The classes of keyczar.py; [KeyczarBase] is [Keyczar] itself. *)
Inductive kclass := KeyczarBase | GenericKeyczar | Encrypter | Crypter | Verifier | Signer
                  | UnversionedVerifier | UnversionedSigner.

(** [IsAcceptablePurpose]: keyczar.py:108-109 (returns None), 141-143, 316-318, 386-388,
    458-460, 507-509, 583-585, 650-652. *)
Definition IsAcceptablePurpose (c : kclass) (p : purpose) : bool :=
  match c with
  | KeyczarBase => false
  | GenericKeyczar => true
  | Encrypter => purpose_eqb p ENCRYPT || purpose_eqb p DECRYPT_AND_ENCRYPT
  | Crypter => purpose_eqb p DECRYPT_AND_ENCRYPT
  | Verifier | UnversionedVerifier => purpose_eqb p VERIFY || purpose_eqb p SIGN_AND_VERIFY
  | Signer | UnversionedSigner => purpose_eqb p SIGN_AND_VERIFY
  end.

(** The loop of [Keyczar.__init__], keyczar.py:58-68, over the version objects [o], [o+1], ... *)
Fixpoint load_keys (rd : reader) (t : ktype) (o : nat) (vs : list kversion)
    (primary : option nat) (vk : list (nat * key)) (hk : list (str * key))
    : res (option nat * list (nat * key) * list (str * key)) :=
  match vs with
  | [] => Ok (primary, vk, hk)
  | v :: vs' =>
      let* primary :=
        (if status_eqb (v_status v) PRIMARY then
           match primary with
           | Some _ => Raise KeyczarError
           | None => Ok (Some o)
           end
         else Ok primary) in
      let* s := rd_key rd (v_num v) in
      let* k := ReadKey t s in
      let* h := key_hash_id k in
      load_keys rd t (S o) vs' primary (vk ++ [(o, k)]) (dict_set str_eqb hk h k)
  end.

(** [Keyczar.__init__], keyczar.py:43-68.  Every version object is in the metadata, where its
    dictionary key is its number. *)
Definition open_keyset (c : kclass) (rd : reader) : res keyset :=
  let* s := rd_meta rd in
  let* m := meta_Read s in
  if negb (IsAcceptablePurpose c (m_purpose m)) then Raise KeyczarError
  else if m_encrypted m && negb (rd_encrypted rd) then Raise KeyczarError
  else
    let vs := meta_versions m in
    let* (p, vk, hk) := load_keys rd (m_type m) 0 vs None [] [] in
    Ok (MkKs (m_name m) (m_purpose m) (m_type m) (m_encrypted m) vs
             (combine (map fst (m_versions m)) (seq 0 (length vs))) vk hk p).

(** [GetKey] with a hash identifier, keyczar.py:111-126. *)
Definition GetKey_hash (ks : keyset) (h : str) : res key :=
  match assoc str_eqb (ks_hkeys ks) h with
  | Some k => Ok k
  | None => Raise (KeyNotFoundError h)
  end.

(** [GetKey] with a version object or None; the error carries [str(key_id)]. *)
Definition GetKey_version (ks : keyset) (o : option nat) : res key :=
  match o with
  | None => Raise (KeyNotFoundError (bs "None"))
  | Some o =>
      match assoc Nat.eqb (ks_vkeys ks) o with
      | Some k => Ok k
      | None => Raise (KeyNotFoundError (version_str (deref (ks_objs ks) o)))
      end
  end.

(** [self.primary_key], keyczar.py:72-73.  [GetKey] returns a key or raises, never None, so
    the [is None] tests of its callers (keyczar.py:337-339, 359-361, 625-627, 669-671) never
    succeed and are left out below. *)
Definition primary_key (ks : keyset) : res key := GetKey_version ks (ks_primary ks).

(** [_ParseHeader], keyczar.py:77-93. *)
Definition ParseHeader (ks : keyset) (header : str) : res key :=
  let* c := index header 0 in
  if negb (ord c =? VERSION) then Raise (BadVersionError (ord c))
  else GetKey_hash ks (Base64WSEncode (slice_from header 1)).

(** ** GenericKeyczar *)

(** [self.metadata.GetVersion(n)], keydata.py:84-99. *)
Definition GetVersion (ks : keyset) (n : Z) : res nat :=
  match assoc Z.eqb (ks_mvers ks) n with
  | Some o => Ok o
  | None => Raise KeyczarError
  end.

(** The loop computing the largest version number, keyczar.py:165-168. *)
Definition max_version (ks : keyset) : Z :=
  fold_left (fun m o => if m <? v_num (deref (ks_objs ks) o) then v_num (deref (ks_objs ks) o) else m)
            (ks_versions ks) 0.

(** The loop generating keys until the identifier is new, keyczar.py:184-188.  Each
    iteration draws; [Diverge] is the outcome if every draw given collides. *)
Fixpoint gen_unique (hk : list (str * key)) (t : ktype) (size : Z) (ds : list draw) : res (key * str) :=
  match ds with
  | [] => Raise Diverge
  | d :: ds' =>
      let* k := GenKey d t (Some size) in
      let* h := key_hash_id k in
      match assoc str_eqb hk h with
      | None => Ok (k, h)
      | Some _ => gen_unique hk t size ds'
      end
  end.

(** [_AddKey], keyczar.py:128-130, with [metadata.AddVersion], keydata.py:50-65. *)
Definition AddKey (ks : keyset) (o : nat) (k : key) (h : str) : keyset :=
  let ks := set_keys ks (ks_vkeys ks ++ [(o, k)]) (dict_set str_eqb (ks_hkeys ks) h k) in
  let n := v_num (deref (ks_objs ks) o) in
  match assoc Z.eqb (ks_mvers ks) n with
  | Some _ => ks
  | None => set_mvers ks (ks_mvers ks ++ [(n, o)])
  end.

(** [AddVersion], keyczar.py:145-192; the state it leaves and how it ends.  The warning it
    prints about small keys is not modelled. *)
Definition AddVersion (ks : keyset) (ds : list draw) (s : status) (size : option Z) : keyset * res unit :=
  let sz := match size with Some z => z | None => default_size (ks_type ks) end in
  if negb (IsValidSize (ks_type ks) sz) then (ks, Raise KeyczarError)
  else
    let o := length (ks_objs ks) in
    let ks1 := set_objs ks (ks_objs ks ++ [MkVersion (max_version ks + 1) s false]) in
    let ks2 :=
      if status_eqb s PRIMARY then
        set_primary (match ks_primary ks with Some p => set_status ks1 p ACTIVE | None => ks1 end) (Some o)
      else ks1 in
    match gen_unique (ks_hkeys ks) (ks_type ks) sz ds with
    | Raise e => (ks2, Raise e)
    | Ok (k, h) => (AddKey ks2 o k h, Ok tt)
    end.

(** [Promote], keyczar.py:194-215. *)
Definition Promote (ks : keyset) (n : Z) : keyset * res unit :=
  match GetVersion ks n with
  | Raise e => (ks, Raise e)
  | Ok o =>
      match v_status (deref (ks_objs ks) o) with
      | PRIMARY => (ks, Raise KeyczarError)
      | ACTIVE =>
          let ks1 := set_status ks o PRIMARY in
          let ks2 := match ks_primary ks with Some p => set_status ks1 p ACTIVE | None => ks1 end in
          (set_primary ks2 (Some o), Ok tt)
      | INACTIVE => (set_status ks o ACTIVE, Ok tt)
      end
  end.

(** [Demote], keyczar.py:217-236. *)
Definition Demote (ks : keyset) (n : Z) : keyset * res unit :=
  match GetVersion ks n with
  | Raise e => (ks, Raise e)
  | Ok o =>
      match v_status (deref (ks_objs ks) o) with
      | PRIMARY => (set_primary (set_status ks o ACTIVE) None, Ok tt)
      | ACTIVE => (set_status ks o INACTIVE, Ok tt)
      | INACTIVE => (ks, Raise KeyczarError)
      end
  end.

(** [Revoke], keyczar.py:238-251, with [metadata.RemoveVersion], keydata.py:67-82 (the
    number is known to be there). *)
Definition Revoke (ks : keyset) (n : Z) : keyset * res unit :=
  match GetVersion ks n with
  | Raise e => (ks, Raise e)
  | Ok o =>
      match v_status (deref (ks_objs ks) o) with
      | INACTIVE => (set_mvers ks (dict_pop Z.eqb (ks_mvers ks) n), Ok tt)
      | _ => (ks, Raise KeyczarError)
      end
  end.

(** The metadata [PublicKeyExport] starts from, keyczar.py:255-266. *)
Definition public_meta (ks : keyset) : res (purpose * ktype) :=
  match ks_type ks, ks_purpose ks with
  | DSA_PRIV, SIGN_AND_VERIFY => Ok (VERIFY, DSA_PUB)
  | RSA_PRIV, DECRYPT_AND_ENCRYPT => Ok (ENCRYPT, RSA_PUB)
  | RSA_PRIV, SIGN_AND_VERIFY => Ok (VERIFY, RSA_PUB)
  | _, _ => Raise KeyczarError
  end.

(** ** Encrypting and signing

    [encoder] and [decoder] arguments: None means raw bytes.  The defaults are
    [Base64WSEncode] and [Base64WSDecode]. *)
Definition codec : Type := option (str -> res str).
Definition b64_encoder : codec := Some (fun s => Ok (Base64WSEncode s)).
Definition b64_decoder : codec := Some Base64WSDecode.
Definition apply_codec (c : codec) (s : str) : res str :=
  match c with Some f => f s | None => Ok s end.

(** [Encrypter.Encrypt], keyczar.py:320-340. *)
Definition Encrypt (e : env) (ks : keyset) (data : str) (encoder : codec) : res str :=
  let* k := primary_key ks in
  let* c := key_Encrypt e k data in
  apply_codec encoder c.

(** [Crypter.Decrypt], keyczar.py:511-535. *)
Definition Decrypt (ks : keyset) (ciphertext : str) (decoder : codec) : res str :=
  let* data_bytes := apply_codec decoder ciphertext in
  if len data_bytes <? HEADER_SIZE then Raise (ShortCiphertextError (len data_bytes))
  else
    let* k := ParseHeader ks (slice_to data_bytes HEADER_SIZE) in
    key_Decrypt k data_bytes.

(** [Verifier.__InternalVerify], keyczar.py:435-437. *)
Definition InternalVerify (ks : keyset) (header signature data : str) (nonce : option str) : res bool :=
  let* k := ParseHeader ks header in
  let* p := PackByteArray nonce in
  key_Verify k (data ++ p ++ VERSION_BYTE) signature.

(** [Verifier.Verify], keyczar.py:390-406. *)
Definition Verify (ks : keyset) (data sig : str) (decoder : codec) : res bool :=
  let* sig_bytes := apply_codec decoder sig in
  if len sig_bytes <? HEADER_SIZE then Raise (ShortSignatureError (len sig_bytes))
  else InternalVerify ks (slice_to sig_bytes HEADER_SIZE) (slice_from sig_bytes HEADER_SIZE) data None.

(** [Verifier.AttachedVerify], keyczar.py:408-433.  The nonce may be None. *)
Definition AttachedVerify (ks : keyset) (signed_data : str) (nonce : option str) (decoder : codec) : res (option str) :=
  let* decoded := apply_codec decoder signed_data in
  let* (data, offset) := UnpackByteArray decoded HEADER_SIZE in
  let signature := slice_from decoded offset in
  let* b := InternalVerify ks (slice_to decoded HEADER_SIZE) signature data nonce in
  Ok (if b then Some data else None).

(** [Signer.__InternalSign], keyczar.py:624-628. *)
Definition InternalSign (e : env) (ks : keyset) (data : str) (nonce : option str) : res str :=
  let* k := primary_key ks in
  let* p := PackByteArray nonce in
  key_Sign e k (data ++ p ++ VERSION_BYTE).

(** [Signer.Sign], keyczar.py:587-600. *)
Definition Sign (e : env) (ks : keyset) (data : str) (encoder : codec) : res str :=
  let* k := primary_key ks in
  let* h := key_header k in
  let* s := InternalSign e ks data None in
  apply_codec encoder (h ++ s).

(** [Signer.AttachedSign], keyczar.py:602-621. *)
Definition AttachedSign (e : env) (ks : keyset) (data : str) (nonce : option str) (encoder : codec) : res str :=
  let* k := primary_key ks in
  let* h := key_header k in
  let* d := PackByteArray (Some data) in
  let* s := InternalSign e ks data nonce in
  apply_codec encoder (h ++ d ++ s).

(** [UnversionedSigner.Sign], keyczar.py:654-674. *)
Definition UnversionedSign (e : env) (ks : keyset) (data : str) (encoder : codec) : res str :=
  let* k := primary_key ks in
  let* s := key_Sign e k data in
  apply_codec encoder s.

(** The loop of [UnversionedVerifier.Verify], keyczar.py:479-487. *)
Fixpoint verify_any (l : list (nat * key)) (data sig : str) : res bool :=
  match l with
  | [] => Ok false
  | (_, k) :: l' =>
      let* r := key_Verify k data sig in
      if r then Ok true else verify_any l' data sig
  end.

(** [UnversionedVerifier.Verify], keyczar.py:462-487. *)
Definition UnversionedVerify (ks : keyset) (data sig : str) (decoder : codec) : res bool :=
  let* sig_bytes := apply_codec decoder sig in
  verify_any (ks_vkeys ks) data sig_bytes.

(** ** Readers that hold their data in memory *)

(** [StaticKeyReader], readers.py:117-133. *)
Definition StaticKeyReader (k : key) (p : purpose) : reader :=
  let m := fst (meta_AddVersion (MkMeta (tx "Imported") p (key_type k) false []) (MkVersion 1 PRIMARY false)) in
  MkReader (meta_str m) (fun _ => key_str k) false.

(** [EncryptedReader], readers.py:140-151. *)
Definition EncryptedReader (rd : reader) (crypter : keyset) : reader :=
  MkReader (rd_meta rd) (fun n => let* s := rd_key rd n in Decrypt crypter s b64_decoder) true.
