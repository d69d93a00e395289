(** * Threads: one object used by several threads.

    Under the global interpreter lock a thread can lose control between any two accesses to attributes
    and dictionaries of a shared object; each single access, [list(d.keys())] included, is atomic.  The
    shared state is that of Keyczar.v; everything else in a call is local to its thread.  (Of the
    attributes of key sets and keys only those changed below are ever assigned after construction:
    [_keys], [primary_version], the status of versions, and the versions of the metadata.) *)
From Coq Require Import Strings.String.
From Coq Require Import List ZArith Bool.
From Verif Require Import PyBase Util Base64 KeyInfo KeyData SymKeys AsymKeys Keys Keyczar.
Import ListNotations.
Local Open Scope Z_scope.

(** What is left of a call: its outcome, or one access to the shared object and the rest. *)
Inductive thread (A : Type) : Type :=
| Finished (r : res A)
| Access (f : keyset -> keyset * thread A).
Arguments Finished {A}. Arguments Access {A}.

Definition read {A B} (g : keyset -> B) (k : B -> thread A) : thread A := Access (fun ks => (ks, k (g ks))).
Definition write {A} (h : keyset -> keyset) (k : thread A) : thread A := Access (fun ks => (h ks, k)).

(** One access by some thread; the others wait. *)
Inductive turn {A} : keyset * list (thread A) -> keyset * list (thread A) -> Prop :=
| Turn ks ks' a f t b : f ks = (ks', t) -> turn (ks, a ++ Access f :: b) (ks', a ++ t :: b).

(** Any number of turns. *)
Inductive turns {A} : keyset * list (thread A) -> keyset * list (thread A) -> Prop :=
| TurnsNone p : turns p p
| TurnsMore p q r : turn p q -> turns q r -> turns p r.

(** A call that is not interrupted. *)
Fixpoint alone {A} (t : thread A) (ks : keyset) : keyset * res A :=
  match t with
  | Finished r => (ks, r)
  | Access f => let (ks', t') := f ks in alone t' ks'
  end.

(** ** Changing the set *)

(** [self.primary_version.status = ACTIVE] if it is not None: keyczar.py:177-178, 211-212.  The
    attribute is read twice; None has no attribute [status]. *)
Definition demote_primary_t {A} (k : thread A) : thread A :=
  read ks_primary (fun p =>
    match p with
    | None => k
    | Some _ => read ks_primary (fun p' =>
        match p' with
        | None => Finished (Raise AttributeError)
        | Some q => write (fun ks => set_status ks q ACTIVE) k
        end)
    end).

(** [_AddKey], keyczar.py:128-130, and [metadata.AddVersion], keydata.py:60-64, for the version object
    [o] with the number [n]. *)
Definition AddKey_t (o : nat) (n : Z) (k : key) (h : str) : thread unit :=
  write (fun ks => set_keys ks (ks_vkeys ks ++ [(o, k)]) (ks_hkeys ks))
  (write (fun ks => set_keys ks (ks_vkeys ks) (dict_set str_eqb (ks_hkeys ks) h k))
  (read (fun ks => assoc Z.eqb (ks_mvers ks) n) (fun x =>
    match x with
    | Some _ => Finished (Ok tt)
    | None => write (fun ks => set_mvers ks (dict_set Z.eqb (ks_mvers ks) n o)) (Finished (Ok tt))
    end))).

(** The loop that draws keys, keyczar.py:184-188. *)
Fixpoint gen_t (t : ktype) (size : Z) (ds : list draw) (k : key -> str -> thread unit) : thread unit :=
  match ds with
  | [] => Finished (Raise Diverge)
  | d :: ds' =>
      match GenKey d t (Some size) with
      | Raise e => Finished (Raise e)
      | Ok x =>
          match key_hash_id x with
          | Raise e => Finished (Raise e)
          | Ok h => read (fun ks => assoc str_eqb (ks_hkeys ks) h) (fun y =>
              match y with
              | None => k x h
              | Some _ => gen_t t size ds' k
              end)
          end
      end
  end.

(** [AddVersion] from keyczar.py:176 on, for the new version object [o] with the number [n]. *)
Definition AddVersion_rest (t : ktype) (ds : list draw) (s : status) (size : Z) (o : nat) (n : Z) : thread unit :=
  let gen := gen_t t size ds (AddKey_t o n) in
  if status_eqb s PRIMARY then demote_primary_t (write (fun ks => set_primary ks (Some o)) gen) else gen.

(** [AddVersion], keyczar.py:145-192.  The size depends on attributes that never change.  Then the list
    of versions is taken; their numbers never change, and the new version object, which no other thread
    knows yet, is made in the same step. *)
Definition AddVersion_t (ds : list draw) (s : status) (size : option Z) : thread unit :=
  read ks_type (fun t =>
    let sz := match size with Some z => z | None => default_size t end in
    if negb (IsValidSize t sz) then Finished (Raise KeyczarError)
    else Access (fun ks =>
      let n := max_version ks + 1 in
      (set_objs ks (ks_objs ks ++ [MkVersion n s false]), AddVersion_rest t ds s sz (length (ks_objs ks)) n))).

(** [version.status == s] *)
Definition if_status {A} (o : nat) (s : status) (yes no : thread A) : thread A :=
  read (fun ks => status_eqb (v_status (deref (ks_objs ks) o)) s) (fun b : bool => if b then yes else no).

(** [self.metadata.GetVersion(n)], keydata.py:84-99. *)
Definition with_version (n : Z) (k : nat -> thread unit) : thread unit :=
  read (fun ks => assoc Z.eqb (ks_mvers ks) n) (fun x =>
    match x with Some o => k o | None => Finished (Raise KeyczarError) end).

(** [Promote], keyczar.py:206-215; without a match of the last test it returns. *)
Definition Promote_t (n : Z) : thread unit :=
  with_version n (fun o =>
    if_status o PRIMARY (Finished (Raise KeyczarError))
    (if_status o ACTIVE
       (write (fun ks => set_status ks o PRIMARY)
       (demote_primary_t
       (write (fun ks => set_primary ks (Some o)) (Finished (Ok tt)))))
    (if_status o INACTIVE
       (write (fun ks => set_status ks o ACTIVE) (Finished (Ok tt)))
       (Finished (Ok tt))))).

(** [Demote], keyczar.py:229-236. *)
Definition Demote_t (n : Z) : thread unit :=
  with_version n (fun o =>
    if_status o PRIMARY
      (write (fun ks => set_status ks o ACTIVE) (write (fun ks => set_primary ks None) (Finished (Ok tt))))
    (if_status o ACTIVE
      (write (fun ks => set_status ks o INACTIVE) (Finished (Ok tt)))
    (if_status o INACTIVE (Finished (Raise KeyczarError)) (Finished (Ok tt))))).

(** [Revoke], keyczar.py:247-251, with [metadata.RemoveVersion], keydata.py:79-82. *)
Definition Revoke_t (n : Z) : thread unit :=
  with_version n (fun o =>
    if_status o INACTIVE
      (Access (fun ks =>
         match assoc Z.eqb (ks_mvers ks) n with
         | Some _ => (set_mvers ks (dict_pop Z.eqb (ks_mvers ks) n), Finished (Ok tt))
         | None => (ks, Finished (Raise KeyczarError))
         end))
      (Finished (Raise KeyczarError))).

(** ** Using the set *)

(** [self.primary_key], keyczar.py:72-73. *)
Definition with_primary {A} (k : key -> thread A) : thread A :=
  read ks_primary (fun p => read (fun ks => GetKey_version ks p) (fun r =>
    match r with Ok x => k x | Raise e => Finished (Raise e) end)).

(** [self._ParseHeader(header)], keyczar.py:77-93: the one access is in [GetKey]. *)
Definition with_header {A} (header : str) (k : key -> thread A) : thread A :=
  match (let* c := index header 0 in if negb (ord c =? VERSION) then Raise (BadVersionError (ord c)) else Ok tt) with
  | Raise e => Finished (Raise e)
  | Ok _ => read (fun ks => GetKey_hash ks (Base64WSEncode (slice_from header 1))) (fun r =>
      match r with Ok x => k x | Raise e => Finished (Raise e) end)
  end.

(** [Encrypter.Encrypt], keyczar.py:320-340. *)
Definition Encrypt_t (e : env) (data : str) (encoder : codec) : thread str :=
  with_primary (fun k => Finished (let* c := key_Encrypt e k data in apply_codec encoder c)).

(** [Crypter.Decrypt], keyczar.py:511-535. *)
Definition Decrypt_t (ciphertext : str) (decoder : codec) : thread str :=
  match apply_codec decoder ciphertext with
  | Raise e => Finished (Raise e)
  | Ok data_bytes =>
      if len data_bytes <? HEADER_SIZE then Finished (Raise (ShortCiphertextError (len data_bytes)))
      else with_header (slice_to data_bytes HEADER_SIZE) (fun k => Finished (key_Decrypt k data_bytes))
  end.

(** [Signer.__InternalSign], keyczar.py:624-628. *)
Definition InternalSign_t (e : env) (data : str) (nonce : option str) (k : str -> res str) : thread str :=
  with_primary (fun x => Finished (let* p := PackByteArray nonce in let* s := key_Sign e x (data ++ p ++ VERSION_BYTE) in k s)).

(** [Signer.Sign], keyczar.py:587-600: [primary_key] is read for the header and again for the signature. *)
Definition Sign_t (e : env) (data : str) (encoder : codec) : thread str :=
  with_primary (fun k =>
    match key_header k with
    | Raise x => Finished (Raise x)
    | Ok h => InternalSign_t e data None (fun s => apply_codec encoder (h ++ s))
    end).

(** [Signer.AttachedSign], keyczar.py:602-621. *)
Definition AttachedSign_t (e : env) (data : str) (nonce : option str) (encoder : codec) : thread str :=
  with_primary (fun k =>
    match (let* h := key_header k in let* d := PackByteArray (Some data) in Ok (h, d)) with
    | Raise x => Finished (Raise x)
    | Ok (h, d) => InternalSign_t e data nonce (fun s => apply_codec encoder (h ++ d ++ s))
    end).

(** [UnversionedSigner.Sign], keyczar.py:654-674. *)
Definition UnversionedSign_t (e : env) (data : str) (encoder : codec) : thread str :=
  with_primary (fun k => Finished (let* s := key_Sign e k data in apply_codec encoder s)).

(** [Verifier.Verify], keyczar.py:390-406, 435-437. *)
Definition Verify_t (data sig : str) (decoder : codec) : thread bool :=
  match apply_codec decoder sig with
  | Raise e => Finished (Raise e)
  | Ok sig_bytes =>
      if len sig_bytes <? HEADER_SIZE then Finished (Raise (ShortSignatureError (len sig_bytes)))
      else with_header (slice_to sig_bytes HEADER_SIZE) (fun k =>
        Finished (let* p := PackByteArray None in key_Verify k (data ++ p ++ VERSION_BYTE) (slice_from sig_bytes HEADER_SIZE)))
  end.

(** [Verifier.AttachedVerify], keyczar.py:408-437. *)
Definition AttachedVerify_t (signed_data : str) (nonce : option str) (decoder : codec) : thread (option str) :=
  match (let* decoded := apply_codec decoder signed_data in
         let* (data, offset) := UnpackByteArray decoded HEADER_SIZE in Ok (decoded, data, offset)) with
  | Raise e => Finished (Raise e)
  | Ok (decoded, data, offset) =>
      with_header (slice_to decoded HEADER_SIZE) (fun k =>
        Finished (let* p := PackByteArray nonce in
                  let* b := key_Verify k (data ++ p ++ VERSION_BYTE) (slice_from decoded offset) in
                  Ok (if b : bool then Some data else None)))
  end.

(** The loop of [UnversionedVerifier.Verify], keyczar.py:479-487: the list of versions is taken once,
    the key of each is looked up later (it is always there, so that the KeyError of [self._keys[version]]
    does not arise). *)
Fixpoint verify_any_t (l : list nat) (data sig : str) : thread bool :=
  match l with
  | [] => Finished (Ok false)
  | o :: l' => read (fun ks => GetKey_version ks (Some o)) (fun r =>
      match (let* k := r in key_Verify k data sig) with
      | Raise e => Finished (Raise e)
      | Ok true => Finished (Ok true)
      | Ok false => verify_any_t l' data sig
      end)
  end.

(** [UnversionedVerifier.Verify], keyczar.py:462-487. *)
Definition UnversionedVerify_t (data sig : str) (decoder : codec) : thread bool :=
  match apply_codec decoder sig with
  | Raise e => Finished (Raise e)
  | Ok sig_bytes => read ks_versions (fun l => verify_any_t l data sig_bytes)
  end.
