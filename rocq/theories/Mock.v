(** * Mock: the in-memory reader of readers.py and keyczart with it ([keyczart.mock]). *)
From Coq Require Import Strings.String.
From Coq Require Import List ZArith NArith Bool.
From Coq.Init Require Import Byte.
From Verif Require Import PyBase Json KeyInfo AsymKeys Keys KeyData Keyczar Disk Keyczart.
Import ListNotations.
Local Open Scope Z_scope.

(** The attributes of a [MockReader], readers.py:166-170.  A key set opened from the mock holds
    objects of its own, made from their texts, so that the mock never shares state with it. *)
Record mock := MkMock { mk_kmd : metadata; mk_pubkmd : option metadata; mk_keys : list (Z * key); mk_pubkeys : list (Z * key) }.

(** [MockReader.__init__], readers.py:166-170. *)
Definition MockReader (name : text) (p : purpose) (t : ktype) (encrypted : bool) : mock :=
  MkMock (MkMeta name p t encrypted []) None [] [].

(** [numkeys], readers.py:172-174. *)
Definition numkeys (m : mock) : Z := Z.of_nat (length (mk_keys m)).

(** [GetMetadata] and [GetKey], readers.py:176-183, as a reader of [Keyczar.__init__].  It is not an
    EncryptedReader. *)
Definition mock_reader (m : mock) : reader :=
  MkReader (meta_str (mk_kmd m))
           (fun n => match assoc Z.eqb (mk_keys m) n with Some k => key_str k | None => Raise KeyczarError end)
           false.

(** [GetStatus], readers.py:185-186, with [GetVersion], keydata.py:84-99. *)
Definition mock_GetStatus (m : mock) (n : Z) : res status :=
  match assoc Z.eqb (m_versions (mk_kmd m)) n with Some v => Ok (v_status v) | None => Raise KeyczarError end.

(** [SetKey] and [SetPubKey], readers.py:192-196. *)
Definition SetKey (m : mock) (n : Z) (k : key) : mock :=
  MkMock (mk_kmd m) (mk_pubkmd m) (dict_set Z.eqb (mk_keys m) n k) (mk_pubkeys m).
Definition SetPubKey (m : mock) (n : Z) (k : key) : mock :=
  MkMock (mk_kmd m) (mk_pubkmd m) (mk_keys m) (dict_set Z.eqb (mk_pubkeys m) n k).
(** [mock.kmd = kmd] *)
Definition set_kmd (m : mock) (kmd : metadata) : mock := MkMock kmd (mk_pubkmd m) (mk_keys m) (mk_pubkeys m).

(** [AddKey], readers.py:198-203; [d] is what the random generators yield. *)
Definition mock_AddKey (m : mock) (d : draw) (n : Z) (s : status) (size : option Z) : res (mock * bool) :=
  let* k := GenKey d (m_type (mk_kmd m)) size in
  let '(kmd, b) := meta_AddVersion (mk_kmd m) (MkVersion n s false) in
  Ok (set_kmd (SetKey m n k) kmd, b).

(** [RemoveKey], readers.py:205-207. *)
Definition mock_RemoveKey (m : mock) (n : Z) : mock * res unit :=
  match assoc Z.eqb (mk_keys m) n with
  | Some _ => (MkMock (mk_kmd m) (mk_pubkmd m) (dict_pop Z.eqb (mk_keys m) n) (mk_pubkeys m), Ok tt)
  | None => (m, Raise KeyError)
  end.

(** [ExistsVersion], readers.py:209-210. *)
Definition ExistsVersion (m : mock) (n : Z) : bool :=
  match assoc Z.eqb (mk_keys m) n with Some _ => true | None => false end.

(** [HasPubKey], readers.py:212-215. *)
Definition HasPubKey (m : mock) (n : Z) : res bool :=
  match assoc Z.eqb (mk_keys m) n with
  | None => Raise KeyError
  | Some priv =>
      match assoc Z.eqb (mk_pubkeys m) n with
      | None => Raise KeyError
      | Some pub => let* p := public_key priv in Ok (key_eq p pub)
      end
  end.

(** [GetKeySize], readers.py:217-218. *)
Definition GetKeySize (m : mock) (n : Z) : res Z :=
  match assoc Z.eqb (mk_keys m) n with Some k => Ok (key_size k) | None => Raise KeyError end.

(** ** keyczart.py with [mock] set.  Each command gives the mock it leaves and how it ends. *)

(** [CreateGenericKeyczar], keyczart.py:248-250; the location and the crypter are not looked at. *)
Definition mock_generic (m : mock) : res keyset := open_keyset GenericKeyczar (mock_reader m).

(** The loop of [UpdateGenericKeyczar], keyczart.py:267-268. *)
Fixpoint set_keys_mock (m : mock) (objs : list kversion) (vk : list (nat * key)) : mock :=
  match vk with
  | [] => m
  | (o, k) :: vk' => set_keys_mock (SetKey m (v_num (deref objs o)) k) objs vk'
  end.

(** [UpdateGenericKeyczar], keyczart.py:264-268. *)
Definition mock_update (m : mock) (ks : keyset) : mock :=
  set_keys_mock (set_kmd m (ks_meta ks)) (ks_objs ks) (ks_vkeys ks).

(** [Create], keyczart.py:92-113. *)
Definition mock_Create (m : mock) (name : text) (p : option purpose) (asymmetric : option str) : mock * res unit :=
  match create_type p asymmetric with
  | Raise e => (m, Raise e)
  | Ok (p, t) => (set_kmd m (MkMeta name p t false []), Ok tt)
  end.

(** [AddKey], keyczart.py:121-126. *)
Definition mock_AddKeyCmd (m : mock) (s : status) (crypter : option keyset) (size : Z) (ds : list draw) : mock * res unit :=
  match mock_generic m with
  | Raise e => (m, Raise e)
  | Ok ks =>
      match AddVersion ks ds s (if size =? -1 then None else Some size) with
      | (ks', Ok _) => (mock_update m ks', Ok tt)
      | (_, Raise e) => (m, Raise e)
      end
  end.

(** [Promote], [Demote] and the beginning of [Revoke], keyczart.py:134-153. *)
Definition mock_Change (change : keyset -> Z -> keyset * res unit) (m : mock) (n : Z) : mock * res unit :=
  match mock_generic m with
  | Raise e => (m, Raise e)
  | Ok ks =>
      if n <? 0 then (m, Raise KeyczarError)
      else
        match change ks n with
        | (ks', Ok _) => (mock_update m ks', Ok tt)
        | (_, Raise e) => (m, Raise e)
        end
  end.

(** [Revoke], keyczart.py:148-155. *)
Definition mock_Revoke (m : mock) (n : Z) : mock * res unit :=
  match mock_Change Revoke m n with
  | (m', Ok _) => mock_RemoveKey m' n
  | (m', Raise e) => (m', Raise e)
  end.

(** The loop of [PublicKeyExport] with a mock, keyczar.py:266-270. *)
Fixpoint mock_export (m : mock) (objs : list kversion) (vk : list (nat * key)) (kmd : metadata) : mock * res metadata :=
  match vk with
  | [] => (m, Ok kmd)
  | (o, k) :: vk' =>
      let v := deref objs o in
      let kmd := fst (meta_AddVersion kmd v) in
      match public_key k with
      | Raise e => (m, Raise e)
      | Ok pub => mock_export (SetPubKey m (v_num v) pub) objs vk' kmd
      end
  end.

(** [PubKey], keyczart.py:128-132, with [PublicKeyExport], keyczar.py:253-274.  A MockReader is true
    as a condition; the destination is not looked at. *)
Definition mock_PubKey (m : mock) : mock * res unit :=
  match mock_generic m with
  | Raise e => (m, Raise e)
  | Ok ks =>
      match public_meta ks with
      | Raise e => (m, Raise e)
      | Ok (p, t) =>
          match mock_export m (ks_objs ks) (ks_vkeys ks) (MkMeta (ks_name ks) p t false []) with
          | (m', Ok kmd) => (MkMock (mk_kmd m') (Some kmd) (mk_keys m') (mk_pubkeys m'), Ok tt)
          | (m', Raise e) => (m', Raise e)
          end
      end
  end.
