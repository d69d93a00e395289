(** * Meta: the remaining methods of [KeyMetadata] and [KeyVersion], python/src/keyczar/keydata.py.
    Key sets use them through the model of Keyczar.v, where version objects are shared; here a
    metadata object is on its own, and a version belongs to one metadata object. *)
From Coq Require Import List ZArith Bool.
From Verif Require Import PyBase Json KeyInfo KeyData.
Import ListNotations.
Local Open Scope Z_scope.

Definition set_versions (m : metadata) (vs : list (Z * kversion)) : metadata :=
  MkMeta (m_name m) (m_purpose m) (m_type m) (m_encrypted m) vs.

(** [KeyMetadata.GetVersion], keydata.py:84-99. *)
Definition meta_GetVersion (m : metadata) (n : Z) : res kversion :=
  match assoc Z.eqb (m_versions m) n with Some v => Ok v | None => Raise KeyczarError end.

(** [KeyMetadata.RemoveVersion], keydata.py:67-82.  The method has no [return]: its value is None,
    the first component of the result. *)
Definition meta_RemoveVersion (m : metadata) (n : Z) : metadata * res (option kversion) :=
  match assoc Z.eqb (m_versions m) n with
  | Some _ => (set_versions m (dict_pop Z.eqb (m_versions m) n), Ok None)
  | None => (m, Raise KeyczarError)
  end.

(** The setter of [KeyVersion.status], keydata.py:125-129: a value that is not true is ignored. *)
Definition version_SetStatus (v : kversion) (s : option status) : kversion :=
  match s with Some s => with_status v s | None => v end.

(** [metadata.GetVersion(n).status = s]: the object in the dictionary changes. *)
Definition meta_SetStatus (m : metadata) (n : Z) (s : option status) : metadata * res unit :=
  match meta_GetVersion m n with
  | Ok v => (set_versions m (dict_set Z.eqb (m_versions m) n (version_SetStatus v s)), Ok tt)
  | Raise e => (m, Raise e)
  end.

(** What a program does with a metadata object. *)
Inductive meta_call :=
| CallAdd (v : kversion)
| CallRemove (n : Z)
| CallSetStatus (n : Z) (s : option status).
Definition meta_after (m : metadata) (c : meta_call) : metadata :=
  match c with
  | CallAdd v => fst (meta_AddVersion m v)
  | CallRemove n => fst (meta_RemoveVersion m n)
  | CallSetStatus n s => fst (meta_SetStatus m n s)
  end.
