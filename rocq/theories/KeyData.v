(** * KeyData: key metadata and key versions, python/src/keyczar/keydata.py. *)
From Coq Require Import Strings.String.
From Coq Require Import List ZArith NArith Bool.
From Coq.Init Require Import Byte.
From Verif Require Import PyBase Json KeyInfo.
Import ListNotations.
Local Open Scope Z_scope.

(** [KeyVersion], keydata.py:119-123.  A version number is an integer (a JSON file could
    hold another type; the model refuses it with TypeError). *)
Record kversion := MkVersion { v_num : Z; v_status : status; v_export : bool }.

(** The status setter, keydata.py:125-129; every status object is true. *)
Definition with_status (v : kversion) (s : status) : kversion := MkVersion (v_num v) s (v_export v).

(** The dictionary printed by [KeyVersion.__str__], keydata.py:131-134. *)
Definition version_json (v : kversion) : json :=
  jobj [("versionNumber"%string, JInt (v_num v)); ("status"%string, JStr (tx (status_name (v_status v))));
        ("exportable"%string, JBool (v_export v))].

(** [str(version)], keydata.py:131-134. *)
Definition version_str (v : kversion) : str := dumps (version_json v).

(** [KeyVersion.Read], keydata.py:136-149. *)
Definition version_read (j : json) : res kversion :=
  let* n := get_int j "versionNumber" in
  let* s := get_str j "status" in
  let* st := GetStatus s in
  let* e := get_bool j "exportable" in
  Ok (MkVersion n st e).

(** [KeyMetadata], keydata.py:31-39; the dictionary of versions keeps insertion order. *)
Record metadata := MkMeta {
  m_name : text; m_purpose : purpose; m_type : ktype; m_encrypted : bool;
  m_versions : list (Z * kversion) }.

(** [d[k]] for a dictionary kept as a list. *)
Fixpoint assoc {A B} (eqb : A -> A -> bool) (l : list (A * B)) (k : A) : option B :=
  match l with
  | [] => None
  | (k', v) :: l' => if eqb k' k then Some v else assoc eqb l' k
  end.

(** [d[k] = v]: replaces in place or appends. *)
Fixpoint dict_set {A B} (eqb : A -> A -> bool) (l : list (A * B)) (k : A) (v : B) : list (A * B) :=
  match l with
  | [] => [(k, v)]
  | (k', v') :: l' => if eqb k' k then (k', v) :: l' else (k', v') :: dict_set eqb l' k v
  end.

(** [d.pop(k)], the entry being there. *)
Definition dict_pop {A B} (eqb : A -> A -> bool) (l : list (A * B)) (k : A) : list (A * B) :=
  filter (fun p => negb (eqb (fst p) k)) l.

(** [KeyMetadata.versions], keydata.py:41. *)
Definition meta_versions (m : metadata) : list kversion := map snd (m_versions m).

Definition meta_json (m : metadata) (vs : list json) : json :=
  jobj [("name"%string, JStr (m_name m)); ("purpose"%string, JStr (tx (purpose_name (m_purpose m))));
        ("type"%string, JStr (tx (type_name (m_type m)))); ("encrypted"%string, JBool (m_encrypted m));
        ("versions"%string, JArr vs)].

(** [str(metadata)], keydata.py:43-48. *)
Definition meta_str (m : metadata) : res str :=
  let* vs := mapM (fun v => loads (version_str v)) (meta_versions m) in
  Ok (dumps (meta_json m vs)).

(** [KeyMetadata.AddVersion], keydata.py:50-65. *)
Definition meta_AddVersion (m : metadata) (v : kversion) : metadata * bool :=
  match assoc Z.eqb (m_versions m) (v_num v) with
  | Some _ => (m, false)
  | None => (MkMeta (m_name m) (m_purpose m) (m_type m) (m_encrypted m) (m_versions m ++ [(v_num v, v)]), true)
  end.

(** The loop of [KeyMetadata.Read], keydata.py:115-116. *)
Fixpoint add_versions (m : metadata) (l : list json) : res metadata :=
  match l with
  | [] => Ok m
  | j :: l' => let* v := version_read j in add_versions (fst (meta_AddVersion m v)) l'
  end.

(** [KeyMetadata.Read], keydata.py:101-117. *)
Definition meta_Read (s : str) : res metadata :=
  let* j := loads s in
  let* n := get_str j "name" in
  let* p := get_str j "purpose" in
  let* p := GetPurpose p in
  let* t := get_str j "type" in
  let* t := GetType t in
  let* e := get_bool j "encrypted" in
  let* vs := get_arr j "versions" in
  add_versions (MkMeta n p t e []) vs.
