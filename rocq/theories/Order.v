(** * Order: the same key sets with dictionaries that list their entries in any order.

    Python 2 does not say in which order a dictionary lists its entries, and the order can change
    whenever an entry is added or removed.  The other files keep insertion order; here every order is
    possible at every moment. *)
From Coq Require Import Strings.String.
From Coq Require Import List ZArith Bool Permutation.
From Verif Require Import PyBase KeyInfo KeyData SymKeys AsymKeys Keys Keyczar.
Import ListNotations.
Local Open Scope Z_scope.

(** The dictionaries of a [Keyczar] object, keyczar.py:44-46, and that of its metadata,
    keydata.py:39, list their entries in another order.  [_keys] holds versions and identifiers as keys
    of one dictionary; how the two kinds alternate has no effect, since the code lists those of one kind
    only (keyczar.py:69-71). *)
Definition reordered (ks ks' : keyset) : Prop :=
  exists mv vk hk, Permutation mv (ks_mvers ks) /\ Permutation vk (ks_vkeys ks) /\ Permutation hk (ks_hkeys ks) /\
    ks' = set_keys (set_mvers ks mv) vk hk.

(** [Keyczar.__init__], keyczar.py:43-68, where [for version in self.metadata.versions] goes through
    the versions in the order [order] gives ([metadata.versions] is [list(self.__versions.values())],
    keydata.py:41). *)
Definition open_in (order : list kversion -> list kversion) (c : kclass) (rd : reader) : res keyset :=
  let* s := rd_meta rd in
  let* m := meta_Read s in
  if negb (IsAcceptablePurpose c (m_purpose m)) then Raise KeyczarError
  else if m_encrypted m && negb (rd_encrypted rd) then Raise KeyczarError
  else
    let vs := order (meta_versions m) in
    let* (p, vk, hk) := load_keys rd (m_type m) 0 vs None [] [] in
    Ok (MkKs (m_name m) (m_purpose m) (m_type m) (m_encrypted m) vs (combine (map v_num vs) (seq 0 (length vs))) vk hk p).

(** An opening that goes through the versions in some order. *)
Definition opens (c : kclass) (rd : reader) (ks : keyset) : Prop :=
  exists order ks1, (forall l, Permutation (order l) l) /\ open_in order c rd = Ok ks1 /\ reordered ks1 ks.
