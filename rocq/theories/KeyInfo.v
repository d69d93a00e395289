(** * KeyInfo: python/src/keyczar/keyinfo.py and the constants of keyczar.py. *)
From Coq Require Import Strings.String.
From Coq Require Import List ZArith NArith Bool.
From Coq.Init Require Import Byte.
From Verif Require Import PyBase.
Import ListNotations.
Local Open Scope Z_scope.

(** [VERSION], [VERSION_BYTE], [KEY_HASH_SIZE], [HEADER_SIZE], keyczar.py:35-38. *)
Definition VERSION : Z := 0.
Definition VERSION_BYTE : str := [x00].
Definition KEY_HASH_SIZE : Z := 4.
Definition HEADER_SIZE : Z := 1 + KEY_HASH_SIZE.

(** The key types, keyinfo.py:58-63.  The objects are compared by identity, so the
    model's constructors stand for them. *)
Inductive ktype := AES | HMAC_SHA1 | DSA_PRIV | DSA_PUB | RSA_PRIV | RSA_PUB.

Definition ktype_eqb (a b : ktype) : bool :=
  match a, b with
  | AES, AES | HMAC_SHA1, HMAC_SHA1 | DSA_PRIV, DSA_PRIV | DSA_PUB, DSA_PUB
  | RSA_PRIV, RSA_PRIV | RSA_PUB, RSA_PUB => true
  | _, _ => false
  end.

(** [str(key_type)], keyinfo.py:31-32, 58-63. *)
Definition type_name (t : ktype) : string :=
  match t with
  | AES => "AES" | HMAC_SHA1 => "HMAC_SHA1" | DSA_PRIV => "DSA_PRIV" | DSA_PUB => "DSA_PUB"
  | RSA_PRIV => "RSA_PRIV" | RSA_PUB => "RSA_PUB"
  end%string.

(** The valid sizes, keyinfo.py:58-63; the first is the default (line 53). *)
Definition sizes (t : ktype) : list Z :=
  match t with
  | AES => [128; 192; 256]
  | HMAC_SHA1 => [256]
  | DSA_PRIV | DSA_PUB => [1024]
  | RSA_PRIV | RSA_PUB => [2048; 4096; 1024; 768; 512]
  end.
Definition default_size (t : ktype) : Z := hd 0 (sizes t).

(** [IsValidSize], keyinfo.py:55-56. *)
Definition IsValidSize (t : ktype) (size : Z) : bool := existsb (Z.eqb size) (sizes t).

Definition all_types : list ktype := [AES; HMAC_SHA1; DSA_PRIV; DSA_PUB; RSA_PRIV; RSA_PUB].

(** [types[name]] and friends: dictionary lookup by name. *)
Fixpoint by_name {A} (name_of : A -> string) (l : list A) (n : text) : res A :=
  match l with
  | [] => Raise KeyczarError
  | a :: l' => if text_eqb (tx (name_of a)) n then Ok a else by_name name_of l' n
  end.

(** [GetType], keyinfo.py:67-71. *)
Definition GetType (n : text) : res ktype := by_name type_name all_types n.

(** The statuses, keyinfo.py:82-85. *)
Inductive status := PRIMARY | ACTIVE | INACTIVE.
Definition status_eqb (a b : status) : bool :=
  match a, b with
  | PRIMARY, PRIMARY | ACTIVE, ACTIVE | INACTIVE, INACTIVE => true
  | _, _ => false
  end.
Definition status_name (s : status) : string :=
  match s with PRIMARY => "PRIMARY" | ACTIVE => "ACTIVE" | INACTIVE => "INACTIVE" end%string.

(** [GetStatus], keyinfo.py:87-91. *)
Definition GetStatus (n : text) : res status := by_name status_name [PRIMARY; ACTIVE; INACTIVE] n.

(** The purposes, keyinfo.py:102-107. *)
Inductive purpose := DECRYPT_AND_ENCRYPT | ENCRYPT | SIGN_AND_VERIFY | VERIFY.
Definition purpose_eqb (a b : purpose) : bool :=
  match a, b with
  | DECRYPT_AND_ENCRYPT, DECRYPT_AND_ENCRYPT | ENCRYPT, ENCRYPT
  | SIGN_AND_VERIFY, SIGN_AND_VERIFY | VERIFY, VERIFY => true
  | _, _ => false
  end.
Definition purpose_name (p : purpose) : string :=
  match p with
  | DECRYPT_AND_ENCRYPT => "DECRYPT_AND_ENCRYPT" | ENCRYPT => "ENCRYPT"
  | SIGN_AND_VERIFY => "SIGN_AND_VERIFY" | VERIFY => "VERIFY"
  end%string.

(** [GetPurpose], keyinfo.py:109-113. *)
Definition GetPurpose (n : text) : res purpose :=
  by_name purpose_name [DECRYPT_AND_ENCRYPT; ENCRYPT; SIGN_AND_VERIFY; VERIFY] n.

(** The cipher modes, keyinfo.py:129-133. *)
Inductive mode := CBC | CTR | ECB | DET_CBC.
Definition mode_name (m : mode) : string :=
  match m with CBC => "CBC" | CTR => "CTR" | ECB => "ECB" | DET_CBC => "DET_CBC" end%string.

(** [GetMode], keyinfo.py:135-139. *)
Definition GetMode (n : text) : res mode := by_name mode_name [CBC; CTR; ECB; DET_CBC] n.

(** [Key.__SetSize] after [Key.__init__], keys.py:121-123, 130-132: the size given to a
    constructor is kept if it is valid and silently replaced by the default otherwise. *)
Definition set_size (t : ktype) (size : Z) : Z :=
  if IsValidSize t size then size else default_size t.
