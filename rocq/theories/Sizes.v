(** * Sizes: the sizes keyinfo.py announces. *)
From Coq Require Import ZArith.
From Verif Require Import KeyInfo.
Local Open Scope Z_scope.

(** [output_size] of a key type, keyinfo.py:57-62: the size of a signature, 0 for AES. *)
Definition output_size (t : ktype) : Z :=
  match t with
  | AES => 0
  | HMAC_SHA1 => 20
  | DSA_PRIV => 48
  | DSA_PUB => 48
  | RSA_PRIV => 256
  | RSA_PUB => 256
  end.

(** [GetOutputSize] of a cipher mode, keyinfo.py:128-131; [b] is the size of a block and [i] that of
    the input.  [/] is that of Python 2. *)
Definition GetOutputSize (m : mode) (b i : Z) : Z :=
  match m with
  | CBC => (i / b + 2) * b
  | CTR => i + b / 2
  | ECB => b
  | DET_CBC => (i / b + 1) * b
  end.
