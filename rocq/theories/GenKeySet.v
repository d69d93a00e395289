(** * GenKeySet: the genkey command.  Models [KEYSETS], [GenKeySet], [Clean], [UseKey] and
    [_CreateCrypter] of python/src/keyczar/keyczart.py. *)
From Coq Require Import Strings.String.
From Coq Require Import List ZArith NArith Bool.
From Coq.Init Require Import Byte.
From Verif Require Import PyBase Base64 Util Json KeyInfo SymKeys AsymKeys Keys KeyData Keyczar Disk Keyczart.
Import ListNotations.
Local Open Scope Z_scope.

(** [os.path.join(a, b)] (posixpath) for a relative [b]. *)
Definition ends_with_slash (a : str) : bool := match rev a with c :: _ => beqb c "/"%byte | [] => false end.
Definition path_join (a b : str) : str :=
  match a with
  | [] => b
  | _ => if ends_with_slash a then a ++ b else a ++ bs "/" ++ b
  end.

(** [KEYSETS], keyczart.py:34-39. *)
Definition KEYSETS : list (str * purpose * option str * option str) :=
  [(bs "aes", DECRYPT_AND_ENCRYPT, None, None);
   (bs "aes-crypted", DECRYPT_AND_ENCRYPT, None, Some (bs "aes"));
   (bs "hmac", SIGN_AND_VERIFY, None, None);
   (bs "rsa", DECRYPT_AND_ENCRYPT, Some (bs "rsa"), None);
   (bs "rsa-sign", SIGN_AND_VERIFY, Some (bs "rsa"), None);
   (bs "dsa", SIGN_AND_VERIFY, Some (bs "dsa"), None)].

(** [_CreateCrypter], keyczart.py:163-165. *)
Definition CreateCrypter (loc : str) : prog keyset := read_location Crypter loc.

(** [Clean], keyczart.py:189-193: the loop, then the whole.  The OSError of [os.listdir] and
    [os.remove] is [IOError] in the model. *)
Fixpoint clean_files (l : str) (names : list str) : prog unit :=
  match names with
  | [] => Done (Ok tt)
  | n :: names' =>
      IsDir (path_join l n) (fun b =>
        if b then clean_files l names'
        else Remove l n (fun ok => if ok then clean_files l names' else Done (Raise IOError)))
  end.
Definition Clean (l : str) : prog unit :=
  List l (fun o => match o with Some names => clean_files l names | None => Done (Raise IOError) end).

(** The default message, keyczart.py:195. *)
Definition test_msg : str := bs "This is some test data".

(** [UseKey], keyczart.py:195-207, with the default message; [dest] is the file [n] in [l].  [e]
    is the randomness used. *)
Definition UseKey (p : purpose) (l n : str) (crypter : option keyset) (e : env) : prog unit :=
  do _ <- CreateReader l;
  do answer <- match p with
               | DECRYPT_AND_ENCRYPT => do ks <- open_files Crypter l crypter; pure (Encrypt e ks test_msg b64_encoder)
               | SIGN_AND_VERIFY => do ks <- open_files Signer l crypter; pure (Sign e ks test_msg b64_encoder)
               | _ => Done (Ok [])
               end;
  WriteFile answer l n.

(** What the random generators yield while one set is made: the draws for the two keys, the
    randomness for encrypting the key files, and that of the two messages. *)
Record luck := MkLuck { lk_ds1 : list draw; lk_es1 : nat -> env; lk_use1 : env; lk_ds2 : list draw; lk_es2 : nat -> env; lk_use2 : env }.

(** The body of the first loop of [GenKeySet], keyczart.py:169-179.  The size None given to [AddKey] has
    the same effect as -1. *)
Definition gen_set (loc : str) (x : str * purpose * option str * option str) (r : luck) : prog unit :=
  let '(name, p, a, crypter) := x in
  let d := path_join loc name in
  do c <- match crypter with
          | Some c => do ks <- CreateCrypter (path_join loc c); Done (Ok (Some ks))
          | None => Done (Ok None)
          end;
  do _ <- Clean d;
  do _ <- Create (Some d) (tx "Test") (Some p) a;
  do _ <- AddKeyCmd (Some d) PRIMARY c (-1) (lk_ds1 r) (lk_es1 r);
  do _ <- UseKey p d (bs "1.out") c (lk_use1 r);
  do _ <- AddKeyCmd (Some d) PRIMARY c (-1) (lk_ds2 r) (lk_es2 r);
  UseKey p d (bs "2.out") c (lk_use2 r).
Fixpoint gen_sets (loc : str) (xs : list (str * purpose * option str * option str)) (rs : nat -> luck) (i : nat) : prog unit :=
  match xs with
  | [] => Done (Ok tt)
  | x :: xs' => do _ <- gen_set loc x (rs i); gen_sets loc xs' rs (S i)
  end.

(** The second loop, keyczart.py:182-186. *)
Fixpoint export_sets (loc : str) (names : list str) : prog unit :=
  match names with
  | [] => Done (Ok tt)
  | n :: names' =>
      do _ <- PubKeyCmd (Some (path_join loc n)) (Some (path_join loc (n ++ bs ".public")));
      export_sets loc names'
  end.

(** [GenKeySet], keyczart.py:167-187; joining a path to None raises AttributeError.  The messages
    printed are not modelled. *)
Definition GenKeySet (rs : nat -> luck) (loc : option str) : prog unit :=
  match loc with
  | None => Done (Raise AttributeError)
  | Some l => do _ <- gen_sets l KEYSETS rs 0; export_sets l [bs "dsa"; bs "rsa-sign"]
  end.
