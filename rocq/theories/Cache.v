(** * Cache: the memory of the decorator Memoize, util.py:849-867, and the sessions that use it. *)
From Coq Require Import List ZArith Bool.
From Coq.Init Require Import Byte.
From Verif Require Import PyBase Keys KeyData Keyczar Session.
Import ListNotations.

(** The dictionary [memory], util.py:854: from pickled arguments to the values returned for them.
    There is one for each decorated function and process; nothing is ever taken out of it. *)
Definition memory (B : Type) := list (str * B).

(** [memo], util.py:857-863.  [pickle] is [pickle.dumps((args, sorted(kwargs.items())))], a function
    of the library; [func] is the decorated function.  An exception in it is passed on and nothing
    is stored. *)
Definition memo {A B} (pickle : A -> str) (func : A -> res B) (mem : memory B) (a : A) : memory B * res B :=
  match assoc str_eqb mem (pickle a) with
  | Some b => (mem, Ok b)
  | None =>
      match func a with
      | Ok b => (mem ++ [(pickle a, b)], Ok b)
      | Raise e => (mem, Raise e)
      end
  end.

(** The property [_Session.crypter], keyczar.py:729-735, with the memory. *)
Definition cached_crypter (pickle : session -> str) (mem : memory keyset) (s : session) : memory keyset * res keyset :=
  memo pickle session_crypter mem s.

(** The calls that use it: [Encrypt] and [Decrypt] of the four session classes, keyczar.py:777-781,
    793-798, 820-822 and 835-843. *)
Inductive session_call :=
| CallEncrypt (e : env) (s : session) (plaintext : str) (encoder : codec)
| CallDecrypt (s : session) (ciphertext : str) (decoder : codec)
| CallSignedEncrypt (e e' : env) (s : session) (signer : keyset) (plaintext : str)
| CallSignedDecrypt (s : session) (verifier : keyset) (signed_ciphertext : str).

(** One call; [Ok None] is the result None of SignedSessionDecrypter.Decrypt. *)
Definition cached_call (pickle : session -> str) (mem : memory keyset) (c : session_call) : memory keyset * res (option str) :=
  match c with
  | CallEncrypt e s p encoder =>
      let (mem', k) := cached_crypter pickle mem s in
      (mem', let* k := k in let* x := Encrypt e k p encoder in Ok (Some x))
  | CallDecrypt s x decoder =>
      let (mem', k) := cached_crypter pickle mem s in
      (mem', let* k := k in let* p := Decrypt k x decoder in Ok (Some p))
  | CallSignedEncrypt e e' s signer p =>
      let (mem', k) := cached_crypter pickle mem s in
      (mem', let* k := k in let* ct := Encrypt e k p None in
             let* x := AttachedSign e' signer ct (se_nonce s) b64_encoder in Ok (Some x))
  | CallSignedDecrypt s verifier x =>
      match AttachedVerify verifier x (se_nonce s) b64_decoder with
      | Raise ex => (mem, Raise ex)
      | Ok None | Ok (Some []) => (mem, Ok None)
      | Ok (Some ciphertext) =>
          let (mem', k) := cached_crypter pickle mem s in
          (mem', let* k := k in let* p := Decrypt k ciphertext None in Ok (Some p))
      end
  end.

(** The calls of a process, one after the other, from the memory it starts with. *)
Fixpoint cached_calls (pickle : session -> str) (mem : memory keyset) (cs : list session_call) : memory keyset * list (res (option str)) :=
  match cs with
  | [] => (mem, [])
  | c :: cs' => let (mem', r) := cached_call pickle mem c in
                let (mem'', rs) := cached_calls pickle mem' cs' in (mem'', r :: rs)
  end.
