(** * Base64: web-safe Base64, python/src/keyczar/util.py:344-394. *)
From Coq Require Import List ZArith NArith Bool.
From Coq.Init Require Import Byte.
From Verif Require Import PyBase.
Import ListNotations.
Local Open Scope Z_scope.

(** The standard Base64 character for a 6-bit value: the table of
    [binascii.b2a_base64], called by [base64.urlsafe_b64encode] at util.py:357. *)
Definition b64_char (v : Z) : byte :=
  if v <? 26 then chr (65 + v)
  else if v <? 52 then chr (97 + (v - 26))
  else if v <? 62 then chr (48 + (v - 52))
  else if v =? 62 then "+"%byte
  else "/"%byte.

(** [binascii.b2a_base64] without the trailing newline (util.py:357). *)
Fixpoint b2a_base64 (s : str) : str :=
  match s with
  | a :: b :: c :: s' =>
      let x := ord a in let y := ord b in let z := ord c in
      b64_char (x / 4) :: b64_char ((x mod 4) * 16 + y / 16)
        :: b64_char ((y mod 16) * 4 + z / 64) :: b64_char (z mod 64) :: b2a_base64 s'
  | [a; b] =>
      let x := ord a in let y := ord b in
      [b64_char (x / 4); b64_char ((x mod 4) * 16 + y / 16);
       b64_char ((y mod 16) * 4); "="%byte]
  | [a] =>
      let x := ord a in
      [b64_char (x / 4); b64_char ((x mod 4) * 16); "="%byte; "="%byte]
  | [] => []
  end.

(** The '+/' to '-_' translation of [base64.urlsafe_b64encode] (util.py:357). *)
Definition to_urlsafe (c : byte) : byte :=
  if beqb c "+"%byte then "-"%byte else if beqb c "/"%byte then "_"%byte else c.

(** The '-_' to '+/' translation of [base64.urlsafe_b64decode] (util.py:391). *)
Definition of_urlsafe (c : byte) : byte :=
  if beqb c "-"%byte then "+"%byte else if beqb c "_"%byte then "/"%byte else c.

(** [Base64WSEncode], util.py:344-357. *)
Definition Base64WSEncode (s : str) : str :=
  filter (fun c => negb (beqb c "="%byte)) (map to_urlsafe (b2a_base64 s)).

(** The decoding table of [binascii.a2b_base64]; '=' has an entry (0). *)
Definition b64_val (c : byte) : option Z :=
  let n := ord c in
  if (65 <=? n) && (n <=? 90) then Some (n - 65)
  else if (97 <=? n) && (n <=? 122) then Some (n - 97 + 26)
  else if (48 <=? n) && (n <=? 57) then Some (n - 48 + 52)
  else if n =? 43 then Some 62
  else if n =? 47 then Some 63
  else if n =? 61 then Some 0
  else None.

(** [binascii_find_valid]: the [(num+1)]-th character that has a table entry. *)
Fixpoint find_valid (s : str) (num : nat) : option byte :=
  match s with
  | [] => None
  | c :: s' =>
      match b64_val c with
      | Some _ => match num with O => Some c | S m => find_valid s' m end
      | None => find_valid s' num
      end
  end.

(** The loop of CPython's [binascii.a2b_base64] (called at util.py:391): characters
    without a table entry are skipped, [quad] is the position in the group of four,
    [lbits] bits are left in [lchar].  [binascii.Error] ("Incorrect padding") is
    turned into TypeError by the [base64] module. *)
Fixpoint a2b_loop (s : str) (quad lbits lchar : Z) : res str :=
  match s with
  | [] => if lbits =? 0 then Ok [] else Raise TypeError
  | c :: s' =>
      if beqb c "="%byte then
        if (quad <? 2) ||
           ((quad =? 2) && negb (match find_valid s 1 with
                                 | Some d => beqb d "="%byte
                                 | None => false
                                 end))
        then a2b_loop s' quad lbits lchar
        else Ok []
      else
        match b64_val c with
        | None => a2b_loop s' quad lbits lchar
        | Some v =>
            let quad' := (quad + 1) mod 4 in
            let lchar' := lchar * 64 + v in
            let lbits' := lbits + 6 in
            if 8 <=? lbits' then
              let lb := lbits' - 8 in
              let* rest := a2b_loop s' quad' lb (lchar' mod (2 ^ lb)) in
              Ok (chr (lchar' / 2 ^ lb) :: rest)
            else a2b_loop s' quad' lbits' lchar'
        end
  end.

(** [binascii.a2b_base64] *)
Definition a2b_base64 (s : str) : res str := a2b_loop s 0 0 0.

(** Line breaks of byte strings: [''.join(s.splitlines())] removes CR and LF. *)
Definition is_eol (c : byte) : bool := beqb c x0a || beqb c x0d.

Definition is_space (c : byte) : bool := beqb c " "%byte.

(** The part of [Base64WSDecode] after whitespace removal, util.py:383-394. *)
Definition decode_stripped (s : str) : res str :=
  let d := len s mod 4 in
  if d =? 1 then Raise Base64DecodingError
  else
    let s := if d =? 2 then s ++ ["="%byte; "="%byte]
             else if d =? 3 then s ++ ["="%byte] else s in
    match a2b_base64 (map of_urlsafe s) with
    | Ok b => Ok b
    | Raise TypeError => Raise Base64DecodingError
    | Raise e => Raise e
    end.

(** [Base64WSDecode] on a byte string, util.py:365-394. *)
Definition Base64WSDecode (s : str) : res str :=
  decode_stripped (filter (fun c => negb (is_space c)) (filter (fun c => negb (is_eol c)) s)).

(** Line breaks of unicode strings ([unicode.splitlines]). *)
Definition is_ueol (c : N) : bool :=
  ((c =? 10) || (c =? 11) || (c =? 12) || (c =? 13) || (c =? 28) || (c =? 29) || (c =? 30)
   || (c =? 133) || (c =? 8232) || (c =? 8233))%N.

(** [Base64WSDecode] on a unicode string (a JSON value), util.py:365-394:
    [str(...)] at line 382 raises UnicodeEncodeError on non-ASCII text. *)
Definition Base64WSDecode_u (u : text) : res str :=
  let* s := str_of_text (filter (fun c => negb (c =? 32)%N) (filter (fun c => negb (is_ueol c)) u)) in
  decode_stripped s.
