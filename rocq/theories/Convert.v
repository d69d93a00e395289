(** * Convert: cpp/src/keyczar/keyczar_tool/convert_keyset.py, the script that copies a key set into
    another directory and puts a zero byte in front of every number of its RSA and DSA keys. *)
From Coq Require Import Strings.String.
From Coq Require Import List ZArith NArith Bool.
From Coq.Init Require Import Byte.
From Verif Require Import PyBase Base64 Json KeyData Disk.
Import ListNotations.
Local Open Scope Z_scope.

(** [FIELDS], convert_keyset.py:23-39. *)
Definition FIELDS : list text :=
  map tx ["crtCoefficient"; "primeExponentP"; "primeExponentQ"; "primeP"; "primeQ"; "privateExponent"; "modulus"; "publicExponent";
          "g"; "p"; "q"; "y"; "x"]%string.

(** [field in FIELDS] *)
Definition in_fields (k : text) : bool := existsb (text_eqb k) FIELDS.

(** [read_file], convert_keyset.py:41-48. *)
Definition read_file (l n : str) : prog str :=
  Read l n (fun o => match o with Some s => Done (Ok s) | None => Done (Raise IOError) end).

(** [write_file], convert_keyset.py:50-55. *)
Definition write_file (l n data : str) : prog unit :=
  OpenW l n (fun ok => if ok then Write l n data (Done (Ok tt)) else Done (Raise IOError)).

(** [b64_decode], convert_keyset.py:57-67: line breaks are not removed, and errors are Python's own. *)
Definition b64_decode (u : text) : res str :=
  let* s := str_of_text (filter (fun c => negb (c =? 32)%N) u) in
  let d := len s mod 4 in
  if d =? 1 then Raise ValueError
  else
    let s := if d =? 2 then s ++ ["="%byte; "="%byte]
             else if d =? 3 then s ++ ["="%byte] else s in
    a2b_base64 (map of_urlsafe s).

(** [b64_encode], convert_keyset.py:69-71. *)
Definition b64_encode (s : str) : str :=
  filter (fun c => negb (beqb c "="%byte)) (map to_urlsafe (b2a_base64 s)).

(** Whether the dictionary made of these members gets its value of [k] from one of them. *)
Definition has_member (m : list (text * json)) (k : text) : bool :=
  match last_member m k with Some _ => true | None => false end.

(** [rewrite_inplace_rec], convert_keyset.py:73-79.  Of members of one name a dictionary holds the
    last.  Simplifications: the members are visited in the order of the text, so of two errors the
    first in the text is raised; a key file that is not an object is a TypeError (for some arrays
    and the empty string the script goes on). *)
Fixpoint rewrite_rec (d : json) : res json :=
  match d with
  | JObj m =>
      let* m' :=
        (fix go (m : list (text * json)) : res (list (text * json)) :=
           match m with
           | [] => Ok []
           | (k, v) :: m' =>
               if has_member m' k then go m'
               else
                 let* v1 := match v with JObj _ => rewrite_rec v | _ => Ok v end in
                 let* v2 :=
                   if in_fields k then
                     match v1 with
                     | JStr s => let* b := b64_decode s in Ok (JStr (text_of_str (b64_encode (x00 :: b))))
                     | _ => Raise AttributeError
                     end
                   else Ok v1 in
                 let* r := go m' in
                 Ok ((k, v2) :: r)
           end) m in
      Ok (JObj m')
  | _ => Raise TypeError
  end.

(** The text [rewrite_key] writes for the text it has read, convert_keyset.py:83-85. *)
Definition rewrite_text (orig_json : str) : res str :=
  let* key := loads orig_json in
  let* key' := rewrite_rec key in
  Ok (dumps key').

(** [rewrite_key], convert_keyset.py:81-86. *)
Definition rewrite_key (src dst : str) (version : Z) : prog unit :=
  do orig_json <- read_file src (int_to_str version);
  do new_json <- pure (rewrite_text orig_json);
  write_file dst (int_to_str version) new_json.

(** The loop of [iterate_meta], convert_keyset.py:92-93.  Simplification: a version number that is
    not an integer is a TypeError. *)
Fixpoint rewrite_keys (src dst : str) (versions : list json) : prog unit :=
  match versions with
  | [] => Done (Ok tt)
  | v :: vs =>
      do n <- pure (get_int v "versionNumber");
      do _ <- rewrite_key src dst n;
      rewrite_keys src dst vs
  end.

(** [for version in versions]: an empty string or object is no version. *)
Definition iterated (v : json) : res (list json) :=
  match v with
  | JArr l => Ok l
  | JStr [] | JObj [] => Ok []
  | _ => Raise TypeError
  end.

(** [iterate_meta], convert_keyset.py:88-94. *)
Definition iterate_meta (src dst : str) : prog unit :=
  do json_string <- read_file src (bs "meta");
  do meta <- pure (loads json_string);
  do versions <- pure (get meta "versions");
  do l <- pure (iterated versions);
  do _ <- rewrite_keys src dst l;
  write_file dst (bs "meta") json_string.

(** [doit], convert_keyset.py:96-101: without one of the directories it only complains. *)
Definition doit (src dst : str) : prog unit :=
  IsDir src (fun b => if b then IsDir dst (fun b => if b then iterate_meta src dst else Done (Ok tt)) else Done (Ok tt)).

(** The script itself, convert_keyset.py:103-106: with other than two arguments it complains and goes
    on all the same.  Not modelled: the text it writes to the standard error. *)
Definition script (argv : list str) : prog unit :=
  match argv with
  | _ :: src :: dst :: _ => doit src dst
  | _ => Done (Raise IndexError)
  end.
