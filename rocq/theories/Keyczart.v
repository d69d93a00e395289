(** * Keyczart: key sets on disk.  Models the file readers and writers of readers.py and
    writers.py, the parts of keyczar.py that use them, and python/src/keyczar/keyczart.py. *)
From Coq Require Import Strings.String.
From Coq Require Import List ZArith NArith Bool.
From Coq.Init Require Import Byte.
From Verif Require Import PyBase Base64 Util Json KeyInfo SymKeys AsymKeys Keys KeyData Keyczar Disk.
Import ListNotations.
Local Open Scope Z_scope.

(** File names: "meta" and [str(version_number)]. *)
Definition meta_file : str := bs "meta".
Definition key_file (n : Z) : str := int_to_str n.

(** ** readers.py and writers.py *)

(** [CreateReader], readers.py:30-44.  [Reader.__subclasses__()] lists FileReader first and then
    StaticKeyReader, EncryptedReader and MockReader; the last three never accept a location
    (readers.py:136-139, 158-161, 220-223).  No other back ends are installed
    ([util.ImportBackends], util.py:856-896, finds none). *)
Definition FileReader_CreateReader (l : str) : prog bool := IsDir l (fun b => Done (Ok b)).
Definition NoReader_CreateReader (l : str) : prog bool := Done (Ok false).

(** Which kind of reader was made. *)
Inductive reader_kind := IsFileReader | IsStaticKeyReader | IsEncryptedReader | IsMockReader.
Definition reader_classes : list (reader_kind * (str -> prog bool)) :=
  [(IsFileReader, FileReader_CreateReader); (IsStaticKeyReader, NoReader_CreateReader);
   (IsEncryptedReader, NoReader_CreateReader); (IsMockReader, NoReader_CreateReader)].
Fixpoint first_accepting {K} (l : list (K * (str -> prog bool))) (loc : str) : prog K :=
  match l with
  | [] => Done (Raise KeyczarError)
  | (k, c) :: l' => do b <- c loc; if b then Done (Ok k) else first_accepting l' loc
  end.
Definition CreateReader (loc : str) : prog reader_kind := first_accepting reader_classes loc.

(** [CreateWriter], writers.py:26-39; FileWriter (writers.py:142-150) is the only subclass. *)
Inductive writer_kind := IsFileWriter.
Definition FileWriter_CreateWriter (l : str) : prog bool := IsDir l (fun b => Done (Ok b)).
Definition CreateWriter (loc : str) : prog writer_kind := first_accepting [(IsFileWriter, FileWriter_CreateWriter)] loc.

(** [FileReader.GetMetadata] and [GetKey], readers.py:101-105; with a crypter, those of the
    [EncryptedReader] around it, readers.py:148-152. *)
Definition GetMetadata (l : str) : prog str := ReadFile l meta_file.
Definition GetKey (l : str) (crypter : option keyset) (n : Z) : prog str :=
  do s <- ReadFile l (key_file n);
  match crypter with None => Done (Ok s) | Some c => pure (Decrypt c s b64_decoder) end.

(** [FileWriter.WriteMetadata], writers.py:109-117. *)
Definition WriteMetadata (l : str) (m : metadata) (overwrite : bool) : prog unit :=
  let write := do s <- pure (meta_str m); WriteFile s l meta_file in
  if overwrite then write
  else IsFile l meta_file (fun b => if b then Done (Raise KeyczarError) else write).

(** [FileWriter.WriteKey], writers.py:119-127; [e] is the randomness of the encryption. *)
Definition WriteKey (l : str) (k : key) (n : Z) (encrypter : option keyset) (e : env) : prog unit :=
  do s <- pure (key_str k);
  do s <- match encrypter with None => Done (Ok s) | Some c => pure (Encrypt e c s b64_encoder) end;
  WriteFile s l (key_file n).

(** [FileWriter.Remove], writers.py:129-133. *)
Definition RemoveKey (l : str) (n : Z) : prog unit :=
  Remove l (key_file n) (fun ok => if ok then Done (Ok tt) else Done (Raise IOError)).

(** ** keyczar.py with files *)

(** The loop of [Keyczar.__init__], keyczar.py:58-68, as [load_keys] but calling the reader. *)
Fixpoint load_files (l : str) (crypter : option keyset) (t : ktype) (o : nat) (vs : list kversion)
    (primary : option nat) (vk : list (nat * key)) (hk : list (str * key))
    : prog (option nat * list (nat * key) * list (str * key)) :=
  match vs with
  | [] => Done (Ok (primary, vk, hk))
  | v :: vs' =>
      do primary <-
        (if status_eqb (v_status v) PRIMARY then
           match primary with
           | Some _ => Done (Raise KeyczarError)
           | None => Done (Ok (Some o))
           end
         else Done (Ok primary));
      do s <- GetKey l crypter (v_num v);
      do k <- pure (ReadKey t s);
      do h <- pure (key_hash_id k);
      load_files l crypter t (S o) vs' primary (vk ++ [(o, k)]) (dict_set str_eqb hk h k)
  end.

(** [Keyczar.__init__], keyczar.py:43-68, with a file reader, or with an encrypted reader around it. *)
Definition open_files (c : kclass) (l : str) (crypter : option keyset) : prog keyset :=
  do s <- GetMetadata l;
  do m <- pure (meta_Read s);
  if negb (IsAcceptablePurpose c (m_purpose m)) then Done (Raise KeyczarError)
  else if m_encrypted m && negb (match crypter with Some _ => true | None => false end) then Done (Raise KeyczarError)
  else
    let vs := meta_versions m in
    do x <- load_files l crypter (m_type m) 0 vs None [] [];
    let '(p, vk, hk) := x in
    Done (Ok (MkKs (m_name m) (m_purpose m) (m_type m) (m_encrypted m) vs
             (combine (map fst (m_versions m)) (seq 0 (length vs))) vk hk p)).

(** [X.Read(location)] for a class X, keyczar.py:95-106, 136-139, 302-314, 372-384, 493-505 and
    569-581; the unversioned classes make a FileReader themselves, keyczar.py:443-456 and 635-648. *)
Definition read_location (c : kclass) (loc : str) : prog keyset :=
  match c with
  | UnversionedVerifier | UnversionedSigner => open_files c loc None
  | _ => do _ <- CreateReader loc; open_files c loc None
  end.

(** The loop of [Write], keyczar.py:296-297.  [es i] is the randomness for the i-th key. *)
Fixpoint write_keys (l : str) (objs : list kversion) (vk : list (nat * key)) (encrypter : option keyset) (es : nat -> env) (i : nat) : prog unit :=
  match vk with
  | [] => Done (Ok tt)
  | (o, k) :: vk' =>
      do _ <- WriteKey l k (v_num (deref objs o)) encrypter (es i);
      write_keys l objs vk' encrypter es (S i)
  end.

(** The key set after [Write]: it remembers whether it was encrypted, keyczar.py:294. *)
Definition written (ks : keyset) (encrypter : option keyset) : keyset :=
  set_encrypted ks (match encrypter with Some _ => true | None => false end).

(** [GenericKeyczar.Write] with a FileWriter, keyczar.py:278-297. *)
Definition WriteSet (ks : keyset) (l : str) (encrypter : option keyset) (es : nat -> env) : prog unit :=
  do _ <- WriteMetadata l (ks_meta (written ks encrypter)) true;
  write_keys l (ks_objs ks) (ks_vkeys ks) encrypter es 0.

(** The loop of [PublicKeyExport], keyczar.py:266-272; gives the metadata collected. *)
Fixpoint export_keys (dest : str) (objs : list kversion) (vk : list (nat * key)) (m : metadata) : prog metadata :=
  match vk with
  | [] => Done (Ok m)
  | (o, k) :: vk' =>
      let v := deref objs o in
      let m := fst (meta_AddVersion m v) in
      do pub <- pure (public_key k);
      do s <- pure (key_str pub);
      do _ <- WriteFile s dest (key_file (v_num v));
      export_keys dest objs vk' m
  end.

(** [GenericKeyczar.PublicKeyExport], keyczar.py:253-276, without a mock. *)
Definition PublicKeyExport (ks : keyset) (dest : str) : prog unit :=
  do '(p, t) <- pure (public_meta ks);
  do m <- export_keys dest (ks_objs ks) (ks_vkeys ks) (MkMeta (ks_name ks) p t false []);
  do s <- pure (meta_str m);
  WriteFile s dest meta_file.

(** ** keyczart.py.  [mock] is None. *)

(** [CreateGenericKeyczar], keyczart.py:248-262. *)
Definition CreateGenericKeyczar (loc : option str) (crypter : option keyset) : prog keyset :=
  match loc with
  | None => Done (Raise KeyczarError)
  | Some l => do _ <- CreateReader l; open_files GenericKeyczar l crypter
  end.

(** [UpdateGenericKeyczar], keyczart.py:264-274.  Not called without a location. *)
Definition UpdateGenericKeyczar (ks : keyset) (loc : option str) (encrypter : option keyset) (es : nat -> env) : prog unit :=
  match loc with
  | None => Done (Raise TypeError)
  | Some l => do _ <- CreateWriter l; WriteSet ks l encrypter es
  end.

(** [str.lower] and [str.upper] on ASCII. *)
Definition lower_byte (b : byte) : byte := let n := ord b in if (65 <=? n) && (n <=? 90) then chr (n + 32) else b.
Definition upper_byte (b : byte) : byte := let n := ord b in if (97 <=? n) && (n <=? 122) then chr (n - 32) else b.
Definition lower (s : str) : str := map lower_byte s.
Definition upper (s : str) : str := map upper_byte s.

(** The key type of a new set, keyczart.py:96-110. *)
Definition create_type (p : option purpose) (asymmetric : option str) : res (purpose * ktype) :=
  match p with
  | Some SIGN_AND_VERIFY =>
      match asymmetric with
      | None => Ok (SIGN_AND_VERIFY, HMAC_SHA1)
      | Some a => if str_eqb (lower a) (bs "rsa") then Ok (SIGN_AND_VERIFY, RSA_PRIV) else Ok (SIGN_AND_VERIFY, DSA_PRIV)
      end
  | Some DECRYPT_AND_ENCRYPT =>
      match asymmetric with
      | None => Ok (DECRYPT_AND_ENCRYPT, AES)
      | Some _ => Ok (DECRYPT_AND_ENCRYPT, RSA_PRIV)
      end
  | _ => Raise KeyczarError
  end.

(** [Create], keyczart.py:92-119. *)
Definition Create (loc : option str) (name : text) (p : option purpose) (asymmetric : option str) : prog unit :=
  match loc with
  | None => Done (Raise KeyczarError)
  | Some l =>
      do '(p, t) <- pure (create_type p asymmetric);
      do _ <- CreateWriter l;
      WriteMetadata l (MkMeta name p t false []) false
  end.

(** [AddKey], keyczart.py:121-126. *)
Definition AddKeyCmd (loc : option str) (s : status) (crypter : option keyset) (size : Z) (ds : list draw) (es : nat -> env) : prog unit :=
  do ks <- CreateGenericKeyczar loc crypter;
  let '(ks', r) := AddVersion ks ds s (if size =? -1 then None else Some size) in
  do _ <- pure r;
  UpdateGenericKeyczar ks' loc crypter es.

(** [PubKey], keyczart.py:128-132. *)
Definition PubKeyCmd (loc dest : option str) : prog unit :=
  match dest with
  | None => Done (Raise KeyczarError)
  | Some d => do ks <- CreateGenericKeyczar loc None; PublicKeyExport ks d
  end.

(** What [Promote], [Demote] and [Revoke], keyczart.py:134-153, have in common. *)
Definition ChangeCmd (change : keyset -> Z -> keyset * res unit) (loc : option str) (num : Z) (es : nat -> env) : prog unit :=
  do ks <- CreateGenericKeyczar loc None;
  if num <? 0 then Done (Raise KeyczarError)
  else
    let '(ks', r) := change ks num in
    do _ <- pure r;
    UpdateGenericKeyczar ks' loc None es.

(** [Promote], keyczart.py:134-139. *)
Definition PromoteCmd := ChangeCmd Promote.
(** [Demote], keyczart.py:141-146. *)
Definition DemoteCmd := ChangeCmd Demote.
(** [Revoke], keyczart.py:148-161. *)
Definition RevokeCmd (loc : option str) (num : Z) (es : nat -> env) : prog unit :=
  do _ <- ChangeCmd Revoke loc num es;
  match loc with
  | None => Done (Raise TypeError)
  | Some l => do _ <- CreateWriter l; RemoveKey l num
  end.

(** ** The command line, keyczart.py:280-328 *)

Inductive command := CREATE | ADDKEY | PUBKEY | PROMOTE | DEMOTE | REVOKE | GENKEY.
Inductive flag := LOCATION | NAME | SIZE | STATUS | PURPOSE | DESTINATION | VERSION_FLAG | ASYMMETRIC | CRYPTER.

Definition commands : list (str * command) :=
  [(bs "create", CREATE); (bs "addkey", ADDKEY); (bs "pubkey", PUBKEY); (bs "promote", PROMOTE);
   (bs "demote", DEMOTE); (bs "revoke", REVOKE); (bs "genkey", GENKEY)].
Definition flags : list (str * flag) :=
  [(bs "location", LOCATION); (bs "name", NAME); (bs "size", SIZE); (bs "status", STATUS); (bs "purpose", PURPOSE);
   (bs "destination", DESTINATION); (bs "version", VERSION_FLAG); (bs "asymmetric", ASYMMETRIC); (bs "crypter", CRYPTER)].

(** [GetCommand], keyczart.py:64-68. *)
Definition GetCommand (s : str) : res command :=
  match assoc str_eqb commands s with Some c => Ok c | None => Raise KeyczarError end.
(** [GetFlag], keyczart.py:86-90. *)
Definition GetFlag (s : str) : res flag :=
  match assoc str_eqb flags s with Some c => Ok c | None => Raise KeyczarError end.

Definition flag_eqb (a b : flag) : bool :=
  match a, b with
  | LOCATION, LOCATION | NAME, NAME | SIZE, SIZE | STATUS, STATUS | PURPOSE, PURPOSE | DESTINATION, DESTINATION
  | VERSION_FLAG, VERSION_FLAG | ASYMMETRIC, ASYMMETRIC | CRYPTER, CRYPTER => true
  | _, _ => false
  end.

(** [arg.split("=")] *)
Fixpoint split_eq (s : str) (cur : str) : list str :=
  match s with
  | [] => [cur]
  | c :: s' => if beqb c "="%byte then cur :: split_eq s' [] else split_eq s' (cur ++ [c])
  end.

(** The loop over the arguments, keyczart.py:286-294.  A flag without exactly one "=" is reported
    and skipped; an unknown one raises. *)
Fixpoint parse_flags (argv : list str) (fl : list (flag * str)) : res (list (flag * str)) :=
  match argv with
  | [] => Ok fl
  | a :: argv' =>
      match a with
      | "-"%byte :: "-"%byte :: rest =>
          match split_eq rest [] with
          | [name; val] => let* g := GetFlag name in parse_flags argv' (dict_set flag_eqb fl g val)
          | _ => parse_flags argv' fl
          end
      | _ => parse_flags argv' fl
      end
  end.

(** [int(s)] for a byte string in Python 2: white space around, an optional sign, decimal digits.
    (Python 3 takes more characters for white space and allows underscores between digits.) *)
Fixpoint all_digits (s : str) (acc : Z) : option Z :=
  match s with
  | [] => Some acc
  | c :: s' => if is_digit c then all_digits s' (acc * 10 + (ord c - 48)) else None
  end.
Definition is_ws (c : byte) : bool := let n := ord c in ((9 <=? n) && (n <=? 13)) || (n =? 32).
Fixpoint lstrip_ws (s : str) : str :=
  match s with c :: s' => if is_ws c then lstrip_ws s' else s | [] => [] end.
Definition py_int (s : str) : res Z :=
  let s := rev (lstrip_ws (rev (lstrip_ws s))) in
  let digits (s : str) := match s with [] => None | _ => all_digits s 0 end in
  match (match s with
         | "-"%byte :: s' => option_map Z.opp (digits s')
         | "+"%byte :: s' => digits s'
         | _ => digits s
         end) with
  | Some n => Ok n
  | None => Raise ValueError
  end.

(** [int(flags.get(F, -1))] *)
Definition int_flag (fl : list (flag * str)) (g : flag) : res Z :=
  match assoc flag_eqb fl g with Some s => py_int s | None => Ok (-1) end.

(** The try block, keyczart.py:296-302: the values of the variables [version] and [size]; None if
    unassigned, in which case using the variable raises UnboundLocalError, a NameError. *)
Definition int_flags (fl : list (flag * str)) : option Z * option Z :=
  match int_flag fl VERSION_FLAG with
  | Raise _ => (None, None)
  | Ok v => match int_flag fl SIZE with Raise _ => (Some v, None) | Ok z => (Some v, Some z) end
  end.
Definition var (x : option Z) : prog Z := match x with Some z => Done (Ok z) | None => Done (Raise NameError) end.

(** The purpose table, keyczart.py:307-308. *)
Definition purpose_flag (s : option str) : option purpose :=
  match s with
  | Some s => if str_eqb s (bs "crypt") then Some DECRYPT_AND_ENCRYPT
              else if str_eqb s (bs "sign") then Some SIGN_AND_VERIFY else None
  | None => None
  end.

(** [main], keyczart.py:280-328; messages printed are not modelled, arguments are byte strings
    (names are ASCII), [genkey] stands for [GenKeySet]. *)
Definition main (genkey : option str -> prog unit) (argv : list str) (ds : list draw) (es : nat -> env) : prog unit :=
  match argv with
  | [] => Done (Ok tt)
  | a0 :: _ =>
      do cmd <- pure (GetCommand a0);
      do fl <- pure (parse_flags argv []);
      let '(version, size) := int_flags fl in
      let get g := assoc flag_eqb fl g in
      let loc := get LOCATION in
      match cmd with
      | CREATE => Create loc (text_of_str (match get NAME with Some n => n | None => bs "Test" end))
                         (purpose_flag (get PURPOSE)) (get ASYMMETRIC)
      | ADDKEY =>
          do s <- pure (GetStatus (text_of_str (upper (match get STATUS with Some s => s | None => bs "ACTIVE" end))));
          do crypter <- match get CRYPTER with
                        | Some c => do ks <- read_location Crypter c; Done (Ok (Some ks))
                        | None => Done (Ok None)
                        end;
          do z <- var size;
          AddKeyCmd loc s crypter z ds es
      | PUBKEY => PubKeyCmd loc (get DESTINATION)
      | PROMOTE => do v <- var version; PromoteCmd loc v es
      | DEMOTE => do v <- var version; DemoteCmd loc v es
      | REVOKE => do v <- var version; RevokeCmd loc v es
      | GENKEY => genkey loc
      end
  end.
