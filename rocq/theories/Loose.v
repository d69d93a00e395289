(** * Loose: metadata and key files whose values have any JSON type, python/src/keyczar/keydata.py:101-149,
    the [Read] methods of python/src/keyczar/keys.py, [Keyczar.__init__] and [FileReader].

    KeyData.v, SymKeys.v and AsymKeys.v refuse with TypeError a value that has not the documented
    JSON type.  Python finds out when the value is used, or never.  This file models reading and
    opening value by value; Props_Loose.v compares the two.  Simplifications: a number with a
    fraction or an exponent is kept as written (so 1.0 is not the version number 1, and is no
    valid size), and is false if all digits before
    its exponent are 0 (so 1e-999 is true, where Python has 0.0). *)
From Coq Require Import Strings.String.
From Coq Require Import List ZArith NArith Bool.
From Coq.Init Require Import Byte.
From Verif Require Import PyBase Base64 Util Json KeyInfo SymKeys AsymKeys Keys KeyData Keyczar.
Import ListNotations.
Local Open Scope Z_scope.

(** ** Python values that come from JSON *)

(** The part of a number before its exponent. *)
Fixpoint mantissa (s : str) : str :=
  match s with [] => [] | c :: s' => if beqb c "e"%byte || beqb c "E"%byte then [] else c :: mantissa s' end.

(** [bool(v)].  Simplification: a number so small that its float is 0.0 counts as true. *)
Definition truth (v : json) : bool :=
  match v with
  | JNull => false
  | JBool b => b
  | JInt n => negb (n =? 0)
  | JFloat s => existsb (fun c => (49 <=? ord c) && (ord c <=? 57) || beqb c "N"%byte || beqb c "I"%byte) (mantissa s)
  | JStr s => match s with [] => false | _ => true end
  | JArr l => match l with [] => false | _ => true end
  | JObj m => match m with [] => false | _ => true end
  end.

(** [hash(v)] works: lists and dictionaries have no hash (TypeError). *)
Definition hashable (v : json) : bool := match v with JArr _ | JObj _ => false | _ => true end.

(** A number, for [==]: True is 1 and False is 0. *)
Definition number (v : json) : option Z :=
  match v with JInt n => Some n | JBool true => Some 1 | JBool false => Some 0 | _ => None end.

(** [a == b] for values that have a hash. *)
Definition py_eqb (a b : json) : bool :=
  match number a, number b with
  | Some x, Some y => x =? y
  | None, None =>
      match a, b with
      | JNull, JNull => true
      | JFloat s, JFloat t => str_eqb s t
      | JStr s, JStr t => text_eqb s t
      | _, _ => false
      end
  | _, _ => false
  end.

(** [table[v]] for a table whose keys are strings, with KeyError turned into KeyczarError:
    keyinfo.py:67-71, 87-91, 109-113, 135-139. *)
Definition named {A} (lookup : text -> res A) (v : json) : res A :=
  match v with
  | JStr s => lookup s
  | JArr _ | JObj _ => Raise TypeError
  | _ => Raise KeyczarError
  end.

(** [for x in v]: the items of a list, the names in a dictionary, the characters of a string;
    TypeError for anything else. *)
Definition items (v : json) : res (list json) :=
  match v with
  | JArr l => Ok l
  | JObj m => Ok (map (fun p => JStr (fst p)) m)
  | JStr s => Ok (map (fun c => JStr [c]) s)
  | _ => Raise TypeError
  end.

(** ** Metadata *)

Record lversion := MkLVersion { lv_num : json; lv_status : status; lv_export : json }.
Record lmeta := MkLMeta { lm_name : json; lm_purpose : purpose; lm_type : ktype; lm_encrypted : json; lm_versions : list lversion }.

(** [KeyVersion.Read], keydata.py:136-149. *)
Definition lversion_read (j : json) : res lversion :=
  let* n := get j "versionNumber" in
  let* s := get j "status" in
  let* st := named GetStatus s in
  let* e := get j "exportable" in
  Ok (MkLVersion n st e).

(** [KeyMetadata.AddVersion], keydata.py:50-65, on the values of the dictionary: [num not in
    self.__versions] needs a hash. *)
Definition ladd (vs : list lversion) (v : lversion) : res (list lversion) :=
  if negb (hashable (lv_num v)) then Raise TypeError
  else if existsb (fun w => py_eqb (lv_num w) (lv_num v)) vs then Ok vs
  else Ok (vs ++ [v]).

(** The loop of [KeyMetadata.Read], keydata.py:115-116. *)
Fixpoint ladds (vs : list lversion) (l : list json) : res (list lversion) :=
  match l with
  | [] => Ok vs
  | j :: l' => let* v := lversion_read j in let* vs := ladd vs v in ladds vs l'
  end.

(** [KeyMetadata.Read], keydata.py:101-117. *)
Definition lmeta_Read (s : str) : res lmeta :=
  let* j := loads s in
  let* n := get j "name" in
  let* p := get j "purpose" in
  let* p := named GetPurpose p in
  let* t := get j "type" in
  let* t := named GetType t in
  let* e := get j "encrypted" in
  let* vs := get j "versions" in
  let* l := items vs in
  let* vs := ladds [] l in
  Ok (MkLMeta n p t e vs).

(** ** Keys *)

(** [self.size = v] looks for [v] among the valid sizes, keys.py:130-132; 0 stands for a value
    that is no number, and is no valid size. *)
Definition size_value (v : json) : Z := match number v with Some n => n | None => 0 end.

(** [util.Base64WSDecode(v)], util.py:378: AttributeError, [v] has no [splitlines]. *)
Definition key_text (v : json) : res text := match v with JStr s => Ok s | _ => Raise AttributeError end.
Definition decoded (v : json) : res str := let* s := key_text v in Base64WSDecode_u s.
Definition lget_b64 (v : json) (name : string) : res str := let* w := get v name in decoded w.

(** [keys.ReadKey(t, s)] and then [key.hash_id], keyczar.py:65-68: the key and its identifier.
    The texts of symmetric keys are decoded when the identifier is computed. *)
Definition lhmac_open (s : str) : res (key * str) :=
  let* mac := loads s in
  let* ks := get mac "hmacKeyString" in
  let* size := get mac "size" in
  let* b := decoded ks in
  let* ts := key_text ks in
  Ok (KHmac (HmacKey_new ts (size_value size)), short_hash (Hash [b])).

Definition laes_open (s : str) : res (key * str) :=
  let* aes := loads s in
  let* hmac_val := get aes "hmacKey" in
  let* ks := get aes "aesKeyString" in
  let* hs := get hmac_val "hmacKeyString" in
  let* hsize := get hmac_val "size" in
  let* size := get aes "size" in
  let* mn := get aes "mode" in
  let* m := named GetMode mn in
  let* _ := (match m with CBC => Ok tt | _ => Raise AssertionError end) in
  let* b := decoded ks in
  let* h := decoded hs in
  let* ts := key_text ks in
  let* th := key_text hs in
  Ok (KAes (MkAes ts (HmacKey_new th (size_value hsize)) (set_size AES (size_value size))), short_hash (Hash [IntToBytes (len b); b; h])).

Definition lrsapub_read (s : str) : res rsapub :=
  let* rsa := loads s in
  let* m := lget_b64 rsa "modulus" in
  let* e := lget_b64 rsa "publicExponent" in
  let* size := get rsa "size" in
  Ok (RsaPublicKey_new m e (MkRsaPubNums (BytesToLong m) (BytesToLong e)) (size_value size)).

Definition lrsapriv_read (s : str) : res rsapriv :=
  let* rsa := loads s in
  let* pk := get rsa "publicKey" in
  let* pub := lrsapub_read (dumps pk) in
  let* d := lget_b64 rsa "privateExponent" in
  let* pp := lget_b64 rsa "primeP" in
  let* pq := lget_b64 rsa "primeQ" in
  let* ep := lget_b64 rsa "primeExponentP" in
  let* eq := lget_b64 rsa "primeExponentQ" in
  let* crt := lget_b64 rsa "crtCoefficient" in
  let k := MkRsaNums (MkRsaPubNums (BytesToLong (rp_modulus pub)) (BytesToLong (rp_exponent pub)))
                     (BytesToLong d) (BytesToLong pq) (BytesToLong pp) (BytesToLong crt) in
  let* size := get rsa "size" in
  Ok (MkRsaPriv d pp pq ep eq crt pub k (set_size RSA_PRIV (size_value size))).

Definition ldsapub_read (s : str) : res dsapub :=
  let* dsa := loads s in
  let* y := lget_b64 dsa "y" in
  let* p := lget_b64 dsa "p" in
  let* g := lget_b64 dsa "g" in
  let* q := lget_b64 dsa "q" in
  let* size := get dsa "size" in
  Ok (MkDsaPub p q g y (MkDsaPubNums (BytesToLong y) (BytesToLong g) (BytesToLong p) (BytesToLong q))
               (set_size DSA_PUB (size_value size))).

Definition ldsapriv_read (s : str) : res dsapriv :=
  let* dsa := loads s in
  let* pk := get dsa "publicKey" in
  let* pub := ldsapub_read (dumps pk) in
  let* x := lget_b64 dsa "x" in
  let k := MkDsaNums (MkDsaPubNums (BytesToLong (dp_y pub)) (BytesToLong (dp_g pub))
                                   (BytesToLong (dp_p pub)) (BytesToLong (dp_q pub))) (BytesToLong x) in
  let* size := get dsa "size" in
  Ok (MkDsaPriv x pub k (set_size DSA_PRIV (size_value size))).

Definition with_id (k : key) : res (key * str) := let* h := key_hash_id k in Ok (k, h).

Definition lread_key (t : ktype) (s : str) : res (key * str) :=
  key_error_to_keyczar
    match t with
    | AES => laes_open s
    | HMAC_SHA1 => lhmac_open s
    | DSA_PRIV => let* k := ldsapriv_read s in with_id (KDsaPriv k)
    | RSA_PRIV => let* k := lrsapriv_read s in with_id (KRsaPriv k)
    | DSA_PUB => let* k := ldsapub_read s in with_id (KDsaPub k)
    | RSA_PUB => let* k := lrsapub_read s in with_id (KRsaPub k)
    end.

(** ** Opening *)

(** A reader as in Keyczar.v that is asked for any value as a version number. *)
Record lreader := MkLReader { lrd_meta : res str; lrd_key : json -> res str; lrd_encrypted : bool }.

(** An opened key set: its metadata, primary version, and keys by version (position) and by identifier. *)
Record lset := MkLSet { ls_meta : lmeta; ls_primary : option nat; ls_vkeys : list (nat * key); ls_hkeys : list (str * key) }.

(** The loop of [Keyczar.__init__], keyczar.py:58-68. *)
Fixpoint lload (rd : lreader) (t : ktype) (o : nat) (vs : list lversion)
    (primary : option nat) (vk : list (nat * key)) (hk : list (str * key))
    : res (option nat * list (nat * key) * list (str * key)) :=
  match vs with
  | [] => Ok (primary, vk, hk)
  | v :: vs' =>
      let* primary :=
        (if status_eqb (lv_status v) PRIMARY then
           match primary with Some _ => Raise KeyczarError | None => Ok (Some o) end
         else Ok primary) in
      let* s := lrd_key rd (lv_num v) in
      let* (k, h) := lread_key t s in
      lload rd t (S o) vs' primary (vk ++ [(o, k)]) (dict_set str_eqb hk h k)
  end.

(** [Keyczar.__init__], keyczar.py:43-68. *)
Definition lopen (c : kclass) (rd : lreader) : res lset :=
  let* s := lrd_meta rd in
  let* m := lmeta_Read s in
  if negb (IsAcceptablePurpose c (lm_purpose m)) then Raise KeyczarError
  else if truth (lm_encrypted m) && negb (lrd_encrypted rd) then Raise KeyczarError
  else
    let* (p, vk, hk) := lload rd (lm_type m) 0 (lm_versions m) None [] [] in
    Ok (MkLSet m p vk hk).

(** ** Files *)

(** [str(v)]: UnicodeEncodeError for text that is not ASCII; a float is printed as it was written,
    and a list or dictionary is never asked for. *)
Definition py_str (v : json) : res str :=
  match v with
  | JNull => Ok (bs "None")
  | JBool true => Ok (bs "True")
  | JBool false => Ok (bs "False")
  | JInt n => Ok (int_to_str n)
  | JFloat s => Ok s
  | JStr u => str_of_text u
  | JArr _ | JObj _ => Raise TypeError
  end.

(** [os.path.join(a, b)] (posixpath): an absolute [b] replaces [a]. *)
Definition join (a b : str) : str :=
  match b with
  | c :: _ => if beqb c "/"%byte then b else
      match a with
      | [] => b
      | _ => if match rev a with c :: _ => beqb c "/"%byte | [] => false end then a ++ b else a ++ bs "/" ++ b
      end
  | [] => match a with [] => [] | _ => if match rev a with c :: _ => beqb c "/"%byte | [] => false end then a else a ++ bs "/" end
  end.

(** Files by their path, as [open] finds them. *)
Definition files : Type := str -> option str.

(** [util.ReadFile], util.py:465-480. *)
Definition read_path (fs : files) (p : str) : res str := match fs p with Some s => Ok s | None => Raise KeyczarError end.

(** [FileReader(location)], readers.py:91-115. *)
Definition lFileReader (fs : files) (location : str) : lreader :=
  MkLReader (read_path fs (join location (bs "meta")))
            (fun v => let* n := py_str v in read_path fs (join location n)) false.
