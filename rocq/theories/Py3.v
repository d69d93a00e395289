(** * Py3: the same sources under Python 3 semantics, as far as C59 needs them.

    The other files read the sources in the byte-string dialect (DESIGN.md, section 1).  Here
    [str] is text, [bytes] is another type, and [/] on integers gives a float, so the types of
    values matter and are part of the model.  JSON texts are given as the values [json.loads]
    returns for them.  PyCrypto is represented by what its constructors answer. *)
From Coq Require Import Strings.String.
From Coq Require Import List ZArith NArith Bool.
From Coq.Init Require Import Byte.
From Verif Require Import PyBase Base64 Sha1 Util Json KeyInfo AsymKeys KeyData Keyczar.
Import ListNotations.
Local Open Scope Z_scope.

(** Python 3 values. A float is given as a fraction; [POther] is a bool, list or dict. *)
Inductive pyval := PNone | PStr (t : text) | PBytes (b : str) | PInt (z : Z) | PFloat (n d : Z) | POther.

(** A value found in a JSON text. *)
Definition of_json (j : json) : pyval :=
  match j with JNull => PNone | JStr t => PStr t | JInt z => PInt z | _ => POther end.

(** [obj[name]], TypeError if [obj] is not a dictionary. *)
Definition member (j : json) (name : string) : res pyval := let* v := get j name in Ok (of_json v).

(** ** Library calls *)

(** [str(v)].  Simplification: how bytes, floats, lists and dictionaries are printed is not
    spelled out; what matters is that the result is a [str]. *)
Definition py_str (v : pyval) : text :=
  match v with
  | PStr t => t
  | PInt z => text_of_str (int_to_str z)
  | PNone => tx "None"
  | PBytes b => tx "b'" ++ text_of_str b ++ tx "'"
  | _ => tx "..."
  end.

(** [len(v)] *)
Definition py_len (v : pyval) : res Z :=
  match v with PStr t => Ok (len t) | PBytes b => Ok (len b) | _ => Raise TypeError end.

(** [a / b] on integers: a float. *)
Definition true_div (a b : Z) : pyval := PFloat a b.

(** [a + b] on strings: TypeError unless both are [str] or both are [bytes]. *)
Definition py_add (a b : pyval) : res pyval :=
  match a, b with
  | PStr s, PStr t => Ok (PStr (s ++ t))
  | PBytes s, PBytes t => Ok (PBytes (s ++ t))
  | _, _ => Raise TypeError
  end.

(** [v[a:b]] and [v[a:]] *)
Definition py_slice (v : pyval) (a b : Z) : res pyval :=
  match v with
  | PStr t => Ok (PStr (slice t a b))
  | PBytes s => Ok (PBytes (slice s a b))
  | _ => Raise TypeError
  end.
Definition py_from (v : pyval) (a : Z) : res pyval := let* n := py_len v in py_slice v a n.

(** [v[0]]: an element of [bytes] is an integer. *)
Definition py_first (v : pyval) : res pyval :=
  match v with
  | PStr (c :: _) => Ok (PStr [c])
  | PBytes (b :: _) => Ok (PInt (ord b))
  | PStr [] | PBytes [] => Raise IndexError
  | _ => Raise TypeError
  end.

(** [ord(v)]: of a string with one character. *)
Definition py_ord (v : pyval) : res Z :=
  match v with
  | PStr [c] => Ok (Z.of_N c)
  | PBytes [b] => Ok (ord b)
  | _ => Raise TypeError
  end.

(** [os.urandom(v)] *)
Definition urandom (r : tape) (v : pyval) : res pyval :=
  match v with
  | PInt n => if n <? 0 then Raise ValueError else Ok (PBytes (RandBytes r n))
  | _ => Raise TypeError
  end.

(** [md.update(v)] on a hash object holding [acc]: text must be encoded first. *)
Definition md_update (acc : str) (v : pyval) : res str :=
  match v with PBytes b => Ok (acc ++ b) | _ => Raise TypeError end.

(** [base64.urlsafe_b64encode(v)]: a bytes-like object is required. *)
Definition urlsafe_b64encode (v : pyval) : res pyval :=
  match v with PBytes b => Ok (PBytes (map to_urlsafe (b2a_base64 b))) | _ => Raise TypeError end.

(** [v.replace("=", "")]: for [bytes] the arguments have the wrong type. *)
Definition replace_pad (v : pyval) : res pyval :=
  match v with
  | PStr t => Ok (PStr (filter (fun c => negb (c =? 61)%N) t))
  | PBytes _ => Raise TypeError
  | _ => Raise AttributeError
  end.

(** [base64.urlsafe_b64decode(s)] of text: ValueError for non-ASCII text, binascii.Error, a
    ValueError, for malformed text. *)
Definition urlsafe_b64decode (t : text) : res pyval :=
  match str_of_text t with
  | Raise _ => Raise ValueError
  | Ok s => match a2b_base64 (map of_urlsafe s) with Ok b => Ok (PBytes b) | Raise _ => Raise ValueError end
  end.

(** [struct.unpack(">i", v)[0]] *)
Definition unpack_int (v : pyval) : res Z :=
  match v with PBytes s => struct_unpack_i s | _ => Raise TypeError end.

(** ** util.py *)

(** [RandBytes], util.py:318-321. *)
Definition RandBytes3 (r : tape) (n : pyval) : res pyval := urandom r n.

Definition chars (s : str) : pyval := PStr (text_of_str s).

(** [IntToBytes], util.py:284-287: [chr] and [join] make text. *)
Definition IntToBytes3 (n : Z) : pyval := chars (IntToBytes n).

(** [PadBytes(BigIntToBytes(n), 1)], util.py:275-282, 306-308. *)
Definition padded_int3 (n : Z) : pyval := chars (padded_int n).

(** [BytesToLong], util.py:289-291: [ord] of an element of [bytes] fails. *)
Definition BytesToLong3 (v : pyval) : res Z :=
  match v with
  | PStr t => Ok (fold_left (fun acc c => acc * 256 + Z.of_N c) t 0)
  | PBytes [] => Ok 0
  | _ => Raise TypeError
  end.

(** [TrimBytes], util.py:310-316: [bytes.lstrip] does not take text. *)
Fixpoint lstrip0 (t : text) : text :=
  match t with c :: t' => if (c =? 0)%N then lstrip0 t' else t | [] => [] end.
Definition TrimBytes3 (v : pyval) : res pyval :=
  match v with
  | PStr t => Ok (PStr (match lstrip0 t with [] => [0%N] | t' => t' end))
  | PBytes _ => Raise TypeError
  | _ => Raise AttributeError
  end.

(** [Hash], util.py:323-328. *)
Fixpoint hash_loop (acc : str) (inputs : list pyval) : res str :=
  match inputs with
  | [] => Ok acc
  | i :: inputs' => let* acc := md_update acc i in hash_loop acc inputs'
  end.
Definition Hash3 (inputs : list pyval) : res pyval :=
  let* acc := hash_loop [] inputs in Ok (PBytes (sha1 acc)).

(** [PrefixHash], util.py:330-336. *)
Fixpoint prefix_loop (acc : str) (inputs : list pyval) {struct inputs} : res str :=
  match inputs with
  | [] => Ok acc
  | i :: inputs' =>
      let* n := py_len i in
      let* acc := md_update acc (IntToBytes3 n) in
      let* acc := md_update acc i in
      prefix_loop acc inputs'
  end.
Definition PrefixHash3 (inputs : list pyval) : res pyval :=
  let* acc := prefix_loop [] inputs in Ok (PBytes (sha1 acc)).

(** [Base64WSEncode], util.py:344-357. *)
Definition Base64WSEncode3 (v : pyval) : res pyval :=
  let* e := urlsafe_b64encode (PStr (py_str v)) in replace_pad e.

(** The part of [Base64WSDecode] after whitespace removal, util.py:383-394: binascii.Error is not
    a TypeError, so the handler does not see it. *)
Definition decode_stripped3 (t : text) : res pyval :=
  let d := len t mod 4 in
  if d =? 1 then Raise Base64DecodingError
  else urlsafe_b64decode (if d =? 2 then t ++ [61%N; 61%N] else if d =? 3 then t ++ [61%N] else t).

(** [Base64WSDecode], util.py:365-394: ['' .join] does not take the lines of a [bytes], unless
    there are none. *)
Definition Base64WSDecode3 (v : pyval) : res pyval :=
  match v with
  | PStr t => decode_stripped3 (filter (fun c => negb (c =? 32)%N) (filter (fun c => negb (is_ueol c)) t))
  | PBytes [] => decode_stripped3 []
  | PBytes _ => Raise TypeError
  | _ => Raise AttributeError
  end.

(** [PackByteArray], util.py:400-408: [struct.pack] makes bytes. *)
Definition PackByteArray3 (v : pyval) : res pyval :=
  match v with
  | PNone => Ok (PStr [])
  | _ => let* n := py_len v in let* h := struct_pack_i n in py_add (PBytes h) v
  end.

(** [UnpackByteArray], util.py:421-429. *)
Definition UnpackByteArray3 (data : pyval) (offset : Z) : res (pyval * Z) :=
  let* h := py_slice data offset (offset + 4) in
  let* n := unpack_int h in
  let* a := py_slice data (offset + 4) (offset + 4 + n) in
  Ok (a, offset + 4 + n).

(** ** keys.py *)

(** Keys; the PyCrypto objects they hold are left out, and so are the sizes. *)
Inductive key3 :=
| Aes3 (key_string hmac_string : pyval)
| Hmac3 (key_string : pyval)
| DsaPub3 (p q g y : pyval)
| DsaPriv3 (x p q g y : pyval)
| RsaPub3 (n e : pyval)
| RsaPriv3 (params : list pyval) (n e : pyval).

(** [util.Base64WSEncode(fullhash[:keyczar.KEY_HASH_SIZE])], keys.py:144 and the overrides. *)
Definition short_hash3 (fullhash : pyval) : res pyval :=
  let* h := py_slice fullhash 0 KEY_HASH_SIZE in Base64WSEncode3 h.

(** [DsaPublicKey._Hash], keys.py:876-881, and [RsaPublicKey._Hash], 966-969. *)
Definition params_hash3 (l : list pyval) : res pyval :=
  let* l := mapM TrimBytes3 l in let* h := PrefixHash3 l in short_hash3 h.

(** [key.hash_id]: keys.py:340-344, 505-507, 616-617, 876-881, 966-969. *)
Definition key3_hash_id (k : key3) : res pyval :=
  match k with
  | Aes3 s hs =>
      let* b := Base64WSDecode3 s in
      let* n := py_len b in
      let* h := Base64WSDecode3 hs in
      let* h := Hash3 [IntToBytes3 n; b; h] in short_hash3 h
  | Hmac3 s => let* b := Base64WSDecode3 s in let* h := Hash3 [b] in short_hash3 h
  | DsaPub3 p q g y | DsaPriv3 _ p q g y => params_hash3 [p; q; g; y]
  | RsaPub3 n e | RsaPriv3 _ n e => params_hash3 [n; e]
  end.

(** [key.Header()], keys.py:157-159. *)
Definition key3_Header (k : key3) : res pyval :=
  let* h := key3_hash_id k in let* b := Base64WSDecode3 h in py_add (chars [chr VERSION]) b.

(** [HmacKey.Generate], keys.py:513-526. *)
Definition HmacKey_Generate3 (r : tape) (size : Z) : res key3 :=
  let* b := RandBytes3 r (true_div size 8) in
  let* s := Base64WSEncode3 b in
  Ok (Hmac3 s).

(** [AesKey.Generate], keys.py:346-360. *)
Definition AesKey_Generate3 (r : tape) (size : Z) : res key3 :=
  let* b := RandBytes3 r (true_div size 8) in
  let* s := Base64WSEncode3 b in
  let* h := HmacKey_Generate3 r (default_size HMAC_SHA1) in
  match h with Hmac3 hs => Ok (Aes3 s hs) | _ => Raise TypeError end.

(** What a key generation draws: bytes, or the numbers of a new PyCrypto key (in the order of the
    parameters of [key3]). *)
Record draw3 := MkDraw3 { d3_tape : tape; d3_nums : list Z; d3_pub : Z * Z * Z * Z }.

(** [GenKey], keys.py:59-92; [DsaPrivateKey.Generate], 641-661; [RsaPrivateKey.Generate], 767-792. *)
Definition GenKey3 (d : draw3) (t : ktype) (size : Z) : res key3 :=
  if negb (IsValidSize t size) then Raise KeyczarError
  else
    let '(a, b, c, e) := d3_pub d in
    match t with
    | AES => AesKey_Generate3 (d3_tape d) size
    | HMAC_SHA1 => HmacKey_Generate3 (d3_tape d) size
    | DSA_PRIV => Ok (DsaPriv3 (padded_int3 (hd 0 (d3_nums d))) (padded_int3 a) (padded_int3 b)
                               (padded_int3 c) (padded_int3 e))
    | RSA_PRIV => Ok (RsaPriv3 (map padded_int3 (d3_nums d)) (padded_int3 a) (padded_int3 b))
    | DSA_PUB | RSA_PUB => Raise KeyczarError
    end.

(** What [DSA.construct] and [RSA.construct] answer for a tuple of numbers. *)
Definition constructor3 : Type := list Z -> res unit.

(** [util.Base64WSDecode(obj[name])] *)
Definition get_b64_3 (j : json) (name : string) : res pyval :=
  let* v := member j name in Base64WSDecode3 v.

(** [DsaPublicKey.Read], keys.py:883-904. *)
Definition DsaPub_Read3 (ctor : constructor3) (j : json) : res (pyval * pyval * pyval * pyval) :=
  let* y := get_b64_3 j "y" in
  let* p := get_b64_3 j "p" in
  let* g := get_b64_3 j "g" in
  let* q := get_b64_3 j "q" in
  let* nums := mapM BytesToLong3 [y; g; p; q] in
  let* _ := ctor nums in
  let* _ := get j "size" in
  Ok (p, q, g, y).

(** [RsaPublicKey.Read], keys.py:971-988. *)
Definition RsaPub_Read3 (ctor : constructor3) (j : json) : res (pyval * pyval) :=
  let* n := get_b64_3 j "modulus" in
  let* e := get_b64_3 j "publicExponent" in
  let* nums := mapM BytesToLong3 [n; e] in
  let* _ := ctor nums in
  let* _ := get j "size" in
  Ok (n, e).

(** [ReadKey], keys.py:94-115, with the [Read] methods at 362-377, 528-540, 663-682 and 794-821. *)
Definition ReadKey3 (ctor : constructor3) (t : ktype) (j : json) : res key3 :=
  match (match t with
    | AES =>
        let* hv := get j "hmacKey" in
        let* s := member j "aesKeyString" in
        let* hs := member hv "hmacKeyString" in
        let* _ := get hv "size" in
        let* _ := get j "size" in
        let* mn := get_str j "mode" in
        let* m := GetMode mn in
        match m with CBC => Ok (Aes3 s hs) | _ => Raise AssertionError end
    | HMAC_SHA1 =>
        let* s := member j "hmacKeyString" in
        let* _ := get j "size" in
        Ok (Hmac3 s)
    | DSA_PRIV =>
        let* pk := get j "publicKey" in
        let* (p, q, g, y) := DsaPub_Read3 ctor pk in
        let* x := get_b64_3 j "x" in
        let* nums := mapM BytesToLong3 [y; g; p; q; x] in
        let* _ := ctor nums in
        let* _ := get j "size" in
        Ok (DsaPriv3 x p q g y)
    | RSA_PRIV =>
        let* pk := get j "publicKey" in
        let* (n, e) := RsaPub_Read3 ctor pk in
        let* ps := mapM (get_b64_3 j) ["privateExponent"; "primeP"; "primeQ"; "primeExponentP"; "primeExponentQ"; "crtCoefficient"]%string in
        let* nums := mapM BytesToLong3 (n :: e :: ps) in
        let* _ := ctor nums in
        let* _ := get j "size" in
        Ok (RsaPriv3 ps n e)
    | DSA_PUB => let* (p, q, g, y) := DsaPub_Read3 ctor j in Ok (DsaPub3 p q g y)
    | RSA_PUB => let* (n, e) := RsaPub_Read3 ctor j in Ok (RsaPub3 n e)
    end) with
  | Raise KeyError => Raise KeyczarError
  | r => r
  end.

(** The methods of a key, as whatever they answer: no theorem depends on it. *)
Record methods3 := MkMethods3 {
  m3_Encrypt : key3 -> pyval -> res pyval; m3_Decrypt : key3 -> pyval -> res pyval;
  m3_Sign : key3 -> pyval -> res pyval; m3_Verify : key3 -> pyval -> pyval -> res bool }.

(** ** keyczar.py *)

(** A reader: the metadata object made from its text, the parsed key texts, and whether it is an
    [EncryptedReader]. *)
Record reader3 := MkReader3 { r3_meta : res metadata; r3_key : Z -> res json; r3_encrypted : bool }.

(** A [Keyczar] object.  Simplification: version objects are values, so [Promote] and the others
    are modelled through the metadata and the primary version only. *)
Record keyset3 := MkKs3 {
  k3_meta : metadata; k3_vkeys : list (Z * key3); k3_hkeys : list (pyval * key3);
  k3_primary : option Z }.

(** The loop of [Keyczar.__init__], keyczar.py:58-68. *)
Fixpoint load_keys3 (ctor : constructor3) (rd : reader3) (t : ktype) (vs : list kversion) (primary : option Z)
    (vk : list (Z * key3)) (hk : list (pyval * key3)) : res (option Z * list (Z * key3) * list (pyval * key3)) :=
  match vs with
  | [] => Ok (primary, vk, hk)
  | v :: vs' =>
      let* primary :=
        (if status_eqb (v_status v) PRIMARY then
           match primary with Some _ => Raise KeyczarError | None => Ok (Some (v_num v)) end
         else Ok primary) in
      let* j := r3_key rd (v_num v) in
      let* k := ReadKey3 ctor t j in
      let* h := key3_hash_id k in
      load_keys3 ctor rd t vs' primary (vk ++ [(v_num v, k)]) (hk ++ [(h, k)])
  end.

(** [Keyczar.__init__], keyczar.py:43-68. *)
Definition open3 (ctor : constructor3) (c : kclass) (rd : reader3) : res keyset3 :=
  let* m := r3_meta rd in
  if negb (IsAcceptablePurpose c (m_purpose m)) then Raise KeyczarError
  else if m_encrypted m && negb (r3_encrypted rd) then Raise KeyczarError
  else
    let* (p, vk, hk) := load_keys3 ctor rd (m_type m) (meta_versions m) None [] [] in
    Ok (MkKs3 m vk hk p).

(** [GetKey] with a version object or None, keyczar.py:111-126. *)
Definition GetKey3 (ks : keyset3) (v : option Z) : res key3 :=
  match v with
  | None => Raise (KeyNotFoundError (bs "None"))
  | Some n => match assoc Z.eqb (k3_vkeys ks) n with Some k => Ok k | None => Raise (KeyNotFoundError (int_to_str n)) end
  end.
Definition primary_key3 (ks : keyset3) : res key3 := GetKey3 ks (k3_primary ks).

(** [GetKey] with a hash identifier: equality of text. *)
Definition GetKey_hash3 (ks : keyset3) (h : pyval) : res key3 :=
  match h with
  | PStr t =>
      match find (fun p => match fst p with PStr t' => text_eqb t' t | _ => false end) (k3_hkeys ks) with
      | Some (_, k) => Ok k
      | None => Raise (KeyNotFoundError [])
      end
  | _ => Raise (KeyNotFoundError [])
  end.

(** [_ParseHeader], keyczar.py:77-93. *)
Definition ParseHeader3 (ks : keyset3) (header : pyval) : res key3 :=
  let* c := py_first header in
  let* v := py_ord c in
  if negb (v =? VERSION) then Raise (BadVersionError v)
  else
    let* rest := py_from header 1 in
    let* h := Base64WSEncode3 rest in
    GetKey_hash3 ks h.

(** [AddVersion], keyczar.py:145-192: generating keys until the identifier is new. *)
Fixpoint gen_unique3 (hk : list (pyval * key3)) (t : ktype) (size : Z) (ds : list draw3) : res (key3 * pyval) :=
  match ds with
  | [] => Raise Diverge
  | d :: ds' =>
      let* k := GenKey3 d t size in
      let* h := key3_hash_id k in
      match h with
      | PStr t' => if existsb (fun p => match fst p with PStr u => text_eqb u t' | _ => false end) hk
                   then gen_unique3 hk t size ds' else Ok (k, h)
      | _ => Ok (k, h)
      end
  end.
Definition AddVersion3 (ks : keyset3) (ds : list draw3) (s : status) (size : option Z) : keyset3 * res unit :=
  let sz := match size with Some z => z | None => default_size (m_type (k3_meta ks)) end in
  if negb (IsValidSize (m_type (k3_meta ks)) sz) then (ks, Raise KeyczarError)
  else
    let n := fold_left Z.max (map fst (k3_vkeys ks)) 0 + 1 in
    let ks1 := if status_eqb s PRIMARY then MkKs3 (k3_meta ks) (k3_vkeys ks) (k3_hkeys ks) (Some n) else ks in
    match gen_unique3 (k3_hkeys ks) (m_type (k3_meta ks)) sz ds with
    | Raise e => (ks1, Raise e)
    | Ok (k, h) =>
        (MkKs3 (fst (meta_AddVersion (k3_meta ks1) (MkVersion n s false))) (k3_vkeys ks1 ++ [(n, k)])
               (k3_hkeys ks1 ++ [(h, k)]) (k3_primary ks1), Ok tt)
    end.

(** [Promote], [Demote] and [Revoke], keyczar.py:194-251: they start with [GetVersion]; what they
    do to an existing version is given by [f]. *)
Definition change3 (f : keyset3 -> kversion -> keyset3 * res unit) (ks : keyset3) (n : Z) : keyset3 * res unit :=
  match assoc Z.eqb (m_versions (k3_meta ks)) n with
  | None => (ks, Raise KeyczarError)
  | Some v => f ks v
  end.

(** [encoder] and [decoder] arguments; None means that the value is used as it is. *)
Definition codec3 : Type := option (pyval -> res pyval).
Definition apply_codec3 (c : codec3) (v : pyval) : res pyval := match c with Some f => f v | None => Ok v end.

(** [Encrypter.Encrypt], keyczar.py:320-340. *)
Definition Encrypt3 (ms : methods3) (ks : keyset3) (data : pyval) (encoder : codec3) : res pyval :=
  let* k := primary_key3 ks in let* c := m3_Encrypt ms k data in apply_codec3 encoder c.

(** [Crypter.Decrypt], keyczar.py:511-535. *)
Definition Decrypt3 (ms : methods3) (ks : keyset3) (ciphertext : pyval) (decoder : codec3) : res pyval :=
  let* d := apply_codec3 decoder ciphertext in
  let* n := py_len d in
  if n <? HEADER_SIZE then Raise (ShortCiphertextError n)
  else let* h := py_slice d 0 HEADER_SIZE in let* k := ParseHeader3 ks h in m3_Decrypt ms k d.

(** [Verifier.__InternalVerify], keyczar.py:435-437. *)
Definition InternalVerify3 (ms : methods3) (ks : keyset3) (header signature data nonce : pyval) : res bool :=
  let* k := ParseHeader3 ks header in
  let* p := PackByteArray3 nonce in
  let* x := py_add data p in
  let* x := py_add x (chars VERSION_BYTE) in
  m3_Verify ms k x signature.

(** [Verifier.Verify], keyczar.py:390-406. *)
Definition Verify3 (ms : methods3) (ks : keyset3) (data sig : pyval) (decoder : codec3) : res bool :=
  let* s := apply_codec3 decoder sig in
  let* n := py_len s in
  if n <? HEADER_SIZE then Raise (ShortSignatureError n)
  else
    let* h := py_slice s 0 HEADER_SIZE in
    let* r := py_from s HEADER_SIZE in
    InternalVerify3 ms ks h r data PNone.

(** [Verifier.AttachedVerify], keyczar.py:408-433. *)
Definition AttachedVerify3 (ms : methods3) (ks : keyset3) (signed nonce : pyval) (decoder : codec3) : res pyval :=
  let* d := apply_codec3 decoder signed in
  let* (data, offset) := UnpackByteArray3 d HEADER_SIZE in
  let* sig := py_from d offset in
  let* h := py_slice d 0 HEADER_SIZE in
  let* b := InternalVerify3 ms ks h sig data nonce in
  Ok (if b then data else PNone).

(** [Signer.__InternalSign], keyczar.py:624-628. *)
Definition InternalSign3 (ms : methods3) (ks : keyset3) (data nonce : pyval) : res pyval :=
  let* k := primary_key3 ks in
  let* p := PackByteArray3 nonce in
  let* x := py_add data p in
  let* x := py_add x (chars VERSION_BYTE) in
  m3_Sign ms k x.

(** [Signer.Sign], keyczar.py:587-600. *)
Definition Sign3 (ms : methods3) (ks : keyset3) (data : pyval) (encoder : codec3) : res pyval :=
  let* k := primary_key3 ks in
  let* h := key3_Header k in
  let* s := InternalSign3 ms ks data PNone in
  let* x := py_add h s in
  apply_codec3 encoder x.

(** [Signer.AttachedSign], keyczar.py:602-621. *)
Definition AttachedSign3 (ms : methods3) (ks : keyset3) (data nonce : pyval) (encoder : codec3) : res pyval :=
  let* k := primary_key3 ks in
  let* h := key3_Header k in
  let* d := PackByteArray3 data in
  let* x := py_add h d in
  let* s := InternalSign3 ms ks data nonce in
  let* x := py_add x s in
  apply_codec3 encoder x.

(** [UnversionedSigner.Sign], keyczar.py:654-674. *)
Definition UnversionedSign3 (ms : methods3) (ks : keyset3) (data : pyval) (encoder : codec3) : res pyval :=
  let* k := primary_key3 ks in let* s := m3_Sign ms k data in apply_codec3 encoder s.

(** [UnversionedVerifier.Verify], keyczar.py:462-487. *)
Fixpoint verify_any3 (ms : methods3) (l : list (Z * key3)) (data sig : pyval) : res bool :=
  match l with
  | [] => Ok false
  | (_, k) :: l' => let* r := m3_Verify ms k data sig in if r then Ok true else verify_any3 ms l' data sig
  end.
Definition UnversionedVerify3 (ms : methods3) (ks : keyset3) (data sig : pyval) (decoder : codec3) : res bool :=
  let* s := apply_codec3 decoder sig in verify_any3 ms (k3_vkeys ks) data s.

(** [_Session.New], keyczar.py:683-689, the first step of both session encrypters. *)
Definition Session_New3 (r : tape) : res (key3 * pyval) :=
  let* k := AesKey_Generate3 r (default_size AES) in
  let* n := RandBytes3 r (PInt 16) in
  Ok (k, n).
