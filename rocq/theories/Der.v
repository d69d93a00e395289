(** * Der: the DER subset of pyasn1 that util.py uses, and the key and signature formats built
    on it (util.py:72-242).

    pyasn1 itself is outside /repo; this file models pyasn1.codec.der.encoder/decoder of the
    0.0/0.1 series for INTEGER, BIT STRING, OCTET STRING, NULL, OBJECT IDENTIFIER and SEQUENCE.
    Simplification: any other tag is refused with PyAsn1Error (pyasn1 knows more types, but no
    value of another type is ever usable by the functions below). *)
From Coq Require Import Strings.String.
From Coq Require Import ZArith List Bool.
From Coq.Init Require Import Byte.
From Verif Require Import PyBase Base64 Util.
Import ListNotations.
Local Open Scope Z_scope.

(** pyasn1.type.univ values.  A BIT STRING carries its bits as '0'/'1' characters. *)
Inductive asn1 : Type :=
| AInt (z : Z)
| ABits (bits : str)
| AOctet (s : str)
| ANull
| AOid (arcs : list Z)
| ASeq (l : list asn1).

(** ** Encoder (pyasn1.codec.der.encoder.encode) *)

(** Definite length octets: short form below 128, else minimal long form; more than 126
    length octets are refused. *)
Definition encode_length (n : Z) : res str :=
  if n <? 128 then Ok [chr n]
  else let l := BigIntToBytes n in
       if 126 <? len l then Raise PyAsn1Error else Ok (chr (128 + len l) :: l).

(** Content octets of a non-negative INTEGER: minimal, top bit clear. *)
Definition nat_octets (n : Z) : str :=
  match BigIntToBytes n with
  | [] => [x00]
  | b :: t => if 128 <=? ord b then x00 :: b :: t else b :: t
  end.

(** Content octets of an INTEGER: minimal two's complement. *)
Definition int_octets (z : Z) : str :=
  if z <? 0 then map (fun b => chr (255 - ord b)) (nat_octets (- z - 1)) else nat_octets z.

(** Base-128 digits of one OID arc, all but the last with the top bit set. *)
Fixpoint arc_high (fuel : nat) (n : Z) : str :=
  match fuel with
  | O => []
  | S f => if n =? 0 then [] else arc_high f (n / 128) ++ [chr (128 + n mod 128)]
  end.
Definition arc_octets (n : Z) : str :=
  arc_high (Z.to_nat (Z.log2 n + 1)) (n / 128) ++ [chr (n mod 128)].

(** Content octets of an OBJECT IDENTIFIER; the first two arcs share one sub-identifier. *)
Definition oid_octets (arcs : list Z) : res str :=
  match arcs with
  | a :: b :: t => Ok (concat (map arc_octets (40 * a + b :: t)))
  | _ => Raise PyAsn1Error
  end.

(** Content octets of a BIT STRING: the count of unused bits, then the bits filled up with 0. *)
Definition bits_octets (bits : str) : res str :=
  let pad := (8 - len bits mod 8) mod 8 in
  let* body := BinToBytes (bits ++ rep pad x30) in Ok (chr pad :: body).

Definition tlv (tag : byte) (body : str) : res str :=
  let* l := encode_length (len body) in Ok (tag :: l ++ body).

Fixpoint encode (v : asn1) : res str :=
  match v with
  | AInt z => tlv x02 (int_octets z)
  | ABits bits => let* b := bits_octets bits in tlv x03 b
  | AOctet s => tlv x04 s
  | ANull => tlv x05 []
  | AOid arcs => let* b := oid_octets arcs in tlv x06 b
  | ASeq l =>
      let* b := (fix go (l : list asn1) : res str :=
                   match l with
                   | [] => Ok []
                   | v :: t => let* e := encode v in let* r := go t in Ok (e ++ r)
                   end) l in
      tlv x30 b
  end.

(** ** Decoder (pyasn1.codec.der.decoder.decode); returns the value and the bytes after it *)

Definition decode_length (s : str) : res (Z * str) :=
  match s with
  | [] => Raise PyAsn1Error
  | b :: t =>
      if ord b <? 128 then Ok (ord b, t)
      else let n := ord b - 128 in
           if (n =? 0) || (len t <? n) then Raise PyAsn1Error
           else Ok (BytesToLong (slice_to t n), slice_from t n)
  end.

Definition octets_int (s : str) : res Z :=
  match s with
  | [] => Raise PyAsn1Error
  | b :: _ => Ok (if 128 <=? ord b then BytesToLong s - 256 ^ len s else BytesToLong s)
  end.

(** The arcs after the first sub-identifier has been read; [acc] is the arc being read. *)
Fixpoint octets_arcs (acc : option Z) (s : str) : res (list Z) :=
  match s with
  | [] => match acc with None => Ok [] | Some _ => Raise PyAsn1Error end
  | b :: t =>
      let a := match acc with None => 0 | Some a => a end in
      if 128 <=? ord b then octets_arcs (Some (a * 128 + (ord b - 128))) t
      else let* r := octets_arcs None t in Ok (a * 128 + ord b :: r)
  end.
Definition octets_oid (s : str) : res (list Z) :=
  let* l := octets_arcs None s in
  match l with
  | [] => Raise PyAsn1Error
  | a :: t => Ok (if a <? 40 then 0 :: a :: t else if a <? 80 then 1 :: a - 40 :: t else 2 :: a - 80 :: t)
  end.

Definition octets_bits (s : str) : res str :=
  match s with
  | [] => Raise PyAsn1Error
  | b :: t => if (7 <? ord b) || ((len t =? 0) && (0 <? ord b)) then Raise PyAsn1Error
              else Ok (slice_to (BytesToBin t) (8 * len t - ord b))
  end.

Fixpoint decode_fuel (fuel : nat) (s : str) {struct fuel} : res (asn1 * str) :=
  match fuel with
  | O => Raise PyAsn1Error
  | S f =>
      match s with
      | [] => Raise PyAsn1Error
      | tag :: rest =>
          let* p := decode_length rest in
          let '(n, rest) := p in
          if len rest <? n then Raise PyAsn1Error
          else
            let body := slice_to rest n in
            let tail := slice_from rest n in
            if beqb tag x02 then let* z := octets_int body in Ok (AInt z, tail)
            else if beqb tag x03 then let* b := octets_bits body in Ok (ABits b, tail)
            else if beqb tag x04 then Ok (AOctet body, tail)
            else if beqb tag x05 then
              match body with [] => Ok (ANull, tail) | _ => Raise PyAsn1Error end
            else if beqb tag x06 then let* a := octets_oid body in Ok (AOid a, tail)
            else if beqb tag x30 then
              let* l := (fix items (g : nat) (b : str) : res (list asn1) :=
                           match b with
                           | [] => Ok []
                           | _ => match g with
                                  | O => Raise PyAsn1Error
                                  | S g' => let* p := decode_fuel f b in
                                            let* r := items g' (snd p) in
                                            Ok (fst p :: r)
                                  end
                           end) f body in
              Ok (ASeq l, tail)
            else Raise PyAsn1Error
      end
  end.

(** [decoder.decode(s)]; nesting and item counts are below the length, so the fuel suffices. *)
Definition decode (s : str) : res (asn1 * str) := decode_fuel (S (List.length s)) s.

(** ** Python operations on pyasn1 values *)

(** [len(v)]: defined on the string-like and constructed types only. *)
Definition asn1_len (v : asn1) : res Z :=
  match v with
  | AInt _ => Raise TypeError
  | ABits b => Ok (len b)
  | AOctet s => Ok (len s)
  | ANull => Ok 0
  | AOid a => Ok (len a)
  | ASeq l => Ok (len l)
  end.
(** [v.getComponentByPosition(i)] *)
Definition getComponent (v : asn1) (i : Z) : res asn1 :=
  match v with
  | ASeq l => match nth_error l (Z.to_nat i) with Some x => Ok x | None => Raise IndexError end
  | _ => Raise AttributeError
  end.
(** [int(v)] *)
Definition asn1_int (v : asn1) : res Z :=
  match v with AInt z => Ok z | _ => Raise TypeError end.
(** [l[i]] on a Python list, i >= 0. *)
Definition item {A} (l : list A) (i : nat) : res A :=
  match nth_error l i with Some x => Ok x | None => Raise IndexError end.
(** [decoder.decode(v)] on an OCTET STRING. *)
Definition decode_octet (v : asn1) : res asn1 :=
  match v with
  | AOctet s => let* p := decode s in Ok (fst p)
  | ANull => Raise PyAsn1Error
  | _ => Raise TypeError
  end.

(** util.py:104-105 ParseASN1Sequence: the list of components, for any value with a length. *)
Definition ParseASN1Sequence (v : asn1) : res (list asn1) :=
  let* n := asn1_len v in mapM (fun i => getComponent v (Z.of_nat i)) (seq 0 (Z.to_nat n)).

(** [oid == OID] *)
Definition oid_is (v : asn1) (arcs : list Z) : bool :=
  match v with
  | AOid a => if list_eq_dec Z.eq_dec a arcs then true else false
  | _ => false
  end.

(** ** Key formats *)

(** A Python dict from parameter names to integers. *)
Definition params := list (string * Z).
(** [params[name]] *)
Fixpoint param (d : params) (name : string) : res Z :=
  match d with
  | [] => Raise KeyError
  | (k, v) :: t => if String.eqb k name then Ok v else param t name
  end.

(** util.py:85-88 *)
Definition RSA_OID : list Z := [1; 2; 840; 113549; 1; 1; 1].
Definition RSA_PARAMS : list string := ["n"; "e"; "d"; "p"; "q"; "dp"; "dq"; "invq"]%string.
Definition DSA_OID : list Z := [1; 2; 840; 10040; 4; 1].
Definition DSA_PARAMS : list string := ["p"; "q"; "g"]%string.

(** [x, y = l], util.py:128 and 174: a ValueError unless there are exactly two. *)
Definition unpack2 {A} (l : list A) : res (A * A) :=
  match l with [a; b] => Ok (a, b) | _ => Raise ValueError end.

(** [Base64WSDecode] of a byte string. *)
Definition b64d (s : str) : res str := Base64WSDecode s.

(** The loop [for i in range(len(NAMES)): params[NAMES[i]] = int(l[i+off])]. *)
Definition read_params (names : list string) (l : list asn1) (off : nat) : res params :=
  mapM (fun i => let* v := item l (i + off) in let* z := asn1_int v in
                 Ok (nth i names EmptyString, z)) (seq 0 (List.length names)).

(** util.py:121-146 ParsePkcs8 *)
Definition ParsePkcs8 (pkcs8 : str) : res params :=
  let* raw := b64d pkcs8 in
  let* p := decode raw in
  let* sq := ParseASN1Sequence (fst p) in
  if negb (len sq =? 3) then Raise KeyczarError
  else
    let* v0 := item sq 0 in
    let* version := asn1_int v0 in
    if negb (version =? 0) then Raise KeyczarError
    else
      let* v1 := item sq 1 in
      let* ids := ParseASN1Sequence v1 in
      let* oa := unpack2 ids in
      let* v2 := item sq 2 in
      let* key := decode_octet v2 in
      if oid_is (fst oa) RSA_OID then
        let* key := ParseASN1Sequence key in
        let* k0 := item key 0 in
        let* version := asn1_int k0 in
        if negb (version =? 0) then Raise KeyczarError
        else read_params RSA_PARAMS key 1
      else if oid_is (fst oa) DSA_OID then
        let* alg := ParseASN1Sequence (snd oa) in
        let* ps := read_params DSA_PARAMS alg 0 in
        let* x := asn1_int key in
        Ok (ps ++ [("x"%string, x)])
      else Raise KeyczarError.

(** util.py:148-155 ExportRsaPkcs8 *)
Definition ExportRsaPkcs8 (d : params) : res str :=
  let* ks := mapM (fun n => let* z := param d n in Ok (AInt z)) RSA_PARAMS in
  let* octkey := encode (ASeq (AInt 0 :: ks)) in
  let* e := encode (ASeq [AInt 0; ASeq [AOid RSA_OID; ANull]; AOctet octkey]) in
  Ok (Base64WSEncode e).

(** util.py:157-164 ExportDsaPkcs8 *)
Definition ExportDsaPkcs8 (d : params) : res str :=
  let* ks := mapM (fun n => let* z := param d n in Ok (AInt z)) DSA_PARAMS in
  let* x := param d "x" in
  let* octkey := encode (AInt x) in
  let* e := encode (ASeq [AInt 0; ASeq [AOid DSA_OID; ASeq ks]; AOctet octkey]) in
  Ok (Base64WSEncode e).

(** [BinToBytes(v.prettyPrint()[2:-3])] for a BIT STRING (util.py:175-176): prettyPrint shows
    it as ["'bits'B"] with the double quotes, and the slice leaves the bits.  Other types print
    differently; Simplification: refused with ValueError, as int(x, 2) does for most. *)
Definition bits_bytes (v : asn1) : res str :=
  match v with ABits b => BinToBytes b | _ => Raise ValueError end.

(** util.py:170-189 ParseX509 *)
Definition ParseX509 (x509 : str) : res params :=
  let* raw := b64d x509 in
  let* p := decode raw in
  let* sq := ParseASN1Sequence (fst p) in
  if negb (len sq =? 2) then Raise KeyczarError
  else
    let* v0 := item sq 0 in
    let* ids := ParseASN1Sequence v0 in
    let* oa := unpack2 ids in
    let* v1 := item sq 1 in
    let* kb := bits_bytes v1 in
    let* pk := decode kb in
    if oid_is (fst oa) RSA_OID then
      let* l := ParseASN1Sequence (fst pk) in
      let* zs := mapM asn1_int l in
      let* ne := unpack2 zs in
      Ok [("n"%string, fst ne); ("e"%string, snd ne)]
    else if oid_is (fst oa) DSA_OID then
      let* l := ParseASN1Sequence (snd oa) in
      let* vals := mapM asn1_int l in
      let* ps := mapM (fun i => let* z := item vals i in Ok (nth i DSA_PARAMS EmptyString, z))
                      (seq 0 (List.length DSA_PARAMS)) in
      let* y := asn1_int (fst pk) in
      Ok (ps ++ [("y"%string, y)])
    else Raise KeyczarError.

(** util.py:191-197 ExportRsaX509 *)
Definition ExportRsaX509 (d : params) : res str :=
  let* n := param d "n" in
  let* e := param d "e" in
  let* k := encode (ASeq [AInt n; AInt e]) in
  let* out := encode (ASeq [ASeq [AOid RSA_OID; ANull]; ABits (BytesToBin k)]) in
  Ok (Base64WSEncode out).

(** util.py:199-207 ExportDsaX509 *)
Definition ExportDsaX509 (d : params) : res str :=
  let* p := param d "p" in
  let* q := param d "q" in
  let* g := param d "g" in
  let* y := param d "y" in
  let* k := encode (AInt y) in
  let* out := encode (ASeq [ASeq [AOid DSA_OID; ASeq [AInt p; AInt q; AInt g]]; ABits (BytesToBin k)]) in
  Ok (Base64WSEncode out).

(** ** DSA signatures *)

(** util.py:209-223 MakeDsaSig *)
Definition MakeDsaSig (r s : Z) : res str := encode (ASeq [AInt r; AInt s]).

(** util.py:225-242 ParseDsaSig *)
Definition ParseDsaSig (sig : str) : res (Z * Z) :=
  let* p := decode sig in
  let* n := asn1_len (fst p) in
  if negb (n =? 2) then Raise KeyczarError
  else
    let* c0 := getComponent (fst p) 0 in
    let* r := asn1_int c0 in
    let* c1 := getComponent (fst p) 1 in
    let* s := asn1_int c1 in
    Ok (r, s).
