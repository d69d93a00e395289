(** * Util: python/src/keyczar/util.py (everything except Base64, ASN.1 and streams). *)
From Coq Require Import List ZArith Bool.
From Coq.Init Require Import Byte.
From Verif Require Import PyBase Sha1.
Import ListNotations.
Local Open Scope Z_scope.

(** [HLEN], util.py:71. *)
Definition HLEN : Z := 20.

(** ** Integers *)

(** The loop of [BigIntToBytes], util.py:278-280.  The characters are produced
    least significant first; [fuel] bounds the iterations. *)
Fixpoint bigint_loop (fuel : nat) (n : Z) : list byte :=
  match fuel with
  | O => []
  | S f => if 0 <? n then chr (n mod 256) :: bigint_loop f (Z.shiftr n 8) else []
  end.

(** [BigIntToBytes], util.py:275-282.  The fuel, the number of bits of [n], is enough
    for every [n] ([BigIntToBytes_fuel] in UtilFacts.v). *)
Definition BigIntToBytes (n : Z) : str :=
  rev (bigint_loop (Z.to_nat (Z.log2 n + 1)) n).

(** [IntToBytes], util.py:284-287. *)
Definition IntToBytes (n : Z) : str :=
  [chr (Z.shiftr n 24 mod 256); chr (Z.shiftr n 16 mod 256);
   chr (Z.shiftr n 8 mod 256); chr (n mod 256)].

(** [BytesToLong], util.py:289-291: the sum over positions, as in the source. *)
Definition BytesToLong (s : str) : Z :=
  let l := len s in
  fold_right Z.add 0
    (map (fun i => match nth_error s i with
                   | Some b => ord b * 256 ^ (l - 1 - Z.of_nat i)
                   | None => 0 end)
         (seq 0 (length s))).

(** [PadBytes], util.py:306-308. *)
Definition PadBytes (s : str) (n : Z) : str := rep n x00 ++ s.

(** [TrimBytes], util.py:310-316. *)
Definition TrimBytes (s : str) : str :=
  let trimmed := lstrip (chr 0) s in
  if str_eqb trimmed [] then [chr 0] else trimmed.

(** [Xor], util.py:293-304. *)
Definition Xor (a b : str) : str :=
  let m := Z.max (len a) (len b) in
  let (a, b) :=
    if len a <? m then (PadBytes a (m - len a), b)
    else if len b <? m then (a, PadBytes b (m - len b))
    else (a, b) in
  map (fun p => bxor (fst p) (snd p)) (combine a b).

(** [RandBytes], util.py:318-321: [n] bytes from the random tape. *)
Definition RandBytes (r : tape) (n : Z) : str := map r (seq 0 (Z.to_nat n)).

(** ** Bit strings.  Digits are the characters '0' and '1'. *)

(** [_PadByte], util.py:262-265. *)
Definition PadByte (bits : str) : str :=
  let r := len bits mod 8 in
  rep ((8 - r) mod 8) "0"%byte ++ bits.

(** [IntToBin], util.py:267-273, for [n >= 0] (a negative [n] recurses forever in the
    source; [fuel] is the recursion depth). *)
Fixpoint int_to_bin (fuel : nat) (n : Z) : str :=
  match fuel with
  | O => []
  | S f =>
      if n =? 0 then ["0"%byte] else if n =? 1 then ["1"%byte]
      else if n mod 2 =? 0 then int_to_bin f (n / 2) ++ ["0"%byte]
      else int_to_bin f (n / 2) ++ ["1"%byte]
  end.
Definition IntToBin (n : Z) : str := int_to_bin (Z.to_nat (Z.log2 n + 1)) n.

(** [BytesToBin], util.py:258-260. *)
Definition BytesToBin (s : str) : str :=
  concat (map (fun b => PadByte (IntToBin (ord b))) s).

(** [int(x, 2)] for a string of '0' and '1'.  (Python raises ValueError on other
    characters and on the empty string.) *)
Fixpoint int_base2_loop (acc : Z) (x : str) : res Z :=
  match x with
  | [] => Ok acc
  | c :: x' =>
      if beqb c "0"%byte then int_base2_loop (2 * acc) x'
      else if beqb c "1"%byte then int_base2_loop (2 * acc + 1) x'
      else Raise ValueError
  end.
Definition int_base2 (x : str) : res Z :=
  match x with [] => Raise ValueError | _ => int_base2_loop 0 x end.

(** [BinToBytes], util.py:252-256. *)
Definition BinToBytes (bits : str) : res str :=
  let bits := PadByte bits in
  let octets := map (fun i => slice bits (8 * Z.of_nat i) (8 * (Z.of_nat i + 1)))
                    (seq 0 (Z.to_nat (len bits / 8))) in
  mapM (fun x => let* v := int_base2 x in Ok (chr v)) octets.

(** ** Hashes *)

(** [Hash], util.py:323-328. *)
Definition Hash (inputs : list str) : str := sha1 (concat inputs).

(** [PrefixHash], util.py:330-336. *)
Definition PrefixHash (inputs : list str) : str :=
  sha1 (concat (map (fun i => IntToBytes (len i) ++ i) inputs)).

(** [MGF], util.py:482-502.  [math.ceil(mlen / float(HLEN))] is computed exactly; the
    float computation of the source agrees for mlen < 2^53. *)
Definition MGF (seed : str) (mlen : Z) : res str :=
  if 2 ^ 32 * HLEN <? mlen then Raise KeyczarError
  else
    let n := (mlen + HLEN - 1) / HLEN in
    Ok (slice_to (concat (map (fun i => Hash [seed; IntToBytes (Z.of_nat i)])
                              (seq 0 (Z.to_nat n)))) mlen).

(** The DigestInfo prefix, util.py:246-247. *)
Definition magic_sha1_header : str :=
  map chr [48; 33; 48; 9; 6; 5; 43; 14; 3; 2; 26; 5; 0; 4; 20].

(** [MakeEmsaMessage], util.py:244-250. *)
Definition MakeEmsaMessage (msg : str) (modulus_size : Z) : str :=
  let encoded := magic_sha1_header ++ Hash [msg] in
  let pad_string := rep (modulus_size / 8 - len encoded - 3) (chr 255) in
  [chr 1] ++ pad_string ++ [chr 0] ++ encoded.

(** ** Length-prefixed arrays *)

(** [struct.pack(">i", n)]: struct.error outside the signed 32-bit range. *)
Definition struct_pack_i (n : Z) : res str :=
  if (- 2 ^ 31 <=? n) && (n <? 2 ^ 31) then Ok (IntToBytes n) else Raise StructError.

(** [struct.unpack(">i", s)[0]]: struct.error unless [s] has 4 bytes. *)
Definition struct_unpack_i (s : str) : res Z :=
  match s with
  | [a; b; c; d] =>
      let u := of_be32 a b c d in
      Ok (if u <? 2 ^ 31 then u else u - 2 ^ 32)
  | _ => Raise StructError
  end.

(** [PackByteArray], util.py:400-408; [None] is the Python None. *)
Definition PackByteArray (array : option str) : res str :=
  match array with
  | None => Ok []
  | Some a => let* h := struct_pack_i (len a) in Ok (h ++ a)
  end.

(** [PackMultipleByteArrays], util.py:410-419. *)
Definition PackMultipleByteArrays (arrays : list (option str)) : res str :=
  let* h := struct_pack_i (len arrays) in
  let* parts := mapM PackByteArray arrays in
  Ok (h ++ concat parts).

(** [UnpackByteArray], util.py:421-429. *)
Definition UnpackByteArray (data : str) (offset : Z) : res (str * Z) :=
  let* array_len := struct_unpack_i (slice data offset (offset + 4)) in
  let offset := offset + 4 in
  Ok (slice data offset (offset + array_len), offset + array_len).

(** The while loop of [UnpackMultipleByteArrays], util.py:440-442. *)
Fixpoint unpack_loop (fuel : nat) (data : str) (position : Z) (result : list str) : res (list str * Z) :=
  if position <? len data then
    match fuel with
    | O => Raise Diverge
    | S f =>
        let* (array, position) := UnpackByteArray data position in
        unpack_loop f data position (result ++ [array])
    end
  else Ok (result, position).

(** [UnpackMultipleByteArrays], util.py:431-444, with [fuel] loop iterations:
    the Python call returns [r] iff some fuel gives [r] other than [Raise Diverge]. *)
Definition UnpackMultipleByteArrays (fuel : nat) (data : str) : res (list str) :=
  let* (result, position) := unpack_loop fuel data 4 [] in
  if position =? len data then Ok result else Raise AssertionError.
