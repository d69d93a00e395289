(** * Steps: the same functions with the steps they execute.

    What an observer with a clock may learn: the source lines that are executed, in their order,
    and the calls into libraries with the length of what they are given.  The time a library call
    takes beyond that, the processor and the interpreter are not modelled.  Each definition repeats
    the one of the same name (without [_t]) in SymKeys.v, AsymKeys.v or Keyczar.v; that the results are
    the same is proved in Props_Steps.v. *)
From Coq Require Import Strings.String.
From Coq Require Import List ZArith NArith Bool.
From Coq.Init Require Import Byte.
From Verif Require Import PyBase Base64 Sha1 Util Aes KeyInfo SymKeys AsymKeys Keys KeyData Keyczar.
Import ListNotations.
Local Open Scope Z_scope.

(** A line of keys.py or keyczar.py, or a call of a library function with so many bytes. *)
Inductive step := InKeys (line : Z) | InKeyczar (line : Z) | InLibrary (f : string) (n : Z).

(** A computation that executes steps. *)
Definition traced (A : Type) : Type := list step * res A.
Definition steps {A} (t : traced A) : list step := fst t.
Definition result {A} (t : traced A) : res A := snd t.
Definition tdone {A} (r : res A) : traced A := ([], r).
Definition tbind {A B} (t : traced A) (k : A -> traced B) : traced B :=
  match snd t with Ok a => (fst t ++ fst (k a), snd (k a)) | Raise e => (fst t, Raise e) end.
Definition after {A} (l : list step) (t : traced A) : traced A := (l ++ fst t, snd t).
Notation "'let!' x := t 'in' k" := (tbind t (fun x => k)) (at level 200, x name, t at level 100, k at level 200).

(** The loop of [VerifySignedData], keys.py:585-586: line 585 is executed once more at the end. *)
Fixpoint compare_loop_t (l : list (byte * byte)) (result : Z) : traced Z :=
  match l with
  | [] => after [InKeys 585] (tdone (Ok result))
  | (x, y) :: l' => after [InKeys 585; InKeys 586] (compare_loop_t l' (Z.lor result (Z.lxor (ord x) (ord y))))
  end.

(** [HmacKey.VerifySignedData], keys.py:569-587. *)
Definition VerifySignedData_t (mac sig : str) : traced bool :=
  after [InKeys 582]
    (if negb (len sig =? len mac) then after [InKeys 583] (tdone (Ok false))
     else after [InKeys 584]
       (let! result := compare_loop_t (combine mac sig) 0 in after [InKeys 587] (tdone (Ok (result =? 0))))).

(** [HmacKey.Sign], keys.py:542-552. *)
Definition HmacKey_Sign_t (k : hmackey) (msg : str) : traced str :=
  after [InKeys 552; InLibrary "hmac" (len msg)] (tdone (HmacKey_Sign k msg)).

(** [HmacKey.Verify], keys.py:554-567. *)
Definition HmacKey_Verify_t (k : hmackey) (msg sig : str) : traced bool :=
  after [InKeys 567] (let! mac := HmacKey_Sign_t k msg in VerifySignedData_t mac sig).

(** [AesKey._UnPad], keys.py:395-406. *)
Definition UnPad_t (padded : str) : traced str :=
  after [InKeys 405] (let! c := tdone (index padded (-1)) in after [InKeys 406] (tdone (Ok (slice_to padded (- ord c))))).

(** [AesKey.Decrypt], keys.py:444-469. *)
Definition AesKey_Decrypt_t (k : aeskey) (input_bytes : str) : traced str :=
  let data_bytes := slice_from input_bytes HEADER_SIZE in
  after [InKeys 458; InKeys 459]
    (if len data_bytes <? block_size + HLEN then after [InKeys 460] (tdone (Raise (ShortCiphertextError (len data_bytes))))
     else
       let iv_bytes := slice_to data_bytes block_size in
       let ciph_bytes := slice data_bytes block_size (- HLEN) in
       let sig_bytes := slice_from data_bytes (- HLEN) in
       after [InKeys 462; InKeys 463; InKeys 464; InKeys 465]
         (let! ok := HmacKey_Verify_t (ak_hmac k) (slice_to input_bytes (- HLEN)) sig_bytes in
          if negb ok then after [InKeys 466] (tdone (Raise InvalidSignatureError))
          else
            after [InKeys 468]
              (let! kb := tdone (aes_bytes k) in
               let! c := tdone (AES_new kb iv_bytes) in
               let! out := after [InLibrary "decrypt" (len ciph_bytes)] (tdone (cipher_decrypt c ciph_bytes)) in
               after [InKeys 469] (UnPad_t (fst out))))).

(** [RsaPrivateKey.__Decode], keys.py:715-754, with the empty label. *)
Definition oaep_decode_t (k : Z) (encoded_message : str) : traced str :=
  after [InKeys 717; InKeys 720]
    (if len encoded_message <? 2 * HLEN + 2 then after [InKeys 721] (tdone (Raise KeyczarError))
     else
       let diff_len := k - len encoded_message in
       let padded := if 1 <? diff_len then rep (diff_len - 1) x00 ++ encoded_message else encoded_message in
       let masked_seed := slice_to padded HLEN in
       let masked_datablock := slice_from padded HLEN in
       after ([InKeys 725; InKeys 726; InKeys 729] ++ (if 1 <? diff_len then [InKeys 731] else []) ++ [InKeys 733; InKeys 734; InKeys 737])
         (let! seed_mask := after [InLibrary "MGF" (len masked_datablock)] (tdone (MGF masked_datablock HLEN)) in
          let seed := Xor masked_seed seed_mask in
          after [InKeys 738; InKeys 741]
            (let! datablock_mask := after [InLibrary "MGF" (len seed)] (tdone (MGF seed (len masked_datablock))) in
             let datablock := Xor masked_datablock datablock_mask in
             let label_hash := slice_to datablock HLEN in
             after [InKeys 744; InKeys 746; InKeys 747; InKeys 748]
               (if negb (str_eqb label_hash (Hash [[]])) then after [InKeys 749] (tdone (Raise KeyczarError))
                else
                  let delimited_message := lstrip x00 (slice_from datablock HLEN) in
                  after [InKeys 751; InKeys 752]
                    (let! c := tdone (index delimited_message 0) in
                     if negb (beqb c x01) then after [InKeys 753] (tdone (Raise KeyczarError))
                     else after [InKeys 754] (tdone (Ok (slice_from delimited_message 1)))))))).

(** [RsaPrivateKey.Decrypt], keys.py:827-839. *)
Definition RsaPrivateKey_Decrypt_t (k : rsapriv) (input_bytes : str) : traced str :=
  let ciph_bytes := slice_from input_bytes HEADER_SIZE in
  after [InKeys 837; InKeys 838]
    (let! decrypted := after [InLibrary "decrypt" (len ciph_bytes)] (tdone (rsa_decrypt_str (rs_key k) ciph_bytes)) in
     after [InKeys 839] (oaep_decode_t (num_bytes (rn_n (rn_pub (rs_key k)))) decrypted)).

(** [key.Decrypt(data)] for the classes of keys.py. *)
Definition key_Decrypt_t (k : key) (data : str) : traced str :=
  match k with
  | KAes k => AesKey_Decrypt_t k data
  | KRsaPriv k => RsaPrivateKey_Decrypt_t k data
  | _ => tdone (Raise AttributeError)
  end.

(** [key.Verify(msg, sig)]; the checks of RSA and DSA signatures use no secret and are one step here. *)
Definition key_Verify_t (k : key) (msg sig : str) : traced bool :=
  match k with
  | KHmac k => HmacKey_Verify_t k msg sig
  | _ => tdone (key_Verify k msg sig)
  end.

(** [Keyczar._ParseHeader] and [GetKey], keyczar.py:77-93 and 111-126. *)
Definition ParseHeader_t (ks : keyset) (header : str) : traced key :=
  after [InKeyczar 90]
    (let! c := tdone (index header 0) in
     after [InKeyczar 91]
       (if negb (ord c =? VERSION) then after [InKeyczar 92] (tdone (Raise (BadVersionError (ord c))))
        else after [InKeyczar 93; InKeyczar 123; InKeyczar 124]
          (match GetKey_hash ks (Base64WSEncode (slice_from header 1)) with
           | Ok k => tdone (Ok k)
           | Raise e => after [InKeyczar 125; InKeyczar 126] (tdone (Raise e))
           end))).

(** [Crypter.Decrypt], keyczar.py:511-535. *)
Definition Decrypt_t (ks : keyset) (ciphertext : str) (decoder : codec) : traced str :=
  after [InKeyczar 531; InLibrary "decoder" (len ciphertext)]
    (let! data_bytes := tdone (apply_codec decoder ciphertext) in
     after [InKeyczar 532]
       (if len data_bytes <? HEADER_SIZE then after [InKeyczar 533] (tdone (Raise (ShortCiphertextError (len data_bytes))))
        else after [InKeyczar 534]
          (let! k := ParseHeader_t ks (slice_to data_bytes HEADER_SIZE) in
           after [InKeyczar 535] (key_Decrypt_t k data_bytes)))).

(** [Verifier.__InternalVerify] and [Verify], keyczar.py:435-437 and 390-406. *)
Definition InternalVerify_t (ks : keyset) (header signature data : str) (nonce : option str) : traced bool :=
  after [InKeyczar 436]
    (let! k := ParseHeader_t ks header in
     after [InKeyczar 437]
       (let! p := tdone (PackByteArray nonce) in
        key_Verify_t k (data ++ p ++ VERSION_BYTE) signature)).
Definition Verify_t (ks : keyset) (data sig : str) (decoder : codec) : traced bool :=
  after [InKeyczar 403; InLibrary "decoder" (len sig)]
    (let! sig_bytes := tdone (apply_codec decoder sig) in
     after [InKeyczar 404]
       (if len sig_bytes <? HEADER_SIZE then after [InKeyczar 405] (tdone (Raise (ShortSignatureError (len sig_bytes))))
        else after [InKeyczar 406]
          (InternalVerify_t ks (slice_to sig_bytes HEADER_SIZE) (slice_from sig_bytes HEADER_SIZE) data None))).
