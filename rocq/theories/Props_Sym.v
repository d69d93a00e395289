(** * Props_Sym: properties C15-C18 and C24 (HMAC and AES keys). *)
From Coq Require Import Strings.String.
From Coq Require Import List ZArith NArith Bool Lia ZifyBool ZifyNat ZifyN.
From Coq.Init Require Import Byte.
From Verif Require Import PyBase PyFacts Base64 Base64Facts Sha1 Util UtilFacts Aes AesFacts
  Json JsonFacts KeyInfo SymKeys SymFacts.
Import ListNotations.
Local Open Scope Z_scope.
Ltac Zify.zify_post_hook ::= Z.div_mod_to_equations.

(** ** C15 *)
Theorem C15_pkcs5_padding :
  (forall d : str, exists n : nat, (1 <= n <= 16)%nat /\ Pad d = d ++ repeat (chr (Z.of_nat n)) n /\
     len (Pad d) mod 16 = 0 /\ UnPad (Pad d) = Ok d) /\
  (forall a b : str, Pad a = Pad b -> a = b).
Proof.
  split; [|exact Pad_inj].
  intros d. destruct (Pad_spec d) as (n & Hn & _ & E). exists (Z.to_nat n).
  split; [lia|]. split; [rewrite E, Z2Nat.id by lia; reflexivity|].
  split; [rewrite len_Pad; lia | apply UnPad_Pad].
Qed.
Print Assumptions C15_pkcs5_padding.

Example C15_case : Pad (bs "0123456789abcdef") = bs "0123456789abcdef" ++ repeat x10 16 /\
  Pad (bs "hello") = bs "hello" ++ repeat x0b 11.
Proof. split; vm_compute; reflexivity. Qed.

(** ** C16 *)
(** [k] is an HMAC key whose Base64 string decodes to [b]. *)
Theorem C16_hmac_verify_is_equality :
  forall (k : hmackey) (b msg sig : str), hmac_bytes k = Ok b ->
    exists tag, HmacKey_Sign k msg = Ok tag /\ tag = hmac_sha1 b msg /\ len tag = 20 /\
      (sig = tag -> HmacKey_Verify k msg sig = Ok true) /\
      (sig <> tag -> HmacKey_Verify k msg sig = Ok false).
Proof.
  intros k b msg sig H. exists (hmac_sha1 b msg).
  split; [apply HmacKey_Sign_ok; assumption|]. split; [reflexivity|]. split; [apply len_hmac|].
  rewrite (HmacKey_Verify_ok k b) by assumption. split.
  - intros E. f_equal. apply VerifySignedData_spec. assumption.
  - intros E. f_equal. apply not_true_is_false. rewrite VerifySignedData_spec. assumption.
Qed.
Print Assumptions C16_hmac_verify_is_equality.

(** A key that does not decode cannot verify anything. *)
Theorem C16_no_undecodable_key_verifies :
  forall k msg sig e, hmac_bytes k = Raise e -> HmacKey_Verify k msg sig = Raise e.
Proof. intros k msg sig e H. unfold HmacKey_Verify, HmacKey_Sign. rewrite H. reflexivity. Qed.
Print Assumptions C16_no_undecodable_key_verifies.

Definition demo_hmac : hmackey := HmacKey_new (text_of_str (Base64WSEncode (bs "0123456789abcdef0123456789abcdef"))) 256.
Example C16_case : hmac_bytes demo_hmac = Ok (bs "0123456789abcdef0123456789abcdef").
Proof. vm_compute. reflexivity. Qed.

(** ** C17 *)
(** [aes_material k kb hb]: the Base64 strings of the key decode to the AES key bytes [kb]
    and the HMAC key bytes [hb].  [aes_size_ok kb]: 16, 24 or 32 bytes. *)
Theorem C17_aes_roundtrip :
  forall lib k kb hb r p, aes_material k kb hb -> aes_size_ok kb ->
    exists c, AesKey_Encrypt lib k r p = Ok c /\ AesKey_Decrypt k c = Ok p.
Proof.
  intros lib k kb hb r p HM HS.
  destruct (AesKey_Encrypt_ok lib k r p kb hb HM HS) as (hdr & EH & H5 & Hl & EE).
  eexists. split; [exact EE|].
  assert (Hi : len (RandBytes r 16) = 16) by (apply len_RandBytes; lia).
  rewrite (AesKey_Decrypt_wf k kb hb hdr _ _ HM H5 Hi).
  rewrite (AES_new_iff kb _ HS Hi). cbn [bind].
  destruct (cipher_decrypt_body kb _ p HS Hi) as (c' & ->). cbn [bind]. apply UnPad_Pad.
Qed.
Print Assumptions C17_aes_roundtrip.

(** The wire format: header (version 0 and the first 4 bytes of the key hash), the random
    IV, the CBC encryption of the padded data, and the HMAC of everything before it. *)
Theorem C17_aes_wire_format :
  forall lib k kb hb r p, aes_material k kb hb -> aes_size_ok kb ->
    exists header body,
      let iv := RandBytes r 16 in
      let signed := header ++ iv ++ body in
      AesKey_Encrypt lib k r p = Ok (signed ++ hmac_sha1 hb signed) /\
      header = x00 :: firstn 4 (sha1 (IntToBytes (len kb) ++ kb ++ hb)) /\
      len header = 5 /\ len iv = 16 /\ len body = 16 * (len p / 16 + 1) /\
      (exists c', cipher_decrypt (MkCipher (key_schedule kb) iv) body = Ok (Pad p, c')).
Proof.
  intros lib k kb hb r p HM HS.
  destruct (AesKey_Encrypt_ok lib k r p kb hb HM HS) as (hdr & EH & H5 & Hl & EE).
  exists hdr, (aes_body kb (RandBytes r 16) p). cbv zeta.
  assert (Hi : len (RandBytes r 16) = 16) by (apply len_RandBytes; lia).
  split; [exact EE|]. split.
  - destruct (aes_header_ok k kb hb HM) as (id & EH' & Hid & _ & E). rewrite EH in EH'.
    apply Ok_inj in EH' as ->. rewrite E. unfold Hash. cbn [concat]. rewrite app_nil_r.
    rewrite slice_to_firstn by lia. reflexivity.
  - split; [assumption|]. split; [assumption|]. split; [assumption|].
    apply cipher_decrypt_body; assumption.
Qed.
Print Assumptions C17_aes_wire_format.

Lemma RandBytes_add r n m : 0 <= n -> 0 <= m ->
  RandBytes r (n + m) = RandBytes r n ++ RandBytes (advance (Z.to_nat n) r) m.
Proof.
  intros Hn Hm. unfold RandBytes, advance. rewrite Z2Nat.inj_add, seq_app, map_app by lia.
  f_equal. rewrite <- (map_map (fun i => (Z.to_nat n + i)%nat) r). f_equal.
  rewrite Nat.add_0_l. generalize (Z.to_nat m). intros k. revert n Hn.
  assert (G : forall k a b, seq (a + b) k = map (fun i => (a + i)%nat) (seq b k)).
  { clear. induction k as [|k IH]; intros a b; [reflexivity|]. cbn [seq map]. f_equal.
    rewrite <- IH. f_equal. lia. }
  intros n _. rewrite <- G. f_equal. lia.
Qed.

(** Every generated key meets these hypotheses. *)
Theorem C17_generated_keys :
  forall r size k, In size [128; 192; 256] -> AesKey_Generate r size = Ok k ->
    ak_size k = size /\
    aes_material k (RandBytes r (size / 8)) (RandBytes (advance (Z.to_nat (size / 8)) r) 32) /\
    aes_size_ok (RandBytes r (size / 8)).
Proof.
  intros r size k HS HG. unfold AesKey_Generate in HG. cbn [AesKey_new] in HG. apply Ok_inj in HG as <-.
  cbn [ak_size].
  assert (IsValidSize AES size = true).
  { cbn in HS. destruct HS as [<-|[<-|[<-|[]]]]; reflexivity. }
  unfold set_size. rewrite H. split; [reflexivity|]. split.
  - unfold aes_material, aes_bytes, hmac_bytes. cbn [ak_string ak_hmac].
    unfold HmacKey_Generate, HmacKey_new. cbn [hk_string]. split; apply base64_roundtrip_u.
  - unfold aes_size_ok. cbn in HS. destruct HS as [<-|[<-|[<-|[]]]]; rewrite len_RandBytes; cbn; lia.
Qed.
Print Assumptions C17_generated_keys.

(** With key bytes of any other length nothing is ever encrypted. *)
Theorem C17_bad_key_length_refused :
  forall lib k kb hb r p, aes_material k kb hb -> ~ aes_size_ok kb ->
    AesKey_Encrypt lib k r p = Raise ValueError.
Proof.
  intros lib k kb hb r p [Hk Hh] HS. unfold AesKey_Encrypt. cbv zeta. rewrite Hk. cbn [bind].
  assert (E : AES_new kb (RandBytes r block_size) = Raise ValueError).
  { unfold AES_new. destruct (_ && _) eqn:E; [|reflexivity]. exfalso. apply HS. unfold aes_size_ok.
    apply andb_prop in E as [E _]. lia. }
  destruct lib; unfold CreateCipher; [rewrite E; reflexivity|]. cbn [bind adaptor_encrypt].
  unfold EVP_new. rewrite E. reflexivity.
Qed.
Print Assumptions C17_bad_key_length_refused.

Definition demo_aes : aeskey :=
  MkAes (text_of_str (Base64WSEncode (bs "fedcba9876543210"))) demo_hmac 128.
Example C17_case : aes_material demo_aes (bs "fedcba9876543210") (bs "0123456789abcdef0123456789abcdef") /\
  aes_size_ok (bs "fedcba9876543210").
Proof. split; [split; vm_compute; reflexivity | left; reflexivity]. Qed.

(** ** C18 *)
(** What [Decrypt] accepts is authenticated: the last 20 bytes are the HMAC of the rest. *)
Theorem C18_only_authentic_is_decrypted :
  forall k hb c p, hmac_bytes (ak_hmac k) = Ok hb -> AesKey_Decrypt k c = Ok p ->
    exists m tag, c = m ++ tag /\ len tag = 20 /\ 21 <= len m /\ tag = hmac_sha1 hb m.
Proof.
  intros k hb c p Hh H. destruct (Z.lt_ge_cases (len c) 41) as [HL|HL].
  - rewrite AesKey_Decrypt_short in H by assumption. discriminate.
  - destruct (split_at c (len c - 20)) as (m & tag & E & Hm); [lia|].
    assert (Ht : len tag = 20) by (subst c; rewrite len_app in *; lia).
    exists m, tag. split; [assumption|]. split; [assumption|]. split; [lia|].
    destruct (list_eq_dec Byte.byte_eq_dec tag (hmac_sha1 hb m)) as [->|Hne]; [reflexivity|].
    subst c. rewrite (AesKey_Decrypt_tag k hb) in H by (assumption || lia). discriminate.
Qed.
Print Assumptions C18_only_authentic_is_decrypted.

(** Everything else is refused, before the AES key or the padding is looked at: the
    outcome is the same for every AES key string. *)
Theorem C18_refusal_is_independent_of_aes_key :
  (forall k c, len c < 41 -> AesKey_Decrypt k c = Raise (ShortCiphertextError (Z.max 0 (len c - 5)))) /\
  (forall k hb m tag, hmac_bytes (ak_hmac k) = Ok hb -> len tag = 20 -> 21 <= len m ->
     tag <> hmac_sha1 hb m -> AesKey_Decrypt k (m ++ tag) = Raise InvalidSignatureError).
Proof. split; [exact AesKey_Decrypt_short | exact AesKey_Decrypt_tag]. Qed.
Print Assumptions C18_refusal_is_independent_of_aes_key.

(** Any accepted ciphertext other than the one made exhibits an HMAC forgery: a message
    [m'] different from the one that was authenticated, with a valid tag. *)
Theorem C18_modification_needs_forgery :
  forall lib k kb hb r p c c' p', aes_material k kb hb -> aes_size_ok kb ->
    AesKey_Encrypt lib k r p = Ok c -> AesKey_Decrypt k c' = Ok p' -> c' <> c ->
    exists m m', c = m ++ hmac_sha1 hb m /\ c' = m' ++ hmac_sha1 hb m' /\ m' <> m.
Proof.
  intros lib k kb hb r p c c' p' HM HS HE HD Hne.
  destruct (AesKey_Encrypt_ok lib k r p kb hb HM HS) as (hdr & EH & H5 & Hl & EE).
  rewrite HE in EE. apply Ok_inj in EE.
  destruct (C18_only_authentic_is_decrypted k hb c' p' (proj2 HM) HD) as (m' & tag & Ec & _ & _ & Et).
  eexists _, m'. split; [exact EE|]. subst tag. split; [assumption|].
  intros ->. apply Hne. congruence.
Qed.
Print Assumptions C18_modification_needs_forgery.

(** An all-zero message of 60 bytes carries a wrong tag under the demonstration key. *)
Example C18_case : hmac_bytes (ak_hmac demo_aes) = Ok (bs "0123456789abcdef0123456789abcdef") /\
  repeat x00 20 <> hmac_sha1 (bs "0123456789abcdef0123456789abcdef") (repeat x00 40).
Proof. split; vm_compute; [reflexivity | discriminate]. Qed.

(** ** C24 *)
Theorem C24_back_ends_agree :
  forall k r p, AesKey_Encrypt PyCrypto k r p = AesKey_Encrypt M2Crypto k r p.
Proof.
  intros k r p. unfold AesKey_Encrypt. cbv zeta.
  destruct (aes_bytes k) as [kb|e] eqn:Ek; [|reflexivity]. cbn [bind].
  destruct (AES_new kb (RandBytes r block_size)) as [c|e] eqn:EN.
  - pose proof (AES_new_ok _ _ _ EN) as Hok.
    assert (Hd : len (Pad p) mod 16 = 0) by (rewrite len_Pad; lia).
    destruct (cipher_encrypt_ok c (Pad p) Hok Hd) as (out & c' & EE & _).
    unfold CreateCipher. rewrite EN. cbn [bind adaptor_encrypt]. rewrite EE. cbn [bind adaptor_final].
    unfold EVP_new. rewrite EN. cbn [bind]. unfold evp_update. cbn [e_buf e_cipher app].
    assert (16 * (len (Pad p) / 16) = len (Pad p)) as -> by lia.
    rewrite slice_to_all, slice_from_all by lia. rewrite EE. reflexivity.
  - unfold CreateCipher. rewrite EN. cbn [bind adaptor_encrypt]. unfold EVP_new. rewrite EN. reflexivity.
Qed.
Print Assumptions C24_back_ends_agree.

Example C24_case : exists c, AesKey_Encrypt M2Crypto demo_aes (fun _ => x2a) (bs "attack at dawn") = Ok c.
Proof.
  destruct (C17_aes_roundtrip M2Crypto demo_aes _ _ (fun _ => x2a) (bs "attack at dawn") (proj1 C17_case) (proj2 C17_case)) as (c & H & _).
  exists c. exact H.
Qed.
