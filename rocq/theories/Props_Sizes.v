(** * Props_Sizes: the sizes of ciphertexts and signatures (C72). *)
From Coq Require Import Strings.String.
From Coq Require Import List ZArith NArith Bool Lia ZifyBool ZifyNat ZifyN.
From Coq.Init Require Import Byte.
From Verif Require Import PyBase PyFacts Base64 Base64Facts Sha1 Util UtilFacts Json JsonFacts KeyInfo SymKeys SymFacts ModArith ModFacts Der DerFacts AsymSpec AsymKeys AsymFacts
  Keys KeysFacts KeyData Keyczar KeyRing KeyczarFacts ErrFacts Session Props_Util Props_Sym Props_Asym Props_Format Props_Keyset Props_Sign Props_Disk Props_Session Streams Props_Stream Sizes.
Import ListNotations.
Local Open Scope Z_scope.
Ltac Zify.zify_post_hook ::= idtac.

(** ** Specification *)

(** The size of the text for [n] bytes. *)
Definition text_size (n : Z) : Z := (4 * n + 2) / 3.
(** The size of the AES ciphertext of [n] bytes: header, IV, whole blocks of which at least one byte
    is padding, tag. *)
Definition aes_size (n : Z) : Z := 5 + 16 + 16 * (n / 16 + 1) + 20.

(** The possible sizes of the signatures of a key. *)
Inductive signature_size : key -> Z -> Prop :=
| size_hmac k : signature_size (KHmac k) 20
| size_rsa size k : In size rsa_sizes -> rsa_key_ok size k -> signature_size (KRsaPriv k) (size / 8)
| size_dsa k n : dn_q (dn_pub (ds_key k)) < 2 ^ 160 -> 8 <= n <= 48 -> signature_size (KDsaPriv k) n.
(** The keys that is said of. *)
Definition signing_key (k : key) : Prop :=
  match k with
  | KHmac _ => True
  | KRsaPriv k => exists size, In size rsa_sizes /\ rsa_key_ok size k
  | KDsaPriv k => dsa_key_ok k /\ dn_q (dn_pub (ds_key k)) < 2 ^ 160
  | _ => False
  end.

(** ** Proofs *)
Lemma text_size_ok s : len (Base64WSEncode s) = text_size (len s).
Proof. rewrite (proj1 (proj2 C02_base64_canonical)). unfold ceil_div, text_size. pose proof (len_nonneg s). Z.to_euclidean_division_equations. lia. Qed.

Lemma nat_octets_size n : 0 <= n < 2 ^ 160 -> 1 <= len (nat_octets n) <= 21.
Proof.
  intros H. unfold nat_octets. pose proof (proj2 (len_bound_BigInt n 20 ltac:(lia) ltac:(lia))) as L. change (256 ^ 20) with (2 ^ 160) in L. specialize (L (proj2 H)).
  destruct (BigIntToBytes n) as [|b t]; [rewrite len_cons, len_nil; lia|]. rewrite len_cons in L. pose proof (len_nonneg t). destruct (128 <=? ord b); rewrite !len_cons; lia.
Qed.
Lemma dsa_sig_size r s x : 0 <= r < 2 ^ 160 -> 0 <= s < 2 ^ 160 -> MakeDsaSig r s = Ok x -> 8 <= len x <= 48.
Proof.
  intros Hr Hs H. pose proof (nat_octets_size r Hr) as Lr. pose proof (nat_octets_size s Hs) as Ls. unfold MakeDsaSig in H.
  assert (SH : forall n, n < 128 -> encode_length n = Ok [chr n]) by (intros n Hn; unfold encode_length; replace (n <? 128) with true by lia; reflexivity).
  cbn [encode] in H. unfold tlv, int_octets in H. replace (r <? 0) with false in H by lia. replace (s <? 0) with false in H by lia.
  rewrite (SH (len (nat_octets r))) in H by lia. rewrite (SH (len (nat_octets s))) in H by lia. cbn [bind] in H. rewrite app_nil_r in H.
  assert (LB : len ((x02 :: [chr (len (nat_octets r))] ++ nat_octets r) ++ x02 :: [chr (len (nat_octets s))] ++ nat_octets s) = 4 + len (nat_octets r) + len (nat_octets s)) by (rewrite !len_app, !len_cons, !len_app, !len_cons, !len_nil; lia).
  rewrite SH in H by (rewrite LB; lia). cbn [bind] in H. apply Ok_inj in H as <-. rewrite len_cons, len_app, LB, len_cons, len_nil. lia.
Qed.
Lemma sign_size e k m s : signing_key k -> key_Sign e k m = Ok s -> signature_size k (len s).
Proof.
  intros HK H. destruct k as [k|k|k|k|k|k]; cbn [signing_key key_Sign] in HK, H; try contradiction.
  - unfold HmacKey_Sign in H. apply bind_Ok in H as (b & _ & H). apply Ok_inj in H as <-. rewrite len_hmac. constructor.
  - destruct HK as (HK & HQ). destruct (C21_dsa_sign_verify_partial k (e_int e) m s HK H) as (r & t & HM & Hr & Ht & _). constructor; [exact HQ|]. apply (dsa_sig_size r t s); [lia | lia | exact HM].
  - destruct HK as (size & HS & HK). destruct (C20_rsa_sign_verify size k m HS HK) as (s0 & E & L & _). rewrite E in H. apply Ok_inj in H as <-. rewrite L. econstructor; eassumption.
Qed.

(** ** C72 *)

(** Encrypting with AES: the size of the result depends on that of the data alone; it is the one
    announced by the cipher mode. *)
Theorem C72_aes_ciphertexts : forall e ks k kb hb p, aes_primary ks k kb hb ->
  (forall c, Encrypt e ks p None = Ok c -> len c = aes_size (len p) /\ len c = 5 + GetOutputSize CBC 16 (len p) + output_size HMAC_SHA1) /\
  (forall c, Encrypt e ks p b64_encoder = Ok c -> len c = text_size (aes_size (len p))).
Proof.
  intros e ks k kb hb p HA. destruct (aes_primary_Encrypt e ks k kb hb p HA) as (hdr & _ & LH & EP & LB & EE).
  assert (A : forall c, Encrypt e ks p None = Ok c -> len c = aes_size (len p)).
  { intros c H. rewrite EE in H. apply Ok_inj in H as <-. rewrite !len_app, len_hmac, LH, LB, len_RandBytes by lia. unfold aes_size. lia. }
  split.
  - intros c H. specialize (A c H). split; [exact A|]. rewrite A. unfold aes_size, GetOutputSize, output_size. lia.
  - intros c H. destruct (Encrypt_b64 e ks p c H) as (raw & HR & ->). rewrite text_size_ok, (A raw HR). reflexivity.
Qed.
Print Assumptions C72_aes_ciphertexts.

(** Encrypting with RSA: never more than the size of the modulus. *)
Theorem C72_rsa_ciphertexts : forall e ks k size p, encrypts_with ks k -> In size rsa_sizes -> rsa_key_ok size k ->
  (forall c, Encrypt e ks p None = Ok c -> 6 <= len c <= 5 + size / 8) /\
  (forall c, Encrypt e ks p b64_encoder = Ok c -> len c <= text_size (5 + size / 8)).
Proof.
  intros e ks k size p HE HS HK.
  assert (A : forall c, Encrypt e ks p None = Ok c -> 6 <= len c <= 5 + size / 8).
  { intros c H. rewrite (rsa_Encrypt e ks k p None HE) in H. apply bind_Ok in H as (x & HX & H). apply Ok_inj in H as <-.
    destruct (C19_ciphertext_format size k (e_tape e) p x HS HK HX) as (id & em & body & _ & L & EX & _ & LB).
    unfold RsaPublicKey_Encrypt in HX. apply bind_Ok in HX as (em' & _ & HX). apply bind_Ok in HX as (b & HB & HX). apply bind_Ok in HX as (h & HH & HX). apply Ok_inj in HX.
    assert (L1 : 1 <= len b).
    { unfold rsa_encrypt_str in HB. apply bind_Ok in HB as (n & HN & HB). apply Ok_inj in HB as <-. unfold long_to_bytes. destruct (n =? 0) eqn:E; [rewrite len_cons, len_nil; lia|].
      assert (Hn : 0 <= n).
      { unfold rsa_public in HN. destruct (_ <=? _); [discriminate|]. apply Ok_inj in HN as <-. destruct HK as [HP HB' _ _]. rewrite HB'. pose proof (rsa_bits _ _ _ _ _ _ _ HP) as [B _].
        apply powmod_range; [|pose proof (rsa_e _ _ _ _ _ _ _ HP); lia]. apply Z.lt_le_trans with (2 ^ (size - 1)); [|exact B]. apply Z.pow_pos_nonneg; [reflexivity|]. clear - HS. cbn [In rsa_sizes] in HS. lia. }
      pose proof (BigIntToBytes_head n Hn) as HH'. destruct (BigIntToBytes n); [lia|]. rewrite len_cons. pose proof (len_nonneg s). lia. }
    destruct (make_header_ok (PrefixHash [TrimBytes (rp_modulus (rs_pub k)); TrimBytes (rp_exponent (rs_pub k))]) (len_PrefixHash _)) as (id' & EH & Hid & _).
    unfold rsapub_hash_id in HH. rewrite EH in HH. apply Ok_inj in HH as <-. subst x. pose proof (f_equal len EX) as LX. rewrite !len_app, !len_cons, !len_app in *. lia. }
  split; [exact A|]. intros c H. destruct (Encrypt_b64 e ks p c H) as (raw & HR & ->). rewrite text_size_ok. specialize (A raw HR). unfold text_size. apply Z.div_le_mono; lia.
Qed.
Print Assumptions C72_rsa_ciphertexts.

(** It is not always that size: leading zero bytes of the number are left out. *)
Theorem C72_rsa_can_be_shorter : exists e ks k p c, encrypts_with ks k /\ rsa_key_ok 512 k /\ Encrypt e ks p None = Ok c /\ len c < 5 + 512 / 8.
Proof.
  destruct demo_rsa_set as (ks & EO & ER). exists (MkEnv PyCrypto (fun i => if Nat.eqb i 1 then x46 else x00) 0), ks, demo_rsa, (bs "hi").
  assert (HE : encrypts_with ks demo_rsa).
  { left. split; [|exists 1; exact ER]. exists Crypter, (StaticKeyReader (KRsaPriv demo_rsa) DECRYPT_AND_ENCRYPT), ks, []. split; [exact EO | reflexivity]. }
  eexists. split; [exact HE|]. split; [exact C19_case|]. split; [rewrite (rsa_Encrypt _ ks demo_rsa _ None HE); vm_compute; reflexivity | vm_compute; reflexivity].
Qed.
Print Assumptions C72_rsa_can_be_shorter.

(** Signatures: detached ones have a header, attached ones moreover the data and its size. *)
Theorem C72_signatures : forall e ks k data, signer_of ks k -> signing_key k ->
  (forall s, Sign e ks data None = Ok s -> exists n, signature_size k n /\ len s = 5 + n) /\
  (forall s, Sign e ks data b64_encoder = Ok s -> exists n, signature_size k n /\ len s = text_size (5 + n)) /\
  (forall s, UnversionedSign e ks data None = Ok s -> signature_size k (len s)) /\
  (forall s, UnversionedSign e ks data b64_encoder = Ok s -> exists n, signature_size k n /\ len s = text_size n) /\
  (forall nonce s, AttachedSign e ks data nonce None = Ok s -> exists n, signature_size k n /\ len s = 5 + 4 + len data + n) /\
  (forall nonce s, AttachedSign e ks data nonce b64_encoder = Ok s -> exists n, signature_size k n /\ len s = text_size (5 + 4 + len data + n)).
Proof.
  intros e ks k data HG HK. destruct (signer_primary ks k HG) as (HP & id & _ & L & HD).
  assert (A1 : forall c s, Sign e ks data c = Ok s -> exists n raw, signature_size k n /\ len raw = 5 + n /\ apply_codec c raw = Ok s).
  { intros c s H. unfold Sign, InternalSign in H. rewrite HP in H. cbn [bind] in H. rewrite HD in H. cbn [bind PackByteArray] in H. apply bind_Ok in H as (x & HX & H).
    exists (len x), ((x00 :: id) ++ x). split; [exact (sign_size e k _ x HK HX)|]. split; [rewrite len_app, len_cons; lia | exact H]. }
  assert (A2 : forall c s, UnversionedSign e ks data c = Ok s -> exists raw, signature_size k (len raw) /\ apply_codec c raw = Ok s).
  { intros c s H. unfold UnversionedSign in H. rewrite HP in H. cbn [bind] in H. apply bind_Ok in H as (x & HX & H). exists x. split; [exact (sign_size e k _ x HK HX) | exact H]. }
  assert (A3 : forall nonce c s, AttachedSign e ks data nonce c = Ok s -> exists n raw, signature_size k n /\ len raw = 5 + 4 + len data + n /\ apply_codec c raw = Ok s).
  { intros nonce c s H. assert (N : exists raw, AttachedSign e ks data nonce None = Ok raw /\ apply_codec c raw = Ok s).
    { unfold AttachedSign in *. apply bind_Ok in H as (k1 & -> & H). apply bind_Ok in H as (h & E2 & H). apply bind_Ok in H as (d & E3 & H). apply bind_Ok in H as (x & E4 & H).
      cbn [bind]. rewrite E2. cbn [bind]. rewrite E3. cbn [bind]. rewrite E4. cbn [bind]. eexists. split; [reflexivity | exact H]. }
    destruct N as (raw & HR & HC). destruct (AttachedSign_shape e ks k data nonce raw HG HR) as (id' & p & sig & _ & L' & _ & _ & HS & ->).
    exists (len sig). eexists. split; [exact (sign_size e k _ sig HK HS)|]. split; [|exact HC]. rewrite len_cons, len_app, len_app, len_packed. lia. }
  split; [|split; [|split; [|split; [|split]]]].
  - intros s H. destruct (A1 None s H) as (n & raw & HN & HL & HC). apply Ok_inj in HC as <-. exists n. split; assumption.
  - intros s H. destruct (A1 _ s H) as (n & raw & HN & HL & HC). apply Ok_inj in HC as <-. exists n. split; [assumption|]. rewrite text_size_ok, HL. reflexivity.
  - intros s H. destruct (A2 None s H) as (raw & HN & HC). apply Ok_inj in HC as <-. exact HN.
  - intros s H. destruct (A2 _ s H) as (raw & HN & HC). apply Ok_inj in HC as <-. exists (len raw). split; [exact HN | apply text_size_ok].
  - intros nonce s H. destruct (A3 nonce None s H) as (n & raw & HN & HL & HC). apply Ok_inj in HC as <-. exists n. split; assumption.
  - intros nonce s H. destruct (A3 nonce _ s H) as (n & raw & HN & HL & HC). apply Ok_inj in HC as <-. exists n. split; [assumption|]. rewrite text_size_ok, HL. reflexivity.
Qed.
Print Assumptions C72_signatures.

(** The announced size is that of HMAC signatures and an upper bound for DSA; for RSA it is right for
    keys of 2048 bits only. *)
Theorem C72_announced_sizes : forall k n, signature_size k n ->
  match key_type k with
  | HMAC_SHA1 => n = output_size HMAC_SHA1
  | DSA_PRIV => n <= output_size DSA_PRIV
  | _ => n = output_size RSA_PRIV <-> key_size k = 2048
  end.
Proof.
  intros k n H. destruct H as [k|size k HS HK|k n HQ HN]; cbn [key_type]; [reflexivity | | unfold output_size; lia].
  destruct HK as [_ _ Hs _]. cbn [key_size]. rewrite Hs. unfold output_size. cbn [In rsa_sizes] in HS. destruct HS as [<-|[<-|[<-|[<-|[<-|[]]]]]]; (split; intros H; vm_compute in H; try discriminate H; vm_compute; reflexivity).
Qed.
Print Assumptions C72_announced_sizes.

(** Sessions. *)
Theorem C72_sessions : forall e s p, good_session s ->
  (forall c, Session_Encrypt e s p None = Ok c -> len c = aes_size (len p)) /\
  (forall e' signer k c, signer_of signer k -> signing_key k -> SignedSession_Encrypt e e' s signer p = Ok c ->
     exists n, signature_size k n /\ len c = text_size (5 + 4 + aes_size (len p) + n)).
Proof.
  intros e s p G. destruct (session_crypter_ok s G) as (cr & EC & HV & HR). destruct G as (W & kb & hb & HM & HS).
  assert (HA : aes_primary cr (se_key s) kb hb) by (split; [split; [exact (proj1 HV) | exists 1; exact HR] | split; assumption]).
  split.
  - intros c H. unfold Session_Encrypt in H. rewrite EC in H. cbn [bind] in H. apply (C72_aes_ciphertexts e cr _ kb hb p HA), H.
  - intros e' signer k c HG HK H. unfold SignedSession_Encrypt in H. rewrite EC in H. cbn [bind] in H. apply bind_Ok in H as (ct & HE & H).
    destruct (C72_signatures e' signer k ct HG HK) as (_ & _ & _ & _ & _ & A). destruct (A _ c H) as (n & HN & HL). exists n. split; [exact HN|].
    rewrite HL, (proj1 (proj1 (C72_aes_ciphertexts e cr _ kb hb p HA) ct HE)). reflexivity.
Qed.
Print Assumptions C72_sessions.

(** Streams: the whole output, whatever the chunks. *)
Theorem C72_streams : forall e ks k kb hb b64 ds, aes_primary ks k kb hb ->
  exists w w', CreateEncryptingStreamWriter ks (e_tape e) b64 = Ok w /\ wrun w (map CWrite ds ++ [CFlush]) = (w', map (fun _ => Ok tt) ds ++ [Ok tt]) /\
    len (ew_out w') = if b64 then text_size (aes_size (len (concat ds))) else aes_size (len (concat ds)).
Proof.
  intros e ks k kb hb b64 ds HA. destruct (C51_writes_then_flush e ks k kb hb b64 ds HA) as (w & w' & ct & E1 & E2 & E3 & E4). exists w, w'. split; [exact E1|]. split; [exact E2|]. rewrite E4.
  destruct (C72_aes_ciphertexts e ks k kb hb (concat ds) HA) as [A B]. destruct b64; [apply B, E3 | apply A, E3].
Qed.
Print Assumptions C72_streams.

Example C72_case : aes_size 0 = 57 /\ aes_size 15 = 57 /\ aes_size 16 = 73 /\ text_size 57 = 76 /\ (exists k kb hb, aes_primary aes_set k kb hb) /\
  (exists k, signer_of hmac_set k /\ signing_key k) /\ (exists ks k, encrypts_with ks k /\ rsa_key_ok 512 k) /\
  signature_size (KRsaPriv demo_rsa) 64.
Proof.
  repeat (split; [reflexivity|]). split; [|split; [|split]].
  - destruct C40_case as [(n & k & kb & hb & HR & HM & HS & HV) _]. exists k, kb, hb. split; [split; [exact (proj1 HV) | exists n; exact HR] | split; assumption].
  - destruct C35_case as (k & HG & _ & _ & HS). exists k. split; [exact HG|]. specialize (HS (MkEnv PyCrypto (fun _ => x00) 0) []). destruct HG as (_ & n & HR).
    assert (T : exists h, k = KHmac h).
    { unfold ring_of in HR. destruct (Z.eq_dec n 1) as [->|N1]; [vm_compute in HR; discriminate HR|]. destruct (Z.eq_dec n 2) as [->|N2]; [vm_compute in HR; injection HR as <-; eexists; reflexivity|].
      cbn [hmac_set ks_mvers assoc] in HR. replace (1 =? n) with false in HR by lia. replace (2 =? n) with false in HR by lia. discriminate HR. }
    destruct T as (h & ->). exact Logic.I.
  - exact (proj2 C40_case) || (destruct C40_case as [_ (ks & H)]; exists ks, demo_rsa; exact H).
  - exact (size_rsa 512 demo_rsa (or_introl eq_refl) C19_case).
Qed.
