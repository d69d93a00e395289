(** * SymFacts: lemmas about padding, HMAC keys and AES keys. *)
From Coq Require Import List ZArith NArith Bool Lia ZifyBool ZifyNat ZifyN.
From Coq.Init Require Import Byte.
From Verif Require Import PyBase PyFacts Base64 Base64Facts Sha1 Util UtilFacts Aes AesFacts
  Json JsonFacts KeyInfo SymKeys.
Import ListNotations.
Local Open Scope Z_scope.
Ltac Zify.zify_post_hook ::= Z.div_mod_to_equations.

(** ** Padding *)

Lemma Pad_spec d : exists n, 1 <= n <= 16 /\ n = 16 - len d mod 16 /\ Pad d = d ++ rep n (chr n).
Proof.
  exists (16 - len d mod 16). pose proof (len_nonneg d). split; [lia|]. split; [reflexivity|]. reflexivity.
Qed.

Lemma len_Pad d : len (Pad d) = 16 * (len d / 16 + 1).
Proof.
  destruct (Pad_spec d) as (n & Hn & E & ->). rewrite len_app, len_rep by lia.
  pose proof (len_nonneg d). lia.
Qed.

Lemma rep_snoc n c : 1 <= n -> rep n c = rep (n - 1) c ++ [c].
Proof.
  intros H. unfold rep. replace (Z.to_nat n) with (Z.to_nat (n - 1) + 1)%nat by lia.
  rewrite repeat_app. reflexivity.
Qed.

Lemma index_last {A} (l : list A) a : index (l ++ [a]) (-1) = Ok a.
Proof.
  unfold index. cbn [Z.ltb Z.compare]. rewrite len_app. cbn [len length].
  pose proof (len_nonneg l). change (len [a]) with 1.
  replace (len l + 1 + -1 <? 0) with false by lia.
  replace (Z.to_nat (len l + 1 + -1)) with (length l) by (unfold len; lia).
  rewrite nth_error_app2 by lia. rewrite Nat.sub_diag. reflexivity.
Qed.

Lemma UnPad_app d n : 1 <= n <= 255 -> UnPad (d ++ rep n (chr n)) = Ok d.
Proof.
  intros Hn. unfold UnPad.
  rewrite rep_snoc at 1 by lia. rewrite app_assoc, index_last. cbn [bind].
  rewrite ord_chr_small by lia.
  rewrite slice_to_neg_app; [reflexivity | rewrite len_rep; lia | lia].
Qed.

Lemma UnPad_Pad d : UnPad (Pad d) = Ok d.
Proof.
  destruct (Pad_spec d) as (n & Hn & _ & ->). apply UnPad_app. lia.
Qed.

Lemma Pad_inj a b : Pad a = Pad b -> a = b.
Proof.
  intros H. pose proof (UnPad_Pad a) as Ha. rewrite H, UnPad_Pad in Ha. apply Ok_inj in Ha. congruence.
Qed.

(** ** Constant-time comparison *)

Lemma lor_fold_zero l : forall a, 0 <= a ->
  fold_left (fun r (p : byte * byte) => Z.lor r (Z.lxor (ord (fst p)) (ord (snd p)))) l a = 0 <->
  a = 0 /\ Forall (fun p => fst p = snd p) l.
Proof.
  induction l as [|[x y] l IH]; intros a Ha; cbn [fold_left fst snd].
  - split; [intros ->; split; [reflexivity | constructor] | tauto].
  - assert (Hx : 0 <= Z.lxor (ord x) (ord y)).
    { pose proof (ord_range x). pose proof (ord_range y). apply Z.lxor_nonneg. lia. }
    rewrite IH by (apply Z.lor_nonneg; lia). rewrite Z.lor_eq_0_iff.
    rewrite Z.lxor_eq_0_iff. split.
    + intros [[-> E] HF]. split; [reflexivity|]. constructor; [apply ord_inj; assumption | assumption].
    + intros [-> HF]. inversion HF as [|? ? E HF']; subst. cbn [fst snd] in E. subst y.
      repeat split; assumption.
Qed.

Lemma combine_eq (a b : str) : length a = length b -> Forall (fun p => fst p = snd p) (combine a b) -> a = b.
Proof.
  revert b. induction a as [|x a IH]; intros [|y b] H HF; cbn in H; try lia; [reflexivity|].
  cbn [combine] in HF. inversion HF as [|? ? E HF']; subst. cbn [fst snd] in E. subst y.
  f_equal. apply IH; [lia | assumption].
Qed.
Lemma combine_diag (a : str) : Forall (fun p => fst p = snd p) (combine a a).
Proof. induction a; cbn [combine]; constructor; [reflexivity | assumption]. Qed.

Lemma VerifySignedData_spec mac sig : VerifySignedData mac sig = true <-> sig = mac.
Proof.
  unfold VerifySignedData, or_diff. destruct (len sig =? len mac) eqn:E; cbn [negb].
  - rewrite Z.eqb_eq, lor_fold_zero by lia. split.
    + intros [_ HF]. symmetry. apply combine_eq; [unfold len in E; lia | assumption].
    + intros ->. split; [reflexivity | apply combine_diag].
  - split; [discriminate|]. intros ->. rewrite Z.eqb_refl in E. discriminate.
Qed.

(** ** Identifiers *)

Lemma short_hash_decode h : Base64WSDecode (short_hash h) = Ok (slice_to h 4).
Proof. unfold short_hash. apply base64_roundtrip. Qed.

Lemma make_header_ok h : len h = 20 ->
  exists id, make_header (short_hash h) = Ok (x00 :: id) /\ len id = 4 /\ short_hash h = Base64WSEncode id.
Proof.
  intros H. exists (slice_to h 4). unfold make_header. rewrite short_hash_decode. cbn [bind].
  split; [reflexivity|]. split; [apply len_slice_to; lia | reflexivity].
Qed.

(** ** Generated and well-formed keys *)

(** An AES key whose two Base64 strings decode to [kb] and [hb]. *)
Definition aes_material (k : aeskey) (kb hb : str) : Prop :=
  aes_bytes k = Ok kb /\ hmac_bytes (ak_hmac k) = Ok hb.

Definition aes_size_ok (kb : str) : Prop := len kb = 16 \/ len kb = 24 \/ len kb = 32.

Lemma aes_header_ok k kb hb : aes_material k kb hb ->
  exists id, aes_header k = Ok (x00 :: id) /\ len id = 4 /\ aes_hash_id k = Ok (Base64WSEncode id) /\
    id = slice_to (Hash [IntToBytes (len kb); kb; hb]) 4.
Proof.
  intros [Hk Hh]. unfold aes_header, aes_hash_id. rewrite Hk, Hh. cbn [bind].
  exists (slice_to (Hash [IntToBytes (len kb); kb; hb]) 4).
  unfold make_header. rewrite short_hash_decode. cbn [bind].
  split; [reflexivity|]. split; [rewrite len_slice_to; [reflexivity | rewrite len_Hash; lia]|].
  split; reflexivity.
Qed.

Lemma HmacKey_Sign_ok k b m : hmac_bytes k = Ok b -> HmacKey_Sign k m = Ok (hmac_sha1 b m).
Proof. intros H. unfold HmacKey_Sign. rewrite H. reflexivity. Qed.

Lemma HmacKey_Verify_ok k b m s : hmac_bytes k = Ok b ->
  HmacKey_Verify k m s = Ok (VerifySignedData (hmac_sha1 b m) s).
Proof. intros H. unfold HmacKey_Verify. rewrite (HmacKey_Sign_ok k b m H). reflexivity. Qed.

(** One call of [encrypt] followed by [final] on either adaptor. *)
Lemma adaptor_oneshot lib kb iv data : aes_size_ok kb -> len iv = 16 -> len data mod 16 = 0 ->
  exists a out a', CreateCipher lib kb iv = Ok a /\ adaptor_encrypt a data = Ok (out, a') /\
    adaptor_final a' = Ok [] /\ len out = len data /\
    out = fst (cbc_enc (Z.to_nat (len data / 16)) (key_schedule kb) iv data).
Proof.
  intros Hk Hi Hd. pose proof (AES_new_iff kb iv Hk Hi) as EN.
  pose proof (AES_new_ok kb iv _ EN) as Hok.
  destruct (cipher_encrypt_ok _ data Hok Hd) as (out & c' & EE & _ & Hl & _ & _).
  assert (Hout : out = fst (cbc_enc (Z.to_nat (len data / 16)) (key_schedule kb) iv data)).
  { unfold cipher_encrypt in EE. rewrite Hd in EE. cbn [Z.eqb c_keys c_iv] in EE.
    destruct (cbc_enc _ _ _ _) as [o i]. apply Ok_inj in EE. apply pair_inj in EE as [-> _]. reflexivity. }
  destruct lib.
  - unfold CreateCipher. rewrite EN. cbn [bind].
    eexists _, out, _. split; [reflexivity|]. cbn [adaptor_encrypt]. rewrite EE. cbn [bind].
    split; [reflexivity|]. split; [reflexivity|]. split; assumption.
  - unfold CreateCipher. eexists _, out, _. split; [reflexivity|].
    cbn [adaptor_encrypt]. unfold EVP_new. rewrite EN. cbn [bind].
    unfold evp_update. cbn [e_buf e_cipher app].
    assert (16 * (len data / 16) = len data) as -> by lia.
    rewrite slice_to_all, slice_from_all by lia. rewrite EE. cbn [bind].
    split; [reflexivity|]. split; [reflexivity|]. split; assumption.
Qed.

(** The AES ciphertext in full. *)
Definition aes_body (kb iv p : str) : str :=
  fst (cbc_enc (Z.to_nat (len (Pad p) / 16)) (key_schedule kb) iv (Pad p)).

Lemma AesKey_Encrypt_ok lib k r p kb hb : aes_material k kb hb -> aes_size_ok kb ->
  exists hdr, aes_header k = Ok hdr /\ len hdr = 5 /\
    let m := hdr ++ RandBytes r 16 ++ aes_body kb (RandBytes r 16) p in
    len (aes_body kb (RandBytes r 16) p) = 16 * (len p / 16 + 1) /\
    AesKey_Encrypt lib k r p = Ok (m ++ hmac_sha1 hb m).
Proof.
  intros HM HS. destruct (aes_header_ok k kb hb HM) as (id & EH & Hl & _ & _).
  exists (x00 :: id). split; [assumption|]. split; [rewrite len_cons; lia|].
  cbv zeta. unfold AesKey_Encrypt. cbv zeta. unfold block_size in *.
  destruct HM as [Hk Hh]. rewrite Hk. cbn [bind].
  assert (Hi : len (RandBytes r 16) = 16) by (apply len_RandBytes; lia).
  assert (Hd : len (Pad p) mod 16 = 0) by (rewrite len_Pad; lia).
  destruct (adaptor_oneshot lib kb _ (Pad p) HS Hi Hd) as (a & out & a' & EC & EE & EF & Hlo & Eo).
  rewrite EC. cbn [bind]. rewrite EE. cbn [bind]. rewrite EF. cbn [bind]. rewrite EH. cbn [bind].
  rewrite app_nil_r. rewrite (HmacKey_Sign_ok _ hb) by assumption. cbn [bind].
  fold (aes_body kb (RandBytes r 16) p) in Eo. rewrite <- Eo.
  split; [rewrite Hlo; apply len_Pad | reflexivity].
Qed.

Lemma cipher_decrypt_body kb iv p : aes_size_ok kb -> len iv = 16 ->
  exists c', cipher_decrypt (MkCipher (key_schedule kb) iv) (aes_body kb iv p) = Ok (Pad p, c').
Proof.
  intros Hk Hi. pose proof (AES_new_iff kb iv Hk Hi) as EN. pose proof (AES_new_ok kb iv _ EN) as Hok.
  assert (Hd : len (Pad p) mod 16 = 0) by (rewrite len_Pad; lia).
  destruct (cipher_encrypt_ok _ _ Hok Hd) as (out & c' & EE & _ & Hl & _ & ED).
  exists c'. replace (aes_body kb iv p) with out; [assumption|].
  unfold cipher_encrypt in EE. rewrite Hd in EE. cbn [Z.eqb c_keys c_iv] in EE. unfold aes_body.
  destruct (cbc_enc _ _ _ _) as [o i]. apply Ok_inj in EE. apply pair_inj in EE as [-> _]. reflexivity.
Qed.

(** Decrypting a well-formed ciphertext. *)
Lemma AesKey_Decrypt_wf k kb hb hdr iv body : aes_material k kb hb ->
  len hdr = 5 -> len iv = 16 ->
  let m := hdr ++ iv ++ body in
  AesKey_Decrypt k (m ++ hmac_sha1 hb m) =
    (let* c := AES_new kb iv in let* (plain, _) := cipher_decrypt c body in UnPad plain).
Proof.
  intros [Hk Hh] H5 H16 m. unfold AesKey_Decrypt. cbv zeta.
  set (tag := hmac_sha1 hb m). assert (HT : len tag = 20) by (apply len_hmac).
  assert (E1 : slice_from (m ++ tag) HEADER_SIZE = iv ++ body ++ tag).
  { unfold m. rewrite <- !app_assoc. apply slice_from_app. rewrite H5. reflexivity. }
  rewrite E1. pose proof (len_nonneg body).
  replace (len (iv ++ body ++ tag) <? block_size + HLEN) with false
    by (rewrite !len_app; unfold block_size, HLEN; lia).
  rewrite (slice_to_app iv (body ++ tag) block_size) by (rewrite H16; reflexivity).
  assert (E2 : slice (iv ++ body ++ tag) block_size (- HLEN) = body).
  { unfold slice, clamp. rewrite !len_app. unfold block_size, HLEN. cbn [Z.ltb Z.compare].
    change (16 <? 0) with false. change (- (20) <? 0) with true. cbn iota.
    replace (Z.max 0 (len iv + (len body + len tag) + - (20)) - Z.min (len iv + (len body + len tag)) 16)
      with (len body) by lia.
    replace (Z.min (len iv + (len body + len tag)) 16) with (len iv) by lia.
    rewrite len_length, len_length. rewrite skipn_app, skipn_all, Nat.sub_diag. cbn [app skipn].
    rewrite firstn_app, firstn_all, Nat.sub_diag. rewrite firstn_O, app_nil_r. reflexivity. }
  rewrite E2.
  assert (E3 : slice_from (iv ++ body ++ tag) (- HLEN) = tag).
  { rewrite app_assoc. apply slice_from_neg_app; [rewrite HT; reflexivity | unfold HLEN; lia]. }
  rewrite E3.
  rewrite slice_to_neg_app by (rewrite ?HT; unfold HLEN; lia).
  rewrite (HmacKey_Verify_ok _ hb) by assumption. cbn [bind]. fold tag.
  replace (VerifySignedData tag tag) with true by (symmetry; apply VerifySignedData_spec; reflexivity).
  cbn [negb]. rewrite Hk. reflexivity.
Qed.

(** Refusals. *)
Lemma AesKey_Decrypt_short k c : len c < 41 ->
  AesKey_Decrypt k c = Raise (ShortCiphertextError (Z.max 0 (len c - 5))).
Proof.
  intros H. unfold AesKey_Decrypt. cbv zeta. pose proof (len_nonneg c).
  assert (len (slice_from c HEADER_SIZE) = Z.max 0 (len c - 5)) as ->.
  { change HEADER_SIZE with 5. destruct (Z.le_gt_cases 5 (len c)).
    - rewrite len_slice_from; lia.
    - rewrite slice_from_all by lia. cbn. lia. }
  unfold block_size, HLEN. replace (Z.max 0 (len c - 5) <? 16 + 20) with true by lia. reflexivity.
Qed.

Lemma AesKey_Decrypt_tag k hb m tag : hmac_bytes (ak_hmac k) = Ok hb ->
  len tag = 20 -> 21 <= len m -> tag <> hmac_sha1 hb m ->
  AesKey_Decrypt k (m ++ tag) = Raise InvalidSignatureError.
Proof.
  intros Hh HT HM Hne. unfold AesKey_Decrypt. cbv zeta.
  assert (HE : exists hdr rest, m = hdr ++ rest /\ len hdr = 5) by (apply split_at; lia).
  destruct HE as (hdr & rest & -> & H5). rewrite len_app in HM.
  assert (E1 : slice_from ((hdr ++ rest) ++ tag) HEADER_SIZE = rest ++ tag).
  { rewrite <- app_assoc. apply slice_from_app. rewrite H5. reflexivity. }
  rewrite E1.
  replace (len (rest ++ tag) <? block_size + HLEN) with false
    by (rewrite !len_app; unfold block_size, HLEN; lia).
  rewrite slice_from_neg_app by (rewrite ?HT; unfold HLEN; lia).
  rewrite slice_to_neg_app by (rewrite ?HT; unfold HLEN; lia).
  rewrite (HmacKey_Verify_ok _ hb) by assumption. cbn [bind].
  replace (VerifySignedData (hmac_sha1 hb (hdr ++ rest)) tag) with false; [reflexivity|].
  symmetry. apply not_true_is_false. rewrite VerifySignedData_spec. assumption.
Qed.
