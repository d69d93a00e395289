(** * Props_Prim: C70, ciphertexts, tags, digests and identifiers are those of the standards.

    Property (specifications in AesSpec.v and ShaSpec.v): what a key writes can be checked and read by
    any other implementation of FIPS 197 (AES), FIPS 180-4 (SHA-1) and RFC 2104 (HMAC), and the other way round. *)
From Coq Require Import Strings.String.
From Coq Require Import List ZArith NArith Bool Lia ZifyBool ZifyNat ZifyN.
From Coq.Init Require Import Byte.
From Verif Require Import PyBase PyFacts Base64 Der AsymSpec UtilFacts UtilFacts2 Util Sha1 Aes AesFacts SymKeys SymFacts AsymKeys AsymFacts Keys Props_Util Props_Sym Props_Asym Props_Keys Props_Format.
From Verif Require Import AesSpec AesSpecFacts ShaSpec ShaSpecFacts.
Import ListNotations.
Local Open Scope Z_scope.
Ltac Zify.zify_post_hook ::= idtac.

(** ** Decryption undoes encryption the other way round, too *)
Lemma xor_columns a1 a2 a3 a4 b1 b2 b3 b4 c1 c2 c3 c4 d1 d2 d3 d4 :
  bxor (bxor a1 (bxor b1 (bxor c1 d1))) (bxor (bxor a2 (bxor b2 (bxor c2 d2))) (bxor (bxor a3 (bxor b3 (bxor c3 d3))) (bxor a4 (bxor b4 (bxor c4 d4))))) =
  bxor (bxor a1 (bxor a2 (bxor a3 a4))) (bxor (bxor b1 (bxor b2 (bxor b3 b4))) (bxor (bxor c1 (bxor c2 (bxor c3 c4))) (bxor d1 (bxor d2 (bxor d3 d4))))).
Proof. ring. Qed.
Lemma xor_turn x y z w : bxor x (bxor y (bxor z w)) = bxor y (bxor z (bxor w x)).
Proof. ring. Qed.
Lemma mix_row a b c d :
  bxor (mul2 (bxor (mul14 a) (bxor (mul11 b) (bxor (mul13 c) (mul9 d)))))
    (bxor (mul3 (bxor (mul9 a) (bxor (mul14 b) (bxor (mul11 c) (mul13 d)))))
      (bxor (bxor (mul13 a) (bxor (mul9 b) (bxor (mul14 c) (mul11 d))))
        (bxor (mul11 a) (bxor (mul13 b) (bxor (mul9 c) (mul14 d)))))) = a.
Proof.
  assert (E1 : forall x, bxor (mul2 (mul14 x)) (bxor (mul3 (mul9 x)) (bxor (mul13 x) (mul11 x))) = x) by (intros x; apply beqb_eq; revert x; apply forall_bytes; vm_compute; reflexivity).
  assert (E2 : forall x, bxor (mul2 (mul11 x)) (bxor (mul3 (mul14 x)) (bxor (mul9 x) (mul13 x))) = x00) by (intros x; apply beqb_eq; revert x; apply forall_bytes; vm_compute; reflexivity).
  assert (E3 : forall x, bxor (mul2 (mul13 x)) (bxor (mul3 (mul11 x)) (bxor (mul14 x) (mul9 x))) = x00) by (intros x; apply beqb_eq; revert x; apply forall_bytes; vm_compute; reflexivity).
  assert (E4 : forall x, bxor (mul2 (mul9 x)) (bxor (mul3 (mul13 x)) (bxor (mul11 x) (mul14 x))) = x00) by (intros x; apply beqb_eq; revert x; apply forall_bytes; vm_compute; reflexivity).
  rewrite !mul2_lin, !mul3_lin, xor_columns, E1, E2, E3, E4, !bxor_0_r. reflexivity.
Qed.
Lemma mix_inv_mix_column a b c d : match inv_mix_column a b c d with [e; f; g; h] => mix_column e f g h = [a; b; c; d] | _ => False end.
Proof.
  cbn [inv_mix_column]. unfold mix_column.
  pose proof (mix_row a b c d) as R1. pose proof (mix_row b c d a) as R2. pose proof (mix_row c d a b) as R3. pose proof (mix_row d a b c) as R4.
  rewrite <- (xor_turn (mul9 a)), <- (xor_turn (mul13 a)), <- (xor_turn (mul11 a)), <- (xor_turn (mul14 a)) in R2.
  rewrite (xor_turn (mul14 c)), (xor_turn (mul11 d)), (xor_turn (mul9 c)), (xor_turn (mul14 d)), (xor_turn (mul13 c)), (xor_turn (mul9 d)), (xor_turn (mul11 c)), (xor_turn (mul13 d)) in R3.
  rewrite (xor_turn (mul14 d)), (xor_turn (mul9 d)), (xor_turn (mul13 d)), (xor_turn (mul11 d)) in R4.
  revert R1 R2 R3 R4.
  generalize (bxor (mul14 a) (bxor (mul11 b) (bxor (mul13 c) (mul9 d)))) (bxor (mul9 a) (bxor (mul14 b) (bxor (mul11 c) (mul13 d))))
    (bxor (mul13 a) (bxor (mul9 b) (bxor (mul14 c) (mul11 d)))) (bxor (mul11 a) (bxor (mul13 b) (bxor (mul9 c) (mul14 d)))).
  intros r1 r2 r3 r4 R1 R2 R3 R4. rewrite R1, xor_turn, R2. rewrite (xor_turn r1 r2), (xor_turn r2), R3. rewrite <- (xor_turn (mul2 r4)), R4. reflexivity.
Qed.
Lemma mix_inv_mix n : forall s, List.length s = (4 * n)%nat -> mix_columns (inv_mix_columns s) = s.
Proof.
  unfold inv_mix_columns, mix_columns. induction n as [|n IH]; intros s HL.
  - destruct s; [reflexivity | cbn in HL; lia].
  - destruct s as [|a [|b [|c [|d s]]]]; cbn [length] in HL; try lia. cbn [by_columns]. pose proof (mix_inv_mix_column a b c d) as M.
    destruct (inv_mix_column a b c d) as [|e [|f [|g [|h [|]]]]]; try contradiction. cbn [by_columns app]. rewrite M. cbn [app]. rewrite IH by lia. reflexivity.
Qed.
Lemma sub_inv_sub s : sub_bytes (inv_sub_bytes s) = s.
Proof.
  unfold inv_sub_bytes, sub_bytes. rewrite map_map. rewrite (map_ext _ (fun b => b)); [apply map_id|].
  intros b. apply beqb_eq. revert b. apply forall_bytes. vm_compute. reflexivity.
Qed.
Lemma shift_inv_shift s : List.length s = 16%nat -> shift_rows (inv_shift_rows s) = s.
Proof. intros HL. do 16 (destruct s as [|? s]; [cbn in HL; lia|]). destruct s; [reflexivity | cbn in HL; lia]. Qed.
Lemma length_inv_mix n : forall s, List.length s = (4 * n)%nat -> List.length (inv_mix_columns s) = (4 * n)%nat.
Proof.
  unfold inv_mix_columns. induction n as [|n IH]; intros s HL.
  - destruct s; [reflexivity | cbn in HL; lia].
  - destruct s as [|a [|b [|c [|d s]]]]; cbn [length] in HL; try lia. cbn [by_columns inv_mix_column app length]. rewrite IH by lia. lia.
Qed.
Lemma enc_dec_rounds ks : forall s, keys_ok ks -> List.length s = 16%nat -> enc_rounds ks (dec_rounds ks s) = s.
Proof.
  induction ks as [|k ks IH]; intros s HK HS; [reflexivity|]. inversion HK as [|? ? Hk HK']; subst. destruct ks as [|k' ks].
  - cbn [enc_rounds dec_rounds]. rewrite sub_inv_sub, shift_inv_shift by (rewrite length_xor; congruence). apply xor_cancel. congruence.
  - pose proof (length_dec_rounds (k' :: ks) s HK' HS) as LD.
    change (enc_rounds (k :: k' :: ks) ?x) with (enc_rounds (k' :: ks) (xor_str (mix_columns (shift_rows (sub_bytes x))) k)).
    change (dec_rounds (k :: k' :: ks) s) with (inv_sub_bytes (inv_shift_rows (inv_mix_columns (xor_str (dec_rounds (k' :: ks) s) k)))).
    assert (LX : List.length (xor_str (dec_rounds (k' :: ks) s) k) = 16%nat) by (rewrite length_xor; congruence).
    rewrite sub_inv_sub, shift_inv_shift by (apply (length_inv_mix 4); exact LX). rewrite (mix_inv_mix 4) by exact LX. rewrite xor_cancel by congruence. apply IH; assumption.
Qed.
Lemma aes_block_inverse ks s : keys_ok ks -> List.length s = 16%nat -> aes_encrypt_block ks (aes_decrypt_block ks s) = s.
Proof.
  intros HK HS. destruct ks as [|k ks]; [reflexivity|]. inversion HK as [|? ? Hk HK']; subst. cbn [aes_encrypt_block aes_decrypt_block].
  pose proof (length_dec_rounds ks s HK' HS). rewrite xor_cancel by congruence. apply enc_dec_rounds; assumption.
Qed.

(** ** Specification: cipher block chaining *)

(** [x] is the bytewise xor of [a] and [b]. *)
Definition xor_is (a b x : list byte) : Prop :=
  len a = len x /\ len b = len x /\ forall i c d e, nth_error a i = Some c -> nth_error b i = Some d -> nth_error x i = Some e -> ord e = Z.lxor (ord c) (ord d).
(** [cs] are the cipher blocks of the plain blocks [ps] after [iv], with the block cipher [E]. *)
Inductive chained (E : list byte -> list byte -> Prop) : list byte -> list (list byte) -> list (list byte) -> Prop :=
| ChainNil iv : chained E iv [] []
| ChainCons iv p x c ps cs : xor_is p iv x -> E x c -> chained E c ps cs -> chained E iv (p :: ps) (c :: cs).

Lemma xor_str_is a b : List.length a = List.length b -> xor_is a b (xor_str a b).
Proof.
  intros HL. split; [unfold len; rewrite length_xor; lia|]. split; [unfold len; rewrite length_xor; lia|]. revert b HL.
  induction a as [|x a IH]; intros [|y b] HL [|i] c d e H1 H2 H3; cbn [nth_error xor_str length] in *; try discriminate.
  - apply Some_inj in H1 as <-. apply Some_inj in H2 as <-. apply Some_inj in H3 as <-. apply ord_bxor.
  - apply (IH b ltac:(lia) i); assumption.
Qed.

Lemma keys_ok_schedule kb : aes_size_ok kb -> keys_ok (key_schedule kb).
Proof. intros [HS|[HS|HS]]; apply key_schedule_ok; rewrite HS; tauto. Qed.
Lemma size_in kb : aes_size_ok kb -> In (len kb) [16; 24; 32].
Proof. unfold aes_size_ok. cbn [In]. intuition lia. Qed.

Lemma enc_chained kb : aes_size_ok kb -> forall n iv data, List.length iv = 16%nat -> List.length data = (16 * n)%nat ->
  exists ps cs, concat ps = data /\ concat cs = fst (cbc_enc n (key_schedule kb) iv data) /\ chained (fips197 kb) iv ps cs.
Proof.
  intros HS. induction n as [|n IH]; intros iv data Hi Hd.
  - destruct data; [|discriminate]. exists [], []. repeat split. constructor.
  - destruct (firstn_skipn_16 data n Hd) as [H1 H2]. cbn [cbc_enc]. set (x := xor_str (firstn 16 data) iv). assert (LX : List.length x = 16%nat) by (unfold x; rewrite length_xor; lia).
    pose proof (length_aes_encrypt _ x (keys_ok_schedule kb HS) LX) as LC.
    destruct (IH (aes_encrypt_block (key_schedule kb) x) (skipn 16 data) LC H2) as (ps & cs & E1 & E2 & C).
    destruct (cbc_enc n (key_schedule kb) _ (skipn 16 data)) as [r v]. cbn [fst] in *.
    exists (firstn 16 data :: ps), (aes_encrypt_block (key_schedule kb) x :: cs). cbn [concat]. rewrite E1, E2. split; [apply firstn_skipn|]. split; [reflexivity|].
    apply (ChainCons _ iv _ x); [apply xor_str_is; lia | apply encrypt_is_fips197; [apply size_in, HS | unfold len; lia] | exact C].
Qed.
Lemma dec_chained kb : aes_size_ok kb -> forall n iv data, List.length iv = 16%nat -> List.length data = (16 * n)%nat ->
  exists ps cs, concat ps = fst (cbc_dec n (key_schedule kb) iv data) /\ concat cs = data /\ chained (fips197 kb) iv ps cs.
Proof.
  intros HS. induction n as [|n IH]; intros iv data Hi Hd.
  - destruct data; [|discriminate]. exists [], []. repeat split. constructor.
  - destruct (firstn_skipn_16 data n Hd) as [H1 H2]. cbn [cbc_dec]. set (c := firstn 16 data) in *. set (x := aes_decrypt_block (key_schedule kb) c).
    pose proof (keys_ok_schedule kb HS) as HK. assert (LX : List.length x = 16%nat) by (apply length_aes_decrypt; assumption).
    destruct (IH c (skipn 16 data) H1 H2) as (ps & cs & E1 & E2 & C). destruct (cbc_dec n (key_schedule kb) c (skipn 16 data)) as [r v]. cbn [fst] in *.
    exists (xor_str x iv :: ps), (c :: cs). cbn [concat]. rewrite E1, E2. split; [reflexivity|]. split; [apply firstn_skipn|].
    apply (ChainCons _ iv _ x); [| |exact C].
    + pose proof (xor_str_is (xor_str x iv) iv ltac:(rewrite length_xor; lia)) as X. rewrite xor_cancel in X by lia. exact X.
    + pose proof (encrypt_is_fips197 kb x (size_in kb HS) ltac:(unfold len; lia)) as F. unfold x in F. rewrite aes_block_inverse in F by assumption. exact F.
Qed.

(** ** Theorems *)

(** The primitives compute what the standards define, and nothing else meets the definitions. *)
Theorem C70_primitives :
  (forall key block, In (len key) [16; 24; 32] -> len block = 16 -> forall out, aes_encrypt_block (key_schedule key) block = out <-> fips197 key block out) /\
  (forall m, 8 * len m < 2 ^ 64 -> forall d, sha1 m = d <-> fips180 m d) /\
  (forall k m, 8 * len k < 2 ^ 64 -> 8 * (64 + len m) < 2 ^ 64 -> forall tag, hmac_sha1 k m = tag <-> rfc2104 k m tag).
Proof.
  split; [|split].
  - intros key block HK HB out. split; [intros <-; apply encrypt_is_fips197; assumption | intros F; symmetry; apply fips197_unique, F].
  - intros m HM d. split; [intros <-; apply sha1_is_fips180, HM | intros F; symmetry; apply (fips180_unique m d F)].
  - intros k m HK HM tag. split; [intros <-; apply hmac_is_rfc2104; assumption | intros F; symmetry; apply rfc2104_unique, F].
Qed.
Print Assumptions C70_primitives.

(** What an AES key encrypts: version byte, first four bytes of a SHA-1 digest, IV, cipher blocks of the padded text chained by AES, HMAC of all that. *)
Theorem C70_ciphertexts : forall lib k kb hb r p c, aes_material k kb hb -> aes_size_ok kb -> 8 * len hb < 2 ^ 63 -> 8 * (len p + 128) < 2 ^ 64 ->
  AesKey_Encrypt lib k r p = Ok c ->
  exists digest iv n ps cs tag,
    fips180 (be4 (len kb) ++ kb ++ hb) digest /\ len iv = 16 /\
    1 <= n <= 16 /\ concat ps = p ++ repeat (chr n) (Z.to_nat n) /\ chained (fips197 kb) iv ps cs /\
    rfc2104 hb (x00 :: firstn 4 digest ++ iv ++ concat cs) tag /\
    c = x00 :: firstn 4 digest ++ iv ++ concat cs ++ tag.
Proof.
  intros lib k kb hb r p c HM HS HB HP HE. destruct (AesKey_Encrypt_ok lib k r p kb hb HM HS) as (hdr & EH & H5 & Hl & EE). rewrite HE in EE. apply Ok_inj in EE.
  destruct (aes_header_ok k kb hb HM) as (id & EH' & L4 & _ & EI). rewrite EH in EH'. apply Ok_inj in EH' as ->.
  assert (Hi : len (RandBytes r 16) = 16) by (apply len_RandBytes; lia). pose proof (len_Pad p) as LP. destruct (Pad_spec p) as (n & Hn & Ln & EP).
  destruct (enc_chained kb HS (Z.to_nat (len (Pad p) / 16)) (RandBytes r 16) (Pad p)) as (ps & cs & E1 & E2 & C); [unfold len in Hi; lia | unfold len in LP |- *; lia|].
  assert (ED : firstn 4 (sha1 (be4 (len kb) ++ kb ++ hb)) = id).
  { rewrite EI, <- IntToBytes_be4. rewrite slice_to_firstn by lia. unfold Hash. cbn [concat]. rewrite app_nil_r. reflexivity. }
  exists (sha1 (be4 (len kb) ++ kb ++ hb)), (RandBytes r 16), n, ps, cs. eexists. rewrite ED.
  split; [apply sha1_is_fips180; unfold short_message; rewrite !len_app; change (len (be4 (len kb))) with 4; destruct HS as [-> | [-> | ->]]; lia|].
  split; [exact Hi|]. split; [lia|]. split; [rewrite E1; exact EP|]. split; [exact C|]. split.
  2: rewrite EE; unfold aes_body; rewrite E2; rewrite <- !app_assoc; reflexivity.
  rewrite E2. apply hmac_is_rfc2104; [unfold short_message; lia|]. unfold aes_body in *. cbn [app].
  pose proof (cbc_enc_length (Z.to_nat (len (Pad p) / 16)) (key_schedule kb) (keys_ok_schedule kb HS) (RandBytes r 16) (Pad p) ltac:(unfold len in Hi; lia) ltac:(unfold len in LP |- *; lia)) as [LC _].
  rewrite len_cons, !len_app, L4, Hi. unfold len at 1. rewrite LC. unfold len in LP, HP |- *. lia.
Qed.
Print Assumptions C70_ciphertexts.

(** Whatever an AES key decrypts has that form, and the plain blocks give the text back. *)
Theorem C70_decryption : forall k kb hb c p, aes_material k kb hb -> aes_size_ok kb -> AesKey_Decrypt k c = Ok p -> 8 * len hb < 2 ^ 63 -> 8 * (64 + len c) < 2 ^ 64 ->
  exists header iv ps cs tag, c = header ++ iv ++ concat cs ++ tag /\ len header = 5 /\ len iv = 16 /\
    rfc2104 hb (header ++ iv ++ concat cs) tag /\ chained (fips197 kb) iv ps cs /\
    forall q n, 1 <= n <= 16 -> concat ps = q ++ repeat (chr n) (Z.to_nat n) -> p = q.
Proof.
  intros k kb hb c p HM HS HD HB HC. assert (L41 : 41 <= len c).
  { destruct (Z.lt_ge_cases (len c) 41) as [HL|HL]; [|exact HL]. rewrite AesKey_Decrypt_short in HD by exact HL. discriminate. }
  destruct (C18_only_authentic_is_decrypted k hb c p (proj2 HM) HD) as (m & tag & -> & LT & LM & ET). rewrite len_app in HC.
  destruct (split_at m 5) as (hdr & rest & -> & H5); [lia|]. rewrite len_app in LM.
  destruct (split_at rest 16) as (iv & body & -> & H16); [lia|]. subst tag. rewrite (AesKey_Decrypt_wf k kb hb hdr iv body HM H5 H16) in HD.
  apply bind_Ok in HD as (ci & HN & HD). apply bind_Ok in HD as ([plain c'] & HCD & HU).
  pose proof (AES_new_iff kb iv HS H16) as HN'. rewrite HN in HN'. apply Ok_inj in HN' as ->.
  unfold cipher_decrypt in HCD. cbn [c_keys c_iv] in HCD. destruct (Z.eqb_spec (len body mod 16) 0) as [HB0|]; [|discriminate].
  destruct (dec_chained kb HS (Z.to_nat (len body / 16)) iv body) as (ps & cs & E1 & E2 & C); [unfold len in H16; lia | unfold len in HB0 |- *; pose proof (Z.div_mod (Z.of_nat (List.length body)) 16 ltac:(lia)); lia|].
  destruct (cbc_dec _ _ _ _) as [o i]. apply Ok_inj in HCD. apply pair_inj in HCD as [-> _]. cbn [fst] in E1.
  exists hdr, iv, ps, cs. eexists. rewrite E2. split; [rewrite <- !app_assoc; reflexivity|]. split; [exact H5|]. split; [exact H16|].
  split; [apply hmac_is_rfc2104; [unfold short_message; lia | rewrite !len_app in *; pose proof (len_nonneg (hmac_sha1 hb (hdr ++ iv ++ body))); lia]|].
  split; [exact C|]. intros q n Hn EQ. rewrite E1 in EQ. rewrite EQ in HU. fold (rep n (chr n)) in HU. rewrite UnPad_app in HU by lia. apply Ok_inj in HU. congruence.
Qed.
Print Assumptions C70_decryption.

(** An HMAC key makes and accepts the tags of RFC 2104 and no others. *)
Theorem C70_tags : forall k b msg tag, hmac_bytes k = Ok b -> 8 * len b < 2 ^ 64 -> 8 * (64 + len msg) < 2 ^ 64 ->
  (HmacKey_Sign k msg = Ok tag <-> rfc2104 b msg tag) /\ (HmacKey_Verify k msg tag = Ok true <-> rfc2104 b msg tag).
Proof.
  intros k b msg tag HB H1 H2. destruct (C16_hmac_verify_is_equality k b msg tag HB) as (t & HS & -> & _ & V1 & V2).
  pose proof (proj2 (proj2 C70_primitives) b msg H1 H2 tag) as HP. split.
  - rewrite HS, <- HP. split; [apply Ok_inj | intros ->; reflexivity].
  - rewrite <- HP. split; [|intros E; apply V1; symmetry; exact E]. intros HV. destruct (list_eq_dec Byte.byte_eq_dec tag (hmac_sha1 b msg)) as [E|NE]; [symmetry; exact E|].
    rewrite (V2 NE) in HV. discriminate.
Qed.
Print Assumptions C70_tags.

(** A key's identifier is the Base64 form of the first four bytes of a SHA-1 digest of its material (lengths prefixed). *)
Theorem C70_identifiers :
  (forall k kb hb d, aes_bytes k = Ok kb -> hmac_bytes (ak_hmac k) = Ok hb -> fips180 (be4 (len kb) ++ kb ++ hb) d -> key_hash_id (KAes k) = Ok (Base64WSEncode (firstn 4 d))) /\
  (forall k b d, hmac_bytes k = Ok b -> fips180 b d -> key_hash_id (KHmac k) = Ok (Base64WSEncode (firstn 4 d))) /\
  (forall k n e d, minimal (rp_modulus k) n -> minimal (rp_exponent k) e -> fips180 (be4 (len n) ++ n ++ be4 (len e) ++ e) d ->
     key_hash_id (KRsaPub k) = Ok (Base64WSEncode (firstn 4 d))) /\
  (forall k p q g y d, minimal (dp_p k) p -> minimal (dp_q k) q -> minimal (dp_g k) g -> minimal (dp_y k) y ->
     fips180 (be4 (len p) ++ p ++ be4 (len q) ++ q ++ be4 (len g) ++ g ++ be4 (len y) ++ y) d -> key_hash_id (KDsaPub k) = Ok (Base64WSEncode (firstn 4 d))).
Proof.
  destruct C23_identifier_formula as (FA & FH & FR & FD). repeat split.
  - intros k kb hb d A B F. rewrite (FA k kb hb A B). apply fips180_unique in F as [_ ->]. reflexivity.
  - intros k b d A F. rewrite (FH k b A). apply fips180_unique in F as [_ ->]. reflexivity.
  - intros k n e d A B F. rewrite (FR k n e A B). apply fips180_unique in F as [_ ->]. reflexivity.
  - intros k p q g y d A B C D F. rewrite (FD k p q g y A B C D). apply fips180_unique in F as [_ ->]. reflexivity.
Qed.
Print Assumptions C70_identifiers.

(** RSA keys (PKCS #1 v1.5, with [emsa] of C11) and DSA keys (FIPS 186) sign SHA-1 digests. *)
Lemma be_val_number s : be_val s = number s.
Proof.
  unfold number. assert (G : forall t a, fold_left (fun n b => 256 * n + ord b) t a = a * 256 ^ len t + be_val t).
  { induction t as [|b t IH]; intros a; cbn [fold_left]; [rewrite be_val_nil; change (len (@nil byte)) with 0; lia|]. rewrite IH, be_val_cons, len_cons, Z.pow_add_r by (pose proof (len_nonneg t); lia). lia. }
  rewrite G. lia.
Qed.
Theorem C70_signatures :
  (forall size k msg sig d, rsa_key_ok size k -> fips180 msg d ->
     RsaPublicKey_Verify (rs_pub k) msg sig = true <->
     (number sig < rn_n (rn_pub (rs_key k)) /\ (number sig ^ rn_e (rn_pub (rs_key k))) mod rn_n (rn_pub (rs_key k)) = number (emsa (size / 8) d))) /\
  (forall k msg sig d, fips180 msg d ->
     let p := dn_p (dp_key k) in let q := dn_q (dp_key k) in let g := dn_g (dp_key k) in let y := dn_y (dp_key k) in
     dsa_group p q g ->
     DsaPublicKey_Verify k msg sig = Ok true <->
     exists r s rest w, decode sig = Ok (ASeq [AInt r; AInt s], rest) /\ 0 < r < q /\ 0 < s < q /\ (s * w) mod q = 1 /\
       ((g ^ ((number d * w) mod q) * y ^ ((r * w) mod q)) mod p) mod q = r).
Proof.
  split.
  - intros size k msg sig d HK F. apply fips180_unique in F as [_ ->]. rewrite <- !be_val_number. apply C20_rsa_verify_characterised, HK.
  - intros k msg sig d F p q g y HG. apply fips180_unique in F as [_ ->]. rewrite <- be_val_number. apply C21_verify_characterised, HG.
Qed.
Print Assumptions C70_signatures.

(** The examples of FIPS 197 (appendix C.1), FIPS 180 (one block) and RFC 2202 (test case 2); and keys that meet the hypotheses. *)
Example C70_case :
  fips197 [x00; x01; x02; x03; x04; x05; x06; x07; x08; x09; x0a; x0b; x0c; x0d; x0e; x0f] [x00; x11; x22; x33; x44; x55; x66; x77; x88; x99; xaa; xbb; xcc; xdd; xee; xff]
    [x69; xc4; xe0; xd8; x6a; x7b; x04; x30; xd8; xcd; xb7; x80; x70; xb4; xc5; x5a] /\
  fips180 (bs "abc") [xa9; x99; x3e; x36; x47; x06; x81; x6a; xba; x3e; x25; x71; x78; x50; xc2; x6c; x9c; xd0; xd8; x9d] /\
  rfc2104 (bs "Jefe") (bs "what do ya want for nothing?") [xef; xfc; xdf; x6a; xe5; xeb; x2f; xa2; xd2; x74; x16; xd5; xf1; x84; xdf; x9c; x25; x9a; x7c; x79] /\
  exists kb hb c, aes_material demo_aes kb hb /\ aes_size_ok kb /\ AesKey_Encrypt PyCrypto demo_aes (fun _ => x07) (bs "hello") = Ok c /\ AesKey_Decrypt demo_aes c = Ok (bs "hello") /\
    8 * len hb < 2 ^ 63 /\ 8 * (64 + len c) < 2 ^ 64.
Proof.
  destruct C70_primitives as (A & S & M). split; [apply A; [left; reflexivity | reflexivity | vm_compute; reflexivity]|].
  split; [apply S; [reflexivity | vm_compute; reflexivity]|]. split; [apply M; [reflexivity | reflexivity | vm_compute; reflexivity]|].
  do 3 eexists. split; [split; vm_compute; reflexivity|]. split; [vm_compute; tauto|]. split; [vm_compute; reflexivity|]. split; [vm_compute; reflexivity|]. split; vm_compute; reflexivity.
Qed.
