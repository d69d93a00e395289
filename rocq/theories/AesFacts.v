(** * AesFacts: the AES model decrypts what it encrypts; CBC chaining. *)
From Coq Require Import List ZArith NArith Bool Lia ZifyBool ZifyNat ZifyN Ring.
From Coq.Init Require Import Byte.
From Verif Require Import PyBase PyFacts UtilFacts2 Aes.
Import ListNotations.
Local Open Scope Z_scope.
Ltac Zify.zify_post_hook ::= Z.div_mod_to_equations.

(** ** Bits of a byte *)
Definition bit (i : Z) (b : byte) : bool := Z.testbit (ord b) i.

Lemma bit_ext a b : (forall i, 0 <= i < 8 -> bit i a = bit i b) -> a = b.
Proof.
  intros H. apply ord_inj. apply Z.bits_inj'. intros n Hn.
  destruct (Z.lt_ge_cases n 8) as [L|L]; [apply H; lia|].
  assert (HI : forall c, Z.testbit (ord c) n = false).
  { intros c. destruct (Z.eq_dec (ord c) 0) as [E|E]; [rewrite E; apply Z.bits_0|].
    pose proof (ord_range c). apply Z.bits_above_log2; [lia|].
    assert (Z.log2 (ord c) < 8) by (apply Z.log2_lt_pow2; lia). lia. }
  rewrite !HI. reflexivity.
Qed.

Lemma bit_bxor i a b : bit i (bxor a b) = xorb (bit i a) (bit i b).
Proof. unfold bit. rewrite ord_bxor. apply Z.lxor_spec. Qed.

Definition xt_bit (i : Z) (b : byte) : bool :=
  xorb ((0 <? i) && bit (i - 1) b)
       (((i =? 0) || (i =? 1) || (i =? 3) || (i =? 4)) && bit 7 b).

Lemma xtime_bits b i : 0 <= i < 8 -> bit i (xtime b) = xt_bit i b.
Proof.
  intros Hi.
  pose (P := fun b => forallb (fun i => Bool.eqb (bit i (xtime b)) (xt_bit i b)) [0;1;2;3;4;5;6;7]).
  assert (H : P b = true) by (apply forall_bytes; vm_compute; reflexivity).
  unfold P in H. rewrite forallb_forall in H. apply eqb_prop. apply H.
  assert (i = 0 \/ i = 1 \/ i = 2 \/ i = 3 \/ i = 4 \/ i = 5 \/ i = 6 \/ i = 7) as C by lia.
  cbn [In]. intuition auto.
Qed.

Lemma xtime_lin a b : xtime (bxor a b) = bxor (xtime a) (xtime b).
Proof.
  apply bit_ext. intros i Hi. rewrite bit_bxor, !xtime_bits by assumption.
  unfold xt_bit. rewrite !bit_bxor.
  destruct (0 <? i); destruct ((i =? 0) || (i =? 1) || (i =? 3) || (i =? 4));
    destruct (bit (i - 1) a); destruct (bit (i - 1) b); destruct (bit 7 a); destruct (bit 7 b); reflexivity.
Qed.

(** ** Bytes form a Boolean ring with xor and and: used only to normalise sums. *)
Definition band (a b : byte) : byte := chr (Z.land (ord a) (ord b)).

Lemma land_range a b : 0 <= a < 256 -> 0 <= b < 256 -> 0 <= Z.land a b < 256.
Proof.
  intros Ha Hb. assert (0 <= Z.land a b) by (apply Z.land_nonneg; lia). split; [assumption|].
  destruct (Z.eq_dec a 0) as [->|E]; [rewrite Z.land_0_l; lia|].
  destruct (Z.eq_dec (Z.land a b) 0); [lia|].
  change 256 with (2 ^ 8). apply Z.log2_lt_pow2; [lia|].
  pose proof (Z.log2_land a b ltac:(lia) ltac:(lia)).
  assert (Z.log2 a < 8) by (apply Z.log2_lt_pow2; lia). lia.
Qed.
Lemma ord_band a b : ord (band a b) = Z.land (ord a) (ord b).
Proof. unfold band. apply ord_chr_small, land_range; apply ord_range. Qed.
Lemma bit_band i a b : bit i (band a b) = bit i a && bit i b.
Proof. unfold bit. rewrite ord_band. apply Z.land_spec. Qed.

Lemma bit_ff i : 0 <= i < 8 -> bit i xff = true.
Proof.
  intros H. assert (i = 0 \/ i = 1 \/ i = 2 \/ i = 3 \/ i = 4 \/ i = 5 \/ i = 6 \/ i = 7) as C by lia.
  intuition (subst; reflexivity).
Qed.

Lemma byte_ring : ring_theory x00 xff bxor band bxor (fun a => a) (@eq byte).
Proof.
  constructor.
  - apply bxor_0_l.
  - apply bxor_comm.
  - intros; symmetry; apply bxor_assoc.
  - intros; apply bit_ext; intros i Hi. rewrite bit_band, bit_ff by assumption. reflexivity.
  - intros; apply bit_ext; intros i Hi. rewrite !bit_band. apply andb_comm.
  - intros; apply bit_ext; intros i Hi. rewrite !bit_band. apply andb_assoc.
  - intros; apply bit_ext; intros i Hi. rewrite ?bit_band, ?bit_bxor, ?bit_band.
    destruct (bit i x), (bit i y), (bit i z); reflexivity.
  - reflexivity.
  - apply bxor_nilpotent.
Qed.
Add Ring byte_ring : byte_ring.

(** ** MixColumns *)
Ltac lin := unfold mul2, mul3, mul9, mul11, mul13, mul14 in *; repeat rewrite xtime_lin; ring.

Lemma mul2_lin a b : mul2 (bxor a b) = bxor (mul2 a) (mul2 b). Proof. lin. Qed.
Lemma mul3_lin a b : mul3 (bxor a b) = bxor (mul3 a) (mul3 b). Proof. lin. Qed.
Lemma mul9_lin a b : mul9 (bxor a b) = bxor (mul9 a) (mul9 b). Proof. lin. Qed.
Lemma mul11_lin a b : mul11 (bxor a b) = bxor (mul11 a) (mul11 b). Proof. lin. Qed.
Lemma mul13_lin a b : mul13 (bxor a b) = bxor (mul13 a) (mul13 b). Proof. lin. Qed.
Lemma mul14_lin a b : mul14 (bxor a b) = bxor (mul14 a) (mul14 b). Proof. lin. Qed.

(** The entries of (inverse matrix) x (matrix): 1 on the diagonal and 0 elsewhere. *)
Lemma unmix_1 a : bxor (mul14 (mul2 a)) (bxor (mul11 a) (bxor (mul13 a) (mul9 (mul3 a)))) = a.
Proof.
  apply beqb_eq. revert a. apply forall_bytes. vm_compute. reflexivity.
Qed.
Lemma unmix_2 b : bxor (mul14 (mul3 b)) (bxor (mul11 (mul2 b)) (bxor (mul13 b) (mul9 b))) = x00.
Proof. apply beqb_eq. revert b. apply forall_bytes. vm_compute. reflexivity. Qed.
Lemma unmix_3 c : bxor (mul14 c) (bxor (mul11 (mul3 c)) (bxor (mul13 (mul2 c)) (mul9 c))) = x00.
Proof. apply beqb_eq. revert c. apply forall_bytes. vm_compute. reflexivity. Qed.
Lemma unmix_4 d : bxor (mul14 d) (bxor (mul11 d) (bxor (mul13 (mul3 d)) (mul9 (mul2 d)))) = x00.
Proof. apply beqb_eq. revert d. apply forall_bytes. vm_compute. reflexivity. Qed.

Lemma unmix_row a b c d :
  bxor (mul14 (bxor (mul2 a) (bxor (mul3 b) (bxor c d))))
    (bxor (mul11 (bxor a (bxor (mul2 b) (bxor (mul3 c) d))))
      (bxor (mul13 (bxor a (bxor b (bxor (mul2 c) (mul3 d)))))
        (mul9 (bxor (mul3 a) (bxor b (bxor c (mul2 d))))))) = a.
Proof.
  rewrite !mul14_lin, !mul11_lin, !mul13_lin, !mul9_lin.
  transitivity (bxor (bxor (mul14 (mul2 a)) (bxor (mul11 a) (bxor (mul13 a) (mul9 (mul3 a)))))
    (bxor (bxor (mul14 (mul3 b)) (bxor (mul11 (mul2 b)) (bxor (mul13 b) (mul9 b))))
     (bxor (bxor (mul14 c) (bxor (mul11 (mul3 c)) (bxor (mul13 (mul2 c)) (mul9 c))))
       (bxor (mul14 d) (bxor (mul11 d) (bxor (mul13 (mul3 d)) (mul9 (mul2 d)))))))).
  - ring.
  - rewrite unmix_1, unmix_2, unmix_3, unmix_4, !bxor_0_r. reflexivity.
Qed.

Lemma inv_mix_mix_column a b c d :
  match mix_column a b c d with
  | [e; f; g; h] => inv_mix_column e f g h = [a; b; c; d]
  | _ => False
  end.
Proof.
  cbn [mix_column]. unfold inv_mix_column. f_equal; [|f_equal; [|f_equal; [|f_equal]]].
  - apply unmix_row.
  - rewrite <- (unmix_row b c d a) at 5.
    set (r1 := bxor (mul2 a) _). set (r2 := bxor a (bxor (mul2 b) _)).
    set (r3 := bxor a (bxor b _)). set (r4 := bxor (mul3 a) _).
    replace (bxor (mul2 b) (bxor (mul3 c) (bxor d a))) with r2 by (unfold r2; ring).
    replace (bxor b (bxor (mul2 c) (bxor (mul3 d) a))) with r3 by (unfold r3; ring).
    replace (bxor b (bxor c (bxor (mul2 d) (mul3 a)))) with r4 by (unfold r4; ring).
    replace (bxor (mul3 b) (bxor c (bxor d (mul2 a)))) with r1 by (unfold r1; ring).
    ring.
  - rewrite <- (unmix_row c d a b) at 5.
    set (r1 := bxor (mul2 a) _). set (r2 := bxor a (bxor (mul2 b) _)).
    set (r3 := bxor a (bxor b _)). set (r4 := bxor (mul3 a) _).
    replace (bxor (mul2 c) (bxor (mul3 d) (bxor a b))) with r3 by (unfold r3; ring).
    replace (bxor c (bxor (mul2 d) (bxor (mul3 a) b))) with r4 by (unfold r4; ring).
    replace (bxor c (bxor d (bxor (mul2 a) (mul3 b)))) with r1 by (unfold r1; ring).
    replace (bxor (mul3 c) (bxor d (bxor a (mul2 b)))) with r2 by (unfold r2; ring).
    ring.
  - rewrite <- (unmix_row d a b c) at 5.
    set (r1 := bxor (mul2 a) _). set (r2 := bxor a (bxor (mul2 b) _)).
    set (r3 := bxor a (bxor b _)). set (r4 := bxor (mul3 a) _).
    replace (bxor (mul2 d) (bxor (mul3 a) (bxor b c))) with r4 by (unfold r4; ring).
    replace (bxor d (bxor (mul2 a) (bxor (mul3 b) c))) with r1 by (unfold r1; ring).
    replace (bxor d (bxor a (bxor (mul2 b) (mul3 c)))) with r2 by (unfold r2; ring).
    replace (bxor (mul3 d) (bxor a (bxor b (mul2 c)))) with r3 by (unfold r3; ring).
    ring.
Qed.

Lemma inv_mix_mix n s : length s = (4 * n)%nat -> inv_mix_columns (mix_columns s) = s.
Proof.
  unfold inv_mix_columns, mix_columns. revert s. induction n as [|n IH]; intros s H.
  - destruct s; [reflexivity | cbn in H; lia].
  - destruct s as [|a [|b [|c [|d s]]]]; cbn [length] in H; try lia.
    cbn [by_columns]. pose proof (inv_mix_mix_column a b c d) as M.
    destruct (mix_column a b c d) as [|e [|f [|g [|h [|]]]]]; try contradiction.
    cbn [by_columns app]. rewrite M. cbn [app]. rewrite IH by lia. reflexivity.
Qed.

Lemma length_mix n s : length s = (4 * n)%nat -> length (mix_columns s) = (4 * n)%nat.
Proof.
  unfold mix_columns. revert s. induction n as [|n IH]; intros s H.
  - destruct s; [reflexivity | cbn in H; lia].
  - destruct s as [|a [|b [|c [|d s]]]]; cbn [length] in H; try lia.
    cbn [by_columns mix_column app length]. rewrite IH by lia. lia.
Qed.

(** ** SubBytes, ShiftRows, AddRoundKey *)
Lemma inv_sbox_sbox b : inv_sbox (sbox b) = b.
Proof. apply beqb_eq. revert b. apply forall_bytes. vm_compute. reflexivity. Qed.

Lemma inv_sub_sub s : inv_sub_bytes (sub_bytes s) = s.
Proof.
  unfold inv_sub_bytes, sub_bytes. rewrite map_map. rewrite (map_ext _ (fun b => b)).
  - apply map_id.
  - apply inv_sbox_sbox.
Qed.

Lemma inv_shift_shift s : length s = 16%nat -> inv_shift_rows (shift_rows s) = s.
Proof.
  intros H.
  do 16 (destruct s as [|? s]; [cbn in H; lia|]). destruct s; [reflexivity | cbn in H; lia].
Qed.

Lemma length_shift s : length (shift_rows s) = 16%nat.
Proof. reflexivity. Qed.

Lemma length_xor a b : length a = length b -> length (xor_str a b) = length a.
Proof.
  revert b. induction a as [|x a IH]; intros [|y b] H; cbn in *; try lia. rewrite IH; lia.
Qed.

Lemma xor_cancel a b : length a = length b -> xor_str (xor_str a b) b = a.
Proof.
  revert b. induction a as [|x a IH]; intros [|y b] H; cbn in *; try lia; [reflexivity|].
  rewrite bxor_cancel. f_equal. apply IH. lia.
Qed.

(** ** Rounds *)
Definition keys_ok (ks : list str) : Prop := Forall (fun k => length k = 16%nat) ks.

Lemma length_enc_rounds ks s : keys_ok ks -> length s = 16%nat -> length (enc_rounds ks s) = 16%nat.
Proof.
  revert s. induction ks as [|k ks IH]; intros s HK HS; [assumption|].
  inversion HK as [|? ? Hk HK']; subst. destruct ks as [|k' ks].
  - cbn [enc_rounds]. rewrite length_xor; [reflexivity|]. rewrite length_shift. congruence.
  - change (enc_rounds (k :: k' :: ks) s)
      with (enc_rounds (k' :: ks) (xor_str (mix_columns (shift_rows (sub_bytes s))) k)).
    apply IH; [assumption|]. assert (length (mix_columns (shift_rows (sub_bytes s))) = 16%nat) as L.
    { apply (length_mix 4). reflexivity. }
    rewrite length_xor; congruence.
Qed.

Lemma dec_enc_rounds ks s : keys_ok ks -> length s = 16%nat -> dec_rounds ks (enc_rounds ks s) = s.
Proof.
  revert s. induction ks as [|k ks IH]; intros s HK HS; [reflexivity|].
  inversion HK as [|? ? Hk HK']; subst. destruct ks as [|k' ks].
  - cbn [enc_rounds dec_rounds]. rewrite xor_cancel by (rewrite length_shift; congruence).
    rewrite inv_shift_shift by (unfold sub_bytes; rewrite map_length; assumption).
    apply inv_sub_sub.
  - change (enc_rounds (k :: k' :: ks) s)
      with (enc_rounds (k' :: ks) (xor_str (mix_columns (shift_rows (sub_bytes s))) k)).
    change (dec_rounds (k :: k' :: ks) ?x) with
      (inv_sub_bytes (inv_shift_rows (inv_mix_columns (xor_str (dec_rounds (k' :: ks) x) k)))).
    assert (length (mix_columns (shift_rows (sub_bytes s))) = 16%nat) as L.
    { apply (length_mix 4). reflexivity. }
    rewrite IH; [|assumption | rewrite length_xor; congruence].
    rewrite xor_cancel by congruence. rewrite (inv_mix_mix 4) by reflexivity.
    rewrite inv_shift_shift by (unfold sub_bytes; rewrite map_length; assumption).
    apply inv_sub_sub.
Qed.

Lemma aes_block_roundtrip ks s : keys_ok ks -> length s = 16%nat ->
  aes_decrypt_block ks (aes_encrypt_block ks s) = s.
Proof.
  intros HK HS. destruct ks as [|k ks]; [reflexivity|]. inversion HK as [|? ? Hk HK']; subst.
  cbn [aes_encrypt_block aes_decrypt_block].
  rewrite dec_enc_rounds by (try assumption; rewrite length_xor; congruence).
  apply xor_cancel. congruence.
Qed.

Lemma length_aes_encrypt ks s : keys_ok ks -> length s = 16%nat ->
  length (aes_encrypt_block ks s) = 16%nat.
Proof.
  intros HK HS. destruct ks as [|k ks]; [assumption|]. inversion HK; subst.
  cbn [aes_encrypt_block]. apply length_enc_rounds; [assumption|]. rewrite length_xor; congruence.
Qed.

(** ** Key schedule *)
Definition word_ok (w : str) : Prop := length w = 4%nat.

Lemma word_rot w : word_ok w -> word_ok (rot_word w).
Proof. unfold word_ok. destruct w; cbn; [lia|]. rewrite app_length. cbn. lia. Qed.

Lemma expand_word_ok nk i p b : word_ok p -> word_ok b -> word_ok (expand_word nk i p b).
Proof.
  unfold expand_word, word_ok. intros Hp Hb. cbv zeta.
  assert (H : length (if (i mod nk =? 0)%nat then
             xor_str (map sbox (rot_word p)) [rcon (i / nk - 1); x00; x00; x00]
           else if (6 <? nk)%nat && (i mod nk =? 4)%nat then map sbox p else p) = 4%nat).
  { destruct (_ =? 0)%nat.
    - rewrite length_xor; rewrite map_length; pose proof (word_rot p Hp) as W; unfold word_ok in W;
        rewrite W; reflexivity.
    - destruct (_ && _); [rewrite map_length|]; assumption. }
  rewrite length_xor by (etransitivity; [exact Hb | symmetry; exact H]). exact Hb.
Qed.

Lemma expand_loop_ok n nk : forall i acc, (0 < nk)%nat -> (nk <= length acc)%nat -> Forall word_ok acc ->
  Forall word_ok (expand_loop n nk i acc) /\ length (expand_loop n nk i acc) = (n + length acc)%nat.
Proof.
  induction n as [|n IH]; intros i acc Hnk Hl HF; cbn [expand_loop]; [split; [assumption | reflexivity]|].
  assert (W : forall j, (j < length acc)%nat -> word_ok (nth j acc [])).
  { intros j Hj. rewrite Forall_forall in HF. apply HF. apply nth_In. assumption. }
  destruct (IH (S i) (expand_word nk i (nth 0 acc []) (nth (nk - 1) acc []) :: acc)) as [I1 I2].
  - assumption.
  - cbn [length]. lia.
  - constructor; [|assumption]. apply expand_word_ok; apply W; lia.
  - split; [assumption|]. rewrite I2. cbn [length]. lia.
Qed.

Lemma round_keys_ok ws : Forall word_ok ws -> keys_ok (round_keys ws).
Proof.
  assert (H : forall n ws, (length ws <= n)%nat -> Forall word_ok ws -> keys_ok (round_keys ws)).
  { induction n as [|n IH]; intros l Hl HF.
    - destruct l; [constructor | cbn in Hl; lia].
    - destruct l as [|a [|b [|c [|d l]]]]; try constructor.
      + inversion HF as [|? ? Wa HF1]; subst. inversion HF1 as [|? ? Wb HF2]; subst.
        inversion HF2 as [|? ? Wc HF3]; subst. inversion HF3 as [|? ? Wd HF4]; subst.
        unfold word_ok in *. rewrite !app_length. lia.
      + apply IH; [cbn in Hl; lia|].
        inversion HF as [|? ? Wa HF1]; subst. inversion HF1 as [|? ? Wb HF2]; subst.
        inversion HF2 as [|? ? Wc HF3]; subst. inversion HF3 as [|? ? Wd HF4]; subst. assumption. }
  intros HF. apply (H (length ws)); [lia | assumption].
Qed.

Lemma group4_ok n s : length s = (4 * n)%nat -> Forall word_ok (group4 s) /\ length (group4 s) = n.
Proof.
  revert s. induction n as [|n IH]; intros s H.
  - destruct s; [split; [constructor | reflexivity] | cbn in H; lia].
  - destruct s as [|a [|b [|c [|d s]]]]; cbn [length] in H; try lia.
    destruct (IH s ltac:(lia)) as [I1 I2]. cbn [group4 length]. split; [|lia].
    constructor; [reflexivity | assumption].
Qed.

Lemma key_schedule_ok key : len key = 16 \/ len key = 24 \/ len key = 32 -> keys_ok (key_schedule key).
Proof.
  intros H. unfold key_schedule. cbv zeta. apply round_keys_ok. apply Forall_rev.
  assert (exists n, length key = (4 * n)%nat /\ (0 < n)%nat) as (n & Hn & Hp).
  { unfold len in H. exists (length key / 4)%nat. lia. }
  rewrite Hn. replace (4 * n / 4)%nat with n by (rewrite Nat.mul_comm, Nat.div_mul; lia).
  destruct (group4_ok n key Hn) as [G1 G2].
  apply expand_loop_ok; [assumption | rewrite rev_length; lia | apply Forall_rev; assumption].
Qed.

(** The number of rounds is 10, 12, 14 for 128, 192, 256 bits. *)
Lemma round_keys_count ws n : length ws = (4 * n)%nat -> length (round_keys ws) = n.
Proof.
  revert ws. induction n as [|n IH]; intros ws H.
  - destruct ws; [reflexivity | cbn in H; lia].
  - destruct ws as [|a [|b [|c [|d ws]]]]; cbn [length] in H; try lia. cbn [round_keys length].
    rewrite IH; lia.
Qed.

Lemma key_schedule_count key n : length key = (4 * n)%nat -> (0 < n)%nat ->
  length (key_schedule key) = (n + 7)%nat.
Proof.
  intros Hn Hp. unfold key_schedule. cbv zeta. rewrite Hn.
  replace (4 * n / 4)%nat with n by (rewrite Nat.mul_comm, Nat.div_mul; lia).
  destruct (group4_ok n key Hn) as [G1 G2]. apply round_keys_count. rewrite rev_length.
  destruct (expand_loop_ok (4 * (n + 7) - n) n n (rev (group4 key))) as [_ L];
    [assumption | rewrite rev_length; lia | apply Forall_rev; assumption |].
  rewrite L, rev_length. lia.
Qed.

(** ** CBC *)
Lemma firstn_skipn_16 (s : str) n : length s = (16 * S n)%nat ->
  length (firstn 16 s) = 16%nat /\ length (skipn 16 s) = (16 * n)%nat.
Proof. intros H. rewrite firstn_length, skipn_length. lia. Qed.

Lemma cbc_enc_length n ks : keys_ok ks -> forall iv data,
  length iv = 16%nat -> length data = (16 * n)%nat ->
  length (fst (cbc_enc n ks iv data)) = (16 * n)%nat /\ length (snd (cbc_enc n ks iv data)) = 16%nat.
Proof.
  intros HK. induction n as [|n IH]; intros iv data Hiv Hd; cbn [cbc_enc].
  - cbn. lia.
  - destruct (firstn_skipn_16 data n Hd) as [H1 H2].
    assert (HC : length (aes_encrypt_block ks (xor_str (firstn 16 data) iv)) = 16%nat).
    { apply length_aes_encrypt; [assumption|]. rewrite length_xor; lia. }
    specialize (IH _ (skipn 16 data) HC H2).
    destruct (cbc_enc n ks _ (skipn 16 data)) as [r v]. cbn [fst snd] in *.
    rewrite app_length. lia.
Qed.

Lemma cbc_roundtrip n ks : keys_ok ks -> forall iv data,
  length iv = 16%nat -> length data = (16 * n)%nat ->
  cbc_dec n ks iv (fst (cbc_enc n ks iv data)) = (data, snd (cbc_enc n ks iv data)).
Proof.
  intros HK. induction n as [|n IH]; intros iv data Hiv Hd; cbn [cbc_enc cbc_dec].
  - destruct data; [reflexivity | cbn in Hd; lia].
  - destruct (firstn_skipn_16 data n Hd) as [H1 H2].
    set (c := aes_encrypt_block ks (xor_str (firstn 16 data) iv)).
    assert (HC : length c = 16%nat).
    { apply length_aes_encrypt; [assumption|]. rewrite length_xor; lia. }
    specialize (IH c (skipn 16 data) HC H2).
    destruct (cbc_enc n ks c (skipn 16 data)) as [r v]. cbn [fst snd] in *.
    rewrite firstn_app_exact, skipn_app_exact by congruence. rewrite IH.
    unfold c. rewrite aes_block_roundtrip by (try assumption; rewrite length_xor; lia).
    rewrite xor_cancel by lia. rewrite firstn_skipn. reflexivity.
Qed.

Lemma cbc_enc_app n m ks iv a b : length a = (16 * n)%nat ->
  cbc_enc (n + m) ks iv (a ++ b) =
    (fst (cbc_enc n ks iv a) ++ fst (cbc_enc m ks (snd (cbc_enc n ks iv a)) b),
     snd (cbc_enc m ks (snd (cbc_enc n ks iv a)) b)).
Proof.
  revert iv a. induction n as [|n IH]; intros iv a Ha.
  - destruct a; [|cbn in Ha; lia]. cbn [Nat.add app cbc_enc fst snd]. apply surjective_pairing.
  - destruct (firstn_skipn_16 a n Ha) as [H1 H2]. cbn [Nat.add cbc_enc].
    rewrite firstn_app, skipn_app. replace (16 - length a)%nat with O by lia.
    rewrite (firstn_O b), (skipn_O b), app_nil_r.
    rewrite IH by assumption.
    match goal with |- context [cbc_enc n ks ?v (skipn 16 a)] =>
      destruct (cbc_enc n ks v (skipn 16 a)) as [r w] end. cbn [fst snd].
    rewrite app_assoc. reflexivity.
Qed.

Lemma cbc_dec_app n m ks iv a b : length a = (16 * n)%nat ->
  cbc_dec (n + m) ks iv (a ++ b) =
    (fst (cbc_dec n ks iv a) ++ fst (cbc_dec m ks (snd (cbc_dec n ks iv a)) b),
     snd (cbc_dec m ks (snd (cbc_dec n ks iv a)) b)).
Proof.
  revert iv a. induction n as [|n IH]; intros iv a Ha.
  - destruct a; [|cbn in Ha; lia]. cbn [Nat.add app cbc_dec fst snd]. apply surjective_pairing.
  - destruct (firstn_skipn_16 a n Ha) as [H1 H2]. cbn [Nat.add cbc_dec].
    rewrite firstn_app, skipn_app. replace (16 - length a)%nat with O by lia.
    rewrite (firstn_O b), (skipn_O b), app_nil_r.
    rewrite IH by assumption.
    match goal with |- context [cbc_dec n ks ?v (skipn 16 a)] =>
      destruct (cbc_dec n ks v (skipn 16 a)) as [r w] end. cbn [fst snd].
    rewrite app_assoc. reflexivity.
Qed.

(** ** Cipher objects *)
Definition cipher_ok (c : cipher) : Prop := keys_ok (c_keys c) /\ length (c_iv c) = 16%nat.

Lemma AES_new_ok key iv c : AES_new key iv = Ok c -> cipher_ok c.
Proof.
  unfold AES_new, block_size. intros H.
  destruct (((len key =? 16) || (len key =? 24) || (len key =? 32)) && (len iv =? 16)) eqn:E; [|discriminate].
  apply Ok_inj in H as <-. apply andb_true_iff in E as [E1 E2]. split; cbn [c_keys c_iv].
  - apply key_schedule_ok. lia.
  - unfold len in *. lia.
Qed.

Lemma AES_new_iff key iv :
  (len key = 16 \/ len key = 24 \/ len key = 32) -> len iv = 16 ->
  AES_new key iv = Ok (MkCipher (key_schedule key) iv).
Proof.
  intros H1 H2. unfold AES_new, block_size.
  replace (((len key =? 16) || (len key =? 24) || (len key =? 32)) && (len iv =? 16)) with true by lia.
  reflexivity.
Qed.

Lemma AES_new_exn key iv e : AES_new key iv = Raise e -> e = ValueError.
Proof. unfold AES_new. destruct (_ && _); congruence. Qed.

Lemma cipher_encrypt_ok c data : cipher_ok c -> len data mod 16 = 0 ->
  exists out c', cipher_encrypt c data = Ok (out, c') /\ cipher_ok c' /\ len out = len data /\
    c_keys c' = c_keys c /\ cipher_decrypt c out = Ok (data, c').
Proof.
  intros [HK HI] Hd. unfold cipher_encrypt, cipher_decrypt. rewrite Hd. cbn [Z.eqb].
  set (n := Z.to_nat (len data / 16)).
  assert (HL : length data = (16 * n)%nat) by (unfold n, len in *; lia).
  destruct (cbc_enc_length n _ HK _ data HI HL) as [L1 L2].
  pose proof (cbc_roundtrip n _ HK _ data HI HL) as RT.
  destruct (cbc_enc n (c_keys c) (c_iv c) data) as [out iv]. cbn [fst snd] in *.
  exists out, (MkCipher (c_keys c) iv). repeat split; try assumption.
  - unfold len. lia.
  - assert (Hlo : len out = len data) by (unfold len; lia). rewrite Hlo, Hd. cbn [Z.eqb].
    fold n. rewrite RT. reflexivity.
Qed.

Lemma cipher_encrypt_app c a b : len a mod 16 = 0 -> len b mod 16 = 0 ->
  cipher_encrypt c (a ++ b) =
    let* (x, c1) := cipher_encrypt c a in
    let* (y, c2) := cipher_encrypt c1 b in Ok (x ++ y, c2).
Proof.
  intros Ha Hb. unfold cipher_encrypt. pose proof (len_nonneg a). pose proof (len_nonneg b).
  replace (len (a ++ b) mod 16) with 0 by (rewrite len_app; lia). rewrite Ha. cbn [Z.eqb].
  set (n := Z.to_nat (len a / 16)). set (m := Z.to_nat (len b / 16)).
  replace (Z.to_nat (len (a ++ b) / 16)) with (n + m)%nat by (rewrite len_app; unfold n, m; lia).
  rewrite cbc_enc_app by (unfold n, len in *; lia).
  destruct (cbc_enc n (c_keys c) (c_iv c) a) as [x v]. cbn [fst snd bind c_keys c_iv].
  rewrite Hb. cbn [Z.eqb]. fold m. 
  destruct (cbc_enc m (c_keys c) v b) as [y w]. cbn [fst snd bind]. reflexivity.
Qed.

Lemma cipher_decrypt_app c a b : len a mod 16 = 0 -> len b mod 16 = 0 ->
  cipher_decrypt c (a ++ b) =
    let* (x, c1) := cipher_decrypt c a in
    let* (y, c2) := cipher_decrypt c1 b in Ok (x ++ y, c2).
Proof.
  intros Ha Hb. unfold cipher_decrypt. pose proof (len_nonneg a). pose proof (len_nonneg b).
  replace (len (a ++ b) mod 16) with 0 by (rewrite len_app; lia). rewrite Ha. cbn [Z.eqb].
  set (n := Z.to_nat (len a / 16)). set (m := Z.to_nat (len b / 16)).
  replace (Z.to_nat (len (a ++ b) / 16)) with (n + m)%nat by (rewrite len_app; unfold n, m; lia).
  rewrite cbc_dec_app by (unfold n, len in *; lia).
  destruct (cbc_dec n (c_keys c) (c_iv c) a) as [x v]. cbn [fst snd bind c_keys c_iv].
  rewrite Hb. cbn [Z.eqb]. fold m. 
  destruct (cbc_dec m (c_keys c) v b) as [y w]. cbn [fst snd bind]. reflexivity.
Qed.

Lemma cipher_encrypt_nil c : cipher_encrypt c [] = Ok ([], c).
Proof. unfold cipher_encrypt. cbn. destruct c; reflexivity. Qed.
Lemma cipher_decrypt_nil c : cipher_decrypt c [] = Ok ([], c).
Proof. unfold cipher_decrypt. cbn. destruct c; reflexivity. Qed.

Lemma cipher_encrypt_bad c data : len data mod 16 <> 0 -> cipher_encrypt c data = Raise ValueError.
Proof. intros H. unfold cipher_encrypt. apply Z.eqb_neq in H. rewrite H. reflexivity. Qed.
Lemma cipher_decrypt_bad c data : len data mod 16 <> 0 -> cipher_decrypt c data = Raise ValueError.
Proof. intros H. unfold cipher_decrypt. apply Z.eqb_neq in H. rewrite H. reflexivity. Qed.

Lemma length_dec_rounds ks s : keys_ok ks -> length s = 16%nat -> length (dec_rounds ks s) = 16%nat.
Proof.
  intros HK HS. destruct ks as [|k [|k' ks]]; [assumption | |].
  - cbn [dec_rounds]. unfold inv_sub_bytes. rewrite map_length. reflexivity.
  - change (dec_rounds (k :: k' :: ks) s) with
      (inv_sub_bytes (inv_shift_rows (inv_mix_columns (xor_str (dec_rounds (k' :: ks) s) k)))).
    unfold inv_sub_bytes. rewrite map_length. reflexivity.
Qed.

Lemma length_aes_decrypt ks s : keys_ok ks -> length s = 16%nat ->
  length (aes_decrypt_block ks s) = 16%nat.
Proof.
  intros HK HS. destruct ks as [|k ks]; [assumption|]. inversion HK as [|? ? Hk HK']; subst.
  cbn [aes_decrypt_block]. pose proof (length_dec_rounds ks s HK' HS). rewrite length_xor; congruence.
Qed.

Lemma cbc_dec_length n ks : keys_ok ks -> forall iv data,
  length iv = 16%nat -> length data = (16 * n)%nat ->
  length (fst (cbc_dec n ks iv data)) = (16 * n)%nat /\ length (snd (cbc_dec n ks iv data)) = 16%nat.
Proof.
  intros HK. induction n as [|n IH]; intros iv data Hiv Hd; cbn [cbc_dec].
  - cbn. lia.
  - destruct (firstn_skipn_16 data n Hd) as [H1 H2].
    specialize (IH _ (skipn 16 data) H1 H2).
    destruct (cbc_dec n ks _ (skipn 16 data)) as [r v]. cbn [fst snd] in *.
    rewrite app_length, length_xor; rewrite length_aes_decrypt by assumption; lia.
Qed.

Lemma cipher_decrypt_ok c data : cipher_ok c -> len data mod 16 = 0 ->
  exists out c', cipher_decrypt c data = Ok (out, c') /\ cipher_ok c' /\ len out = len data.
Proof.
  intros [HK HI] Hd. unfold cipher_decrypt. rewrite Hd. cbn [Z.eqb].
  set (n := Z.to_nat (len data / 16)).
  assert (HL : length data = (16 * n)%nat) by (unfold n, len in *; lia).
  destruct (cbc_dec_length n _ HK _ data HI HL) as [L1 L2].
  destruct (cbc_dec n (c_keys c) (c_iv c) data) as [out iv]. cbn [fst snd] in *.
  exists out, (MkCipher (c_keys c) iv). repeat split; try assumption. unfold len. lia.
Qed.

Global Opaque key_schedule.
