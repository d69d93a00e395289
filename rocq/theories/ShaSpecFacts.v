(** * ShaSpecFacts: the functions of Sha1.v are those that ShaSpec.v describes. *)
From Coq Require Import List ZArith NArith Bool Lia ZifyBool ZifyNat ZifyN.
From Coq.Init Require Import Byte.
From Verif Require Import PyBase PyFacts UtilFacts Sha1 ShaSpec.
Import ListNotations.
Local Open Scope Z_scope.
Ltac Zify.zify_post_hook ::= idtac.

Definition w32_ok (x : Z) : Prop := 0 <= x < w32.
Lemma w32_pow : w32 = 2 ^ 32. Proof. reflexivity. Qed.
Lemma ones32 : Z.ones 32 = w32 - 1. Proof. reflexivity. Qed.

(** ** Words *)
Lemma ROTL_rotl n x : 0 <= n <= 32 -> ROTL n x = rotl n x.
Proof.
  intros Hn. unfold ROTL, rotl. rewrite Z.land_ones, Z.shiftl_mul_pow2, Z.shiftr_div_pow2, <- w32_pow by lia. reflexivity.
Qed.
Lemma NOT_sub x : w32_ok x -> NOT x = w32 - 1 - x.
Proof.
  intros Hx. unfold NOT. rewrite Z.land_comm, <- Z.ldiff_land, ones32. symmetry. rewrite <- ones32. apply Z.sub_nocarry_ldiff. rewrite Z.ldiff_ones_r by lia.
  rewrite Z.shiftr_div_pow2, <- w32_pow, Z.div_small by (exact Hx || lia). apply Z.shiftl_0_l.
Qed.
Lemma f_t_is t b c d : (t < 80)%nat -> w32_ok b -> f_t t b c d = sha1_f (Z.of_nat t) b c d.
Proof.
  intros Ht Hb. unfold f_t, sha1_f.
  replace (Z.of_nat t <? 20) with (t <? 20)%nat by lia. replace (Z.of_nat t <? 40) with (t <? 40)%nat by lia. replace (Z.of_nat t <? 60) with (t <? 60)%nat by lia.
  assert (P : Parity b c d = Z.lxor b (Z.lxor c d)) by apply Z.lxor_assoc.
  destruct (t <? 20)%nat; [|destruct (t <? 40)%nat; [exact P|destruct (t <? 60)%nat; [|exact P]]].
  - unfold Ch. rewrite <- (NOT_sub b Hb). apply Z.bits_inj'. intros i Hi. unfold NOT. rewrite Z.lxor_spec, Z.lor_spec, !Z.land_spec, Z.lnot_spec by exact Hi.
    destruct (Z.testbit b i), (Z.testbit c i), (Z.testbit d i), (Z.testbit (Z.ones 32) i); reflexivity.
  - unfold Maj. apply Z.bits_inj'. intros i Hi. rewrite !Z.lxor_spec, !Z.lor_spec, !Z.land_spec. destruct (Z.testbit b i), (Z.testbit c i), (Z.testbit d i); reflexivity.
Qed.
Lemma K_t_is t : K_t t = sha1_k (Z.of_nat t).
Proof.
  unfold K_t, sha1_k. replace (Z.of_nat t <? 20) with (t <? 20)%nat by lia. replace (Z.of_nat t <? 40) with (t <? 40)%nat by lia. replace (Z.of_nat t <? 60) with (t <? 60)%nat by lia. reflexivity.
Qed.
Lemma add32_ok x y : w32_ok (add32 x y).
Proof. unfold add32, w32_ok. apply Z.mod_pos_bound. reflexivity. Qed.
Lemma add32_many a b c d e : add32 (add32 (add32 (add32 a b) c) d) e = (a + b + c + e + d) mod 2 ^ 32.
Proof. unfold add32. rewrite <- w32_pow. repeat (rewrite Zplus_mod_idemp_l; rewrite <- ?Z.add_assoc). f_equal. lia. Qed.

(** ** One block *)
Definition to_hash (h : hstate) : hash := H (hA h) (hB h) (hC h) (hD h) (hE h).

Lemma working_is W h0 : forall n t w h, (t + n = 80)%nat ->
  (forall j, (j < 16)%nat -> (t + j < 80)%nat -> nth j w 0 = W (t + j)%nat) -> length w = 16%nat ->
  (forall t, (16 <= t < 80)%nat -> W t = ROTL 1 (Z.lxor (Z.lxor (Z.lxor (W (t - 3)%nat) (W (t - 8)%nat)) (W (t - 14)%nat)) (W (t - 16)%nat))) ->
  w32_ok (hA h) -> w32_ok (hB h) -> working W t h0 = to_hash h ->
  working W 80 h0 = to_hash (sha1_rounds n (Z.of_nat t) w h).
Proof.
  induction n as [|n IH]; intros t w h HT HW HL HS HA HB HH.
  - cbn [sha1_rounds]. assert (t = 80%nat) as -> by lia. exact HH.
  - cbn [sha1_rounds]. cbv zeta. replace (Z.of_nat t + 1) with (Z.of_nat (S t)) by lia. apply IH.
    + lia.
    + intros j Hj Hj'. destruct (Nat.eq_dec j 15) as [->|NE].
      * rewrite (HS (S t + 15)%nat) by lia. rewrite ROTL_rotl by lia.
        do 16 (destruct w as [|? w]; [discriminate|]). destruct w; [|discriminate].
        pose proof (HW 0%nat ltac:(lia) ltac:(lia)) as W0. pose proof (HW 2%nat ltac:(lia) ltac:(lia)) as W2. pose proof (HW 8%nat ltac:(lia) ltac:(lia)) as W8. pose proof (HW 13%nat ltac:(lia) ltac:(lia)) as W13.
        replace (S t + 15 - 3)%nat with (t + 13)%nat by lia. replace (S t + 15 - 8)%nat with (t + 8)%nat by lia. replace (S t + 15 - 14)%nat with (t + 2)%nat by lia. replace (S t + 15 - 16)%nat with (t + 0)%nat by lia.
        rewrite <- W0, <- W2, <- W8, <- W13. cbn [nth tl app]. rewrite !Z.lxor_assoc. reflexivity.
      * replace (S t + j)%nat with (t + S j)%nat by lia. rewrite <- HW by lia. destruct w as [|x w]; [discriminate|]. cbn [tl nth length] in *. rewrite app_nth1 by lia. reflexivity.
    + destruct w as [|x w]; [discriminate|]. cbn [tl length] in *. rewrite app_length. cbn [length]. lia.
    + exact HS.
    + apply add32_ok.
    + exact HA.
    + cbn [working]. rewrite HH. unfold to_hash. cbn [hA hB hC hD hE]. rewrite (HW 0%nat) by lia. rewrite Nat.add_0_r, !ROTL_rotl by lia.
      rewrite f_t_is by (lia || exact HB). rewrite K_t_is, add32_many. reflexivity.
Qed.

Lemma number4 a b c d : number [a; b; c; d] = of_be32 a b c d.
Proof. unfold number, of_be32. cbn [fold_left]. lia. Qed.
Lemma words_nth n : forall s t, length s = (4 * n)%nat -> (t < n)%nat -> nth t (words s) 0 = number (firstn 4 (skipn (4 * t) s)).
Proof.
  induction n as [|n IH]; intros s t L Ht; [lia|]. do 4 (destruct s as [|? s]; [cbn [length] in L; lia|]). cbn [length] in L. cbn [words].
  destruct t as [|t]; [symmetry; apply number4|]. cbn [nth]. rewrite (IH s t) by lia. replace (4 * S t)%nat with (S (S (S (S (4 * t))))) by lia. reflexivity.
Qed.
Lemma words_length n : forall s, length s = (4 * n)%nat -> length (words s) = n.
Proof.
  induction n as [|n IH]; intros s L; [destruct s; [reflexivity | cbn in L; lia]|]. do 4 (destruct s as [|? s]; [cbn [length] in L; lia|]). cbn [length] in L. cbn [words length]. rewrite IH by lia. reflexivity.
Qed.

Definition hash_ok (h : hstate) : Prop := w32_ok (hA h) /\ w32_ok (hB h) /\ w32_ok (hC h) /\ w32_ok (hD h) /\ w32_ok (hE h).
Lemma sha1_block_ok h b : hash_ok (sha1_block h b).
Proof. unfold sha1_block, hash_ok. cbv zeta. cbn [hA hB hC hD hE]. repeat split; apply add32_ok. Qed.

Lemma rounds_schedule block W h : len block = 64 -> hash_ok h -> is_schedule block W -> working W 80 (to_hash h) = to_hash (sha1_rounds 80 0 (words block) h).
Proof.
  intros HL (HA & HB & _) [S1 S2]. unfold len in HL. apply (working_is W (to_hash h) 80 0%nat (words block) h); try assumption.
  - reflexivity.
  - intros j Hj _. rewrite (words_nth 16) by lia. symmetry. apply S1. exact Hj.
  - apply words_length. lia.
  - reflexivity.
Qed.
Lemma compresses_only block h h' : len block = 64 -> hash_ok h -> compresses (to_hash h) block h' -> h' = to_hash (sha1_block h block).
Proof.
  intros HL HO (W & HS & E). rewrite (rounds_schedule block W h HL HO HS) in E. cbv zeta in E. rewrite E. unfold sha1_block, to_hash, add32. cbv zeta. cbn [H0 H1 H2 H3 H4 hA hB hC hD hE].
  rewrite <- w32_pow. f_equal; f_equal; lia.
Qed.
Lemma schedule_exists block n : exists W,
  (forall t, (t < 16)%nat -> W t = number (firstn 4 (skipn (4 * t) block))) /\
  (forall t, (16 <= t < n)%nat -> W t = ROTL 1 (Z.lxor (Z.lxor (Z.lxor (W (t - 3)%nat) (W (t - 8)%nat)) (W (t - 14)%nat)) (W (t - 16)%nat))).
Proof.
  induction n as [|n (W & A & B)].
  - exists (fun t => number (firstn 4 (skipn (4 * t) block))). split; [reflexivity | intros; lia].
  - destruct (le_lt_dec 16 n) as [HL|HL].
    + exists (fun t => if (t =? n)%nat then ROTL 1 (Z.lxor (Z.lxor (Z.lxor (W (n - 3)%nat) (W (n - 8)%nat)) (W (n - 14)%nat)) (W (n - 16)%nat)) else W t). split.
      * intros t Ht. replace (t =? n)%nat with false by (symmetry; apply Nat.eqb_neq; lia). apply A, Ht.
      * intros t Ht. replace (t - 3 =? n)%nat with false by (symmetry; apply Nat.eqb_neq; lia). replace (t - 8 =? n)%nat with false by (symmetry; apply Nat.eqb_neq; lia).
        replace (t - 14 =? n)%nat with false by (symmetry; apply Nat.eqb_neq; lia). replace (t - 16 =? n)%nat with false by (symmetry; apply Nat.eqb_neq; lia).
        destruct (Nat.eqb_spec t n) as [->|NE]; [reflexivity | apply B; lia].
    + exists W. split; [exact A | intros t Ht; lia].
Qed.
Lemma compresses_some block h : len block = 64 -> hash_ok h -> compresses (to_hash h) block (to_hash (sha1_block h block)).
Proof.
  intros HL HO. destruct (schedule_exists block 80) as (W & HS). exists W. split; [exact HS|]. rewrite (rounds_schedule block W h HL HO HS). cbv zeta.
  unfold sha1_block, to_hash, add32. cbv zeta. cbn [H0 H1 H2 H3 H4 hA hB hC hD hE]. rewrite <- w32_pow. f_equal; f_equal; lia.
Qed.

(** ** All blocks *)
Lemma hashes_only blocks : forall h h', hash_ok h -> hashes (to_hash h) blocks h' -> h' = to_hash (sha1_blocks (length blocks) h (concat blocks)) /\ hash_ok (sha1_blocks (length blocks) h (concat blocks)).
Proof.
  induction blocks as [|b blocks IH]; intros h h' HO HH; inversion HH; subst.
  - split; [reflexivity | exact HO].
  - cbn [length sha1_blocks concat]. match goal with L : len b = 64, C : compresses _ _ _ |- _ => apply (compresses_only b h _ L HO) in C; subst; rename L into LB end.
    unfold len in LB. rewrite firstn_app, skipn_app. replace (64 - length b)%nat with 0%nat by lia. rewrite firstn_all2, skipn_all2, firstn_O, app_nil_r, skipn_O by lia. cbn [app].
    apply IH; [apply sha1_block_ok | assumption].
Qed.
Lemma hashes_some blocks : forall h, hash_ok h -> Forall (fun b => len b = 64) blocks -> hashes (to_hash h) blocks (to_hash (sha1_blocks (length blocks) h (concat blocks))).
Proof.
  induction blocks as [|b blocks IH]; intros h HO HF; inversion HF as [|? ? LB HF']; subst; [constructor|].
  cbn [length sha1_blocks concat]. econstructor; [exact LB | apply compresses_some; assumption|]. unfold len in LB.
  rewrite firstn_app, skipn_app. replace (64 - length b)%nat with 0%nat by lia. rewrite firstn_all2, skipn_all2, firstn_O, app_nil_r, skipn_O by lia. cbn [app].
  apply IH; [apply sha1_block_ok | exact HF'].
Qed.
Lemma blocks_len blocks h h' : hashes h blocks h' -> Forall (fun b => len b = 64) blocks.
Proof. induction 1; constructor; assumption. Qed.
Lemma concat_len (blocks : list (list byte)) : Forall (fun b => len b = 64) blocks -> len (concat blocks) = 64 * Z.of_nat (length blocks).
Proof. induction 1 as [|b bs LB _ IH]; [reflexivity|]. cbn [concat length]. rewrite len_app, LB, IH. lia. Qed.
Lemma split_blocks n : forall s : list byte, len s = 64 * Z.of_nat n -> exists blocks, concat blocks = s /\ length blocks = n /\ Forall (fun b => len b = 64) blocks.
Proof.
  induction n as [|n IH]; intros s L.
  - destruct s; [exists []; repeat constructor|]. rewrite len_cons in L. pose proof (len_nonneg s). lia.
  - destruct (IH (skipn 64 s)) as (bs & E & LB & F); [unfold len in *; rewrite skipn_length; lia|]. exists (firstn 64 s :: bs). cbn [concat length]. rewrite E, LB. split; [apply firstn_skipn|]. split; [reflexivity|].
    constructor; [unfold len in *; rewrite firstn_length; lia | exact F].
Qed.

(** ** Padding and digest *)
Lemma four_bytes_of (s : list byte) : len s = 4 -> exists a b c d, s = [a; b; c; d].
Proof. unfold len. intros L. do 4 (destruct s as [|? s]; [discriminate L|]). destruct s; [|cbn [length] in L; lia]. do 4 eexists. reflexivity. Qed.
Lemma number4_range s : len s = 4 -> 0 <= number s < w32.
Proof.
  intros L. destruct (four_bytes_of s L) as (a & b & c & d & ->). rewrite number4. unfold of_be32, w32.
  pose proof (ord_range a). pose proof (ord_range b). pose proof (ord_range c). pose proof (ord_range d). lia.
Qed.
Lemma number4_inj s t : len s = 4 -> len t = 4 -> number s = number t -> s = t.
Proof.
  intros LS LT E. destruct (four_bytes_of s LS) as (a & b & c & d & ->). destruct (four_bytes_of t LT) as (a' & b' & c' & d' & ->).
  rewrite !number4 in E. unfold of_be32 in E.
  pose proof (ord_range a). pose proof (ord_range b). pose proof (ord_range c). pose proof (ord_range d).
  pose proof (ord_range a'). pose proof (ord_range b'). pose proof (ord_range c'). pose proof (ord_range d').
  assert (EA : ord a = ord a') by lia. assert (EB : ord b = ord b') by lia. assert (EC : ord c = ord c') by lia. assert (ED : ord d = ord d') by lia.
  apply ord_inj in EA as ->. apply ord_inj in EB as ->. apply ord_inj in EC as ->. apply ord_inj in ED as ->. reflexivity.
Qed.
Lemma be32_number n : w32_ok n -> len (be32 n) = 4 /\ number (be32 n) = n.
Proof.
  intros Hn. split; [reflexivity|]. unfold be32. rewrite number4. unfold of_be32. rewrite !ord_chr. unfold w32_ok, w32 in Hn.
  pose proof (Z.div_mod n 256 ltac:(lia)). pose proof (Z.div_mod (n / 256) 256 ltac:(lia)). pose proof (Z.div_mod (n / 65536) 256 ltac:(lia)).
  assert (n / 256 / 256 = n / 65536) by (rewrite Z.div_div by lia; reflexivity). assert (n / 65536 / 256 = n / 16777216) by (rewrite Z.div_div by lia; reflexivity).
  rewrite (Z.mod_small (n / 16777216)) by (split; [apply Z.div_pos; lia | apply Z.div_lt_upper_bound; lia]). lia.
Qed.
Lemma number_app4 a b : len b = 4 -> number (a ++ b) = number a * w32 + number b.
Proof.
  unfold len. intros L. do 4 (destruct b as [|? b]; [discriminate L|]). destruct b; [|cbn [length] in L; lia]. rewrite number4. unfold number, of_be32, w32. rewrite fold_left_app. cbn [fold_left]. lia.
Qed.
Lemma number8_inj a b : len a = 8 -> len b = 8 -> number a = number b -> a = b.
Proof.
  intros LA LB E. unfold len in LA, LB.
  assert (L1 : len (firstn 4 a) = 4) by (unfold len; rewrite firstn_length; lia).
  assert (L2 : len (skipn 4 a) = 4) by (unfold len; rewrite skipn_length; lia).
  assert (L3 : len (firstn 4 b) = 4) by (unfold len; rewrite firstn_length; lia).
  assert (L4 : len (skipn 4 b) = 4) by (unfold len; rewrite skipn_length; lia).
  rewrite <- (firstn_skipn 4 a), <- (firstn_skipn 4 b) in E |- *. rewrite !number_app4 in E by assumption.
  pose proof (number4_range _ L1). pose proof (number4_range _ L2). pose proof (number4_range _ L3). pose proof (number4_range _ L4). unfold w32 in *.
  f_equal; apply number4_inj; try assumption; lia.
Qed.
Definition short_message (m : list byte) : Prop := 8 * len m < 2 ^ 64.
Lemma padded_some m : short_message m -> is_padded m (sha1_pad m).
Proof.
  unfold short_message. intros HM. exists ((55 - len m) mod 64), (be32 (8 * len m / w32) ++ be32 (8 * len m)).
  pose proof (len_nonneg m) as LM. split; [apply Z.mod_pos_bound; lia|]. split.
  - rewrite Zplus_mod_idemp_r. replace (len m + 1 + (55 - len m)) with 56 by lia. reflexivity.
  - split; [reflexivity|]. split; [|unfold sha1_pad, rep; reflexivity].
    rewrite number_app4 by reflexivity. assert (E : be32 (8 * len m) = be32 ((8 * len m) mod w32)).
    { unfold be32. set (x := 8 * len m). assert (D : x = w32 * (x / w32) + x mod w32) by (apply Z.div_mod; discriminate).
      assert (C : forall y z, z mod 256 = y mod 256 -> chr z = chr y) by (intros y z Q; unfold chr; rewrite Q; reflexivity).
      assert (D1 : forall k q, 0 < k -> w32 = 256 * (q * k) -> chr (x / k) = chr (x mod w32 / k)).
      { intros k q Hk Hq. apply C. rewrite D at 1. rewrite Hq at 1. replace (256 * (q * k) * (x / w32) + x mod w32) with (x mod w32 + (256 * q * (x / w32)) * k) by lia. rewrite Z.div_add by lia.
        replace (256 * q * (x / w32)) with (q * (x / w32) * 256) by lia. apply Z.mod_add. lia. }
      rewrite (D1 16777216 1), (D1 65536 256), (D1 256 65536) by (reflexivity || lia). rewrite <- (Z.div_1_r x) at 4. rewrite (D1 1 16777216) by (reflexivity || lia). rewrite Z.div_1_r. reflexivity. }
    rewrite E. rewrite (proj2 (be32_number (8 * len m / w32) ltac:(split; [apply Z.div_pos; [lia | reflexivity] | apply Z.div_lt_upper_bound; [reflexivity | exact HM]]))).
    rewrite (proj2 (be32_number ((8 * len m) mod w32) ltac:(apply Z.mod_pos_bound; reflexivity))). rewrite Z.mul_comm. symmetry. apply Z.div_mod. discriminate.
Qed.
Lemma padded_only m p p' : is_padded m p -> is_padded m p' -> p' = p.
Proof.
  intros (k & l & Hk & Mk & Ll & Nl & ->) (k' & l' & Hk' & Mk' & Ll' & Nl' & ->). rewrite <- Nl' in Nl. apply number8_inj in Nl; [subst l'| assumption | assumption].
  assert (k' = k) as ->; [|reflexivity].
  pose proof (Z.div_mod (len m + 1 + k) 64 ltac:(lia)). pose proof (Z.div_mod (len m + 1 + k') 64 ltac:(lia)). lia.
Qed.
Lemma pad_len m : exists n, len (sha1_pad m) = 64 * Z.of_nat n /\ Z.to_nat (len (sha1_pad m) / 64) = n.
Proof.
  assert (E : len (sha1_pad m) = 64 * ((len m + 1 + (55 - len m) mod 64 + 8) / 64)).
  { unfold sha1_pad. rewrite !len_app, len_rep by (apply Z.mod_pos_bound; lia). change (len [x80]) with 1. change (len (be32 (8 * len m / w32))) with 4. change (len (be32 (8 * len m))) with 4.
    pose proof (Z.div_mod (55 - len m) 64 ltac:(lia)) as D. replace ((55 - len m) mod 64) with (55 - len m - 64 * ((55 - len m) / 64)) by lia.
    set (q := (55 - len m) / 64). replace (len m + 1 + (55 - len m - 64 * q) + 8) with ((1 - q) * 64) by lia. rewrite Z.div_mul by lia. lia. }
  pose proof (Z.mod_pos_bound (55 - len m) 64 ltac:(lia)). pose proof (len_nonneg m).
  exists (Z.to_nat ((len m + 1 + (55 - len m) mod 64 + 8) / 64)). rewrite E. rewrite Z2Nat.id by (apply Z.div_pos; lia). split; [reflexivity|].
  rewrite Z.mul_comm, Z.div_mul by lia. reflexivity.
Qed.

Definition digest_of (h : hstate) : str := be32 (hA h) ++ be32 (hB h) ++ be32 (hC h) ++ be32 (hD h) ++ be32 (hE h).
Lemma digest_some h : hash_ok h -> is_digest (to_hash h) (digest_of h).
Proof.
  intros (A & B & C & D & E). exists (be32 (hA h)), (be32 (hB h)), (be32 (hC h)), (be32 (hD h)), (be32 (hE h)). unfold to_hash. cbn [H0 H1 H2 H3 H4].
  repeat split; try apply be32_number; assumption.
Qed.
Lemma digest_only h d d' : is_digest h d -> is_digest h d' -> d' = d.
Proof.
  intros (a & b & c & e & f & -> & La & Lb & Lc & Le & Lf & Na & Nb & Nc & Ne & Nf) (a' & b' & c' & e' & f' & -> & La' & Lb' & Lc' & Le' & Lf' & Na' & Nb' & Nc' & Ne' & Nf').
  rewrite <- Na' in Na. rewrite <- Nb' in Nb. rewrite <- Nc' in Nc. rewrite <- Ne' in Ne. rewrite <- Nf' in Nf.
  apply number4_inj in Na as <-; [|assumption|assumption]. apply number4_inj in Nb as <-; [|assumption|assumption]. apply number4_inj in Nc as <-; [|assumption|assumption].
  apply number4_inj in Ne as <-; [|assumption|assumption]. apply number4_inj in Nf as <-; [|assumption|assumption]. reflexivity.
Qed.
Lemma initial_ok : hash_ok sha1_init.
Proof. repeat split; vm_compute; congruence. Qed.
Lemma blocks_hash_ok n : forall h s, hash_ok h -> hash_ok (sha1_blocks n h s).
Proof. induction n as [|n IH]; intros h s HO; [exact HO|]. cbn [sha1_blocks]. apply IH, sha1_block_ok. Qed.

Local Transparent sha1 hmac_sha1.
Lemma sha1_is_fips180 m : short_message m -> fips180 m (sha1 m).
Proof.
  intros HM. destruct (pad_len m) as (n & L & N). destruct (split_blocks n (sha1_pad m) L) as (bs & EC & EL & EF).
  exists bs, (to_hash (sha1_blocks n sha1_init (sha1_pad m))). split; [rewrite EC; apply padded_some, HM|]. split.
  - rewrite <- EC, <- EL. change initial_hash with (to_hash sha1_init). apply hashes_some; [exact initial_ok | exact EF].
  - unfold sha1. cbv zeta. rewrite N. apply digest_some, blocks_hash_ok, initial_ok.
Qed.
Lemma fips180_unique m d : fips180 m d -> short_message m /\ d = sha1 m.
Proof.
  intros (bs & h & HP & HH & HD).
  assert (HM : short_message m).
  { destruct HP as (k & l & _ & _ & Ll & Nl & _). unfold short_message. rewrite <- Nl.
    unfold len in Ll. rewrite <- (firstn_skipn 4 l), number_app4 by (unfold len; rewrite skipn_length; lia).
    pose proof (number4_range (firstn 4 l) ltac:(unfold len; rewrite firstn_length; lia)). pose proof (number4_range (skipn 4 l) ltac:(unfold len; rewrite skipn_length; lia)).
    unfold w32 in *. change (2 ^ 64) with 18446744073709551616. lia. }
  split; [exact HM|].
  assert (EC : concat bs = sha1_pad m) by (apply (padded_only m); [apply padded_some, HM | exact HP]).
  pose proof (blocks_len _ _ _ HH) as BL. pose proof (concat_len bs BL) as CL. rewrite EC in CL.
  change initial_hash with (to_hash sha1_init) in HH. apply hashes_only in HH as [-> HO]; [|exact initial_ok]. rewrite EC in *.
  apply (digest_only _ _ _ (digest_some _ HO)) in HD. rewrite HD. unfold sha1. cbv zeta.
  rewrite CL, Z.mul_comm, Z.div_mul, Nat2Z.id by lia. reflexivity.
Qed.

(** ** HMAC *)
Local Opaque sha1.
Lemma xor_each_some b k : xor_each k b (map (bxor b) k).
Proof.
  induction k as [|c k IH]; constructor; [|exact IH]. unfold bxor. rewrite Z.lxor_comm. apply ord_chr_small. pose proof (ord_range c). pose proof (ord_range b).
  change 256 with (2 ^ 8). destruct (Z.eq_dec (Z.lxor (ord c) (ord b)) 0) as [->|NZ]; [lia|].
  assert (0 <= Z.lxor (ord c) (ord b)) by (apply Z.lxor_nonneg; lia). split; [assumption|]. apply Z.log2_lt_pow2; [lia|].
  eapply Z.le_lt_trans; [apply Z.log2_lxor; lia|]. apply Z.max_lub_lt.
  - destruct (Z.eq_dec (ord c) 0) as [->|]; [reflexivity | apply Z.log2_lt_pow2; lia].
  - destruct (Z.eq_dec (ord b) 0) as [->|]; [reflexivity | apply Z.log2_lt_pow2; lia].
Qed.
Lemma xor_each_only b k x : xor_each k b x -> x = map (bxor b) k.
Proof.
  intros HX. pose proof (xor_each_some b k) as HY. revert HX HY. generalize (map (bxor b) k). intros y HX. revert y.
  induction HX as [|c d k x E _ IH]; intros y HY; inversion HY as [|? d' ? y' E' HY']; subst; [reflexivity|]. f_equal; [apply ord_inj; lia | apply IH, HY'].
Qed.
Lemma pad_key_some k : short_message k -> pad_key k (hmac_key_block k).
Proof.
  intros HK. unfold hmac_key_block. cbv zeta. destruct (Z.ltb_spec 64 (len k)) as [HL|HL].
  - split; [rewrite len_app, len_rep, len_sha1 by (rewrite len_sha1; lia); lia|]. exists (Z.to_nat (64 - len (sha1 k))). split; [lia|]. intros _. exists (sha1 k). split; [apply sha1_is_fips180, HK | reflexivity].
  - split; [rewrite len_app, len_rep by lia; lia|]. exists (Z.to_nat (64 - len k)). split; [reflexivity | lia].
Qed.
Lemma pad_key_only k k0 : pad_key k k0 -> k0 = hmac_key_block k.
Proof.
  intros (L & n & A & B). unfold hmac_key_block. cbv zeta. destruct (Z.ltb_spec 64 (len k)) as [HL|HL].
  - destruct (B ltac:(lia)) as (h & F & ->). apply fips180_unique in F as [_ ->]. rewrite len_app in L. unfold rep. do 2 f_equal. unfold len in *. rewrite repeat_length in L. lia.
  - rewrite (A HL) in *. rewrite len_app in L. unfold rep. do 2 f_equal. unfold len in *. rewrite repeat_length in L. lia.
Qed.
Lemma hmac_is_rfc2104 k m : short_message k -> 8 * (64 + len m) < 2 ^ 64 -> rfc2104 k m (hmac_sha1 k m).
Proof.
  intros HK HM. pose proof (pad_key_some k HK) as HP. pose proof (proj1 HP) as LP.
  exists (hmac_key_block k), (map (bxor x36) (hmac_key_block k)), (map (bxor x5c) (hmac_key_block k)), (sha1 (map (bxor x36) (hmac_key_block k) ++ m)).
  split; [exact HP|]. split; [apply xor_each_some|]. split; [apply xor_each_some|]. split; [apply sha1_is_fips180 | unfold hmac_sha1; cbv zeta; apply sha1_is_fips180].
  - unfold short_message. rewrite len_app. unfold len at 1. rewrite map_length. fold (len (hmac_key_block k)). rewrite LP. exact HM.
  - unfold short_message. rewrite len_app, len_sha1. unfold len at 1. rewrite map_length. fold (len (hmac_key_block k)). rewrite LP. reflexivity.
Qed.
Lemma rfc2104_unique k m tag : rfc2104 k m tag -> tag = hmac_sha1 k m.
Proof.
  intros (k0 & ik & ok & inner & HP & HI & HO & F1 & F2). apply pad_key_only in HP as ->. apply xor_each_only in HI as ->. apply xor_each_only in HO as ->.
  apply fips180_unique in F1 as [_ ->]. apply fips180_unique in F2 as [_ ->]. reflexivity.
Qed.
