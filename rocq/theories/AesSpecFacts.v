(** * AesSpecFacts: the block cipher of Aes.v is the one AesSpec.v describes. *)
From Coq Require Import List ZArith NArith Bool Lia ZifyBool ZifyNat ZifyN.
From Coq.Init Require Import Byte.
From Verif Require Import PyBase PyFacts UtilFacts2 Aes AesFacts AesSpec.
Import ListNotations.
Local Open Scope Z_scope.
Ltac Zify.zify_post_hook ::= idtac.

(** ** Bytes *)
Lemma two_bytes (P : byte -> byte -> bool) : forallb (fun a => forallb (P a) (map (fun n => chr (Z.of_nat n)) (seq 0 256))) (map (fun n => chr (Z.of_nat n)) (seq 0 256)) = true ->
  forall a b, P a b = true.
Proof.
  intros H a b. rewrite forallb_forall in H. assert (I : forall c, In c (map (fun n => chr (Z.of_nat n)) (seq 0 256))).
  { intros c. apply in_map_iff. exists (Z.to_nat (ord c)). pose proof (ord_range c). split; [rewrite Z2Nat.id by lia; apply chr_ord | apply in_seq; lia]. }
  specialize (H a (I a)). rewrite forallb_forall in H. apply (H b (I b)).
Qed.
Lemma gmul2 b : gmul x02 b = mul2 b.
Proof. apply beqb_eq. revert b. apply forall_bytes. vm_compute. reflexivity. Qed.
Lemma gmul3 b : gmul x03 b = mul3 b.
Proof. apply beqb_eq. revert b. apply forall_bytes. vm_compute. reflexivity. Qed.
Lemma gmul1 b : gmul x01 b = b.
Proof. apply beqb_eq. revert b. apply forall_bytes. vm_compute. reflexivity. Qed.
Lemma rcon_pow n : rcon n = gpow x02 n.
Proof. induction n as [|n IH]; [reflexivity|]. cbn [rcon gpow]. rewrite IH, gmul2. reflexivity. Qed.

(** The table is the S-box. *)
Definition inverse_table (a : byte) : byte := gpow a 254.
Definition affine_ok (b b' : byte) : bool :=
  forallb (fun i => Bool.eqb (bit_of b' i)
    (xorb (bit_of b i) (xorb (bit_of b ((i + 4) mod 8)) (xorb (bit_of b ((i + 5) mod 8)) (xorb (bit_of b ((i + 6) mod 8)) (xorb (bit_of b ((i + 7) mod 8)) (bit_of x63 i)))))))
    [0; 1; 2; 3; 4; 5; 6; 7].
Lemma sbox_is_sbox : is_sbox sbox.
Proof.
  intros a. exists (inverse_table a).
  assert (E : (beqb a x00 && beqb (inverse_table a) x00 || beqb (gmul a (inverse_table a)) x01) && affine_ok (inverse_table a) (sbox a) = true) by (revert a; apply forall_bytes; vm_compute; reflexivity).
  apply andb_true_iff in E as [E1 E2]. split.
  - apply orb_true_iff in E1 as [E1|E1]; [left; apply andb_true_iff in E1 as [A B]; split; apply beqb_eq; assumption | right; apply beqb_eq; exact E1].
  - intros i Hi. unfold affine_ok in E2. rewrite forallb_forall in E2. apply Bool.eqb_prop, E2. cbn [In].
    assert (i = 0 \/ i = 1 \/ i = 2 \/ i = 3 \/ i = 4 \/ i = 5 \/ i = 6 \/ i = 7) by lia. intuition.
Qed.

(** There is only one. *)
Definition inverse_check (mul : byte -> byte -> byte) (inv : byte -> byte) (a : byte) : byte -> bool :=
  let v := inv a in fun b => if beqb (mul a b) x01 then beqb b v else true.
Lemma inverse_check_spec mul inv a b : inverse_check mul inv a b = true -> mul a b = x01 -> b = inv a.
Proof. unfold inverse_check. intros E H. rewrite H in E. apply beqb_eq. exact E. Qed.
Lemma inverse_checked : forall a b, inverse_check gmul inverse_table a b = true.
Proof. apply two_bytes. vm_compute. reflexivity. Qed.
Lemma inverse_is a b : is_inverse a b -> b = inverse_table a.
Proof. intros [[-> ->]|H]; [vm_compute; reflexivity | exact (inverse_check_spec _ _ _ _ (inverse_checked a b) H)]. Qed.
Lemma inverse_unique a b b' : is_inverse a b -> is_inverse a b' -> b = b'.
Proof. intros H H'. rewrite (inverse_is _ _ H), (inverse_is _ _ H'). reflexivity. Qed.
Lemma sbox_unique S a : is_sbox S -> S a = sbox a.
Proof.
  intros H. destruct (H a) as (b & I1 & A1). destruct (sbox_is_sbox a) as (b' & I2 & A2). rewrite <- (inverse_unique a b b' I1 I2) in A2.
  apply bit_ext. intros i Hi. unfold bit. change (bit_of (S a) i = bit_of (sbox a) i). rewrite (A1 i Hi), (A2 i Hi). reflexivity.
Qed.

(** ** The state *)
Definition same (s : str) (f : state) : Prop := length s = 16%nat /\ forall r c, (r < 4)%nat -> (c < 4)%nat -> nth (r + 4 * c) s x00 = f r c.

Ltac four r := destruct r as [|[|[|[|r]]]]; [| | | |exfalso; lia].
Ltac sixteen s := do 16 (let b := fresh "b" in destruct s as [|b s]; [discriminate|]); destruct s; [|discriminate].

Lemma same_sub S s f : is_sbox S -> same s f -> same (sub_bytes s) (SubBytes S f).
Proof.
  intros HS [L H]. unfold sub_bytes. split; [rewrite map_length; exact L|]. intros r c Hr Hc. unfold SubBytes. rewrite <- (H r c Hr Hc), (sbox_unique S _ HS).
  rewrite (nth_indep _ x00 (sbox x00)) by (rewrite map_length; lia). apply map_nth.
Qed.
Lemma same_shift s f : same s f -> same (shift_rows s) (ShiftRows f).
Proof.
  intros [L H]. split; [apply length_shift|]. intros r c Hr Hc. unfold ShiftRows. rewrite <- H; [|exact Hr | apply Nat.mod_upper_bound; lia].
  sixteen s. four r; four c; reflexivity.
Qed.
Lemma same_mix s f : same s f -> same (mix_columns s) (MixColumns f).
Proof.
  intros [L H]. split; [apply (length_mix 4 s), L|]. intros r c Hr Hc. unfold MixColumns. cbn [map fold_left]. rewrite <- !H by lia.
  assert (Z0 : forall b, bxor x00 b = b) by (intros b; apply beqb_eq; revert b; apply forall_bytes; vm_compute; reflexivity).
  assert (AS : forall a b d, bxor (bxor a b) d = bxor a (bxor b d)) by (intros; apply bit_ext; intros i _; rewrite !bit_bxor; apply xorb_assoc).
  rewrite Z0, !AS. sixteen s. four r; four c; cbn [coefficient nth Nat.modulo Nat.divmod Nat.sub Nat.add Nat.mul snd]; rewrite ?gmul1, ?gmul2, ?gmul3; reflexivity.
Qed.

(** Round keys and words. *)
Definition round_key (w : nat -> nat -> byte) (n : nat) (k : str) : Prop := length k = 16%nat /\ forall r c, (r < 4)%nat -> (c < 4)%nat -> nth (r + 4 * c) k x00 = w (4 * n + c)%nat r.
Lemma same_add w n k s f : round_key w n k -> same s f -> same (xor_str s k) (AddRoundKey w n f).
Proof.
  intros [Lk Hk] [L H]. split; [rewrite length_xor; lia|]. intros r c Hr Hc. unfold AddRoundKey. rewrite <- (H r c Hr Hc), <- (Hk r c Hr Hc).
  sixteen s. sixteen k. four r; four c; reflexivity.
Qed.

Lemma same_rounds S w Nr block : is_sbox S -> forall ks n s, (forall i k, nth_error ks i = Some k -> round_key w (n + 1 + i) k) -> (n + length ks = Nr)%nat -> ks <> [] ->
  same s (after_round S w Nr n block) -> same (enc_rounds ks s) (after_round S w Nr Nr block).
Proof.
  intros HS. induction ks as [|k ks IH]; intros n s HK HL NE H; [contradiction|]. pose proof (HK 0%nat k eq_refl) as K0. rewrite Nat.add_0_r, Nat.add_1_r in K0.
  destruct ks as [|k2 ks].
  - cbn [enc_rounds]. cbn [length] in HL. assert (EN : Nr = Datatypes.S n) by lia. rewrite EN in *. cbn [after_round]. rewrite Nat.eqb_refl.
    apply same_add; [exact K0|]. apply same_shift, same_sub, H. exact HS.
  - cbn [enc_rounds]. apply (IH (Datatypes.S n)).
    + intros i k' Hi. specialize (HK (Datatypes.S i) k' Hi). replace (Datatypes.S n + 1 + i)%nat with (n + 1 + Datatypes.S i)%nat by lia. exact HK.
    + cbn [length] in HL |- *. lia.
    + discriminate.
    + cbn [after_round]. replace (Datatypes.S n =? Nr)%nat with false by (symmetry; apply Nat.eqb_neq; cbn [length] in HL; lia).
      apply same_add; [exact K0|]. apply same_mix, same_shift, same_sub, H. exact HS.
Qed.

(** ** Key expansion *)
Definition word_is (w : nat -> nat -> byte) (i : nat) (x : str) : Prop := length x = 4%nat /\ forall r, (r < 4)%nat -> nth r x x00 = w i r.

Ltac four_bytes s := do 4 (let b := fresh "b" in destruct s as [|b s]; [discriminate|]); destruct s; [|discriminate].

Lemma expand_word_is S Nk key w i p b : is_sbox S -> (0 < Nk)%nat -> key_expansion S Nk key w -> (Nk <= i < 4 * (Nk + 7))%nat ->
  word_is w (i - 1) p -> word_is w (i - Nk) b -> word_is w i (expand_word Nk i p b).
Proof.
  intros HS HN [_ HE] Hi [Lp Hp] [Lb Hb]. split; [apply expand_word_ok; assumption|]. intros r Hr. rewrite (HE i r Hi Hr), <- (Hb r Hr).
  rewrite !(sbox_unique S _ HS), <- (Hp r Hr), <- (Hp ((r + 1) mod 4)%nat) by (apply Nat.mod_upper_bound; lia).
  unfold expand_word. cbv zeta. four_bytes p. four_bytes b. unfold Rcon. rewrite <- rcon_pow.
  destruct (i mod Nk =? 0)%nat; [|destruct (_ && _)]; four r; cbn [nth rot_word map app xor_str Nat.modulo Nat.divmod Nat.sub Nat.add snd]; try reflexivity.
Qed.

Lemma expand_loop_is S Nk key w : is_sbox S -> (0 < Nk)%nat -> key_expansion S Nk key w -> forall n i acc, (i + n <= 4 * (Nk + 7))%nat -> (Nk <= i)%nat -> length acc = i ->
  (forall j, (j < i)%nat -> word_is w j (nth (i - 1 - j) acc [])) ->
  forall j, (j < i + n)%nat -> word_is w j (nth (i + n - 1 - j) (expand_loop n Nk i acc) []).
Proof.
  intros HS HN HE. induction n as [|n IH]; intros i acc HB HI HL HA j Hj.
  - cbn [expand_loop]. rewrite Nat.add_0_r in *. apply HA, Hj.
  - cbn [expand_loop]. replace (i + Datatypes.S n - 1 - j)%nat with (Datatypes.S i + n - 1 - j)%nat by lia. apply IH; [lia | lia | cbn [length]; lia | | lia].
    intros m Hm. destruct (Nat.eq_dec m i) as [->|NE].
    + replace (Datatypes.S i - 1 - i)%nat with 0%nat by lia. cbn [nth]. apply (expand_word_is S Nk key w i); try assumption; [lia | |].
      * specialize (HA (i - 1)%nat ltac:(lia)). rewrite Nat.sub_diag in HA. exact HA.
      * replace (Nk - 1)%nat with (i - 1 - (i - Nk))%nat by lia. apply HA. lia.
    + replace (Datatypes.S i - 1 - m)%nat with (Datatypes.S (i - 1 - m)) by lia. cbn [nth]. apply HA. lia.
Qed.

Lemma group4_nth n : forall s i, length s = (4 * n)%nat -> (i < n)%nat -> length (nth i (group4 s) []) = 4%nat /\ forall r, (r < 4)%nat -> nth r (nth i (group4 s) []) x00 = nth (4 * i + r) s x00.
Proof.
  induction n as [|n IH]; intros s i L Hi; [lia|]. do 4 (let b := fresh "b" in destruct s as [|b s]; [cbn [length] in L; lia|]). cbn [length] in L. cbn [group4].
  destruct i as [|i].
  - cbn [nth]. split; [reflexivity|]. intros r Hr. four r; reflexivity.
  - cbn [nth]. destruct (IH s i ltac:(lia) ltac:(lia)) as [A B]. split; [exact A|]. intros r Hr. rewrite (B r Hr).
    replace (4 * Datatypes.S i + r)%nat with (4 + (4 * i + r))%nat by lia. reflexivity.
Qed.

Lemma round_keys_nth w : forall m ws n0, length ws = (4 * m)%nat -> (forall i, (i < 4 * m)%nat -> word_is w (4 * n0 + i) (nth i ws [])) ->
  forall i k, nth_error (round_keys ws) i = Some k -> round_key w (n0 + i) k.
Proof.
  induction m as [|m IH]; intros ws n0 L H i k E.
  - destruct ws; [destruct i; discriminate | cbn in L; lia].
  - destruct ws as [|x0 [|x1 [|x2 [|x3 ws]]]]; cbn [length] in L; try lia. cbn [round_keys] in E.
    destruct i as [|i]; cbn [nth_error] in E.
    + apply (f_equal (fun o => match o with Some x => x | None => [] end)) in E. cbn in E. subst k. rewrite Nat.add_0_r.
      pose proof (H 0%nat ltac:(lia)) as [L0 H0]. pose proof (H 1%nat ltac:(lia)) as [L1 H1]. pose proof (H 2%nat ltac:(lia)) as [L2 H2]. pose proof (H 3%nat ltac:(lia)) as [L3 H3].
      cbn [nth] in *. split; [rewrite !app_length; lia|]. intros r c Hr Hc.
      destruct c as [|[|[|[|c]]]]; [| | | |lia]; [rewrite <- (H0 r Hr) | rewrite <- (H1 r Hr) | rewrite <- (H2 r Hr) | rewrite <- (H3 r Hr)];
        clear - Hr L0 L1 L2 L3; four_bytes x0; four_bytes x1; four_bytes x2; four_bytes x3; four r; reflexivity.
    + replace (n0 + Datatypes.S i)%nat with (Datatypes.S n0 + i)%nat by lia. apply (IH ws (Datatypes.S n0)); [lia | | exact E]. intros j Hj.
      specialize (H (4 + j)%nat ltac:(lia)). cbn [Nat.add nth] in H. replace (4 * Datatypes.S n0 + j)%nat with (4 * n0 + Datatypes.S (Datatypes.S (Datatypes.S (Datatypes.S j))))%nat by lia. exact H.
Qed.

Lemma schedule_is S Nk key w : is_sbox S -> (0 < Nk)%nat -> length key = (4 * Nk)%nat -> key_expansion S Nk key w ->
  forall i k, nth_error (key_schedule key) i = Some k -> round_key w i k.
Proof.
  intros HS HN HL HE. Local Transparent key_schedule. unfold key_schedule. cbv zeta. Local Opaque key_schedule. rewrite HL. replace (4 * Nk / 4)%nat with Nk by (rewrite Nat.mul_comm, Nat.div_mul; lia).
  destruct (group4_ok Nk key HL) as [G1 G2]. set (n := (4 * (Nk + 7) - Nk)%nat).
  destruct (expand_loop_ok n Nk Nk (rev (group4 key)) HN) as [E1 E2]; [rewrite rev_length; lia | apply Forall_rev, G1 |]. rewrite rev_length, G2 in E2.
  apply (round_keys_nth w (Nk + 7) _ 0%nat); [rewrite rev_length; lia|]. intros i Hi. cbn [Nat.add Nat.mul].
  rewrite rev_nth by lia. rewrite E2. replace (n + Nk - Datatypes.S i)%nat with (Nk + n - 1 - i)%nat by lia.
  apply (expand_loop_is S Nk key w HS HN HE); [lia | lia | rewrite rev_length; exact G2 | | lia].
  intros j Hj. rewrite rev_nth by lia. rewrite G2. replace (Nk - Datatypes.S (Nk - 1 - j))%nat with j by lia.
  destruct (group4_nth Nk key j HL Hj) as [A B]. split; [exact A|]. intros r Hr. rewrite (B r Hr), (proj1 HE j r Hj Hr). reflexivity.
Qed.

(** ** The cipher *)

(** Every S-box, key schedule and output that FIPS 197 allows is the one the model computes. *)
Lemma encrypt_same S Nk key w block : is_sbox S -> In Nk [4; 6; 8]%nat -> length key = (4 * Nk)%nat -> length block = 16%nat -> key_expansion S Nk key w ->
  same (aes_encrypt_block (key_schedule key) block) (after_round S w (Nk + 6) (Nk + 6) (input_state block)).
Proof.
  intros HS HN HK HB HE. assert (HN' : (0 < Nk)%nat) by (cbn in HN; intuition lia).
  pose proof (schedule_is S Nk key w HS HN' HK HE) as SC. pose proof (key_schedule_count key Nk HK HN') as CN.
  unfold aes_encrypt_block. destruct (key_schedule key) as [|k ks]; [cbn [length] in CN; lia|]. cbn [length] in CN.
  apply (same_rounds S w (Nk + 6) (input_state block) HS ks 0%nat).
  - intros i k' Hi. apply (SC (Datatypes.S i) k' Hi).
  - lia.
  - intros ->. cbn [length] in CN. lia.
  - cbn [after_round]. apply same_add; [apply (SC 0%nat k eq_refl)|]. split; [exact HB | reflexivity].
Qed.

(** A key schedule exists. *)
Definition expansion_upto (S : byte -> byte) (Nk n : nat) (key : list byte) (w : nat -> nat -> byte) : Prop :=
  (forall i r, (i < Nk)%nat -> (r < 4)%nat -> w i r = nth (4 * i + r) key x00) /\
  forall i r, (Nk <= i < n)%nat -> (r < 4)%nat ->
    w i r = bxor (w (i - Nk)%nat r)
      (if (i mod Nk =? 0)%nat then bxor (S (w (i - 1)%nat ((r + 1) mod 4)%nat)) (Rcon (i / Nk) r)
       else if (6 <? Nk)%nat && (i mod Nk =? 4)%nat then S (w (i - 1)%nat r)
       else w (i - 1)%nat r).
Lemma expansion_exists S Nk key n : (0 < Nk)%nat -> exists w, expansion_upto S Nk n key w.
Proof.
  intros HN. induction n as [|n (w & A & B)].
  - exists (fun i r => nth (4 * i + r) key x00). split; [reflexivity | intros; lia].
  - destruct (le_lt_dec Nk n) as [HL|HL].
    + set (v := fun r => bxor (w (n - Nk)%nat r)
        (if (n mod Nk =? 0)%nat then bxor (S (w (n - 1)%nat ((r + 1) mod 4)%nat)) (Rcon (n / Nk) r)
         else if (6 <? Nk)%nat && (n mod Nk =? 4)%nat then S (w (n - 1)%nat r)
         else w (n - 1)%nat r)).
      exists (fun i r => if (i =? n)%nat then v r else w i r). split.
      * intros i r Hi Hr. replace (i =? n)%nat with false by (symmetry; apply Nat.eqb_neq; lia). apply A; assumption.
      * intros i r Hi Hr. replace (i - Nk =? n)%nat with false by (symmetry; apply Nat.eqb_neq; lia). replace (i - 1 =? n)%nat with false by (symmetry; apply Nat.eqb_neq; lia).
        destruct (Nat.eqb_spec i n) as [->|NE]; [reflexivity|]. apply B; [lia | exact Hr].
    + exists w. split; [exact A|]. intros i r Hi. lia.
Qed.

(** Encrypting a block is encryption by FIPS 197, and FIPS 197 allows no other result. *)
Lemma encrypt_is_fips197 key block : In (len key) [16; 24; 32] -> len block = 16 -> fips197 key block (aes_encrypt_block (key_schedule key) block).
Proof.
  intros HK HB. unfold len in *. assert (exists Nk, In Nk [4; 6; 8]%nat /\ length key = (4 * Nk)%nat) as (Nk & HN & LK).
  { cbn [In] in HK. destruct HK as [H|[H|[H|[]]]]; [exists 4%nat | exists 6%nat | exists 8%nat]; (split; [cbn; tauto | lia]). }
  assert (HN' : (0 < Nk)%nat) by (cbn in HN; intuition lia). destruct (expansion_exists sbox Nk key (4 * (Nk + 7)) HN') as (w & HW).
  destruct (encrypt_same sbox Nk key w block sbox_is_sbox HN LK ltac:(lia) HW) as [L E].
  exists sbox, Nk, w. split; [exact sbox_is_sbox|]. split; [exact HN|]. split; [exact LK|]. split; [lia|]. split; [exact L|]. split; [exact HW | exact E].
Qed.
Lemma fips197_unique key block out : fips197 key block out -> out = aes_encrypt_block (key_schedule key) block.
Proof.
  intros (S & Nk & w & HS & HN & LK & LB & LO & HW & E). destruct (encrypt_same S Nk key w block HS HN LK LB HW) as [L E'].
  apply (nth_ext _ _ x00 x00); [lia|]. intros n Hn. rewrite LO in Hn. pose proof (Nat.div_mod n 4 ltac:(lia)) as D. pose proof (Nat.mod_upper_bound n 4 ltac:(lia)).
  assert (n / 4 < 4)%nat by (apply Nat.div_lt_upper_bound; lia). replace n with (n mod 4 + 4 * (n / 4))%nat by lia.
  rewrite E' by assumption. apply E; assumption.
Qed.
