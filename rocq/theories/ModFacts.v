(** * ModFacts: lemmas about modular arithmetic. *)
From Coq Require Import List ZArith Znumtheory Zpow_facts Bool Lia ZifyBool ZifyNat.
From Coq.Init Require Import Byte.
From Verif Require Import PyBase PyFacts Util UtilFacts Fermat ModArith.
Import ListNotations.
Local Open Scope Z_scope.

(** ** powmod *)

Lemma powmod_pos_spec b e n : 0 < n -> powmod_pos b e n = (b ^ Zpos e) mod n.
Proof.
  intros Hn. induction e as [e IH|e IH|]; cbn [powmod_pos]; cbv zeta.
  - rewrite IH. rewrite <- Z.mul_mod by lia. rewrite Z.mul_mod_idemp_l by lia. f_equal.
    rewrite Pos2Z.inj_xI. replace (2 * Z.pos e + 1) with (Z.pos e + Z.pos e + 1) by lia.
    rewrite !Z.pow_add_r by lia. lia.
  - rewrite IH. rewrite <- Z.mul_mod by lia. f_equal.
    rewrite Pos2Z.inj_xO. replace (2 * Z.pos e) with (Z.pos e + Z.pos e) by lia.
    rewrite Z.pow_add_r by lia. reflexivity.
  - rewrite Z.pow_1_r. reflexivity.
Qed.

Lemma powmod_spec b e n : 0 < n -> 0 <= e -> powmod b e n = (b ^ e) mod n.
Proof.
  intros Hn He. destruct e as [|e|e]; [reflexivity | apply powmod_pos_spec; assumption | lia].
Qed.

Lemma powmod_range b e n : 0 < n -> 0 <= e -> 0 <= powmod b e n < n.
Proof. intros Hn He. rewrite powmod_spec by assumption. apply Z.mod_pos_bound. assumption. Qed.

(** ** inverse *)

Lemma inverse_loop_spec u v : 0 < v ->
  forall k fuel u1 v1 u3 v3, (2 * k + 1 <= fuel)%nat -> 0 <= v3 < 2 ^ Z.of_nat k -> 0 <= u3 ->
    (v | u1 * u - u3) -> (v | v1 * u - v3) -> Z.gcd u3 v3 = 1 ->
    exists g, g = inverse_loop fuel u1 v1 u3 v3 /\ (v | g * u - 1).
Proof.
  intros Hv. induction k as [|k IH]; intros fuel u1 v1 u3 v3 Hf Hv3 Hu3 H1 H2 Hg.
  - cbn in Hv3. assert (v3 = 0) as -> by lia. rewrite Z.gcd_0_r, Z.abs_eq in Hg by lia. subst u3.
    exists u1. split; [|assumption]. destruct fuel; reflexivity.
  - destruct fuel as [|fuel]; [lia|]. cbn [inverse_loop]. destruct (0 <? v3) eqn:E.
    2:{ assert (v3 = 0) as -> by lia. rewrite Z.gcd_0_r, Z.abs_eq in Hg by lia. subst u3.
        exists u1. split; [reflexivity | assumption]. }
    cbv zeta. set (q := u3 / v3). set (r := u3 - v3 * q).
    assert (Hr : r = u3 mod v3) by (unfold r, q; rewrite Z.mod_eq by lia; lia).
    assert (Hr0 : 0 <= r < v3) by (rewrite Hr; apply Z.mod_pos_bound; lia).
    assert (Hd : (v | (u1 - v1 * q) * u - r)).
    { replace ((u1 - v1 * q) * u - r) with ((u1 * u - u3) - q * (v1 * u - v3)) by (unfold r; lia).
      apply Z.divide_sub_r; [assumption | apply Z.divide_mul_r; assumption]. }
    assert (Hg2 : Z.gcd v3 r = 1).
    { rewrite Hr. rewrite Z.gcd_comm, Z.gcd_mod by lia. rewrite Z.gcd_comm. assumption. }
    destruct fuel as [|fuel]; [lia|]. cbn [inverse_loop]. destruct (0 <? r) eqn:E2.
    2:{ assert (r = 0) as R0 by lia. rewrite R0 in Hg2. rewrite Z.gcd_0_r, Z.abs_eq in Hg2 by lia.
        exists v1. split; [reflexivity|]. replace (v1 * u - 1) with (v1 * u - v3) by lia. assumption. }
    cbv zeta. set (q' := v3 / r). set (r' := v3 - r * q').
    assert (Hr' : r' = v3 mod r) by (unfold r', q'; rewrite Z.mod_eq by lia; lia).
    assert (Hr0' : 0 <= r' < r) by (rewrite Hr'; apply Z.mod_pos_bound; lia).
    apply IH.
    + lia.
    + split; [lia|]. rewrite Nat2Z.inj_succ, Z.pow_succ_r in Hv3 by lia.
      assert (1 <= q') by (unfold q'; apply Z.div_le_lower_bound; lia).
      assert (r + r' <= v3) by (unfold r' in *; nia). lia.
    + lia.
    + assumption.
    + replace ((v1 - (u1 - v1 * q) * q') * u - r') with ((v1 * u - v3) - q' * ((u1 - v1 * q) * u - r))
        by (unfold r'; lia).
      apply Z.divide_sub_r; [assumption | apply Z.divide_mul_r; assumption].
    + rewrite Hr'. rewrite Z.gcd_comm, Z.gcd_mod by lia. rewrite Z.gcd_comm. assumption.
Qed.

Lemma inverse_ok u v : 0 < v -> 0 <= u -> Z.gcd u v = 1 ->
  0 <= inverse u v /\ (v | inverse u v * u - 1).
Proof.
  intros Hv Hu Hg. unfold inverse. cbv zeta.
  destruct (inverse_loop_spec u v Hv (Z.to_nat (Z.log2 v + 1)) (Z.to_nat (2 * Z.log2 v + 4)) 1 0 u v)
    as (g & <- & Hd).
  - pose proof (Z.log2_nonneg v). lia.
  - pose proof (Z.log2_nonneg v). split; [lia|]. rewrite Z2Nat.id by lia.
    apply Z.log2_spec. assumption.
  - assumption.
  - exists 0. lia.
  - exists (-1). lia.
  - assumption.
  - destruct (g <? 0) eqn:E.
    + split; [apply Z.mod_pos_bound; assumption|].
      rewrite Z.mod_eq by lia. replace ((g - v * (g / v)) * u - 1) with ((g * u - 1) - (g / v * u) * v) by lia.
      apply Z.divide_sub_r; [assumption | exists (g / v * u); lia].
    + split; [lia | assumption].
Qed.

Lemma divide_sub_mod a b n : 0 < n -> (n | a - b) -> a mod n = b mod n.
Proof.
  intros Hn [k Hk]. replace a with (b + k * n) by lia. apply Z.mod_add. lia.
Qed.
Lemma mod_divide_sub a b n : 0 < n -> a mod n = b mod n -> (n | a - b).
Proof.
  intros Hn H. exists (a / n - b / n). pose proof (Z.div_mod a n ltac:(lia)). pose proof (Z.div_mod b n ltac:(lia)). nia.
Qed.

Lemma inverse_mod u v : 1 < v -> 0 <= u -> Z.gcd u v = 1 -> (inverse u v * u) mod v = 1.
Proof.
  intros Hv Hu Hg. destruct (inverse_ok u v ltac:(lia) Hu Hg) as [_ Hd].
  rewrite (divide_sub_mod _ 1 v) by (assumption || lia). apply Z.mod_small. lia.
Qed.

(** ** Powers modulo a prime *)

Lemma pow_mod_base b e n : 0 < n -> 0 <= e -> ((b mod n) ^ e) mod n = (b ^ e) mod n.
Proof. intros Hn He. symmetry. apply Zpower_mod. assumption. Qed.

(** [b^e = b^f] modulo a prime when e = f modulo p-1 and both are positive. *)
Lemma fermat_exponent p b e k : prime p -> 0 <= b -> 0 <= k -> 0 <= e ->
  (b * b ^ (k * (p - 1))) mod p = b mod p.
Proof.
  intros Hp Hb Hk He. assert (2 <= p) by (destruct Hp; lia).
  destruct (Z.eq_dec (b mod p) 0) as [E|E].
  - rewrite Z.mul_mod by lia. rewrite E. rewrite Z.mul_0_l. reflexivity.
  - rewrite Z.mul_comm with (n := k), Z.pow_mul_r by lia.
    rewrite Z.mul_mod by lia. rewrite <- pow_mod_base by lia.
    rewrite fermat_unit by assumption. rewrite Z.pow_1_l by lia.
    rewrite (Z.mod_small 1) by lia. rewrite Z.mul_1_r. rewrite Z.mod_mod by lia. reflexivity.
Qed.

Lemma rsa_exponent p b e d : prime p -> 2 < p -> 0 <= b -> 0 <= e -> 0 <= d ->
  (e * d) mod (p - 1) = 1 mod (p - 1) ->
  (b ^ (e * (d mod (p - 1)))) mod p = b mod p.
Proof.
  intros Hp H2 Hb He Hd H.
  assert (Hm : 0 <= d mod (p - 1) < p - 1) by (apply Z.mod_pos_bound; lia).
  assert (E1 : (e * (d mod (p - 1))) mod (p - 1) = 1).
  { rewrite Z.mul_mod_idemp_r by lia. rewrite H. apply Z.mod_small. lia. }
  set (x := e * (d mod (p - 1))) in *.
  assert (Hx : 0 <= x) by (unfold x; nia).
  assert (E : x = 1 + (x / (p - 1)) * (p - 1)).
  { pose proof (Z.div_mod x (p - 1) ltac:(lia)) as HH. rewrite E1 in HH. lia. }
  assert (0 <= x / (p - 1)) by (apply Z.div_pos; lia).
  rewrite E. rewrite Z.pow_add_r, Z.pow_1_r by nia. apply (fermat_exponent p b 1); lia || assumption.
Qed.

(** ** Bytes *)

Lemma bytes_to_long_eq s : bytes_to_long s = BytesToLong s.
Proof.
  rewrite BytesToLong_val. unfold bytes_to_long.
  assert (G : forall s a, fold_left (fun acc c => acc * 256 + ord c) s a = a * 256 ^ len s + be_val s).
  { clear. induction s as [|c s IH]; intros a; cbn [fold_left].
    - cbn. lia.
    - rewrite IH. rewrite be_val_cons, len_cons, Z.pow_add_r, Z.pow_1_r by (pose proof (len_nonneg s); lia). lia. }
  rewrite G. lia.
Qed.
