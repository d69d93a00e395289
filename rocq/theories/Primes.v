(** * Primes: primality of concrete numbers, for the non-vacuity examples. *)
From Coq Require Import List ZArith Znumtheory Bool Lia ZifyBool ZifyNat.
From Verif Require Import Fermat ModArith ModFacts.
Import ListNotations.
Local Open Scope Z_scope.
Ltac Zify.zify_post_hook ::= idtac.

(** ** Small primes by trial division *)

Definition primeb (p : Z) : bool :=
  (1 <? p) && forallb (fun d => negb (p mod Z.of_nat d =? 0)) (seq 2 (Z.to_nat (p - 2))).
Lemma primeb_ok p : primeb p = true -> prime p.
Proof.
  unfold primeb. intros H. apply andb_prop in H as [H1 H]. rewrite forallb_forall in H.
  apply prime_alt. split; [lia|]. intros n Hn D.
  specialize (H (Z.to_nat n)). rewrite in_seq in H. specialize (H ltac:(lia)).
  rewrite Z2Nat.id in H by lia. apply Z.mod_divide in D; [|lia]. rewrite D in H. discriminate.
Qed.

(** ** Prime factors *)

Lemma prime_factor n : 1 < n -> exists p, prime p /\ (p | n).
Proof.
  intros Hn. assert (H0 : 0 <= n) by lia. revert Hn. pattern n. apply Z_lt_induction; [|assumption]. clear n H0. intros n IH Hn.
  destruct (prime_dec n) as [P|P]; [exists n; split; [assumption | apply Z.divide_refl]|].
  destruct (not_prime_divide n Hn P) as (d & Hd & D).
  destruct (IH d ltac:(lia) ltac:(lia)) as (p & Pp & Dp). exists p. split; [assumption|].
  apply Z.divide_trans with d; assumption.
Qed.

Lemma small_factor n : 1 < n -> ~ prime n -> exists p, prime p /\ (p | n) /\ p * p <= n.
Proof.
  intros Hn P. destruct (not_prime_divide n Hn P) as (d & Hd & [c D]).
  assert (Hc : 1 < c) by nia.
  destruct (Z.le_gt_cases d c) as [L|L].
  - destruct (prime_factor d ltac:(lia)) as (p & Pp & Dp). exists p. split; [assumption|].
    split; [apply Z.divide_trans with d; [assumption | exists c; assumption]|].
    apply Z.divide_pos_le in Dp; [|lia]. pose proof (prime_ge_2 p Pp). nia.
  - destruct (prime_factor c ltac:(lia)) as (p & Pp & Dp). exists p. split; [assumption|].
    split; [apply Z.divide_trans with c; [assumption | exists d; lia]|].
    apply Z.divide_pos_le in Dp; [|lia]. pose proof (prime_ge_2 p Pp). nia.
Qed.

(** Every positive number is 2^j times an odd number. *)
Lemma odd_part n : 0 < n -> exists j t, 0 <= j /\ 0 <= t /\ n = 2 ^ j * (2 * t + 1).
Proof.
  intros Hn. assert (H0 : 0 <= n) by lia. revert Hn. pattern n. apply Z_lt_induction; [|assumption]. clear n H0. intros n IH Hn.
  destruct (Z.Even_or_Odd n) as [[h E]|[h E]].
  - destruct (IH h ltac:(lia) ltac:(lia)) as (j & t & Hj & Ht & Eh). exists (j + 1), t.
    split; [lia|]. split; [lia|]. rewrite Z.pow_add_r by lia. change (2 ^ 1) with 2. nia.
  - exists 0, h. split; [lia|]. split; [lia|]. change (2 ^ 0) with 1. lia.
Qed.

Lemma minus1_odd p x t : 0 < p -> 0 <= t -> (p | x + 1) -> (p | x ^ (2 * t + 1) + 1).
Proof.
  intros Hp Ht [c Hc]. replace x with (-1 + c * p) by lia.
  assert (E : ((-1 + c * p) ^ (2 * t + 1)) mod p = (-1) mod p).
  { rewrite <- pow_mod_base by lia. rewrite Z.mod_add by lia. rewrite pow_mod_base by lia.
    rewrite Z.pow_add_r, Z.pow_mul_r by lia. change ((-1) ^ 2) with 1. rewrite Z.pow_1_l by lia. reflexivity. }
  apply mod_divide_sub in E; [|assumption].
  replace ((-1 + c * p) ^ (2 * t + 1) + 1) with ((-1 + c * p) ^ (2 * t + 1) - -1) by ring. assumption.
Qed.

(** Proth: N = k 2^m + 1 with k < 2^m is prime if a^((N-1)/2) = -1 modulo N for some a. *)
Theorem proth k m a : 0 < k < 2 ^ m -> 1 <= m -> 0 <= a ->
  powmod a (k * 2 ^ (m - 1)) (k * 2 ^ m + 1) = k * 2 ^ m -> prime (k * 2 ^ m + 1).
Proof.
  intros Hk Hm Ha H. set (N := k * 2 ^ m + 1) in *.
  assert (H2 : 0 < 2 ^ m) by lia.
  assert (HN : 1 < N) by (unfold N; nia).
  assert (Hpm : 2 ^ m = 2 * 2 ^ (m - 1)).
  { replace m with (Z.succ (m - 1)) at 1 by lia. apply Z.pow_succ_r. lia. }
  assert (Hm1 : 0 < 2 ^ (m - 1)) by lia.
  assert (He : 0 <= k * 2 ^ (m - 1)) by nia.
  rewrite powmod_spec in H by lia.
  set (x := a ^ k).
  assert (Hx : a ^ (k * 2 ^ (m - 1)) = x ^ 2 ^ (m - 1)) by (unfold x; rewrite Z.pow_mul_r by lia; reflexivity).
  rewrite Hx in H. clear Hx.
  assert (DN : (N | x ^ 2 ^ (m - 1) + 1)).
  { assert (EN : x ^ 2 ^ (m - 1) mod N = (-1) mod N).
    { rewrite H. replace (-1) with (N - 1 + (-1) * N) by ring. rewrite Z.mod_add by lia.
      rewrite Z.mod_small by (clear - HN; lia). unfold N. ring. }
    apply mod_divide_sub in EN; [|clear - HN; lia].
    replace (x ^ 2 ^ (m - 1) + 1) with (x ^ 2 ^ (m - 1) - -1) by ring. assumption. }
  clear H. destruct (prime_dec N) as [P|P]; [assumption|]. exfalso.
  destruct (small_factor N HN P) as (p & Pp & Dp & Hpp). clear P.
  pose proof (prime_ge_2 p Pp) as Hp2.
  assert (D : (p | x ^ 2 ^ (m - 1) + 1)) by (apply Z.divide_trans with N; assumption).
  (* p is odd *)
  assert (Hp3 : 2 < p).
  { destruct (Z.eq_dec p 2) as [E|E]; [|clear - E Hp2; lia]. exfalso. subst p. destruct Dp as [c Hc].
    unfold N in Hc. rewrite Hpm in Hc. clear - Hc. nia. }
  destruct (odd_part (p - 1)) as (j & t & Hj & Ht & Ep); [clear - Hp3; lia|].
  (* 2^m divides p - 1 *)
  assert (Hjm : m <= j).
  { destruct (Z.le_gt_cases m j) as [L|L]; [assumption|]. exfalso.
    assert (Hx0 : 0 <= x) by (unfold x; apply Z.pow_nonneg; assumption).
    set (y := x ^ 2 ^ (m - 1)) in *.
    assert (D1 : (p | y ^ (2 * t + 1) + 1)) by (apply minus1_odd; [clear - Hp2; lia | assumption | assumption]).
    assert (E1 : y ^ (2 * t + 1) = (x ^ 2 ^ (m - 1 - j)) ^ (p - 1)).
    { unfold y. rewrite <- !Z.pow_mul_r by (try apply Z.pow_nonneg; clear - Hp2 Ht; lia). f_equal. rewrite Ep.
      rewrite Z.mul_assoc. f_equal. rewrite <- Z.pow_add_r by (clear - L Hj; lia). f_equal. ring. }
    rewrite E1 in D1.
    assert (F : (x ^ 2 ^ (m - 1 - j)) mod p <> 0).
    { intros F. apply Z.mod_divide in F; [|clear - Hp2; lia]. destruct F as [c F]. rewrite F in D1.
      assert (p | 1); [|apply Z.divide_1_r in H; clear - Hp2 H; lia].
      replace 1 with (((c * p) ^ (p - 1) + 1) - (c * p) ^ (p - 1)) by ring.
      apply Z.divide_sub_r; [assumption|].
      replace (p - 1) with (Z.succ (p - 2)) by ring. rewrite Z.pow_succ_r by (clear - Hp2; lia).
      exists (c * (c * p) ^ (p - 2)). ring. }
    assert (Hz : 0 <= x ^ 2 ^ (m - 1 - j)) by (apply Z.pow_nonneg; assumption).
    pose proof (fermat_unit p _ Pp Hz F) as FF. clear F.
    set (z := (x ^ 2 ^ (m - 1 - j)) ^ (p - 1)) in *.
    apply Z.mod_divide in D1; [|clear - Hp2; lia]. rewrite <- Z.add_mod_idemp_l in D1 by (clear - Hp2; lia).
    rewrite FF in D1. rewrite Z.mod_small in D1; clear - Hp3 D1; lia. }
  assert (Hge : 2 ^ m <= 2 ^ j) by (apply Z.pow_le_mono_r; clear - Hjm; lia).
  assert (Hp4 : 2 ^ m + 1 <= p) by (clear - Hge Ep Ht H2; nia).
  unfold N in Hpp. clear - Hp4 Hpp Hk H2. nia.
Qed.

(** ** The same test, computed fast: modulo N = k 2^m + 1 a square is reduced with shifts and a division by k *)

(** [x] squared modulo N, up to a multiple of N: with x^2 = (q k + r) 2^m + l it is r 2^m + l - q. *)
Definition sqmod (k m x : Z) : Z :=
  let s := Z.square x in let h := Z.shiftr s m in let (q, r) := Z.div_eucl h k in
  let y := Z.shiftl r m + (s - Z.shiftl h m) - q in if y <? 0 then y + (Z.shiftl k m + 1) else y.

Lemma sqmod_spec k m x : 0 < k -> 0 <= m -> (k * 2 ^ m + 1 | x ^ 2 - sqmod k m x).
Proof.
  intros Hk Hm. unfold sqmod. rewrite Z.square_spec. set (s := x * x). rewrite Z.shiftr_div_pow2 by assumption. set (h := s / 2 ^ m).
  pose proof (Z_div_mod h k ltac:(lia)) as D. destruct (Z.div_eucl h k) as [q r]. destruct D as [D _]. cbv zeta. rewrite !Z.shiftl_mul_pow2 by assumption.
  replace (x ^ 2) with s by (unfold s; ring). destruct (_ <? 0); [exists (q - 1) | exists q]; rewrite D; ring.
Qed.

Lemma sqmods_spec k m n x : 0 < k -> 0 <= m -> (k * 2 ^ m + 1 | x ^ (2 ^ Z.of_nat n) - Nat.iter n (sqmod k m) x).
Proof.
  intros Hk Hm. induction n as [|n IH]; [change (2 ^ Z.of_nat 0) with 1; cbn [Nat.iter]; rewrite Z.pow_1_r, Z.sub_diag; apply Z.divide_0_r|].
  cbn [Nat.iter nat_rect]. change (nat_rect (fun _ => Z) x (fun _ => sqmod k m) n) with (Nat.iter n (sqmod k m) x). set (y := Nat.iter n (sqmod k m) x) in *.
  rewrite Nat2Z.inj_succ, Z.pow_succ_r, (Z.mul_comm 2), Z.pow_mul_r by lia.
  replace ((x ^ 2 ^ Z.of_nat n) ^ 2 - sqmod k m y) with (((x ^ 2 ^ Z.of_nat n) - y) * (x ^ 2 ^ Z.of_nat n + y) + (y ^ 2 - sqmod k m y)) by ring.
  apply Z.divide_add_r; [apply Z.divide_mul_l; exact IH | apply sqmod_spec; assumption].
Qed.

Theorem proth_fast k m a : 0 < k < 2 ^ m -> 1 <= m -> 0 <= a ->
  (Nat.iter (Z.to_nat (m - 1)) (sqmod k m) (a ^ k mod (k * 2 ^ m + 1)) =? Z.shiftl k m) = true -> prime (k * 2 ^ m + 1).
Proof.
  intros Hk Hm Ha E. apply Z.eqb_eq in E. rewrite Z.shiftl_mul_pow2 in E by (clear - Hm; lia). apply (proth k m a Hk Hm Ha).
  assert (M1 : 0 <= m - 1) by (clear - Hm; lia). assert (K0 : 0 < k) by apply Hk.
  pose proof (sqmods_spec k m (Z.to_nat (m - 1)) (a ^ k mod (k * 2 ^ m + 1)) K0 (Z.le_trans 0 1 m Z.le_0_1 Hm)) as D. rewrite E, Z2Nat.id in D by exact M1.
  assert (P1 : 0 <= 2 ^ (m - 1)) by (apply Z.pow_nonneg; discriminate).
  assert (K : 0 < k * 2 ^ m) by (apply Z.mul_pos_pos; [exact K0 | apply Z.lt_trans with k; apply Hk]).
  assert (K1 : 0 <= k * 2 ^ (m - 1)) by (apply Z.mul_nonneg_nonneg; [apply Z.lt_le_incl; exact K0 | exact P1]).
  rewrite powmod_spec, Z.pow_mul_r; [| apply Z.lt_le_incl; exact K0 | exact P1 | | exact K1]; [|generalize dependent (k * 2 ^ m); clear; intros; lia].
  generalize dependent (k * 2 ^ m). intros N _ D K. rewrite <- pow_mod_base by (clear - K; lia).
  destruct D as [c D]. rewrite <- (Z.sub_add N ((a ^ k mod (N + 1)) ^ 2 ^ (m - 1))), D, Z.add_comm.
  rewrite Z.mod_add by (clear - K; lia). apply Z.mod_small. clear - K. lia.
Qed.

(** Two 256-bit primes. *)
Definition P256 : Z := 207 * 2 ^ 248 + 1.
Definition Q256 : Z := 467 * 2 ^ 247 + 1.

Lemma P256_prime : prime P256.
Proof. apply (proth_fast 207 248 5); [split; vm_compute; reflexivity | lia | lia | vm_cast_no_check (eq_refl true)]. Qed.
Lemma Q256_prime : prime Q256.
Proof. apply (proth_fast 467 247 3); [split; vm_compute; reflexivity | lia | lia | vm_cast_no_check (eq_refl true)]. Qed.

(** Two primes whose product has 1024 bits. *)
Definition P508 : Z := 57 * 2 ^ 502 + 1.
Definition Q516 : Z := 113 * 2 ^ 509 + 1.

Lemma P508_prime : prime P508.
Proof. apply (proth_fast 57 502 7); [split; vm_compute; reflexivity | lia | lia | vm_cast_no_check (eq_refl true)]. Qed.
Lemma Q516_prime : prime Q516.
Proof. apply (proth_fast 113 509 3); [split; vm_compute; reflexivity | lia | lia | vm_cast_no_check (eq_refl true)]. Qed.
