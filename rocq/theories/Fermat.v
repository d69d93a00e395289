(** * Fermat: Fermat's little theorem, from the standard library alone.  Multiplication by a
    unit permutes 1..p-1; compare the products. *)
From Coq Require Import List ZArith Znumtheory Permutation Bool Lia ZifyNat.
Import ListNotations.
Local Open Scope Z_scope.

Definition prodZ (l : list Z) : Z := fold_right Z.mul 1 l.

Lemma prodZ_perm l l' : Permutation l l' -> prodZ l = prodZ l'.
Proof. induction 1; cbn [prodZ fold_right] in *; fold prodZ in *; unfold prodZ in *; lia. Qed.

Definition units (p : Z) : list Z := map Z.of_nat (seq 1 (Z.to_nat (p - 1))).

Lemma in_units p i : In i (units p) <-> 1 <= i < p.
Proof.
  unfold units. rewrite in_map_iff. split.
  - intros (k & <- & H). apply in_seq in H. lia.
  - intros H. exists (Z.to_nat i). split; [lia|]. apply in_seq. lia.
Qed.

Lemma units_nodup p : NoDup (units p).
Proof.
  unfold units. apply FinFun.Injective_map_NoDup; [intros x y; lia | apply seq_NoDup].
Qed.

Lemma prodZ_scaled p a l : 0 < p ->
  prodZ (map (fun i => (a * i) mod p) l) mod p = (a ^ Z.of_nat (length l) * prodZ l) mod p.
Proof.
  intros Hp. induction l as [|i l IH]; [reflexivity|].
  cbn [map prodZ fold_right length]. fold (prodZ (map (fun i => (a * i) mod p) l)). fold (prodZ l).
  rewrite Z.mul_mod_idemp_l by lia. rewrite <- Z.mul_mod_idemp_r by lia. rewrite IH.
  rewrite Z.mul_mod_idemp_r by lia. f_equal.
  rewrite Nat2Z.inj_succ, Z.pow_succ_r by lia. ring.
Qed.

Lemma prodZ_rel_prime p l : prime p -> (forall i, In i l -> 1 <= i < p) -> rel_prime p (prodZ l).
Proof.
  intros Hp. induction l as [|i l IH]; intros H; cbn [prodZ fold_right].
  - apply rel_prime_sym, rel_prime_1.
  - apply rel_prime_mult; [|apply IH; intros; apply H; right; assumption].
    apply rel_prime_sym, rel_prime_le_prime; [assumption|]. apply H. left. reflexivity.
Qed.

Lemma mod_nonzero p a i : prime p -> a mod p <> 0 -> 1 <= i < p -> 1 <= (a * i) mod p < p.
Proof.
  intros Hp Ha Hi. pose proof (Z.mod_pos_bound (a * i) p ltac:(lia)).
  assert ((a * i) mod p <> 0); [|lia]. intros E. apply Z.mod_divide in E; [|lia].
  apply prime_mult in E; [|assumption]. destruct E as [E|E].
  - apply Z.mod_divide in E; lia.
  - apply Z.divide_pos_le in E; lia.
Qed.

Lemma fermat_unit p a : prime p -> 0 <= a -> a mod p <> 0 -> (a ^ (p - 1)) mod p = 1.
Proof.
  intros Hp Ha0 Ha. assert (2 <= p) by (destruct Hp; lia).
  set (f := fun i => (a * i) mod p).
  assert (Hinj : forall i j, 1 <= i < p -> 1 <= j < p -> f i = f j -> i = j).
  { intros i j Hi Hj E. unfold f in E.
    assert (D : (p | a * (i - j))).
    { exists (a * i / p - a * j / p). pose proof (Z.div_mod (a * i) p ltac:(lia)).
      pose proof (Z.div_mod (a * j) p ltac:(lia)). nia. }
    apply prime_mult in D; [|assumption]. destruct D as [D|D].
    - apply Z.mod_divide in D; lia.
    - destruct D as [k D]. assert (k = 0) by nia. lia. }
  assert (Hnd : NoDup (map f (units p))).
  { assert (G : forall l, NoDup l -> (forall i, In i l -> 1 <= i < p) -> NoDup (map f l)).
    { induction 1 as [|i l Hn Hd IH]; intros H'; cbn [map]; constructor.
      - rewrite in_map_iff. intros (j & E & Hj). apply Hinj in E.
        + subst. contradiction.
        + apply H'. right. assumption.
        + apply H'. left. reflexivity.
      - apply IH. intros; apply H'. right. assumption. }
    apply G; [apply units_nodup | intros i; apply in_units]. }
  assert (P : Permutation (map f (units p)) (units p)).
  { apply NoDup_Permutation_bis; [assumption | rewrite map_length; lia |].
    intros j Hj. apply in_map_iff in Hj. destruct Hj as (i & <- & Hi). apply in_units in Hi.
    apply in_units. apply mod_nonzero; assumption. }
  pose proof (prodZ_scaled p a (units p) ltac:(lia)) as S. fold f in S.
  rewrite (prodZ_perm _ _ P) in S.
  assert (L : Z.of_nat (length (units p)) = p - 1) by (unfold units; rewrite map_length, seq_length; lia).
  rewrite L in S.
  assert (R : rel_prime p (prodZ (units p))) by (apply prodZ_rel_prime; [assumption | intros i; apply in_units]).
  assert (D : (p | (a ^ (p - 1) - 1) * prodZ (units p))).
  { set (x := a ^ (p - 1)) in *. set (y := prodZ (units p)) in *.
    exists (x * y / p - y / p). pose proof (Z.div_mod (x * y) p ltac:(lia)).
    pose proof (Z.div_mod y p ltac:(lia)). nia. }
  rewrite Z.mul_comm in D. apply Gauss in D; [|assumption].
  destruct D as [k D]. replace (a ^ (p - 1)) with (1 + k * p) by lia.
  rewrite Z.mod_add by lia. apply Z.mod_small. lia.
Qed.

Lemma fermat_Z p a : prime p -> 0 <= a -> (a ^ p) mod p = a mod p.
Proof.
  intros Hp Ha. assert (2 <= p) by (destruct Hp; lia).
  replace p with (Z.succ (p - 1)) at 1 by lia. rewrite Z.pow_succ_r by lia.
  destruct (Z.eq_dec (a mod p) 0) as [E|E].
  - rewrite <- Z.mul_mod_idemp_l by lia. rewrite E. reflexivity.
  - rewrite <- Z.mul_mod_idemp_r by lia. rewrite fermat_unit by assumption. f_equal. lia.
Qed.
