(** * AsymFacts: lemmas about RSA and DSA. *)
From Coq Require Import Strings.String.
From Coq Require Import List ZArith NArith Znumtheory Bool Lia ZifyBool ZifyNat ZifyN.
From Coq.Init Require Import Byte.
From Verif Require Import PyBase PyFacts Base64 Base64Facts Util UtilFacts Fermat ModArith ModFacts
  Json JsonFacts KeyInfo SymKeys SymFacts Der DerFacts AsymSpec AsymKeys.
Import ListNotations.
Local Open Scope Z_scope.
Ltac Zify.zify_post_hook ::= idtac.

(** ** RSA *)

Lemma two_primes_divide p q a : prime p -> prime q -> p <> q -> (p | a) -> (q | a) -> (p * q | a).
Proof.
  intros Hp Hq Hne [k Hk] Hqa. subst a.
  assert (R : rel_prime q p).
  { apply rel_prime_sym. apply prime_rel_prime; [assumption|]. intros D.
    apply prime_div_prime in D; [contradiction | assumption | assumption]. }
  assert (D : (q | k)) by (apply (Gauss q p k); [rewrite Z.mul_comm; assumption | assumption]).
  destruct D as [j ->]. exists j. lia.
Qed.

Lemma crt_unique p q a b : prime p -> prime q -> p <> q ->
  0 <= a < p * q -> 0 <= b < p * q -> a mod p = b mod p -> a mod q = b mod q -> a = b.
Proof.
  intros Hp Hq Hne Ha Hb Ep Eq. pose proof (prime_ge_2 p Hp). pose proof (prime_ge_2 q Hq).
  assert (D : (p * q | a - b)).
  { apply two_primes_divide; try assumption; apply mod_divide_sub; lia || assumption. }
  destruct D as [k D]. assert (k = 0) by nia. lia.
Qed.

Definition pair_of (size : Z) (k : rsa_nums) : Prop :=
  rsa_pair size (rn_n (rn_pub k)) (rn_e (rn_pub k)) (rn_d k) (rn_p k) (rn_q k) (rn_u k).

Lemma mod_mul_mod_l a p q : 0 < p -> 0 < q -> (a mod (p * q)) mod p = a mod p.
Proof.
  intros Hp Hq. rewrite Z.rem_mul_r by lia. rewrite Z.mul_comm, Z.mod_add by lia. apply Z.mod_mod. lia.
Qed.
Lemma mod_mul_mod_r a p q : 0 < p -> 0 < q -> (a mod (p * q)) mod q = a mod q.
Proof. intros Hp Hq. rewrite Z.mul_comm. apply mod_mul_mod_l; assumption. Qed.

Lemma crt_range p q h m : 0 < p -> 0 <= h < q -> 0 <= m < p -> 0 <= h * p + m < p * q.
Proof. intros Hp Hh Hm. nia. Qed.
Lemma mul_pos p q : 0 < p -> 0 < q -> 0 < p * q.
Proof. nia. Qed.

Lemma rsa_private_spec size k c : pair_of size k -> 0 <= c < rn_n (rn_pub k) ->
  exists m, rsa_private k c = Ok m /\ 0 <= m < rn_n (rn_pub k) /\
    m mod rn_p k = (c ^ (rn_d k mod (rn_p k - 1))) mod rn_p k /\
    m mod rn_q k = (c ^ (rn_d k mod (rn_q k - 1))) mod rn_q k.
Proof.
  intros [Pp Pq P2 Q2 Hne Hn Hb Hs He Hd Ep Eq [Hu0 Hu]] Hc. unfold rsa_private.
  destruct (rn_n (rn_pub k) <=? c) eqn:E; [lia|]. cbv zeta. eexists. split; [reflexivity|].
  destruct k as [[n e] d p q u]. cbn [rn_pub rn_n rn_e rn_d rn_p rn_q rn_u] in *.
  pose proof (Z.mod_pos_bound d (p - 1) ltac:(lia)). pose proof (Z.mod_pos_bound d (q - 1) ltac:(lia)).
  pose proof (powmod_range c (d mod (p - 1)) p ltac:(lia) ltac:(lia)) as R1.
  pose proof (powmod_range c (d mod (q - 1)) q ltac:(lia) ltac:(lia)) as R2.
  rewrite <- (powmod_spec c (d mod (p - 1)) p) by lia.
  rewrite <- (powmod_spec c (d mod (q - 1)) q) by lia.
  set (m1 := powmod c (d mod (p - 1)) p) in *. set (m2 := powmod c (d mod (q - 1)) q) in *.
  pose proof (Z.mod_pos_bound (u * (m2 - m1)) q ltac:(lia)) as RH.
  split; [subst n; apply crt_range; lia|]. split.
  - rewrite Z.add_comm, Z.mod_add by lia. apply Z.mod_small. lia.
  - rewrite <- Z.add_mod_idemp_l by lia. rewrite Z.mul_mod_idemp_l by lia.
    replace (u * (m2 - m1) * p) with ((u * p) * (m2 - m1)) by lia.
    rewrite <- Z.mul_mod_idemp_l by lia. rewrite Hu, Z.mul_1_l. rewrite Z.add_mod_idemp_l by lia.
    replace (m2 - m1 + m1) with m2 by lia. apply Z.mod_small. lia.
Qed.

Lemma rsa_residue p q m e d : prime p -> 2 < p -> 0 < q -> 0 <= m -> 0 <= e -> 0 <= d ->
  (e * d) mod (p - 1) = 1 -> ((m ^ e mod (p * q)) ^ (d mod (p - 1))) mod p = m mod p.
Proof.
  intros Hp H2 Hq Hm He Hd Hed.
  assert (H0 : 0 <= d mod (p - 1)) by (apply Z.mod_pos_bound; lia). assert (H1 : 0 < p) by lia.
  rewrite <- pow_mod_base by assumption. rewrite mod_mul_mod_l by assumption. rewrite pow_mod_base by assumption.
  rewrite <- Z.pow_mul_r by assumption. apply rsa_exponent; try assumption.
  rewrite Hed, Z.mod_small; [reflexivity | lia].
Qed.
Lemma rsa_residue' p m e d s : prime p -> 2 < p -> 0 <= m -> 0 <= e -> 0 <= d ->
  (e * d) mod (p - 1) = 1 -> s mod p = (m ^ (d mod (p - 1))) mod p -> (s ^ e) mod p = m mod p.
Proof.
  intros Hp H2 Hm He Hd Hed HS.
  assert (H0 : 0 <= d mod (p - 1)) by (apply Z.mod_pos_bound; lia). assert (H1 : 0 < p) by lia.
  rewrite <- pow_mod_base by assumption. rewrite HS. rewrite pow_mod_base by assumption.
  rewrite <- Z.pow_mul_r by assumption. rewrite (Z.mul_comm _ e). apply rsa_exponent; try assumption.
  rewrite Hed, Z.mod_small; [reflexivity | lia].
Qed.

Lemma rsa_decrypts size k m : pair_of size k -> 0 <= m < rn_n (rn_pub k) ->
  exists c, rsa_public (rn_pub k) m = Ok c /\ 0 <= c < rn_n (rn_pub k) /\ rsa_private k c = Ok m.
Proof.
  intros HP Hm. exists (powmod m (rn_e (rn_pub k)) (rn_n (rn_pub k))).
  destruct k as [[n e] d p q u]. cbn [rn_pub rn_n rn_e] in *.
  pose proof HP as [Pp Pq P2 Q2 Hne Hn Hb Hs He Hd Ep Eq [Hu0 Hu]].
  cbn [rn_pub rn_n rn_e rn_d rn_p rn_q rn_u] in *.
  split.
  { unfold rsa_public. cbn [rn_n rn_e]. destruct (n <=? m) eqn:E; [lia | reflexivity]. }
  assert (Rc : 0 <= powmod m e n < n) by (apply powmod_range; lia).
  split; [assumption|].
  assert (Hn0 : 0 < n) by lia. assert (He0 : 0 <= e) by lia. assert (Hd0 : 0 <= d) by lia.
  assert (Hp0 : 0 < p) by lia. assert (Hq0 : 0 < q) by lia. assert (Hm0 : 0 <= m) by lia.
  destruct (rsa_private_spec size _ _ HP Rc) as (m' & E & Hm' & M1 & M2). rewrite E. apply f_equal.
  cbn [rn_pub rn_n rn_e rn_d rn_p rn_q rn_u] in *. clear E Rc HP Hb.
  rewrite powmod_spec in M1, M2 by assumption. subst n.
  rewrite rsa_residue in M1 by assumption.
  rewrite (Z.mul_comm p q), rsa_residue in M2 by assumption.
  apply (crt_unique p q); assumption.
Qed.

Lemma rsa_signs size k m : pair_of size k -> 0 <= m < rn_n (rn_pub k) ->
  exists s, rsa_private k m = Ok s /\ 0 <= s < rn_n (rn_pub k) /\ rsa_public (rn_pub k) s = Ok m.
Proof.
  intros HP Hm. destruct (rsa_private_spec size k m HP Hm) as (s & HE & Hs' & M1 & M2).
  exists s. split; [assumption|]. split; [assumption|]. clear HE. unfold rsa_public.
  destruct k as [[n e] d p q u]. destruct HP as [Pp Pq P2 Q2 Hne Hn Hb Hs He Hd Ep Eq [Hu0 Hu]].
  cbn [rn_pub rn_n rn_e rn_d rn_p rn_q rn_u] in *. clear Hb.
  rewrite (proj2 (Z.leb_gt n s)) by apply Hs'. apply f_equal.
  assert (Hp0 : 0 < p) by (clear - P2; lia). assert (Hq0 : 0 < q) by (clear - Q2; lia).
  assert (He0 : 0 <= e) by (clear - He; lia). assert (Hd0 : 0 <= d) by (clear - Hd; lia).
  assert (Hm0 : 0 <= m) by apply Hm.
  rewrite powmod_spec; [|subst n; apply mul_pos; assumption | assumption]. subst n.
  assert (0 <= s ^ e mod (p * q) < p * q) by (apply Z.mod_pos_bound, mul_pos; assumption).
  apply (crt_unique p q); try assumption.
  - rewrite mod_mul_mod_l by assumption. apply (rsa_residue' p m e d); assumption.
  - rewrite mod_mul_mod_r by assumption. apply (rsa_residue' q m e d); assumption.
Qed.

(** ** OAEP *)

Lemma long_to_bytes_be s : long_to_bytes (be_val s) = if be_val s =? 0 then [x00] else lstrip x00 s.
Proof.
  unfold long_to_bytes. destruct (be_val s =? 0); [reflexivity|].
  rewrite <- BytesToLong_val. apply BigIntToBytes_BytesToLong.
Qed.

Lemma index_0_cons (c : byte) s : index (c :: s) 0 = Ok c.
Proof. reflexivity. Qed.
Lemma slice_from_1_cons (c : byte) s : slice_from (c :: s) 1 = s.
Proof. rewrite slice_from_skipn by lia. reflexivity. Qed.

Lemma oaep_encode_ok k msg seed : len seed = 20 -> len msg <= k - 42 -> k <= 2 ^ 32 ->
  exists ms mdb mask smask,
    MGF seed (k - 21) = Ok mask /\ mdb = Xor (Hash [[]] ++ rep (k - len msg - 42) x00 ++ x01 :: msg) mask /\
    MGF mdb 20 = Ok smask /\ ms = Xor seed smask /\
    oaep_encode k msg seed = Ok (x00 :: ms ++ mdb) /\ len ms = 20 /\ len mdb = k - 21 /\
    len mask = k - 21 /\ len smask = 20.
Proof.
  intros Hs Hm Hk. pose proof (len_nonneg msg). unfold oaep_encode. change HLEN with 20.
  replace (k - 2 * 20 - 2 <? len msg) with false by lia. cbv zeta.
  replace (k - len msg - 2 * 20 - 2) with (k - len msg - 42) by lia.
  replace (k - len msg - 42 <? 0) with false by lia.
  replace (k - 20 - 1) with (k - 21) by lia.
  assert (E1 : exists mask, MGF seed (k - 21) = Ok mask).
  { rewrite MGF_ok by lia. eexists. reflexivity. }
  destruct E1 as (mask & E1). rewrite E1. cbn [bind].
  pose proof (MGF_len seed (k - 21) mask ltac:(lia) E1) as L1.
  set (mdb := Xor _ mask).
  assert (E2 : exists smask, MGF mdb 20 = Ok smask).
  { rewrite MGF_ok by lia. eexists. reflexivity. }
  destruct E2 as (smask & E2). rewrite E2. cbn [bind].
  pose proof (MGF_len mdb 20 smask ltac:(lia) E2) as L2.
  assert (L3 : len mdb = k - 21).
  { unfold mdb. rewrite len_Xor, !len_app, len_Hash, len_rep, len_cons, L1 by lia. lia. }
  exists (Xor seed smask), mdb, mask, smask. repeat split; try assumption.
  rewrite len_Xor. lia.
Qed.

(** Decoding an encoded block that lost [j] leading zero bytes, if at least 42 remain. *)
Lemma oaep_decode_ok k msg seed em s j : len seed = 20 -> len msg <= k - 42 -> k <= 2 ^ 32 ->
  oaep_encode k msg seed = Ok em -> 0 <= j -> em = x00 :: rep j x00 ++ s -> 42 <= len s ->
  oaep_decode k s = Ok msg.
Proof.
  intros Hs Hm Hk HE Hj Hem H42. pose proof (len_nonneg msg).
  destruct (oaep_encode_ok k msg seed Hs Hm Hk) as (ms & mdb & mask & smask & E1 & Emdb & E2 & Ems & HE' & L1 & L2 & L3 & L4).
  rewrite HE' in HE. apply Ok_inj in HE as <-. injection Hem as Hem.
  assert (Ls : len s = k - 1 - j).
  { apply (f_equal len) in Hem. rewrite !len_app, len_rep in Hem by lia. lia. }
  unfold oaep_decode. change HLEN with 20. replace (len s <? 2 * 20 + 2) with false by lia. cbv zeta.
  assert (EE : (if 1 <? k - len s then rep (k - len s - 1) x00 ++ s else s) = ms ++ mdb).
  { destruct (1 <? k - len s) eqn:E.
    - replace (k - len s - 1) with j by lia. symmetry. assumption.
    - assert (j = 0) by lia. subst j. rewrite Hem. reflexivity. }
  rewrite EE. rewrite (slice_to_app ms mdb 20), (slice_from_app ms mdb 20) by lia.
  rewrite E2. cbn [bind]. rewrite Ems. rewrite (Xor_cancel seed smask) by lia.
  rewrite L2, E1. cbn [bind]. rewrite Emdb. rewrite Xor_cancel.
  2:{ rewrite !len_app, len_Hash, len_rep, len_cons by lia. lia. }
  pose proof (len_Hash [[]]) as LH. clear - LH. revert LH. generalize (Hash [[]]). intros hsh LH.
  rewrite (slice_to_app hsh _ 20), (slice_from_app hsh _ 20) by lia.
  rewrite str_eqb_refl. cbn [negb]. rewrite lstrip_rep, lstrip_noop by discriminate.
  rewrite index_0_cons. cbn [bind]. rewrite beqb_refl. cbn [negb]. rewrite slice_from_1_cons. reflexivity.
Qed.

(** ** DSA *)

Lemma pow_mod_order p q g a : 1 < p -> 1 < q -> (g ^ q) mod p = 1 -> 0 <= a ->
  (g ^ a) mod p = (g ^ (a mod q)) mod p.
Proof.
  intros Hp Hq Ho Ha.
  assert (H0 : 0 <= a / q) by (clear - Hq Ha; apply Z.div_pos; lia).
  assert (H1 : 0 <= a mod q) by (clear - Hq; apply Z.mod_pos_bound; lia).
  assert (H2 : 0 < p) by (clear - Hp; lia). assert (H2' : p <> 0) by (clear - Hp; lia).
  assert (H3 : 0 <= q) by (clear - Hq; lia). assert (H4 : 0 <= q * (a / q)) by (apply Z.mul_nonneg_nonneg; assumption).
  assert (D : a = q * (a / q) + a mod q) by (apply Z.div_mod; clear - Hq; lia).
  rewrite D at 1. rewrite Z.pow_add_r, Z.pow_mul_r by assumption.
  rewrite Z.mul_mod by assumption. rewrite <- pow_mod_base by assumption. rewrite Ho. rewrite Z.pow_1_l by assumption.
  rewrite (Z.mod_small 1) by (clear - Hp; lia). rewrite Z.mul_1_l. apply Z.mod_mod. assumption.
Qed.
Lemma pow_order p q g a b : 1 < p -> 1 < q -> (g ^ q) mod p = 1 -> 0 <= a -> 0 <= b ->
  a mod q = b mod q -> (g ^ a) mod p = (g ^ b) mod p.
Proof.
  intros Hp Hq Ho Ha Hb HE.
  rewrite (pow_mod_order p q g a), (pow_mod_order p q g b), HE by assumption. reflexivity.
Qed.

Definition dsa_pair_of (k : dsa_nums) : Prop :=
  dsa_pair (dn_p (dn_pub k)) (dn_q (dn_pub k)) (dn_g (dn_pub k)) (dn_y (dn_pub k)) (dn_x k).

Lemma prime_gcd q s : prime q -> 0 < s < q -> Z.gcd s q = 1.
Proof.
  intros Hq Hs. apply Zgcd_1_rel_prime. apply rel_prime_le_prime; [assumption | lia].
Qed.

(** The exponent equation behind DSA: w s = 1, s = i (M + x r), i kk = 1 modulo q. *)
Lemma dsa_exponents q M x r s kk w i : 0 < q ->
  (q | w * s - 1) -> (q | i * kk - 1) -> (i * (M + x * r)) mod q = s ->
  ((M * w) mod q + x * ((r * w) mod q)) mod q = kk mod q.
Proof.
  intros Hq Hw Hi Hs. assert (Hq' : q <> 0) by lia.
  rewrite Z.add_mod_idemp_l by assumption.
  rewrite <- Z.add_mod_idemp_r by assumption. rewrite Z.mul_mod_idemp_r by assumption.
  rewrite Z.add_mod_idemp_r by assumption.
  replace (M * w + x * (r * w)) with (w * (M + x * r)) by ring.
  apply divide_sub_mod; [assumption|].
  assert (D1 : (q | i * (M + x * r) - s)).
  { apply mod_divide_sub; [assumption|]. rewrite <- Hs. rewrite Z.mod_mod by assumption. reflexivity. }
  set (T := M + x * r) in *.
  replace (w * T - kk) with ((- (w * T)) * (i * kk - 1) + (kk * w) * (i * T - s) + kk * (w * s - 1)) by ring.
  apply Z.divide_add_r; [apply Z.divide_add_r|]; apply Z.divide_mul_r; assumption.
Qed.

Lemma dsa_verify_core p q g y x kk r s w i M : 1 < p -> 1 < q -> (g ^ q) mod p = 1 -> 0 <= x ->
  y = (g ^ x) mod p -> 0 <= kk -> (q | w * s - 1) -> (q | i * kk - 1) -> (i * (M + x * r)) mod q = s ->
  (powmod g ((M * w) mod q) p * powmod y ((r * w) mod q) p) mod p = (g ^ kk) mod p.
Proof.
  intros Hp Hq Ho Hx Hy Hk Hw Hi Hs.
  assert (Hq0 : 0 < q) by (clear - Hq; lia). assert (Hp0 : 0 < p) by (clear - Hp; lia).
  assert (Hp1 : p <> 0) by (clear - Hp; lia).
  assert (U1 : 0 <= (M * w) mod q) by (apply Z.mod_pos_bound; assumption).
  assert (U2 : 0 <= (r * w) mod q) by (apply Z.mod_pos_bound; assumption).
  assert (U3 : 0 <= x * ((r * w) mod q)) by (apply Z.mul_nonneg_nonneg; assumption).
  rewrite !powmod_spec by assumption. rewrite <- Z.mul_mod by assumption. rewrite Hy.
  rewrite <- Z.mul_mod_idemp_r by assumption. rewrite pow_mod_base by assumption.
  rewrite Z.mul_mod_idemp_r by assumption. rewrite <- Z.pow_mul_r by assumption.
  rewrite <- Z.pow_add_r by assumption.
  apply (pow_order p q); try assumption.
  - apply Z.add_nonneg_nonneg; assumption.
  - apply (dsa_exponents q M x r s kk w i); assumption.
Qed.

Lemma dsa_verify_sign k M kk r s : dsa_pair_of k -> dsa_sign k M kk = Ok (r, s) ->
  dsa_verify (dn_pub k) M r s = negb ((r =? 0) || (s =? 0)) /\
  0 <= r < dn_q (dn_pub k) /\ 0 <= s < dn_q (dn_pub k).
Proof.
  intros [[Pp Pq Hg Ho] Hx Hy] HS. destruct k as [[y g p q] x].
  cbn [dn_pub dn_y dn_g dn_p dn_q dn_x] in *. unfold dsa_sign in HS. cbn [dn_pub dn_x] in HS.
  pose proof (prime_ge_2 p Pp) as Hp2. pose proof (prime_ge_2 q Pq) as Hq2.
  destruct ((kk <? 2) || (q <=? kk)) eqn:EK; [discriminate|].
  apply orb_false_elim in EK as [EK1 EK2]. apply Z.ltb_ge in EK1. apply Z.leb_gt in EK2. cbv zeta in HS.
  apply Ok_inj in HS. apply pair_inj in HS as [Hr Hs].
  assert (Hp1 : 1 < p) by (clear - Hp2; lia). assert (Hq1 : 1 < q) by (clear - Hq2; lia).
  rewrite powmod_spec in Hr, Hs by (clear - Hp2 EK1; lia).
  assert (Rr : 0 <= r < q) by (rewrite <- Hr; apply Z.mod_pos_bound; clear - Hq2; lia).
  assert (Rs : 0 <= s < q) by (rewrite <- Hs; apply Z.mod_pos_bound; clear - Hq2; lia).
  rewrite Hr in Hs.
  split; [|split; assumption]. unfold dsa_verify.
  destruct ((r =? 0) || (s =? 0)) eqn:E0; cbn [negb].
  - replace ((r <=? 0) || (q <=? r) || (s <=? 0) || (q <=? s)) with true by (clear - E0 Rr Rs; lia). reflexivity.
  - replace ((r <=? 0) || (q <=? r) || (s <=? 0) || (q <=? s)) with false by (clear - E0 Rr Rs; lia). cbv zeta.
    assert (Is : 0 < s < q) by (clear - E0 Rs; lia). assert (Ik : 0 < kk < q) by (clear - EK1 EK2; lia).
    destruct (inverse_ok s q) as [_ Hw];
      [clear - Hq2; lia | clear - Is; lia | apply prime_gcd; assumption |].
    destruct (inverse_ok kk q) as [_ Hi];
      [clear - Hq2; lia | clear - Ik; lia | apply prime_gcd; assumption |].
    rewrite (dsa_verify_core p q g y x kk r s (inverse s q) (inverse kk q) M); try assumption.
    + rewrite Hr. apply Z.eqb_refl.
    + clear - Hx; lia.
    + clear - Ik; lia.
Qed.
