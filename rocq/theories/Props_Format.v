(** * Props_Format: what the bytes look like (C02, C06, C07, C12, C13, C17, C19 and C64).

    Round trips do not notice a change made to the writing and the reading side alike.  The
    theorems of this file say what is written in terms of the standards other implementations
    follow. *)
From Coq Require Import Strings.String.
From Coq Require Import List Permutation ZArith Znumtheory NArith Bool Lia ZifyBool ZifyNat ZifyN.
From Coq.Init Require Import Byte.
From Verif Require Import PyBase PyFacts Base64 Base64Facts Sha1 Util UtilFacts UtilFacts2 Props_Util Aes AesFacts SymKeys SymFacts ModArith ModFacts Der DerFacts
  AsymKeys AsymSpec AsymFacts Props_Sym Props_Asym Props_Der Json JsonFacts KeyInfo Keys KeysFacts KeyData KeyczarFacts DiskFacts Props_Keys JsonSpec JsonSpecFacts.
Import ListNotations.
Local Open Scope Z_scope.
Ltac Zify.zify_post_hook ::= Z.div_mod_to_equations.

(** ** Bits and Base64 *)

(** Bit [j] of a byte string, counting from the most significant bit of the first byte; 0 behind the end. *)
Definition bit (s : str) (j : nat) : Z :=
  match nth_error s (j / 8) with Some b => (ord b / 2 ^ (7 - Z.of_nat (j mod 8))) mod 2 | None => 0 end.

(** Six bits, as RFC 4648 groups them. *)
Definition sextet (s : str) (i : nat) : Z :=
  32 * bit s (6 * i) + 16 * bit s (6 * i + 1) + 8 * bit s (6 * i + 2) + 4 * bit s (6 * i + 3) + 2 * bit s (6 * i + 4) + bit s (6 * i + 5).

Lemma bit_skip a b c s j : bit (a :: b :: c :: s) (24 + j) = bit s j.
Proof.
  unfold bit. replace ((24 + j) / 8)%nat with (3 + j / 8)%nat by (change 24%nat with (3 * 8)%nat; rewrite Nat.div_add_l; lia).
  replace ((24 + j) mod 8)%nat with (j mod 8)%nat by (rewrite (Nat.add_comm 24), <- (Nat.mod_add j 3 8) by lia; reflexivity). reflexivity.
Qed.
Lemma sextet_skip a b c s i : sextet (a :: b :: c :: s) (4 + i) = sextet s i.
Proof.
  unfold sextet. replace (6 * (4 + i))%nat with (24 + 6 * i)%nat by lia. rewrite <- !Nat.add_assoc. rewrite !bit_skip. reflexivity.
Qed.
Ltac bits_ltac := cbn -[Z.div Z.modulo ord Z.mul Z.add Z.pow Z.sub Z.of_nat];
  change (2 ^ (7 - Z.of_nat 0)) with 128; change (2 ^ (7 - Z.of_nat 1)) with 64; change (2 ^ (7 - Z.of_nat 2)) with 32; change (2 ^ (7 - Z.of_nat 3)) with 16;
  change (2 ^ (7 - Z.of_nat 4)) with 8; change (2 ^ (7 - Z.of_nat 5)) with 4; change (2 ^ (7 - Z.of_nat 6)) with 2; change (2 ^ (7 - Z.of_nat 7)) with 1; lia.
Lemma sextet_0 a s : sextet (a :: s) 0 = ord a / 4.
Proof. pose proof (ord_range a). unfold sextet, bit. bits_ltac. Qed.
Lemma sextet_1 a b s : sextet (a :: b :: s) 1 = (ord a mod 4) * 16 + ord b / 16.
Proof. pose proof (ord_range a). pose proof (ord_range b). unfold sextet, bit. bits_ltac. Qed.
Lemma sextet_1' a : sextet [a] 1 = (ord a mod 4) * 16.
Proof. pose proof (ord_range a). unfold sextet, bit. bits_ltac. Qed.
Lemma sextet_2 a b c s : sextet (a :: b :: c :: s) 2 = (ord b mod 16) * 4 + ord c / 64.
Proof. pose proof (ord_range b). pose proof (ord_range c). unfold sextet, bit. bits_ltac. Qed.
Lemma sextet_2' a b : sextet [a; b] 2 = (ord b mod 16) * 4.
Proof. pose proof (ord_range b). unfold sextet, bit. bits_ltac. Qed.
Lemma sextet_3 a b c s : sextet (a :: b :: c :: s) 3 = ord c mod 64.
Proof. pose proof (ord_range c). unfold sextet, bit. bits_ltac. Qed.

Lemma six_sextets s : six s = map (sextet s) (seq 0 (List.length (six s))).
Proof.
  induction s as [|a|a b|a b c s IH] using ind3; cbn [six List.length seq map]; [reflexivity | rewrite sextet_0, sextet_1'; reflexivity |
    rewrite sextet_0, sextet_1, sextet_2'; reflexivity |].
  rewrite sextet_0, sextet_1, sextet_2, sextet_3. repeat (apply (f_equal2 cons); [reflexivity|]). rewrite IH at 1.
  assert (G : forall n k, map (sextet s) (seq k n) = map (sextet (a :: b :: c :: s)) (seq (4 + k) n)).
  { intros n. induction n as [|n IHn]; intros k; cbn [seq map]; [reflexivity|]. rewrite sextet_skip, (IHn (S k)). reflexivity. }
  apply (G (List.length (six s)) 0%nat).
Qed.
Lemma ws_char_nth v : in64 v -> nth_error url_alphabet (Z.to_nat v) = Some (ws_char v).
Proof.
  intros H. pose (P := fun v => match nth_error url_alphabet (Z.to_nat v) with Some c => beqb c (ws_char v) | None => false end).
  assert (E : P v = true) by (apply forall64; [vm_compute; reflexivity | assumption]). unfold P in E.
  destruct (nth_error url_alphabet (Z.to_nat v)); [|discriminate]. apply beqb_eq in E. congruence.
Qed.

(** The encoding is that of RFC 4648, section 5: six bits a character, filled up with zero bits. *)
Theorem C02_rfc4648 : forall s i, (i < List.length (Base64WSEncode s))%nat ->
  nth_error (Base64WSEncode s) i = nth_error url_alphabet (Z.to_nat (sextet s i)).
Proof.
  intros s i H. rewrite encode_six, map_length in *. pose proof (six_in64 s) as F. rewrite six_sextets in F |- *. rewrite nth_error_map, nth_error_map.
  destruct (nth_error (seq 0 (List.length (six s))) i) as [j|] eqn:E; [|apply nth_error_None in E; rewrite seq_length in E; lia].
  assert (j = i). { apply (nth_error_nth _ _ 0%nat) in E. rewrite seq_nth in E by exact H. lia. } subst j. cbn [option_map].
  symmetry. apply ws_char_nth. rewrite Forall_forall in F. apply F. apply in_map. apply nth_error_In in E. exact E.
Qed.
Print Assumptions C02_rfc4648.

(** Bit strings are written most significant bit first. *)
Lemma bits8_nth b (j : nat) : (j < 8)%nat -> nth_error (bits8 b) j = Some (chr (48 + (ord b / 2 ^ (7 - Z.of_nat j)) mod 2)).
Proof.
  intros H. pose (P := fun b => forallb (fun j => match nth_error (bits8 b) j with Some c => beqb c (chr (48 + (ord b / 2 ^ (7 - Z.of_nat j)) mod 2)) | None => false end) (seq 0 8)).
  assert (E : P b = true) by (apply forall_bytes; vm_compute; reflexivity). unfold P in E. rewrite forallb_forall in E. specialize (E j). cbv beta in E.
  destruct (nth_error (bits8 b) j); [|discriminate E; apply in_seq; lia]. rewrite beqb_eq in E. rewrite E; [reflexivity | apply in_seq; lia].
Qed.
Theorem C06_positions : forall s j, (j < 8 * List.length s)%nat -> nth_error (BytesToBin s) j = Some (chr (48 + bit s j)).
Proof.
  intros s. induction s as [|b s IH]; intros j H; cbn [List.length] in H; [lia|]. unfold BytesToBin. cbn [map concat]. fold (BytesToBin s). fold (bits8 b).
  destruct (bits8_ok b) as [L _]. unfold len in L. destruct (Nat.ltb_spec j 8).
  - rewrite nth_error_app1 by lia. rewrite bits8_nth by assumption. unfold bit. rewrite Nat.div_small, Nat.mod_small by assumption. reflexivity.
  - rewrite nth_error_app2 by lia. replace (List.length (bits8 b)) with 8%nat by lia. rewrite IH by lia. f_equal. f_equal. f_equal.
    replace j with (1 * 8 + (j - 8))%nat at 2 by lia. unfold bit. rewrite Nat.div_add_l by lia.
    rewrite (Nat.add_comm (1 * 8)), Nat.mod_add by lia. reflexivity.
Qed.
Print Assumptions C06_positions.

(** ** Packed arrays *)

(** Four bytes, most significant first, that hold [n]. *)
Definition word (w : str) (n : Z) : Prop := len w = 4 /\ base256 w = n.
Lemma IntToBytes_word n : 0 <= n < 2 ^ 31 -> word (IntToBytes n) n.
Proof.
  intros H. destruct C05_big_endian as (B & _ & _ & _ & _ & I). destruct (I n) as [L V]. split; [exact L|]. rewrite <- B, V. apply Z.mod_small. lia.
Qed.
Theorem C07_format :
  (forall a p, PackByteArray (Some a) = Ok p -> exists w, word w (len a) /\ p = w ++ a) /\
  (forall l p, PackMultipleByteArrays (map Some l) = Ok p ->
     exists w ps, word w (len l) /\ p = w ++ concat ps /\ Forall2 (fun a q => exists v, word v (len a) /\ q = v ++ a) l ps).
Proof.
  assert (P1 : forall a p, PackByteArray (Some a) = Ok p -> exists w, word w (len a) /\ p = w ++ a).
  { intros a p H. unfold PackByteArray, struct_pack_i in H. pose proof (len_nonneg a). destruct ((- 2 ^ 31 <=? len a) && (len a <? 2 ^ 31)) eqn:E; [|discriminate].
    cbn [bind] in H. apply Ok_inj in H as <-. exists (IntToBytes (len a)). split; [apply IntToBytes_word; lia | reflexivity]. }
  split; [exact P1|]. intros l p H. unfold PackMultipleByteArrays in H. apply bind_Ok in H as (h & HH & H). apply bind_Ok in H as (ps & HP & H). apply Ok_inj in H as <-.
  exists h, ps. split; [|split; [reflexivity|]].
  - unfold struct_pack_i in HH. pose proof (len_nonneg l). unfold len in HH. rewrite map_length in HH. fold (len l) in HH.
    destruct ((- 2 ^ 31 <=? len l) && (len l <? 2 ^ 31)) eqn:E; [|discriminate]. apply Ok_inj in HH as <-. apply IntToBytes_word. lia.
  - clear HH h. revert ps HP. induction l as [|a l IH]; intros ps HP; cbn [map mapM] in HP; [apply Ok_inj in HP as <-; constructor|].
    apply bind_Ok in HP as (q & HQ & HP). apply bind_Ok in HP as (qs & HS & HP). apply Ok_inj in HP as <-. constructor; [apply P1; exact HQ | apply IH; exact HS].
Qed.
Print Assumptions C07_format.

(** ** OAEP *)

(** [x] is the exclusive or of [a] and [b], byte for byte. *)
Definition xors (a b x : str) : Prop :=
  len b = len a /\ len x = len a /\ forall i c d, nth_error a i = Some c -> nth_error b i = Some d -> nth_error x i = Some (chr (Z.lxor (ord c) (ord d))).
Lemma Xor_xors a b : len a = len b -> xors a b (Xor a b).
Proof.
  intros H. destruct C09_xor as (L & _ & _ & _ & N). split; [lia|]. split; [rewrite L; lia|]. intros i c d H1 H2. apply (N a b H i c d H1 H2).
Qed.
(** RFC 8017, 7.1.1, with the empty label and SHA-1: the two masked parts. *)
Theorem C12_oaep_format : forall k msg seed em, len seed = 20 -> k <= 2 ^ 32 -> oaep_encode k msg seed = Ok em ->
  exists mseed mdb dbmask smask,
    em = x00 :: mseed ++ mdb /\ len mseed = 20 /\ len mdb = k - 21 /\
    MGF seed (k - 21) = Ok dbmask /\ xors (sha1 [] ++ repeat x00 (Z.to_nat (k - len msg - 42)) ++ x01 :: msg) dbmask mdb /\
    MGF mdb 20 = Ok smask /\ xors seed smask mseed.
Proof.
  intros k msg seed em Hs Hk H. destruct (Z.le_gt_cases (len msg) (k - 42)) as [L|L].
  2: { rewrite (proj2 (C12_oaep_domain k msg seed Hs Hk)) in H by lia. discriminate. }
  destruct (oaep_encode_ok k msg seed Hs L Hk) as (ms & mdb & mask & smask & E1 & Emdb & E2 & Ems & HE & L1 & L2 & L3 & L4).
  rewrite HE in H. apply Ok_inj in H as <-. exists ms, mdb, mask, smask. repeat (split; [first [reflexivity | assumption]|]). split; [|split; [exact E2|]].
  - rewrite Emdb. change (Hash [[]]) with (sha1 []). apply Xor_xors. rewrite !len_app, len_cons. pose proof (len_Hash [[]]) as LH. change (Hash [[]]) with (sha1 []) in LH.
    rewrite LH, len_rep by lia. lia.
  - rewrite Ems. apply Xor_xors. lia.
Qed.
Print Assumptions C12_oaep_format.

(** ** RSA ciphertexts *)

(** The header and then the power of the encoded block, without leading zeros. *)
Theorem C19_ciphertext_format : forall size k r msg c, In size rsa_sizes -> rsa_key_ok size k ->
  RsaPublicKey_Encrypt (rs_pub k) r msg = Ok c ->
  exists id em body, oaep_encode (size / 8) msg (RandBytes r 20) = Ok em /\ len id = 4 /\ c = x00 :: id ++ body /\
    be_val body = (be_val em ^ rn_e (rn_pub (rs_key k))) mod rn_n (rn_pub (rs_key k)) /\ len body <= size / 8.
Proof.
  intros size k r msg c HS [HP HB Hs Hps] H. pose proof (rsa_bits _ _ _ _ _ _ _ HP) as Hbits. destruct (num_bytes_size size _ HS Hbits) as [NB Hn].
  destruct (rsa_sizes_256 size HS) as (E256 & _ & HK).
  unfold RsaPublicKey_Encrypt in H. rewrite HB, NB in H. change HLEN with 20 in H. apply bind_Ok in H as (em & HE & H). apply bind_Ok in H as (b & Hb & H).
  destruct (make_header_ok (PrefixHash [TrimBytes (rp_modulus (rs_pub k)); TrimBytes (rp_exponent (rs_pub k))]) (len_PrefixHash _)) as (id & EH & Hid & _).
  unfold rsapub_hash_id in H. rewrite EH in H. cbn [bind] in H. apply Ok_inj in H as <-. exists id, em, b. split; [exact HE|]. split; [exact Hid|]. split; [reflexivity|].
  set (n := rn_n (rn_pub (rs_key k))) in *. set (e := rn_e (rn_pub (rs_key k))) in *.
  assert (He : 0 <= e) by (pose proof (rsa_e _ _ _ _ _ _ _ HP) as E0; fold e in E0; clear - E0; lia).
  assert (Hn0 : 0 < n).
  { destruct Hbits as [B _]. apply Z.lt_le_trans with (2 ^ (size - 1)); [|exact B]. apply Z.pow_pos_nonneg; [clear; lia|].
    pose proof (rsa_size _ _ _ _ _ _ _ HP) as S0. clear - S0. lia. }
  unfold rsa_encrypt_str, rsa_public in Hb. fold n e in Hb. rewrite bytes_to_long_eq, BytesToLong_val in Hb. apply bind_Ok in Hb as (z & Hz & Hb).
  destruct (n <=? be_val em) eqn:EB; [discriminate|]. apply Ok_inj in Hz. rewrite powmod_spec in Hz by assumption. apply Ok_inj in Hb as <-.
  assert (Rz : 0 <= z < n) by (rewrite <- Hz; apply Z.mod_pos_bound; exact Hn0). rewrite Hz. unfold long_to_bytes. destruct (z =? 0) eqn:Z0.
  - assert (z = 0) by (clear - Z0; lia). subst z. split; [symmetry; assumption || reflexivity|]. change (len [x00]) with 1. clear - HK. lia.
  - split; [apply BigIntToBytes_val; clear - Rz; lia|]. apply len_bound_BigInt; [clear - Rz; lia | clear - HK; lia |]. rewrite <- E256. clear - Rz Hbits. lia.
Qed.
Print Assumptions C19_ciphertext_format.

(** ** DSA signatures *)

(** FIPS 186, section 4: the signature is the DER form of r and s. *)
Theorem C21_signature_format : forall k z msg sig, dsa_key_ok k -> DsaPrivateKey_Sign k z msg = Ok sig ->
  let p := dn_p (dn_pub (ds_key k)) in let q := dn_q (dn_pub (ds_key k)) in let g := dn_g (dn_pub (ds_key k)) in
  exists h r s, 1 < h < q /\ r = ((g ^ h) mod p) mod q /\ 0 <= s < q /\ (h * s) mod q = (be_val (sha1 msg) + dn_x (ds_key k) * r) mod q /\
    der (ASeq [AInt r; AInt s]) sig.
Proof.
  intros k z msg sig [HP HB] H. cbv zeta. unfold DsaPrivateKey_Sign in H.
  apply bind_Ok in H as (h & Hk & H). apply bind_Ok in H as ([r s] & Hrs & H). cbn [fst snd] in H. unfold MakeDsaSig in H.
  destruct HP as [[Pp Pq Hg Ho] Hx Hy]. destruct (ds_key k) as [[y g p q] x]. cbn [dn_pub dn_y dn_g dn_p dn_q dn_x] in *.
  unfold dsa_sign in Hrs. cbn [dn_pub dn_x] in Hrs. destruct ((h <? 2) || (q <=? h)) eqn:EK; [discriminate|].
  apply orb_false_elim in EK as [EK1 EK2]. apply Z.ltb_ge in EK1. apply Z.leb_gt in EK2. cbv zeta in Hrs. apply Ok_inj in Hrs. apply pair_inj in Hrs as [Hr Hs].
  pose proof (prime_ge_2 p Pp) as Hp2. pose proof (prime_ge_2 q Pq) as Hq2.
  rewrite powmod_spec in Hr, Hs by (clear - Hp2 EK1; lia). rewrite bytes_to_long_eq, BytesToLong_val in Hs. rewrite Hr in Hs. unfold Hash in Hs. cbn [concat] in Hs.
  rewrite app_nil_r in Hs.
  exists h, r, s. split; [clear - EK1 EK2; lia|]. split; [symmetry; exact Hr|]. split; [rewrite <- Hs; apply Z.mod_pos_bound; clear - Hq2; lia|]. split.
  - rewrite <- Hs. rewrite Z.mul_mod_idemp_r by (clear - Hq2; lia). set (T := be_val (sha1 msg) + x * r).
    destruct (inverse_ok h q) as [_ [j Hi]]; [clear - Hq2; lia | clear - EK1; lia | apply prime_gcd; [assumption | clear - EK1 EK2; lia] |].
    apply divide_sub_mod; [clear - Hq2; lia|]. exists (j * T). replace (h * (inverse h q * T) - T) with ((inverse h q * h - 1) * T) by ring. rewrite Hi. ring.
  - apply C63_encoder; [cbn [asn1_ok]; tauto | exact H].
Qed.
Print Assumptions C21_signature_format.

(** FIPS 186, section 4.7: what Verify accepts. *)
Theorem C21_verify_characterised : forall k msg sig,
  let p := dn_p (dp_key k) in let q := dn_q (dp_key k) in let g := dn_g (dp_key k) in let y := dn_y (dp_key k) in
  dsa_group p q g ->
  DsaPublicKey_Verify k msg sig = Ok true <->
  exists r s rest w, decode sig = Ok (ASeq [AInt r; AInt s], rest) /\ 0 < r < q /\ 0 < s < q /\ (s * w) mod q = 1 /\
    ((g ^ ((be_val (sha1 msg) * w) mod q) * y ^ ((r * w) mod q)) mod p) mod q = r.
Proof.
  intros k msg sig p q g y [Pp Pq Hg Ho]. pose proof (prime_ge_2 p Pp) as Hp2. pose proof (prime_ge_2 q Pq) as Hq2.
  assert (Hq0 : 0 < q) by (clear - Hq2; lia). assert (Hp0 : 0 < p) by (clear - Hp2; lia).
  assert (V : forall r s, dsa_verify (dp_key k) (bytes_to_long (Hash [msg])) r s = true <-> 0 < r < q /\ 0 < s < q /\
    ((g ^ ((be_val (sha1 msg) * inverse s q) mod q) * y ^ ((r * inverse s q) mod q)) mod p) mod q = r).
  { intros r s. unfold dsa_verify. subst p q g y. destruct (dp_key k) as [y g p q]. cbn [dn_y dn_g dn_p dn_q] in *.
    rewrite bytes_to_long_eq, BytesToLong_val. unfold Hash. cbn [concat]. rewrite app_nil_r. set (M := be_val (sha1 msg)).
    destruct ((r <=? 0) || (q <=? r) || (s <=? 0) || (q <=? s)) eqn:B.
    - split; [discriminate|]. intros (H1 & H2 & _). clear - B H1 H2. lia.
    - rewrite !powmod_spec by (assumption || (apply Z.mod_pos_bound; assumption)). rewrite <- Z.mul_mod by (clear - Hp0; lia). rewrite Z.eqb_eq.
      assert (0 < r < q /\ 0 < s < q) by (clear - B; lia). tauto. }
  assert (I : forall s, 0 < s < q -> (s * inverse s q) mod q = 1).
  { intros s Hs. rewrite Z.mul_comm. apply inverse_mod; [clear - Hq2; lia | clear - Hs; lia | apply prime_gcd; assumption]. }
  assert (U : forall s w, 0 < s < q -> (s * w) mod q = 1 -> forall a, (a * w) mod q = (a * inverse s q) mod q).
  { intros s w Hs Hw a. pose proof (I s Hs) as Hi. assert (E1 : (1 mod q) = 1) by (apply Z.mod_small; clear - Hq2; lia).
    rewrite <- E1 in Hw, Hi. apply (mod_divide_sub _ _ _ Hq0) in Hw, Hi. apply (divide_sub_mod _ _ _ Hq0). set (v := inverse s q) in *.
    replace (a * w - a * v) with (a * (v * (s * w - 1) - w * (s * v - 1))) by ring. apply Z.divide_mul_r, Z.divide_sub_r; apply Z.divide_mul_r; assumption. }
  split.
  - intros H. destruct (C13_only_two_integers_verify k msg sig H) as (r & s & rest & HD & Hr & Hs).
    assert (HV : dsa_verify (dp_key k) (bytes_to_long (Hash [msg])) r s = true).
    { unfold DsaPublicKey_Verify, ParseDsaSig in H. rewrite HD in H. cbn in H. apply Ok_inj in H. exact H. }
    apply V in HV as (_ & _ & HV). exists r, s, rest, (inverse s q). split; [exact HD|]. split; [exact Hr|]. split; [exact Hs|]. split; [apply I; exact Hs | exact HV].
  - intros (r & s & rest & w & HD & Hr & Hs & Hw & HE). unfold DsaPublicKey_Verify, ParseDsaSig. rewrite HD.
    change (Ok (dsa_verify (dp_key k) (bytes_to_long (Hash [msg])) r s) = Ok true). f_equal. apply V.
    split; [exact Hr|]. split; [exact Hs|]. rewrite <- !(U s w Hs Hw). exact HE.
Qed.
Print Assumptions C21_verify_characterised.

(** ** Cipher block chaining *)

(** NIST SP 800-38A, 6.2: each block is added to the previous ciphertext block, the first one to the IV, and encrypted. *)
Inductive cbc (E : str -> str) : str -> list str -> list str -> Prop :=
| CbcNil iv : cbc E iv [] []
| CbcCons iv p x ps cs : len p = 16 -> xors p iv x -> cbc E (E x) ps cs -> cbc E iv (p :: ps) (E x :: cs).

Lemma xor_str_xors a b : len a = len b -> xors a b (xor_str a b).
Proof.
  intros H. split; [lia|]. revert b H. induction a as [|c a IH]; intros [|d b] H; rewrite ?len_cons in H; cbn [xor_str]; try (pose proof (len_nonneg b); change (len (@nil byte)) with 0 in H; lia); try (pose proof (len_nonneg a); change (len (@nil byte)) with 0 in H; lia).
  - split; [reflexivity|]. intros [|i] c' d'; discriminate.
  - destruct (IH b ltac:(lia)) as [L N]. split; [rewrite !len_cons; lia|]. intros [|i] c' d' H1 H2; cbn [nth_error] in *; [|apply N; assumption].
    apply Some_inj in H1 as <-. apply Some_inj in H2 as <-. reflexivity.
Qed.
Lemma cbc_enc_cbc ks : keys_ok ks -> forall n iv data, List.length iv = 16%nat -> List.length data = (16 * n)%nat ->
  exists ps cs, data = concat ps /\ fst (cbc_enc n ks iv data) = concat cs /\ cbc (aes_encrypt_block ks) iv ps cs.
Proof.
  intros HK. induction n as [|n IH]; intros iv data Hi Hd.
  - destruct data; [|discriminate]. exists [], []. repeat constructor.
  - destruct (firstn_skipn_16 data n Hd) as [H1 H2]. cbn [cbc_enc].
    assert (LX : List.length (aes_encrypt_block ks (xor_str (firstn 16 data) iv)) = 16%nat).
    { destruct (cbc_enc_length 1 ks HK iv (firstn 16 data) Hi ltac:(lia)) as [L _]. cbn [cbc_enc fst] in L. rewrite firstn_firstn, app_nil_r in L. exact L. }
    destruct (IH (aes_encrypt_block ks (xor_str (firstn 16 data) iv)) (skipn 16 data) LX H2) as (ps & cs & E1 & E2 & C).
    destruct (cbc_enc n ks _ (skipn 16 data)) as [r v]. cbn [fst] in *.
    exists (firstn 16 data :: ps), (aes_encrypt_block ks (xor_str (firstn 16 data) iv) :: cs). cbn [concat]. rewrite <- E1, <- E2. split; [symmetry; apply firstn_skipn|]. split; [reflexivity|].
    constructor; [unfold len; lia | apply xor_str_xors; unfold len; lia | exact C].
Qed.
Theorem C17_cbc : forall lib k kb hb r p, aes_material k kb hb -> aes_size_ok kb ->
  exists header ps cs tag, AesKey_Encrypt lib k r p = Ok (header ++ RandBytes r 16 ++ concat cs ++ tag) /\
    len header = 5 /\ len tag = 20 /\ concat ps = Pad p /\ cbc (aes_encrypt_block (key_schedule kb)) (RandBytes r 16) ps cs.
Proof.
  intros lib k kb hb r p HM HS. destruct (AesKey_Encrypt_ok lib k r p kb hb HM HS) as (hdr & EH & H5 & Hl & EE).
  assert (Hi : len (RandBytes r 16) = 16) by (apply len_RandBytes; lia). pose proof (AES_new_ok kb _ _ (AES_new_iff kb _ HS Hi)) as [HK _]. cbn [c_keys] in HK.
  assert (LP : len (Pad p) = 16 * (len p / 16 + 1)) by apply len_Pad.
  destruct (cbc_enc_cbc (key_schedule kb) HK (Z.to_nat (len (Pad p) / 16)) (RandBytes r 16) (Pad p)) as (ps & cs & E1 & E2 & C).
  - unfold len in Hi. lia.
  - unfold len in LP |- *. lia.
  - exists hdr, ps, cs. eexists. rewrite EE. unfold aes_body. rewrite E2, <- !app_assoc. split; [reflexivity|]. split; [exact H5|]. split; [apply len_hmac|].
    split; [symmetry; exact E1 | exact C].
Qed.
Print Assumptions C17_cbc.

(** ** C64: key files and metadata *)

(** [v] is a JSON object in which the member [name] has the value [w]. *)
Definition holds (v : json) (name : string) (w : json) : Prop :=
  exists m, v = JObj m /\ In (tx name, w) m /\ forall w', In (tx name, w') m -> w' = w.
(** [v] is a JSON object with just these members, in some order. *)
Definition members_are (v : json) (names : list string) : Prop :=
  exists m, v = JObj m /\ Permutation (map fst m) (map tx names).
(** A byte string in Base64 (C02), and a number as such a byte string, most significant byte first; leading zero bytes do not matter. *)
Definition b64 (s : str) : json := JStr (text_of_str (Base64WSEncode s)).
Definition number_member (v : json) (name : string) (n : Z) : Prop := exists s, holds v name (b64 s) /\ base256 s = n.
(** As it is written: one zero byte before the first byte that is not zero, so that readers of
    signed numbers (the other implementations) take it as positive too. *)
Definition positive_member (v : json) (name : string) (n : Z) : Prop :=
  exists s, holds v name (b64 (x00 :: s)) /\ hd_error s <> Some x00 /\ base256 s = n.

(** The documented forms. *)
Definition hmac_form (v : json) (hb : str) : Prop := holds v "hmacKeyString" (b64 hb) /\ holds v "size" (JInt 256).
Definition aes_form (v : json) (size : Z) (kb hb : str) : Prop :=
  holds v "mode" (JStr (tx "CBC")) /\ holds v "size" (JInt size) /\ holds v "aesKeyString" (b64 kb) /\ exists h, holds v "hmacKey" h /\ hmac_form h hb.
Definition rsa_public_form (num : json -> string -> Z -> Prop) (v : json) (size n e : Z) : Prop :=
  num v "modulus"%string n /\ num v "publicExponent"%string e /\ holds v "size" (JInt size).
(** The names of RFC 8017, 3.2: [p] and [q] the primes, [dp] and [dq] their exponents, [qinv] the coefficient. *)
Definition rsa_private_form (num : json -> string -> Z -> Prop) (v : json) (size n e d p q dp dq qinv : Z) : Prop :=
  (exists w, holds v "publicKey" w /\ json_ok w /\ rsa_public_form num w size n e) /\ num v "privateExponent"%string d /\
  num v "primeP"%string p /\ num v "primeQ"%string q /\ num v "primeExponentP"%string dp /\ num v "primeExponentQ"%string dq /\
  num v "crtCoefficient"%string qinv /\ holds v "size" (JInt size).
Definition dsa_public_form (num : json -> string -> Z -> Prop) (v : json) (p q g y : Z) : Prop :=
  num v "p"%string p /\ num v "q"%string q /\ num v "g"%string g /\ num v "y"%string y /\ holds v "size" (JInt 1024).
Definition dsa_private_form (num : json -> string -> Z -> Prop) (v : json) (p q g y x : Z) : Prop :=
  (exists w, holds v "publicKey" w /\ json_ok w /\ dsa_public_form num w p q g y) /\ num v "x"%string x /\ holds v "size" (JInt 1024).

(** *** Reading *)
Lemma holds_get v name w : holds v name w -> get v name = Ok w.
Proof.
  intros (m & -> & HI & HU). cbn [get]. destruct (last_member m (tx name)) as [w'|] eqn:E.
  - apply last_member_In in E. rewrite (HU w' E). reflexivity.
  - apply last_member_None in E. exfalso. apply E. change (tx name) with (fst (tx name, w)). apply in_map. exact HI.
Qed.
Lemma holds_str v name s : holds v name (JStr s) -> get_str v name = Ok s.
Proof. intros H. unfold get_str. rewrite (holds_get _ _ _ H). reflexivity. Qed.
Lemma holds_int v name n : holds v name (JInt n) -> get_int v name = Ok n.
Proof. intros H. unfold get_int. rewrite (holds_get _ _ _ H). reflexivity. Qed.
Lemma holds_b64 v name s : holds v name (b64 s) -> get_b64 v name = Ok s.
Proof. intros H. unfold get_b64. rewrite (holds_str _ _ _ H). cbn [bind]. apply base64_roundtrip_u. Qed.
Lemma base256_val s : BytesToLong s = base256 s.
Proof. apply C05_big_endian. Qed.

Theorem C64_reads_hmac : forall s v hb, json_text s v -> hmac_form v hb ->
  exists k, ReadKey HMAC_SHA1 s = Ok (KHmac k) /\ hmac_bytes k = Ok hb /\ hk_size k = 256.
Proof.
  intros s v hb L [H1 H2]. apply loads_grammar in L. unfold ReadKey, HmacKey_Read. rewrite L. cbn [bind]. rewrite (holds_str _ _ _ H1), (holds_int _ _ _ H2). cbn [bind].
  eexists. split; [reflexivity|]. split; [unfold hmac_bytes; cbn [hk_string HmacKey_new]; apply base64_roundtrip_u | reflexivity].
Qed.
Print Assumptions C64_reads_hmac.

Theorem C64_reads_aes : forall s v size kb hb, json_text s v -> In size [128; 192; 256] -> aes_form v size kb hb ->
  exists k, ReadKey AES s = Ok (KAes k) /\ ak_size k = size /\ aes_material k kb hb.
Proof.
  intros s v size kb hb L HS (H1 & H2 & H3 & h & H4 & H5 & H6). apply loads_grammar in L. unfold ReadKey, AesKey_Read. rewrite L. cbn [bind]. rewrite (holds_get _ _ _ H4). cbn [bind].
  rewrite (holds_str _ _ _ H3), (holds_str _ _ _ H5), (holds_int _ _ _ H6), (holds_int _ _ _ H2), (holds_str _ _ _ H1). cbn [bind].
  change (GetMode (tx "CBC")) with (Ok CBC). cbn [bind AesKey_new]. eexists. split; [reflexivity|]. split.
  - cbn [ak_size]. apply set_size_valid. destruct HS as [<-|[<-|[<-|[]]]]; reflexivity.
  - split; [unfold aes_bytes; cbn [ak_string]; apply base64_roundtrip_u|]. unfold hmac_bytes. cbn [ak_hmac hk_string HmacKey_new]. apply base64_roundtrip_u.
Qed.
Print Assumptions C64_reads_aes.

Lemma rsa_size_ok t size : In size rsa_sizes -> t = RSA_PUB \/ t = RSA_PRIV -> set_size t size = size.
Proof. intros H [-> | ->]; apply set_size_valid; unfold rsa_sizes in H; cbn in H; intuition (subst; reflexivity). Qed.

Theorem C64_reads_rsa_public : forall s v size n e, json_text s v -> In size rsa_sizes -> rsa_public_form number_member v size n e ->
  exists k, ReadKey RSA_PUB s = Ok (KRsaPub k) /\ rp_size k = size /\ rp_key k = MkRsaPubNums n e.
Proof.
  intros s v size n e L HS ((sn & H1 & <-) & (se & H2 & <-) & H3). apply loads_grammar in L. unfold ReadKey, RsaPublicKey_Read. rewrite L. cbn [bind].
  rewrite (holds_b64 _ _ _ H1), (holds_b64 _ _ _ H2), (holds_int _ _ _ H3). cbn [bind]. eexists. split; [reflexivity|]. unfold RsaPublicKey_new. cbn [rp_size rp_key].
  rewrite !base256_val. split; [apply rsa_size_ok; tauto | reflexivity].
Qed.
Print Assumptions C64_reads_rsa_public.

(** A file with the values of RFC 8017 is read to a valid key pair (so C19 and C20 apply to it). *)
Theorem C64_reads_rsa_private : forall s v size n e d p q dp dq qinv, json_text s v -> In size rsa_sizes ->
  rsa_private_form number_member v size n e d p q dp dq qinv ->
  prime p -> prime q -> 2 < p -> 2 < q -> p <> q -> n = p * q -> 2 ^ (size - 1) <= n < 2 ^ size -> 0 < e -> 0 < d ->
  (e * d) mod (p - 1) = 1 -> (e * d) mod (q - 1) = 1 -> (q * qinv) mod p = 1 ->
  exists k, ReadKey RSA_PRIV s = Ok (KRsaPriv k) /\ rsa_key_ok size k /\ rn_pub (rs_key k) = MkRsaPubNums n e /\ rn_d (rs_key k) = d.
Proof.
  intros s v size n e d p q dp dq qinv L HS F Pp Pq Hp Hq NE En Hn He Hd Ep Eq Hu. apply loads_grammar in L.
  destruct F as ((w & HW & OW & (sn & M1 & M1') & (se & M2 & M2') & M3) & (sd & H1 & H1') & (sp & H2 & H2') & (sq & H3 & H3') & (sdp & H4 & _) & (sdq & H5 & _) & (su & H6 & H6') & H7).
  unfold ReadKey, RsaPrivateKey_Read. rewrite L. cbn [bind]. rewrite (holds_get _ _ _ HW). cbn [bind].
  unfold RsaPublicKey_Read. rewrite (loads_dumps w OW). cbn [bind]. rewrite (holds_b64 _ _ _ M1), (holds_b64 _ _ _ M2), (holds_int _ _ _ M3). cbn [bind].
  rewrite (holds_b64 _ _ _ H1), (holds_b64 _ _ _ H2), (holds_b64 _ _ _ H3), (holds_b64 _ _ _ H4), (holds_b64 _ _ _ H5), (holds_b64 _ _ _ H6), (holds_int _ _ _ H7). cbn [bind].
  unfold RsaPublicKey_new. cbn [rp_modulus rp_exponent]. rewrite !base256_val, M1', M2', H1', H2', H3', H6'. eexists. split; [reflexivity|]. split; [|split; reflexivity].
  split; cbn [rs_key rs_pub rs_size rp_key rp_size rn_pub rn_n rn_e rn_d rn_p rn_q rn_u]; [|reflexivity | apply rsa_size_ok; tauto | apply rsa_size_ok; tauto].
  assert (S0 : 0 < size) by (unfold rsa_sizes in HS; cbn in HS; intuition lia). split; try assumption.
  - intros C. apply NE. symmetry. exact C.
  - rewrite Z.mul_comm. exact En.
  - split; [rewrite <- H6'; rewrite <- base256_val, BytesToLong_val; apply be_val_bound | rewrite Z.mul_comm; exact Hu].
Qed.
Print Assumptions C64_reads_rsa_private.

Theorem C64_reads_dsa_public : forall s v p q g y, json_text s v -> dsa_public_form number_member v p q g y ->
  exists k, ReadKey DSA_PUB s = Ok (KDsaPub k) /\ dp_key k = MkDsaPubNums y g p q /\ dp_size k = 1024.
Proof.
  intros s v p q g y L ((sp & H1 & <-) & (sq & H2 & <-) & (sg & H3 & <-) & (sy & H4 & <-) & H5). apply loads_grammar in L. unfold ReadKey, DsaPublicKey_Read. rewrite L. cbn [bind].
  rewrite (holds_b64 _ _ _ H1), (holds_b64 _ _ _ H2), (holds_b64 _ _ _ H3), (holds_b64 _ _ _ H4), (holds_int _ _ _ H5). cbn [bind]. eexists. split; [reflexivity|].
  cbn [dp_key dp_size]. rewrite !base256_val. split; reflexivity.
Qed.
Print Assumptions C64_reads_dsa_public.

Theorem C64_reads_dsa_private : forall s v p q g y x, json_text s v -> dsa_private_form number_member v p q g y x ->
  exists k, ReadKey DSA_PRIV s = Ok (KDsaPriv k) /\ dn_pub (ds_key k) = MkDsaPubNums y g p q /\ dn_x (ds_key k) = x /\ ds_size k = 1024 /\
    (dsa_pair p q g y x -> dsa_key_ok k).
Proof.
  intros s v p q g y x L ((w & HW & OW & (sp & H1 & E1) & (sq & H2 & E2) & (sg & H3 & E3) & (sy & H4 & E4) & H5) & (sx & H6 & E6) & H7). apply loads_grammar in L.
  unfold ReadKey, DsaPrivateKey_Read. rewrite L. cbn [bind]. rewrite (holds_get _ _ _ HW). cbn [bind]. unfold DsaPublicKey_Read. rewrite (loads_dumps w OW). cbn [bind].
  rewrite (holds_b64 _ _ _ H1), (holds_b64 _ _ _ H2), (holds_b64 _ _ _ H3), (holds_b64 _ _ _ H4), (holds_int _ _ _ H5). cbn [bind].
  rewrite (holds_b64 _ _ _ H6), (holds_int _ _ _ H7). cbn [bind]. eexists. split; [reflexivity|]. cbn [ds_key dn_pub dn_x ds_size dp_p dp_q dp_g dp_y].
  rewrite !base256_val, E1, E2, E3, E4, E6. split; [reflexivity|]. split; [reflexivity|]. split; [reflexivity|]. intros P. split; [exact P | cbn [ds_pub dp_key ds_key dn_pub]; reflexivity].
Qed.
Print Assumptions C64_reads_dsa_private.

(** *** Writing *)
Lemma jobj_holds l name w : NoDup (map fst (map (fun p => (tx (fst p), snd p)) l)) -> In (name, w) l -> holds (jobj l) name w.
Proof.
  intros ND HI. exists (map (fun p => (tx (fst p), snd p)) l). split; [reflexivity|]. assert (H0 : In (tx name, w) (map (fun p : string * json => (tx (fst p), snd p)) l)).
  { apply in_map_iff. exists (name, w). split; [reflexivity | exact HI]. }
  split; [exact H0|]. intros w' H'. apply (last_member_NoDup _ _ _ ND) in H', H0. congruence.
Qed.
Lemma jobj_members l : members_are (jobj l) (map fst l).
Proof. exists (map (fun p => (tx (fst p), snd p)) l). split; [reflexivity|]. rewrite !map_map. apply Permutation_refl. Qed.
Ltac nodup := repeat (apply NoDup_cons; [let H := fresh in intros H; vm_compute in H; intuition discriminate|]); apply NoDup_nil.
Ltac jholds := apply jobj_holds; [cbn [map fst snd]; nodup | cbn [In]; tauto].
Ltac jmembers := match goal with |- members_are (jobj ?l) ?n => exact (jobj_members l) end.

Lemma number_padded v name n : holds v name (jb64 (padded_int n)) -> 0 <= n -> positive_member v name n.
Proof.
  intros H0 H. exists (BigIntToBytes n). split; [exact H0|]. split; [|rewrite <- base256_val, BytesToLong_val; apply BigIntToBytes_val, H].
  pose proof (BigIntToBytes_head n H) as HH. destruct (BigIntToBytes n); [discriminate | intros C; injection C as ->; destruct HH as [HH _]; apply HH; reflexivity].
Qed.
Lemma positive_number v name n : positive_member v name n -> number_member v name n.
Proof.
  intros (s & H & _ & E). exists (x00 :: s). split; [exact H|]. rewrite <- E. rewrite <- !base256_val, !BytesToLong_val. reflexivity.
Qed.

Definition hmac_names : list string := ["hmacKeyString"; "size"]%string.
Definition aes_names : list string := ["mode"; "size"; "aesKeyString"; "hmacKey"]%string.
Definition rsa_public_names : list string := ["modulus"; "publicExponent"; "size"]%string.
Definition rsa_private_names : list string := ["publicKey"; "privateExponent"; "primeP"; "primeQ"; "primeExponentP"; "primeExponentQ"; "crtCoefficient"; "size"]%string.
Definition dsa_public_names : list string := ["p"; "q"; "g"; "y"; "size"]%string.
Definition dsa_private_names : list string := ["publicKey"; "x"; "size"]%string.

Theorem C64_writes_hmac : forall d size k, GenKey d HMAC_SHA1 size = Ok k ->
  exists s v, key_str k = Ok s /\ json_text s v /\ hmac_form v (RandBytes (d_tape d) 32) /\ members_are v hmac_names.
Proof.
  intros d size k H. assert (W : key_wf k) by (apply (GenKey_wf d HMAC_SHA1 size); [exact H | discriminate | discriminate]).
  exists (dumps (key_json k)), (key_json k). split; [apply key_str_eq, W|]. split; [apply loads_grammar, loads_dumps, key_json_ok, W|].
  unfold GenKey in H. destruct (negb _) eqn:EV in H; [discriminate|]. apply Ok_inj in H as <-.
  assert (EZ : (match size with Some s => s | None => default_size HMAC_SHA1 end) = 256).
  { apply negb_false_iff in EV. unfold IsValidSize in EV. cbn [sizes existsb] in EV. rewrite orb_false_r in EV. apply Z.eqb_eq in EV. exact EV. }
  rewrite EZ. cbn [key_json]. unfold hmac_json, HmacKey_Generate. split.
  - split; [|jholds]. apply jobj_holds; [cbn [map fst snd]; nodup|]. right. left. reflexivity.
  - exists (map (fun p : string * json => (tx (fst p), snd p)) [("size"%string, JInt 256); ("hmacKeyString"%string, b64 (RandBytes (d_tape d) 32))]). split; [reflexivity|]. apply perm_swap.
Qed.
Print Assumptions C64_writes_hmac.

Theorem C64_writes_aes : forall d size k, GenKey d AES size = Ok k -> let z := match size with Some z => z | None => 128 end in
  exists s v, key_str k = Ok s /\ json_text s v /\ In z [128; 192; 256] /\
    aes_form v z (RandBytes (d_tape d) (z / 8)) (RandBytes (advance (Z.to_nat (z / 8)) (d_tape d)) 32) /\ members_are v aes_names.
Proof.
  intros d size k H z. assert (W : key_wf k) by (apply (GenKey_wf d AES size); [exact H | discriminate | discriminate]).
  exists (dumps (key_json k)), (key_json k). split; [apply key_str_eq, W|]. split; [apply loads_grammar, loads_dumps, key_json_ok, W|].
  unfold GenKey in H. change (match size with Some s => s | None => default_size AES end) with z in H. destruct (negb _) eqn:EV in H; [discriminate|].
  apply negb_false_iff in EV. unfold AesKey_Generate in H. cbn [AesKey_new bind] in H. apply Ok_inj in H as <-. cbn [key_json]. unfold aes_json. cbn [ak_size ak_string ak_hmac].
  rewrite (set_size_valid AES z EV).
  assert (HZ : In z [128; 192; 256]). { unfold IsValidSize in EV. cbn [sizes existsb] in EV. cbn [In]. lia. }
  split; [exact HZ|]. split; [|jmembers]. split; [apply jobj_holds; [cbn [map fst snd]; nodup | left; reflexivity]|]. split; [jholds|].
  split; [apply jobj_holds; [cbn [map fst snd]; nodup | right; right; left; reflexivity]|]. eexists. split; [apply jobj_holds; [cbn [map fst snd]; nodup | right; right; right; left; reflexivity]|].
  unfold hmac_json, HmacKey_Generate. split; [|jholds]. apply jobj_holds; [cbn [map fst snd]; nodup|]. right. left. reflexivity.
Qed.
Print Assumptions C64_writes_aes.

Lemma rsapub_json_form n e size : 0 <= n -> 0 <= e -> In size rsa_sizes ->
  let v := rsapub_json (RsaPublicKey_new (padded_int n) (padded_int e) (MkRsaPubNums n e) size) in rsa_public_form positive_member v size n e /\ members_are v rsa_public_names.
Proof.
  intros Hn He HS v. subst v. unfold rsapub_json, RsaPublicKey_new. cbn [rp_modulus rp_exponent rp_size]. rewrite (rsa_size_ok RSA_PUB size HS) by tauto. split; [|jmembers].
  split; [apply number_padded; [jholds | exact Hn]|]. split; [apply number_padded; [jholds | exact He] | jholds].
Qed.

(** A generated key is written with the values of RFC 8017; its public half likewise. *)
Theorem C64_writes_rsa : forall dr size k, let nums := d_rsa dr in
  rsa_pair size (rn_n (rn_pub nums)) (rn_e (rn_pub nums)) (rn_d nums) (rn_p nums) (rn_q nums) (rn_u nums) ->
  GenKey dr RSA_PRIV (Some size) = Ok k ->
  exists s v pub sp vp n e d p q dp dq qinv, In size rsa_sizes /\
    key_str k = Ok s /\ json_text s v /\ rsa_private_form positive_member v size n e d p q dp dq qinv /\ members_are v rsa_private_names /\
    public_key k = Ok pub /\ key_str pub = Ok sp /\ json_text sp vp /\ rsa_public_form positive_member vp size n e /\ members_are vp rsa_public_names /\
    prime p /\ prime q /\ n = p * q /\ 2 ^ (size - 1) <= n < 2 ^ size /\ (e * d) mod (p - 1) = 1 /\ (e * d) mod (q - 1) = 1 /\
    dp = d mod (p - 1) /\ dq = d mod (q - 1) /\ (q * qinv) mod p = 1.
Proof.
  intros dr size k nums HP H. destruct HP as [Pp Pq Hp Hq NE En Hbits HS0 He Hd Ep Eq [Hu Hu']].
  assert (Hn : 0 <= rn_n (rn_pub nums)) by (rewrite En; apply Z.mul_nonneg_nonneg; [clear - Hp; lia | clear - Hq; lia]).
  assert (NN : rsa_nonneg (d_rsa dr)).
  { unfold rsa_nonneg. fold nums. repeat split; try assumption; [clear - He; lia | clear - Hd; lia | clear - Hp; lia | clear - Hq; lia]. }
  assert (W : key_wf k) by (apply (GenKey_wf dr RSA_PRIV (Some size)); [exact H | intros _; exact NN | discriminate]).
  unfold GenKey in H. destruct (negb _) eqn:EV in H; [discriminate|]. apply negb_false_iff in EV. apply Ok_inj in H. subst k. fold nums in W |- *.
  assert (HS : In size rsa_sizes). { unfold IsValidSize in EV. cbn [sizes existsb] in EV. unfold rsa_sizes. cbn [In]. lia. }
  set (K := RsaPrivateKey_Generate nums size) in *.
  exists (dumps (key_json (KRsaPriv K))), (key_json (KRsaPriv K)), (KRsaPub (rs_pub K)), (dumps (rsapub_json (rs_pub K))), (rsapub_json (rs_pub K)),
    (rn_n (rn_pub nums)), (rn_e (rn_pub nums)), (rn_d nums), (rn_q nums), (rn_p nums), (rn_d nums mod (rn_q nums - 1)), (rn_d nums mod (rn_p nums - 1)), (rn_u nums).
  destruct (rsapub_json_form (rn_n (rn_pub nums)) (rn_e (rn_pub nums)) size Hn ltac:(clear - He; lia) HS) as [PF PM].
  assert (EPub : RsaPublicKey_new (padded_int (rn_n (rn_pub nums))) (padded_int (rn_e (rn_pub nums))) (MkRsaPubNums (rn_n (rn_pub nums)) (rn_e (rn_pub nums))) size = rs_pub K).
  { unfold K, RsaPrivateKey_Generate. cbn [rs_pub]. f_equal. destruct (rn_pub nums). reflexivity. }
  rewrite EPub in PF, PM.
  split; [exact HS|]. split; [apply key_str_eq, W|]. split; [apply loads_grammar, loads_dumps, key_json_ok, W|]. split; [|split].
  - cbn [key_json]. unfold rsapriv_json. split; [exists (rsapub_json (rs_pub K)); split; [apply jobj_holds; [cbn [map fst snd]; nodup | left; reflexivity] | split; [apply rsapub_json_ok | exact PF]]|].
    unfold K, RsaPrivateKey_Generate. cbn [rs_d rs_primeP rs_primeQ rs_expP rs_expQ rs_crt rs_size rs_pub]. rewrite (rsa_size_ok RSA_PRIV size HS) by tauto.
    assert (0 <= rn_d nums mod (rn_q nums - 1)) by (apply Z.mod_pos_bound; clear - Hq; lia).
    assert (0 <= rn_d nums mod (rn_p nums - 1)) by (apply Z.mod_pos_bound; clear - Hp; lia).
    repeat (split; [apply number_padded; [jholds | first [assumption | clear - Hd Hp Hq; lia]]|]). jholds.
  - cbn [key_json]. unfold rsapriv_json. jmembers.
  - split; [reflexivity|]. split; [reflexivity|]. split; [apply loads_grammar, loads_dumps, rsapub_json_ok|]. split; [exact PF|]. split; [exact PM|].
    split; [exact Pq|]. split; [exact Pp|]. split; [rewrite Z.mul_comm; exact En|]. split; [exact Hbits|]. split; [exact Eq|]. split; [exact Ep|].
    split; [reflexivity|]. split; [reflexivity|]. rewrite Z.mul_comm. exact Hu'.
Qed.
Print Assumptions C64_writes_rsa.

Theorem C64_writes_dsa : forall dr size k p q g y x, d_dsa dr = MkDsaNums (MkDsaPubNums y g p q) x -> 0 <= p -> 0 <= q -> 0 <= g -> 0 <= y -> 0 <= x ->
  GenKey dr DSA_PRIV size = Ok k ->
  exists s v pub sp vp, key_str k = Ok s /\ json_text s v /\ dsa_private_form positive_member v p q g y x /\ members_are v dsa_private_names /\
    public_key k = Ok pub /\ key_str pub = Ok sp /\ json_text sp vp /\ dsa_public_form positive_member vp p q g y /\ members_are vp dsa_public_names.
Proof.
  intros dr size k p q g y x ED Hp Hq Hg Hy Hx H.
  assert (W : key_wf k).
  { apply (GenKey_wf dr DSA_PRIV size); [exact H | discriminate |]. intros _. rewrite ED. unfold dsa_nonneg. cbn [dn_pub dn_y dn_g dn_p dn_q dn_x]. tauto. }
  unfold GenKey in H. destruct (negb _) eqn:EV in H; [discriminate|]. apply negb_false_iff in EV. apply Ok_inj in H. rewrite ED in H. cbn [DsaPrivateKey_Generate dn_pub dn_x] in H.
  assert (EZ : (match size with Some s => s | None => default_size DSA_PRIV end) = 1024).
  { unfold IsValidSize in EV. cbn [sizes existsb] in EV. rewrite orb_false_r in EV. apply Z.eqb_eq in EV. exact EV. }
  unfold DsaPrivateKey_Generate in H. cbn [dn_pub dn_x] in H. rewrite EZ in H. change (set_size DSA_PUB 1024) with 1024 in H. change (set_size DSA_PRIV 1024) with 1024 in H.
  match type of H with KDsaPriv (MkDsaPriv _ ?P _ _) = _ => set (PK := P) in H end.
  assert (PF : dsa_public_form positive_member (dsapub_json PK) p q g y).
  { unfold dsapub_json, PK. cbn [dp_p dp_q dp_g dp_y dp_size]. repeat (split; [apply number_padded; [jholds | assumption]|]). jholds. }
  assert (PM : members_are (dsapub_json PK) dsa_public_names) by (unfold dsapub_json; jmembers).
  exists (dumps (key_json k)), (key_json k), (KDsaPub PK), (dumps (dsapub_json PK)), (dsapub_json PK). split; [apply key_str_eq, W|]. split; [apply loads_grammar, loads_dumps, key_json_ok, W|].
  subst k. cbn [key_json]. unfold dsapriv_json. cbn [ds_pub ds_x ds_size]. split; [|split; [jmembers|]].
  - split; [exists (dsapub_json PK); split; [apply jobj_holds; [cbn [map fst snd]; nodup | left; reflexivity] | split; [apply dsapub_json_ok | exact PF]]|].
    split; [apply number_padded; [jholds | exact Hx] | jholds].
  - split; [reflexivity|]. split; [reflexivity|]. split; [apply loads_grammar, loads_dumps, dsapub_json_ok|]. split; [exact PF | exact PM].
Qed.
Print Assumptions C64_writes_dsa.

(** *** Metadata *)
Definition type_spelling : list (ktype * string) :=
  [(AES, "AES"); (HMAC_SHA1, "HMAC_SHA1"); (DSA_PRIV, "DSA_PRIV"); (DSA_PUB, "DSA_PUB"); (RSA_PRIV, "RSA_PRIV"); (RSA_PUB, "RSA_PUB")]%string.
Definition purpose_spelling : list (purpose * string) :=
  [(DECRYPT_AND_ENCRYPT, "DECRYPT_AND_ENCRYPT"); (ENCRYPT, "ENCRYPT"); (SIGN_AND_VERIFY, "SIGN_AND_VERIFY"); (VERIFY, "VERIFY")]%string.
Definition status_spelling : list (status * string) := [(PRIMARY, "PRIMARY"); (ACTIVE, "ACTIVE"); (INACTIVE, "INACTIVE")]%string.
Definition spelled {A} (table : list (A * string)) (v : json) (name : string) (a : A) : Prop := exists w, In (a, w) table /\ holds v name (JStr (tx w)).
Definition version_form (v : json) (x : kversion) : Prop :=
  holds v "versionNumber" (JInt (v_num x)) /\ spelled status_spelling v "status" (v_status x) /\ holds v "exportable" (JBool (v_export x)).
Definition metadata_form (v : json) (name : text) (p : purpose) (t : ktype) (enc : bool) (vs : list kversion) : Prop :=
  holds v "name" (JStr name) /\ spelled purpose_spelling v "purpose" p /\ spelled type_spelling v "type" t /\ holds v "encrypted" (JBool enc) /\
  exists l, holds v "versions" (JArr l) /\ Forall2 version_form l vs.

Theorem C64_reads_metadata : forall s v name p t enc vs, json_text s v -> metadata_form v name p t enc vs -> NoDup (map v_num vs) ->
  meta_Read s = Ok (MkMeta name p t enc (map (fun x => (v_num x, x)) vs)).
Proof.
  intros s v name p t enc vs L (H1 & (wp & Ip & H2) & (wt & It & H3) & H4 & l & H5 & F) ND. apply loads_grammar in L. unfold meta_Read. rewrite L. cbn [bind].
  rewrite (holds_str _ _ _ H1), (holds_str _ _ _ H2). cbn [bind].
  assert (EP : GetPurpose (tx wp) = Ok p). { cbn [purpose_spelling In] in Ip. intuition (match goal with E : _ = (p, wp) |- _ => injection E as <- <- end; reflexivity). }
  assert (ET : GetType (tx wt) = Ok t). { cbn [type_spelling In] in It. intuition (match goal with E : _ = (t, wt) |- _ => injection E as <- <- end; reflexivity). }
  rewrite EP. cbn [bind]. rewrite (holds_str _ _ _ H3). cbn [bind]. rewrite ET. cbn [bind]. unfold get_bool, get_arr. rewrite (holds_get _ _ _ H4), (holds_get _ _ _ H5). cbn [bind].
  assert (G : forall acc, NoDup (map fst acc ++ map v_num vs) -> add_versions (MkMeta name p t enc acc) l = Ok (MkMeta name p t enc (acc ++ map (fun x => (v_num x, x)) vs))).
  { clear - F. induction F as [|j x l vs V F IH]; intros acc N; cbn [add_versions map]; [rewrite app_nil_r; reflexivity|].
    assert (ER : version_read j = Ok x).
    { destruct V as (V1 & (ws & Is & V2) & V3). unfold version_read. rewrite (holds_int _ _ _ V1), (holds_str _ _ _ V2). cbn [bind].
      assert (ES : GetStatus (tx ws) = Ok (v_status x)).
      { destruct x as [xn xs xe]. cbn [v_status] in *. cbn [status_spelling In] in Is. intuition (match goal with E : _ = (xs, ws) |- _ => injection E as <- <- end; reflexivity). }
      rewrite ES. cbn [bind]. unfold get_bool. rewrite (holds_get _ _ _ V3). cbn [bind]. destruct x. reflexivity. }
    rewrite ER. cbn [bind]. unfold meta_AddVersion. cbn [m_versions m_name m_purpose m_type m_encrypted]. cbn [map] in N.
    assert (EN : assoc Z.eqb acc (v_num x) = None).
    { apply (assoc_None Z.eqb_eq). intros C. apply NoDup_remove_2 in N. apply N, in_or_app. left. exact C. }
    rewrite EN. cbn [fst]. rewrite IH; [rewrite <- app_assoc; reflexivity|]. rewrite map_app, <- app_assoc. exact N. }
  apply (G []). exact ND.
Qed.
Print Assumptions C64_reads_metadata.

Theorem C64_writes_metadata : forall m, text_ok (m_name m) ->
  exists s v, meta_str m = Ok s /\ json_text s v /\ metadata_form v (m_name m) (m_purpose m) (m_type m) (m_encrypted m) (meta_versions m) /\
    members_are v ["name"; "purpose"; "type"; "encrypted"; "versions"]%string.
Proof.
  intros m HN. set (v := meta_json m (map version_json (meta_versions m))). exists (dumps v), v. split; [apply meta_str_eq|]. split.
  { apply loads_grammar, loads_dumps, meta_json_ok; [exact HN|]. apply Forall_map, Forall_forall. intros x _. apply version_json_ok. }
  unfold v, meta_json. split; [|jmembers]. split; [jholds|]. split; [|split; [|split; [jholds|]]].
  - exists (purpose_name (m_purpose m)). split; [destruct (m_purpose m); cbn; tauto | jholds].
  - exists (type_name (m_type m)). split; [destruct (m_type m); cbn; tauto | jholds].
  - eexists. split; [jholds|]. induction (meta_versions m) as [|x l IH]; cbn [map]; constructor; [|exact IH].
    unfold version_json. split; [jholds|]. split; [|jholds]. exists (status_name (v_status x)). split; [destruct (v_status x); cbn; tauto | jholds].
Qed.
Print Assumptions C64_writes_metadata.

(** *** Cases *)
Example C02_rfc4648_case : Base64WSEncode (bs "foob") = bs "Zm9vYg" /\ sextet (bs "foob") 1 = 38 /\ nth_error url_alphabet 38 = Some "m"%byte /\ (1 < List.length (Base64WSEncode (bs "foob")))%nat.
Proof. repeat split; vm_compute; try reflexivity. repeat constructor. Qed.
Example C06_positions_case : BytesToBin [x01; xa0] = bs "0000000110100000" /\ bit [x01; xa0] 7 = 1 /\ (7 < 8 * List.length [x01; xa0])%nat.
Proof. repeat split; vm_compute; try reflexivity. repeat constructor. Qed.
Example C07_format_case : PackMultipleByteArrays (map Some [bs "ab"; bs "c"]) = Ok ([x00; x00; x00; x02; x00; x00; x00; x02] ++ bs "ab" ++ [x00; x00; x00; x01] ++ bs "c").
Proof. reflexivity. Qed.
Example C12_oaep_format_case : exists em, oaep_encode 64 (bs "attack at dawn") (bs "abcdefghijklmnopqrst") = Ok em /\ len (bs "abcdefghijklmnopqrst") = 20.
Proof. destruct (proj1 (C12_oaep_domain 64 (bs "attack at dawn") (bs "abcdefghijklmnopqrst") eq_refl ltac:(lia)) ltac:(cbn; lia)) as (em & H & _). exists (x00 :: em). split; [exact H | reflexivity]. Qed.
(** A file as another implementation writes it: other member order, no blanks, an unknown member. *)
Example C64_case : exists v, json_text (bs "{""size"":256,""comment"":[1,2],""hmacKeyString"":""AQID""}") v /\ hmac_form v [x01; x02; x03].
Proof.
  eexists. split; [apply loads_grammar; vm_compute; reflexivity|]. split; eexists; (split; [reflexivity|]); (split; [vm_compute; tauto|]); intros w' H; vm_compute in H; vm_compute; intuition congruence.
Qed.
Example C64_rsa_case : exists s v n e d p q dp dq qinv, json_text s v /\ rsa_private_form positive_member v 512 n e d p q dp dq qinv /\ prime p /\ prime q /\ n = p * q /\
  2 ^ (512 - 1) <= n < 2 ^ 512 /\ (e * d) mod (p - 1) = 1 /\ (e * d) mod (q - 1) = 1 /\ (q * qinv) mod p = 1.
Proof.
  destruct C19_reread_case as [HS HP].
  destruct (C64_writes_rsa demo_draw 512 (KRsaPriv (RsaPrivateKey_Generate (d_rsa demo_draw) 512)) HP eq_refl) as (s & v & pub & sp & vp & n & e & d & p & q & dp & dq & qinv & H).
  exists s, v, n, e, d, p, q, dp, dq, qinv. tauto.
Qed.
Example C64_metadata_case : exists v, json_text (bs "{""versions"":[{""exportable"":false,""status"":""PRIMARY"",""versionNumber"":7}],""type"":""HMAC_SHA1"",""name"":""k"",""encrypted"":false,""purpose"":""SIGN_AND_VERIFY""}") v /\
  metadata_form v (tx "k") SIGN_AND_VERIFY HMAC_SHA1 false [MkVersion 7 PRIMARY false].
Proof.
  eexists. split; [apply loads_grammar; vm_compute; reflexivity|].
  assert (G : forall m name w, In (tx name, w) m -> (forall w', In (tx name, w') m -> w' = w) -> holds (JObj m) name w).
  { intros m name w H1 H2. exists m. split; [reflexivity|]. split; [exact H1 | exact H2]. }
  split; [apply G; [vm_compute; tauto | intros w' H; vm_compute in H; vm_compute; intuition congruence]|].
  split; [exists "SIGN_AND_VERIFY"%string; split; [cbn; tauto | apply G; [vm_compute; tauto | intros w' H; vm_compute in H; vm_compute; intuition congruence]]|].
  split; [exists "HMAC_SHA1"%string; split; [cbn; tauto | apply G; [vm_compute; tauto | intros w' H; vm_compute in H; vm_compute; intuition congruence]]|].
  split; [apply G; [vm_compute; tauto | intros w' H; vm_compute in H; vm_compute; intuition congruence]|].
  eexists. split; [apply G; [vm_compute; left; reflexivity | intros w' H; vm_compute in H; vm_compute; intuition congruence]|].
  constructor; [|constructor]. split; [apply G; [vm_compute; tauto | intros w' H; vm_compute in H; vm_compute; intuition congruence]|].
  split; [exists "PRIMARY"%string; split; [cbn; tauto | apply G; [vm_compute; tauto | intros w' H; vm_compute in H; vm_compute; intuition congruence]]|].
  apply G; [vm_compute; tauto | intros w' H; vm_compute in H; vm_compute; intuition congruence].
Qed.
