(** * Props_Asym: properties C12-C14 and C19-C21 (OAEP, DER formats, RSA and DSA). *)
From Coq Require Import Strings.String.
From Coq Require Import List ZArith NArith Znumtheory Bool Lia ZifyBool ZifyNat ZifyN.
From Coq.Init Require Import Byte.
From Verif Require Import PyBase PyFacts Base64 Base64Facts Sha1 Util UtilFacts UtilFacts2 ModArith ModFacts
  Primes Json JsonFacts KeyInfo SymKeys SymFacts Der DerFacts AsymSpec AsymKeys AsymFacts Props_Util.
Import ListNotations.
Local Open Scope Z_scope.
Ltac Zify.zify_post_hook ::= idtac.

Lemma xorl_zeros n s : List.length s = n -> xorl (repeat x00 n) s = s.
Proof.
  revert s. induction n as [|n IH]; intros [|b s] H; cbn in H; try lia; [reflexivity|].
  unfold xorl in *. cbn [repeat combine map fst snd]. rewrite bxor_0_l. f_equal. apply IH. lia.
Qed.

(** ** C12 *)
(** What RSA decryption hands to the decoder: PyCrypto converts the encoded block to an
    integer and back, which drops its leading zero bytes. *)
Definition through_bignum (em : str) : str := long_to_bytes (bytes_to_long em).

Lemma through_bignum_split em : exists j, em = repeat x00 j ++ lstrip x00 em /\
  (through_bignum em = lstrip x00 em \/ (through_bignum em = [x00] /\ lstrip x00 em = [])).
Proof.
  unfold through_bignum. rewrite bytes_to_long_eq, BytesToLong_val, long_to_bytes_be.
  destruct (lstrip_decomp x00 em) as (j & Hj). exists j. split; [assumption|].
  destruct (be_val em =? 0) eqn:E; [right | left; reflexivity]. split; [reflexivity|].
  rewrite <- BigIntToBytes_BytesToLong, BytesToLong_val. replace (be_val em) with 0 by lia. reflexivity.
Qed.

(** The encoder accepts exactly the messages that fit, and its block has [k] bytes, the first
    of them zero. *)
Theorem C12_oaep_domain : forall k msg seed, len seed = 20 -> k <= 2 ^ 32 ->
  (len msg <= k - 42 -> exists em, oaep_encode k msg seed = Ok (x00 :: em) /\ len em = k - 1) /\
  (k - 42 < len msg -> oaep_encode k msg seed = Raise KeyczarError).
Proof.
  intros k msg seed Hs Hk. split; intros H.
  - destruct (oaep_encode_ok k msg seed Hs H Hk) as (ms & mdb & mask & smask & _ & _ & _ & _ & HE & L1 & L2 & _).
    exists (ms ++ mdb). split; [assumption|]. rewrite len_app. lia.
  - unfold oaep_encode. change HLEN with 20. replace (k - 2 * 20 - 2 <? len msg) with true by lia. reflexivity.
Qed.
Print Assumptions C12_oaep_domain.

Lemma oaep_roundtrip k msg seed em : len seed = 20 -> k <= 2 ^ 32 ->
  oaep_encode k msg seed = Ok em -> 42 <= len (through_bignum em) ->
  oaep_decode k (through_bignum em) = Ok msg.
Proof.
  intros Hs Hk HE H42.
  assert (Hm : len msg <= k - 42).
  { destruct (Z.le_gt_cases (len msg) (k - 42)) as [L|L]; [assumption|].
    destruct (C12_oaep_domain k msg seed Hs Hk) as [_ HR]. rewrite HR in HE by assumption. discriminate. }
  destruct (through_bignum_split em) as (j & Hj & [E|[E _]]); rewrite E in *; [|cbn in H42; lia].
  destruct (C12_oaep_domain k msg seed Hs Hk) as [HD _]. destruct (HD Hm) as (body & HB & Lb).
  rewrite HB in HE. apply Ok_inj in HE. clear E.
  destruct j as [|j].
  - exfalso. cbn [repeat app] in Hj. pose proof (lstrip_head x00 em) as HH. rewrite <- Hj in HH.
    rewrite <- HE in HH. apply HH. reflexivity.
  - apply (oaep_decode_ok k msg seed em _ (Z.of_nat j)); try assumption; [rewrite HB, HE; reflexivity | lia |].
    rewrite Hj at 1. unfold rep. rewrite Nat2Z.id. reflexivity.
Qed.

(** Decryption recovers the message for every message that fits and every seed, however many
    leading zero bytes were dropped, as long as 42 bytes are left.  Missing for the full C12:
    the blocks with fewer than 42 bytes left (next theorems). *)
Theorem C12_oaep_roundtrip_partial : forall k msg seed em, len seed = 20 -> k <= 2 ^ 32 ->
  oaep_encode k msg seed = Ok em -> 42 <= len (through_bignum em) ->
  oaep_decode k (through_bignum em) = Ok msg.
Proof. exact oaep_roundtrip. Qed.
Print Assumptions C12_oaep_roundtrip_partial.

(** A block of which fewer than 42 bytes are left is refused, although it was made by the
    encoder.  For the supported key sizes (k >= 64) that takes a block starting with k - 41
    (at least 23) zero bytes: the masked seed is all zero, so the seed is MGF1 of the masked
    data block. *)
Theorem C12_when_it_fails : forall k msg seed em, len seed = 20 -> 64 <= k <= 2 ^ 32 ->
  oaep_encode k msg seed = Ok em -> len (through_bignum em) < 42 ->
  oaep_decode k (through_bignum em) = Raise KeyczarError /\
  (exists rest, em = repeat x00 (Z.to_nat (k - 41)) ++ rest) /\
  (exists mdb mask, em = repeat x00 21 ++ mdb /\ MGF mdb 20 = Ok mask /\ seed = mask).
Proof.
  intros k msg seed em Hs Hk HE Hl.
  split. { unfold oaep_decode. change HLEN with 20. replace (_ <? _) with true by lia. reflexivity. }
  assert (Hm : len msg <= k - 42).
  { destruct (Z.le_gt_cases (len msg) (k - 42)) as [L|L]; [assumption|].
    destruct (C12_oaep_domain k msg seed Hs ltac:(lia)) as [_ HR]. rewrite HR in HE by assumption. discriminate. }
  destruct (oaep_encode_ok k msg seed Hs Hm ltac:(lia)) as (ms & mdb & mask & smask & _ & Emdb & E2 & Ems & HE' & L1 & L2 & L3 & L4).
  rewrite HE' in HE. apply Ok_inj in HE.
  assert (Z0 : exists rest, em = repeat x00 (Z.to_nat (k - 41)) ++ rest).
  { destruct (through_bignum_split em) as (j & Hj & HT).
    assert (HL : len (lstrip x00 em) <= 41).
    { destruct HT as [E|[_ E]]; [rewrite E in Hl; lia | rewrite E; cbn; lia]. }
    assert (len em = k) by (rewrite <- HE, len_cons, len_app; lia).
    apply (f_equal len) in Hj as Hlen. rewrite len_app in Hlen.
    assert (len (repeat x00 j) = Z.of_nat j) by (unfold len; rewrite repeat_length; reflexivity).
    exists (repeat x00 (j - Z.to_nat (k - 41)) ++ lstrip x00 em). rewrite app_assoc, <- repeat_app.
    replace (Z.to_nat (k - 41) + (j - Z.to_nat (k - 41)))%nat with j by lia. assumption. }
  split; [assumption|]. destruct Z0 as (rest & Z0).
  assert (Hms : ms = repeat x00 20).
  { rewrite <- HE in Z0. replace (Z.to_nat (k - 41)) with (1 + (20 + Z.to_nat (k - 62)))%nat in Z0 by lia.
    rewrite !repeat_app, <- !app_assoc in Z0. change (x00 :: ms ++ mdb) with (repeat x00 1 ++ ms ++ mdb) in Z0.
    apply app_inv_head in Z0.
    apply app_inv_len in Z0 as [Z0 _]; [assumption|]. rewrite L1. reflexivity. }
  exists mdb, smask. split; [|split; [assumption|]].
  - rewrite <- HE, Hms. reflexivity.
  - assert (X : Xor (Xor seed smask) smask = seed) by (apply Xor_cancel; lia).
    rewrite <- Ems, Hms in X. rewrite <- X. rewrite Xor_same by (rewrite L4; reflexivity).
    apply xorl_zeros. unfold len in L4. lia.
Qed.
Print Assumptions C12_when_it_fails.

(** Refuted for "every modulus length": with a 42-byte modulus the empty message is encoded
    but no seed lets it be decoded. *)
Theorem C12_42_byte_modulus_refuted : forall seed, len seed = 20 ->
  exists em, oaep_encode 42 [] seed = Ok em /\ oaep_decode 42 (through_bignum em) = Raise KeyczarError.
Proof.
  intros seed Hs. destruct (C12_oaep_domain 42 [] seed Hs ltac:(lia)) as [HD _].
  destruct (HD ltac:(cbn; lia)) as (em & HE & HL). eexists. split; [exact HE|].
  assert (len (through_bignum (x00 :: em)) < 42).
  { destruct (through_bignum_split (x00 :: em)) as (j & Hj & [E|[E _]]); rewrite E; [|cbn; lia].
    clear - HL. cbn [lstrip]. change (beqb x00 x00) with true. cbn iota.
    destruct (lstrip_decomp x00 em) as (j & Hj). apply (f_equal len) in Hj. rewrite len_app in Hj.
    pose proof (len_nonneg (repeat x00 j)). lia. }
  unfold oaep_decode. change HLEN with 20. replace (_ <? _) with true by lia. reflexivity.
Qed.
Print Assumptions C12_42_byte_modulus_refuted.

Example C12_case : exists em,
  oaep_encode 64 (bs "attack at dawn") (bs "abcdefghijklmnopqrst") = Ok em /\ 42 <= len (through_bignum em).
Proof. eexists. split; [vm_compute; reflexivity | vm_compute; discriminate]. Qed.

(** ** C13 *)
Lemma dsa_sig_ok r s : asn1_ok (ASeq [AInt r; AInt s]).
Proof. cbn. tauto. Qed.

Theorem C13_dsa_sig_roundtrip :
  (forall r s sig, MakeDsaSig r s = Ok sig -> ParseDsaSig sig = Ok (r, s)) /\
  (forall r s sig junk, MakeDsaSig r s = Ok sig -> ParseDsaSig (sig ++ junk) = Ok (r, s)) /\
  (forall r s r' s' sig, MakeDsaSig r s = Ok sig -> MakeDsaSig r' s' = Ok sig -> r = r' /\ s = s').
Proof.
  assert (G : forall r s sig junk, MakeDsaSig r s = Ok sig -> ParseDsaSig (sig ++ junk) = Ok (r, s)).
  { intros r s sig junk H. unfold MakeDsaSig in H. unfold ParseDsaSig.
    rewrite (decode_encode _ _ junk (dsa_sig_ok r s) H). reflexivity. }
  split; [|split; [exact G|]].
  - intros r s sig H. rewrite <- (app_nil_r sig). apply G. assumption.
  - intros r s r' s' sig H H'. pose proof (G r s sig [] H) as E. rewrite (G r' s' sig [] H') in E.
    apply Ok_inj in E. apply pair_inj in E as [-> ->]. split; reflexivity.
Qed.
Print Assumptions C13_dsa_sig_roundtrip.

(** [MakeDsaSig] succeeds for all integers of up to 2^60 bytes. *)
Lemma len_nat_octets n k : 0 <= n < 256 ^ k -> 0 <= k -> len (nat_octets n) <= k + 1.
Proof.
  intros Hn Hk. unfold nat_octets. pose proof (proj2 (len_bound_BigInt n k ltac:(lia) Hk) ltac:(lia)) as L.
  destruct (BigIntToBytes n) as [|b t]; [cbn; lia|]. destruct (128 <=? ord b); rewrite ?len_cons in *; lia.
Qed.
Lemma len_int_octets z k : - 256 ^ k <= z < 256 ^ k -> 0 <= k -> len (int_octets z) <= k + 1.
Proof.
  intros Hz Hk. unfold int_octets. destruct (z <? 0) eqn:E; rewrite ?len_map; apply len_nat_octets; lia.
Qed.
Lemma encode_length_ok n : 0 <= n < 256 ^ 126 -> exists l, encode_length n = Ok l /\ len l <= 127.
Proof.
  intros Hn. unfold encode_length. destruct (n <? 128); [eexists; split; [reflexivity | cbn; lia]|].
  cbv zeta. pose proof (proj2 (len_bound_BigInt n 126 ltac:(lia) ltac:(lia)) ltac:(lia)) as L.
  replace (126 <? len (BigIntToBytes n)) with false by lia. eexists. split; [reflexivity|].
  rewrite len_cons. lia.
Qed.
Lemma tlv_ok tag body : len body < 256 ^ 126 -> exists e, tlv tag body = Ok e /\ len e <= len body + 128.
Proof.
  intros H. destruct (encode_length_ok (len body)) as (l & E & L); [pose proof (len_nonneg body); lia|].
  unfold tlv. rewrite E. cbn [bind]. eexists. split; [reflexivity|]. rewrite len_cons, len_app. lia.
Qed.

Theorem C13_make_total : forall k r s, 0 <= k <= 2 ^ 60 -> - 256 ^ k <= r < 256 ^ k -> - 256 ^ k <= s < 256 ^ k ->
  exists sig, MakeDsaSig r s = Ok sig.
Proof.
  intros k r s Hk Hr Hs. unfold MakeDsaSig. rewrite encode_ASeq. cbn [encode_list encode].
  apply len_int_octets in Hr; [|clear - Hk; lia]. apply len_int_octets in Hs; [|clear - Hk; lia].
  assert (B : 2 ^ 62 < 256 ^ 126) by (vm_compute; reflexivity).
  change (2 ^ 60) with 1152921504606846976 in Hk. change (2 ^ 62) with 4611686018427387904 in B.
  destruct (tlv_ok x02 (int_octets r)) as (er & Er & Lr); [eapply Z.lt_trans; [|exact B]; lia|].
  destruct (tlv_ok x02 (int_octets s)) as (es & Es & Ls); [eapply Z.lt_trans; [|exact B]; lia|].
  rewrite Er, Es. cbn [bind]. destruct (tlv_ok x30 (er ++ es ++ [])) as (e & E & _).
  - rewrite !len_app, len_nil. eapply Z.lt_trans; [|exact B]; lia.
  - exists e. assumption.
Qed.
Print Assumptions C13_make_total.

(** Refuted part: a malformed signature does not make Verify return False; here the empty
    signature, and two OCTET STRINGs instead of integers. *)
Theorem C13_malformed_raises_refuted : forall k msg,
  DsaPublicKey_Verify k msg [] = Raise PyAsn1Error /\
  DsaPublicKey_Verify k msg [x04; x02; x61; x62] = Raise AttributeError /\
  DsaPublicKey_Verify k msg [x30; x04; x04; x00; x04; x00] = Raise TypeError.
Proof. intros k msg. repeat split; reflexivity. Qed.
Print Assumptions C13_malformed_raises_refuted.

(** What holds: Verify returns True only for a sequence of two integers; any other outcome is
    False or an exception of a fixed set. *)
Theorem C13_only_two_integers_verify : forall k msg sig, DsaPublicKey_Verify k msg sig = Ok true ->
  exists r s rest, decode sig = Ok (ASeq [AInt r; AInt s], rest) /\ 0 < r < dn_q (dp_key k) /\ 0 < s < dn_q (dp_key k).
Proof.
  intros k msg sig. unfold DsaPublicKey_Verify, ParseDsaSig.
  destruct (decode sig) as [[v rest]|e]; cbn [bind fst]; [|destruct (is_keyczar_error e); discriminate].
  destruct v as [z|b|s| |a|l]; cbn [asn1_len bind getComponent]; try discriminate;
    try (destruct (negb _); discriminate).
  destruct (negb (len l =? 2)) eqn:E; [discriminate|].
  assert (L : List.length l = 2%nat) by (unfold len in E; lia).
  destruct l as [|a [|b [|]]]; cbn in L; try lia. cbn.
  destruct a as [r| | | | |]; cbn; try discriminate. destruct b as [s| | | | |]; cbn; try discriminate.
  intros H. apply Ok_inj in H. exists r, s, rest. split; [reflexivity|].
  unfold dsa_verify in H. destruct (dp_key k) as [y g p q]. cbn [dn_q].
  destruct ((r <=? 0) || (q <=? r) || (s <=? 0) || (q <=? s)) eqn:B; [discriminate|]. lia.
Qed.
Print Assumptions C13_only_two_integers_verify.

Example C13_case : exists sig, MakeDsaSig 1208925819614629174706176 (-129) = Ok sig /\ len sig = 19.
Proof. eexists. split; vm_compute; reflexivity. Qed.

(** ** C14 *)
(** [d] has every parameter in [names]. *)
Definition has_params (names : list string) (d : params) : Prop := forall n, In n names -> exists z, param d n = Ok z.
(** [d'] has exactly the parameters in [names], with the values of [d]. *)
Definition same_params (names : list string) (d d' : params) : Prop :=
  map fst d' = names /\ forall n, In n names -> param d' n = param d n.

Lemma export_ints d names l : mapM (fun n => let* z := param d n in Ok (AInt z)) names = Ok l ->
  exists zs, l = map AInt zs /\ Forall2 (fun n z => param d n = Ok z) names zs.
Proof.
  revert l. induction names as [|n names IH]; intros l H; cbn [mapM] in H.
  - apply Ok_inj in H as <-. exists []. split; [reflexivity | constructor].
  - apply bind_Ok in H as (v & Hv & H). apply bind_Ok in Hv as (z & Hz & Hv). apply Ok_inj in Hv as <-.
    apply bind_Ok in H as (l' & Hl & H). apply Ok_inj in H as <-. destruct (IH l' Hl) as (zs & -> & F).
    exists (z :: zs). split; [reflexivity | constructor; assumption].
Qed.

Lemma read_params_ints names zs pre : List.length zs = List.length names ->
  read_params names (pre ++ map AInt zs) (List.length pre) = Ok (combine names zs).
Proof.
  intros HL. unfold read_params.
  assert (G : forall k n1 n2 z1 z2, k = List.length n1 -> List.length z1 = List.length n1 ->
     List.length z2 = List.length n2 -> names = n1 ++ n2 -> zs = z1 ++ z2 ->
     mapM (fun i => let* v := item (pre ++ map AInt zs) (i + List.length pre) in
                    let* z := asn1_int v in Ok (nth i names EmptyString, z)) (seq k (List.length n2))
     = Ok (combine n2 z2)).
  { intros k n1 n2. revert k n1. induction n2 as [|n n2 IH]; intros k n1 z1 z2 Hk H1 H2 En Ez; [reflexivity|].
    destruct z2 as [|z z2]; [discriminate|]. cbn [List.length seq mapM].
    unfold item at 1. rewrite nth_error_app2 by lia.
    replace (k + List.length pre - List.length pre)%nat with k by lia.
    assert (En1 : nth_error (map AInt zs) k = Some (AInt z)).
    { rewrite Ez, map_app, nth_error_app2 by (rewrite map_length; lia). rewrite map_length.
      replace (k - List.length z1)%nat with 0%nat by lia. reflexivity. }
    rewrite En1. cbn [bind asn1_int].
    assert (En2 : nth k names EmptyString = n).
    { rewrite En, app_nth2 by lia. replace (k - List.length n1)%nat with 0%nat by lia. reflexivity. }
    rewrite En2. rewrite (IH (S k) (n1 ++ [n]) (z1 ++ [z]) z2).
    - reflexivity.
    - rewrite app_length. cbn. lia.
    - rewrite !app_length. cbn. lia.
    - cbn in H2. lia.
    - rewrite <- app_assoc. assumption.
    - rewrite <- app_assoc. assumption. }
  apply (G 0%nat [] names [] zs); auto.
Qed.

Lemma Forall2_combine_params d names zs : NoDup names -> Forall2 (fun n z => param d n = Ok z) names zs ->
  same_params names d (combine names zs).
Proof.
  intros ND F. split.
  - clear ND. induction F; cbn; [reflexivity | f_equal; assumption].
  - intros n Hn. revert ND. induction F as [|m z names zs E F IH]; intros ND; [destruct Hn|].
    cbn [combine param]. destruct (String.eqb m n) eqn:EB.
    + apply String.eqb_eq in EB. subst. symmetry. assumption.
    + apply String.eqb_neq in EB. destruct Hn as [->|Hn]; [contradiction|]. inversion ND; subst. apply IH; assumption.
Qed.

Lemma Forall2_len {A B} (P : A -> B -> Prop) l l' : Forall2 P l l' -> List.length l' = List.length l.
Proof. induction 1; cbn; lia. Qed.

Lemma ints_ok zs : asn1_ok (ASeq (map AInt zs)).
Proof. cbn. induction zs; cbn; [exact I | split; [exact I | assumption]]. Qed.

Lemma nodup_rsa : NoDup RSA_PARAMS.
Proof. repeat (constructor; [cbn; intuition discriminate|]). constructor. Qed.
Lemma nodup_dsa : NoDup DSA_PARAMS.
Proof. repeat (constructor; [cbn; intuition discriminate|]). constructor. Qed.

Lemma rsa_alg_ok : asn1_ok (ASeq [AOid RSA_OID; ANull]).
Proof. cbn. repeat split; try lia; try exact I. repeat constructor; lia. Qed.
Lemma dsa_alg_ok zs : asn1_ok (ASeq [AOid DSA_OID; ASeq (map AInt zs)]).
Proof.
  pose proof (ints_ok zs) as H. cbn in H |- *. repeat split; try lia; try exact I; [|exact H]. repeat constructor; lia.
Qed.

(** Exported PKCS#8 parameters come back unchanged. *)
Theorem C14_rsa_pkcs8_roundtrip : forall d s, ExportRsaPkcs8 d = Ok s ->
  exists d', ParsePkcs8 s = Ok d' /\ same_params RSA_PARAMS d d'.
Proof.
  intros d s H. unfold ExportRsaPkcs8 in H.
  apply bind_Ok in H as (ks & Hks & H). apply bind_Ok in H as (oct & Ho & H). apply bind_Ok in H as (e & He & H).
  apply Ok_inj in H as <-. destruct (export_ints d RSA_PARAMS ks Hks) as (zs & -> & F).
  exists (combine RSA_PARAMS zs). split; [|apply Forall2_combine_params; [apply nodup_rsa | assumption]].
  unfold ParsePkcs8, b64d. rewrite base64_roundtrip. cbn [bind].
  assert (OK1 : asn1_ok (ASeq [AInt 0; ASeq [AOid RSA_OID; ANull]; AOctet oct])).
  { pose proof rsa_alg_ok as A. cbn in A |- *. tauto. }
  rewrite (decode_encode' _ _ OK1 He). cbn [bind fst].
  rewrite ParseASN1Sequence_ASeq. cbn [bind item nth_error].
  change (negb (len [AInt 0; ASeq [AOid RSA_OID; ANull]; AOctet oct] =? 3)) with false.
  cbn [item nth_error bind asn1_int]. change (negb (0 =? 0)) with false. cbn iota.
  rewrite ParseASN1Sequence_ASeq. cbn [bind unpack2 decode_octet].
  rewrite (decode_encode' (ASeq (map AInt (0 :: zs))) oct (ints_ok _) Ho). cbn [bind fst].
  change (oid_is (AOid RSA_OID) RSA_OID) with true. cbn iota.
  rewrite ParseASN1Sequence_ASeq. cbn [bind map item nth_error asn1_int].
  change (negb (0 =? 0)) with false. cbn iota.
  apply (read_params_ints RSA_PARAMS zs [AInt 0]). apply (Forall2_len _ _ _ F).
Qed.
Print Assumptions C14_rsa_pkcs8_roundtrip.

Definition DSA_PRIV_PARAMS : list string := DSA_PARAMS ++ ["x"%string].
Definition DSA_PUB_PARAMS : list string := DSA_PARAMS ++ ["y"%string].

Lemma same_params_snoc d names zs last z : ~ In last names -> NoDup names ->
  Forall2 (fun n z => param d n = Ok z) names zs -> param d last = Ok z ->
  same_params (names ++ [last]) d (combine names zs ++ [(last, z)]).
Proof.
  intros HN ND F HZ.
  assert (E : combine names zs ++ [(last, z)] = combine (names ++ [last]) (zs ++ [z])).
  { clear - F. induction F; cbn; [reflexivity | f_equal; assumption]. }
  rewrite E. apply Forall2_combine_params.
  - apply NoDup_rev in ND. rewrite <- (rev_involutive (names ++ [last])). apply NoDup_rev. rewrite rev_app_distr.
    constructor; [rewrite <- in_rev; assumption | assumption].
  - apply Forall2_app; [assumption | constructor; [assumption | constructor]].
Qed.

Theorem C14_dsa_pkcs8_roundtrip : forall d s, ExportDsaPkcs8 d = Ok s ->
  exists d', ParsePkcs8 s = Ok d' /\ same_params DSA_PRIV_PARAMS d d'.
Proof.
  intros d s H. unfold ExportDsaPkcs8 in H.
  apply bind_Ok in H as (ks & Hks & H). apply bind_Ok in H as (x & Hx & H).
  apply bind_Ok in H as (oct & Ho & H). apply bind_Ok in H as (e & He & H).
  apply Ok_inj in H as <-. destruct (export_ints d DSA_PARAMS ks Hks) as (zs & -> & F).
  exists (combine DSA_PARAMS zs ++ [("x"%string, x)]).
  split; [|apply same_params_snoc; [cbn; intuition discriminate | apply nodup_dsa | assumption | assumption]].
  unfold ParsePkcs8, b64d. rewrite base64_roundtrip. cbn [bind].
  set (alg := ASeq [AOid DSA_OID; ASeq (map AInt zs)]) in *.
  assert (OK1 : asn1_ok (ASeq [AInt 0; alg; AOctet oct])).
  { pose proof (dsa_alg_ok zs) as A. fold alg in A. split; [exact I | split; [exact A | split; exact I]]. }
  rewrite (decode_encode' _ _ OK1 He). cbn [bind fst].
  rewrite ParseASN1Sequence_ASeq. cbn [bind item nth_error].
  change (negb (len [AInt 0; alg; AOctet oct] =? 3)) with false.
  cbn [item nth_error bind asn1_int]. change (negb (0 =? 0)) with false. cbn iota.
  unfold alg. rewrite ParseASN1Sequence_ASeq. cbn [bind unpack2 decode_octet].
  rewrite (decode_encode' (AInt x) oct I Ho). cbn [bind fst snd].
  change (oid_is (AOid DSA_OID) RSA_OID) with false. change (oid_is (AOid DSA_OID) DSA_OID) with true. cbn iota.
  rewrite ParseASN1Sequence_ASeq. cbn [bind].
  pose proof (read_params_ints DSA_PARAMS zs [] (Forall2_len _ _ _ F)) as R. cbn [app List.length] in R.
  rewrite R. reflexivity.
Qed.
Print Assumptions C14_dsa_pkcs8_roundtrip.

Theorem C14_rsa_x509_roundtrip : forall d s, ExportRsaX509 d = Ok s ->
  exists d', ParseX509 s = Ok d' /\ same_params ["n"; "e"]%string d d'.
Proof.
  intros d s H. unfold ExportRsaX509 in H.
  apply bind_Ok in H as (n & Hn & H). apply bind_Ok in H as (e & He & H).
  apply bind_Ok in H as (k & Hk & H). apply bind_Ok in H as (o & Ho & H). apply Ok_inj in H as <-.
  exists [("n"%string, n); ("e"%string, e)]. split.
  - unfold ParseX509, b64d. rewrite base64_roundtrip. cbn [bind].
    assert (OK1 : asn1_ok (ASeq [ASeq [AOid RSA_OID; ANull]; ABits (BytesToBin k)])).
    { pose proof rsa_alg_ok as A. remember (ASeq [AOid RSA_OID; ANull]) as alg. clear - A. cbn.
      split; [assumption|]. split; [exists k; reflexivity | exact I]. }
    rewrite (decode_encode' _ _ OK1 Ho). cbn [bind fst].
    rewrite ParseASN1Sequence_ASeq. cbn [bind].
    change (negb (len [ASeq [AOid RSA_OID; ANull]; ABits (BytesToBin k)] =? 2)) with false.
    cbn [item nth_error bind]. rewrite ParseASN1Sequence_ASeq. cbn [bind unpack2 bits_bytes].
    rewrite BinToBytes_BytesToBin. cbn [bind].
    rewrite (decode_encode' (ASeq (map AInt [n; e])) k (ints_ok _) Hk). cbn [bind fst].
    change (oid_is (AOid RSA_OID) RSA_OID) with true. cbn iota.
    rewrite ParseASN1Sequence_ASeq. reflexivity.
  - split; [reflexivity|]. intros m [<-|[<-|[]]]; [rewrite Hn | rewrite He]; reflexivity.
Qed.
Print Assumptions C14_rsa_x509_roundtrip.

Theorem C14_dsa_x509_roundtrip : forall d s, ExportDsaX509 d = Ok s ->
  exists d', ParseX509 s = Ok d' /\ same_params DSA_PUB_PARAMS d d'.
Proof.
  intros d s H. unfold ExportDsaX509 in H.
  apply bind_Ok in H as (p & Hp & H). apply bind_Ok in H as (q & Hq & H). apply bind_Ok in H as (g & Hg & H).
  apply bind_Ok in H as (y & Hy & H).
  apply bind_Ok in H as (k & Hk & H). apply bind_Ok in H as (o & Ho & H). apply Ok_inj in H as <-.
  exists (combine DSA_PARAMS [p; q; g] ++ [("y"%string, y)]). split.
  2:{ apply same_params_snoc; [cbn; intuition discriminate | apply nodup_dsa | | assumption].
      repeat constructor; assumption. }
  unfold ParseX509, b64d. rewrite base64_roundtrip. cbn [bind].
  assert (OK1 : asn1_ok (ASeq [ASeq [AOid DSA_OID; ASeq (map AInt [p; q; g])]; ABits (BytesToBin k)])).
  { pose proof (dsa_alg_ok [p; q; g]) as A. remember (ASeq [AOid DSA_OID; ASeq (map AInt [p; q; g])]) as alg.
    clear - A. cbn. split; [assumption|]. split; [exists k; reflexivity | exact I]. }
  rewrite (decode_encode' _ _ OK1 Ho). cbn [bind fst].
  rewrite ParseASN1Sequence_ASeq. cbn [bind].
  change (negb (len [ASeq [AOid DSA_OID; ASeq (map AInt [p; q; g])]; ABits (BytesToBin k)] =? 2)) with false.
  cbn [item nth_error bind]. rewrite ParseASN1Sequence_ASeq. cbn [bind unpack2 bits_bytes].
  rewrite BinToBytes_BytesToBin. cbn [bind].
  rewrite (decode_encode' (AInt y) k I Hk). cbn [bind fst snd].
  change (oid_is (AOid DSA_OID) RSA_OID) with false. change (oid_is (AOid DSA_OID) DSA_OID) with true. cbn iota.
  rewrite ParseASN1Sequence_ASeq. reflexivity.
Qed.
Print Assumptions C14_dsa_x509_roundtrip.

Example C14_case : exists s1 s2,
  ExportRsaPkcs8 (combine RSA_PARAMS [10; 200; 128; 127; 2 ^ 100; -5; 0; 77]) = Ok s1 /\
  ExportDsaX509 [("y", 2 ^ 1030); ("p", 7); ("g", -1); ("q", 255)]%string = Ok s2.
Proof. eexists. eexists. split; vm_compute; reflexivity. Qed.

(** ** C19 *)
(** A private key object whose numbers are a valid pair of [size] bits and whose public half
    has the matching public numbers. *)
Record rsa_key_ok (size : Z) (k : rsapriv) : Prop := {
  rko_pair : rsa_pair size (rn_n (rn_pub (rs_key k))) (rn_e (rn_pub (rs_key k))) (rn_d (rs_key k))
                      (rn_p (rs_key k)) (rn_q (rs_key k)) (rn_u (rs_key k));
  rko_pub : rp_key (rs_pub k) = rn_pub (rs_key k);
  rko_size : rs_size k = size;
  rko_psize : rp_size (rs_pub k) = size }.

Lemma rsa_sizes_256 size : In size rsa_sizes -> 2 ^ size = 256 ^ (size / 8) /\ 2 ^ (size - 1) = 128 * 256 ^ (size / 8 - 1) /\ 64 <= size / 8 <= 512.
Proof.
  intros H. unfold rsa_sizes in H. cbn [In] in H.
  destruct H as [<- | [<- | [<- | [<- | [<- | []]]]]]; (split; [vm_compute; reflexivity|]); (split; [vm_compute; reflexivity|]); vm_compute; split; discriminate.
Qed.

Lemma num_bytes_size size n : In size rsa_sizes -> 2 ^ (size - 1) <= n < 2 ^ size ->
  num_bytes n = size / 8 /\ 256 ^ (size / 8 - 1) <= n.
Proof.
  intros HS Hn. destruct (rsa_sizes_256 size HS) as (E1 & E2 & HK). rewrite E1, E2 in Hn.
  set (k := size / 8) in *. clearbody k.
  assert (P : 0 < 256 ^ (k - 1)) by (apply Z.pow_pos_nonneg; lia).
  assert (H0 : 0 <= n) by nia. assert (H1 : 256 ^ (k - 1) <= n) by nia. split; [|assumption].
  unfold num_bytes.
  pose proof (proj2 (len_bound_BigInt n k H0 ltac:(lia)) ltac:(lia)) as L.
  destruct (Z.le_gt_cases (len (BigIntToBytes n)) (k - 1)) as [L2|L2]; [|lia].
  apply len_bound_BigInt in L2; lia.
Qed.

(** Every message that fits is recovered, unless the OAEP block starts with 23 zero bytes
    (C12_when_it_fails); longer messages are refused. *)
Theorem C19_rsa_roundtrip_partial : forall size k r msg, In size rsa_sizes -> rsa_key_ok size k ->
  len msg <= size / 8 - 42 ->
  exists em c, oaep_encode (size / 8) msg (RandBytes r 20) = Ok em /\
    RsaPublicKey_Encrypt (rs_pub k) r msg = Ok c /\
    ((forall rest, em <> repeat x00 23 ++ rest) -> RsaPrivateKey_Decrypt k c = Ok msg).
Proof.
  intros size k r msg HS [HP HB Hs Hps] Hm.
  pose proof (rsa_bits _ _ _ _ _ _ _ HP) as Hbits.
  destruct (num_bytes_size size _ HS Hbits) as [NB Hn].
  destruct (rsa_sizes_256 size HS) as (_ & _ & HK).
  assert (Hseed : len (RandBytes r 20) = 20) by (apply len_RandBytes; lia).
  destruct (C12_oaep_domain (size / 8) msg (RandBytes r 20) Hseed ltac:(lia)) as [HD _].
  destruct (HD Hm) as (body & HE & HL). clear HD.
  set (m := be_val (x00 :: body)).
  assert (Hmb : 0 <= m < 256 ^ (size / 8 - 1)).
  { unfold m. rewrite be_val_cons. change (ord x00) with 0. rewrite <- HL. pose proof (be_val_bound body). lia. }
  assert (Hmn : 0 <= m < rn_n (rn_pub (rs_key k))) by lia.
  destruct (rsa_decrypts size (rs_key k) m HP Hmn) as (c & EC & HC & ED).
  destruct (make_header_ok (PrefixHash [TrimBytes (rp_modulus (rs_pub k)); TrimBytes (rp_exponent (rs_pub k))])
              (len_PrefixHash _)) as (id & EH & Hid & _).
  exists (x00 :: body), ((x00 :: id) ++ long_to_bytes c). split; [assumption|]. split.
  - unfold RsaPublicKey_Encrypt. rewrite HB, NB. change HLEN with 20. rewrite HE. cbn [bind].
    unfold rsa_encrypt_str. rewrite bytes_to_long_eq, BytesToLong_val. fold m. rewrite EC. cbn [bind].
    unfold rsapub_hash_id. rewrite EH. reflexivity.
  - intros HNZ. unfold RsaPrivateKey_Decrypt. cbv zeta.
    rewrite (slice_from_app (x00 :: id)) by (rewrite len_cons, Hid; reflexivity).
    unfold rsa_decrypt_str. rewrite bytes_to_long_eq, BytesToLong_val.
    assert (EL : be_val (long_to_bytes c) = c).
    { unfold long_to_bytes. destruct (c =? 0) eqn:E0.
      - assert (c = 0) by lia. subst. reflexivity.
      - apply BigIntToBytes_val. lia. }
    rewrite EL, ED. cbn [bind]. rewrite NB.
    assert (EM : long_to_bytes m = through_bignum (x00 :: body)).
    { unfold through_bignum. rewrite bytes_to_long_eq, BytesToLong_val. reflexivity. }
    rewrite EM. destruct (Z.le_gt_cases 42 (len (through_bignum (x00 :: body)))) as [L|L].
    + apply (oaep_roundtrip _ msg (RandBytes r 20)); [assumption | lia | assumption | assumption].
    + exfalso. destruct (C12_when_it_fails (size / 8) msg (RandBytes r 20) (x00 :: body) Hseed ltac:(lia) HE L)
        as (_ & (rest & HZ) & _).
      replace (Z.to_nat (size / 8 - 41)) with (23 + (Z.to_nat (size / 8 - 64)))%nat in HZ by lia.
      rewrite repeat_app, <- app_assoc in HZ. apply (HNZ _ HZ).
Qed.
Print Assumptions C19_rsa_roundtrip_partial.

Theorem C19_long_messages_refused : forall size k r msg, In size rsa_sizes -> rsa_key_ok size k ->
  size / 8 - 42 < len msg -> RsaPublicKey_Encrypt (rs_pub k) r msg = Raise KeyczarError.
Proof.
  intros size k r msg HS [HP HB Hs Hps] Hm.
  pose proof (rsa_bits _ _ _ _ _ _ _ HP) as Hbits.
  destruct (num_bytes_size size _ HS Hbits) as [NB Hn].
  destruct (rsa_sizes_256 size HS) as (_ & _ & HK).
  assert (Hseed : len (RandBytes r 20) = 20) by (apply len_RandBytes; lia).
  unfold RsaPublicKey_Encrypt. rewrite HB, NB. change HLEN with 20.
  destruct (C12_oaep_domain (size / 8) msg (RandBytes r 20) Hseed ltac:(lia)) as [_ HR]. rewrite HR by assumption.
  reflexivity.
Qed.
Print Assumptions C19_long_messages_refused.

(** Generated keys and keys read back from their JSON text satisfy [rsa_key_ok]. *)
Theorem C19_generated_keys : forall size nums, In size rsa_sizes ->
  rsa_pair size (rn_n (rn_pub nums)) (rn_e (rn_pub nums)) (rn_d nums) (rn_p nums) (rn_q nums) (rn_u nums) ->
  rsa_key_ok size (RsaPrivateKey_Generate nums size).
Proof.
  intros size nums HS HP.
  assert (V : IsValidSize RSA_PRIV size = true /\ IsValidSize RSA_PUB size = true).
  { unfold rsa_sizes in HS. cbn [In] in HS. destruct HS as [<- | [<- | [<- | [<- | [<- | []]]]]]; split; reflexivity. }
  destruct V as [V1 V2].
  constructor; [exact HP | reflexivity | |]; cbn [RsaPrivateKey_Generate rs_size rs_pub rp_size RsaPublicKey_new];
    unfold set_size; rewrite ?V1, ?V2; reflexivity.
Qed.
Print Assumptions C19_generated_keys.

(** A concrete 512-bit pair. *)
Definition demo_rsa_nums : rsa_nums :=
  MkRsaNums (MkRsaPubNums (P256 * Q256) 65537)
    8861375259066047222366202674120864834868775339946863433429108491678598941297257276377595108508217491855411857342269882107779603117001293993140392162164737
    P256 Q256
    29891051927601708024105054171059065245878399269708584577550131779754992376474.
Definition demo_rsa : rsapriv := RsaPrivateKey_Generate demo_rsa_nums 512.
Lemma demo_rsa_pair : rsa_pair 512 (rn_n (rn_pub demo_rsa_nums)) (rn_e (rn_pub demo_rsa_nums)) (rn_d demo_rsa_nums)
  (rn_p demo_rsa_nums) (rn_q demo_rsa_nums) (rn_u demo_rsa_nums).
Proof.
  constructor; try (vm_compute; reflexivity); try exact P256_prime; try exact Q256_prime.
  - vm_compute. discriminate.
  - split; [vm_compute; discriminate | vm_compute; reflexivity].
  - split; [vm_compute; discriminate | vm_compute; reflexivity].
Qed.
Example C19_case : rsa_key_ok 512 demo_rsa.
Proof. apply C19_generated_keys; [left; reflexivity | exact demo_rsa_pair]. Qed.

(** ** C20 *)
(** [emsa (size/8) (sha1 msg)] is the block of C11. *)
Theorem C20_rsa_verify_characterised : forall size k msg sig, rsa_key_ok size k ->
  RsaPublicKey_Verify (rs_pub k) msg sig = true <->
  (be_val sig < rn_n (rn_pub (rs_key k)) /\
   (be_val sig ^ rn_e (rn_pub (rs_key k))) mod rn_n (rn_pub (rs_key k)) = be_val (emsa (size / 8) (sha1 msg))).
Proof.
  intros size k msg sig [HP HB Hs Hps]. unfold RsaPublicKey_Verify, rsa_verify, rsa_public.
  rewrite HB, Hps, BytesToLong_val, bytes_to_long_eq, BytesToLong_val, (proj1 C11_emsa).
  set (n := rn_n (rn_pub (rs_key k))) in *. set (e := rn_e (rn_pub (rs_key k))) in *.
  assert (Hn : 0 < n).
  { pose proof (rsa_bits _ _ _ _ _ _ _ HP) as [B _]. fold n in B. apply Z.lt_le_trans with (2 ^ (size - 1)); [|assumption].
    apply Z.pow_pos_nonneg; [clear; lia | pose proof (rsa_size _ _ _ _ _ _ _ HP) as S0; clear - S0; lia]. }
  assert (He : 0 <= e) by (pose proof (rsa_e _ _ _ _ _ _ _ HP) as E0; fold e in E0; clear - E0; lia).
  destruct (n <=? be_val sig) eqn:E.
  - split; [discriminate|]. intros [H _]. apply Z.leb_le in E. clear - H E. lia.
  - apply Z.leb_gt in E. rewrite powmod_spec by assumption. rewrite Z.eqb_eq. tauto.
Qed.
Print Assumptions C20_rsa_verify_characterised.

Theorem C20_rsa_sign_verify : forall size k msg, In size rsa_sizes -> rsa_key_ok size k ->
  exists sig, RsaPrivateKey_Sign k msg = Ok sig /\ len sig = size / 8 /\
    RsaPublicKey_Verify (rs_pub k) msg sig = true.
Proof.
  intros size k msg HS [HP HB Hs Hps].
  pose proof (rsa_bits _ _ _ _ _ _ _ HP) as Hbits.
  destruct (num_bytes_size size _ HS Hbits) as [NB Hn].
  destruct (rsa_sizes_256 size HS) as (E256 & _ & HK).
  assert (LE : len (MakeEmsaMessage msg size) = size / 8 - 1) by (apply len_Emsa; lia).
  set (m := be_val (MakeEmsaMessage msg size)).
  assert (Hm : 0 <= m < rn_n (rn_pub (rs_key k))).
  { pose proof (be_val_bound (MakeEmsaMessage msg size)) as B. rewrite LE in B. fold m in B. lia. }
  destruct (rsa_signs size (rs_key k) m HP Hm) as (s & ES & HSr & EV).
  unfold RsaPrivateKey_Sign. rewrite Hs. cbv zeta. rewrite bytes_to_long_eq, BytesToLong_val. fold m.
  rewrite ES. cbn [bind]. eexists. split; [reflexivity|].
  assert (L : len (BigIntToBytes s) <= size / 8).
  { apply len_bound_BigInt; [lia | lia |]. rewrite <- E256. lia. }
  split.
  - rewrite len_PadBytes. lia.
  - unfold RsaPublicKey_Verify. rewrite HB, Hps, BytesToLong_val, PadBytes_val, BigIntToBytes_val by lia.
    unfold rsa_verify. rewrite EV, bytes_to_long_eq, BytesToLong_val. fold m. apply Z.eqb_refl.
Qed.
Print Assumptions C20_rsa_sign_verify.

Example C20_case : rsa_key_ok 512 demo_rsa /\ In 512 rsa_sizes.
Proof. split; [exact C19_case | left; reflexivity]. Qed.

(** ** C21 *)
Record dsa_key_ok (k : dsapriv) : Prop := {
  dko_pair : dsa_pair (dn_p (dn_pub (ds_key k))) (dn_q (dn_pub (ds_key k))) (dn_g (dn_pub (ds_key k)))
                      (dn_y (dn_pub (ds_key k))) (dn_x (ds_key k));
  dko_pub : dp_key (ds_pub k) = dn_pub (ds_key k) }.

(** Verify accepts every signature made by Sign whose r and s are not 0; PyCrypto does not
    retry when one of them is 0, and then Verify rejects. *)
Theorem C21_dsa_sign_verify_partial : forall k z msg sig, dsa_key_ok k ->
  DsaPrivateKey_Sign k z msg = Ok sig ->
  exists r s, MakeDsaSig r s = Ok sig /\
    0 <= r < dn_q (dn_pub (ds_key k)) /\ 0 <= s < dn_q (dn_pub (ds_key k)) /\
    (r <> 0 -> s <> 0 -> DsaPublicKey_Verify (ds_pub k) msg sig = Ok true) /\
    (r = 0 \/ s = 0 -> DsaPublicKey_Verify (ds_pub k) msg sig = Ok false).
Proof.
  intros k z msg sig [HP HB] H. unfold DsaPrivateKey_Sign in H.
  apply bind_Ok in H as (kk & Hk & H). apply bind_Ok in H as ([r s] & Hrs & H). cbn [fst snd] in H.
  destruct (dsa_verify_sign (ds_key k) _ kk r s HP Hrs) as (V & Hr & Hs).
  exists r, s. split; [assumption|]. split; [assumption|]. split; [assumption|].
  assert (E : DsaPublicKey_Verify (ds_pub k) msg sig = Ok (negb ((r =? 0) || (s =? 0)))).
  { unfold DsaPublicKey_Verify. rewrite (proj1 C13_dsa_sig_roundtrip r s sig H). rewrite HB, V. reflexivity. }
  rewrite E. split.
  - intros R0 S0. f_equal. clear - R0 S0. lia.
  - intros RS. f_equal. clear - RS. lia.
Qed.
Print Assumptions C21_dsa_sign_verify_partial.

(** Signing succeeds for every random integer. *)
Theorem C21_dsa_sign_total : forall k z msg b, dsa_key_ok k -> 0 <= b <= 2 ^ 60 ->
  2 < dn_q (dn_pub (ds_key k)) < 256 ^ b ->
  exists sig, DsaPrivateKey_Sign k z msg = Ok sig.
Proof.
  intros k z msg b [HP HB] Hb Hq. unfold DsaPrivateKey_Sign, randint2.
  set (q := dn_q (dn_pub (ds_key k))) in *.
  assert (Hz : 0 <= z mod (q - 2) < q - 2) by (apply Z.mod_pos_bound; clear - Hq; lia).
  assert (E1 : (q - 1 <? 2) = false) by (clear - Hq; lia). rewrite E1. cbn [bind].
  assert (EX : exists r s, dsa_sign (ds_key k) (bytes_to_long (Hash [msg])) (2 + z mod (q - 2)) = Ok (r, s)).
  { unfold dsa_sign. destruct (dn_pub (ds_key k)) as [y g p q'] eqn:EP. cbn [dn_q] in q. subst q.
    assert (E2 : (2 + z mod (q' - 2) <? 2) || (q' <=? 2 + z mod (q' - 2)) = false).
    { revert Hz. generalize (z mod (q' - 2)). clear. intros; lia. }
    rewrite E2. eexists. eexists. reflexivity. }
  destruct EX as (r & s & EX). rewrite EX. cbn [bind fst snd].
  destruct (dsa_verify_sign (ds_key k) _ _ r s HP EX) as (_ & Hr & Hs). fold q in Hr, Hs.
  apply (C13_make_total b); [assumption | |]; split.
  - apply Z.le_trans with 0; [|apply Hr]. apply Z.opp_nonpos_nonneg, Z.pow_nonneg. clear; lia.
  - apply Z.lt_trans with q; [apply Hr | apply Hq].
  - apply Z.le_trans with 0; [|apply Hs]. apply Z.opp_nonpos_nonneg, Z.pow_nonneg. clear; lia.
  - apply Z.lt_trans with q; [apply Hs | apply Hq].
Qed.
Print Assumptions C21_dsa_sign_total.

(** Refuted in general: for every group, message and k for which r and the hash are units
    modulo q there is a private key whose signature is rejected. *)
Theorem C21_zero_signature_refuted : forall p q g M k, dsa_group p q g -> 1 < k < q ->
  M mod q <> 0 -> ((g ^ k) mod p) mod q <> 0 ->
  exists x y r s, dsa_pair p q g y x /\
    dsa_sign (MkDsaNums (MkDsaPubNums y g p q) x) M k = Ok (r, s) /\
    dsa_verify (MkDsaPubNums y g p q) M r s = false.
Proof.
  intros p q g M k HG Hk HM Hr. pose proof HG as [Pp Pq Hg Ho].
  set (r := ((g ^ k) mod p) mod q) in *.
  assert (Hq : 1 < q) by (clear - Hk; lia).
  assert (Rr : 0 <= r < q) by (unfold r; apply Z.mod_pos_bound; clear - Hk; lia).
  set (i := inverse r q).
  assert (Ir : 0 < r < q) by (clear - Rr Hr; lia).
  destruct (inverse_ok r q) as [Hi0 Hi]; [clear - Hq; lia | clear - Rr; lia | apply prime_gcd; assumption |]. fold i in Hi, Hi0.
  set (x := (- M * i) mod q).
  assert (Rx : 0 <= x < q) by (unfold x; apply Z.mod_pos_bound; clear - Hk; lia).
  assert (Hz : (M + x * r) mod q = 0).
  { unfold x. rewrite <- Z.add_mod_idemp_r by (clear - Hq; lia). rewrite Z.mul_mod_idemp_l by (clear - Hq; lia).
    rewrite Z.add_mod_idemp_r by (clear - Hq; lia).
    replace (M + - M * i * r) with ((- M) * (i * r - 1)) by ring.
    apply Z.mod_divide; [clear - Hq; lia|]. apply Z.divide_mul_r. assumption. }
  assert (Hx : x <> 0).
  { intros E. rewrite E, Z.mul_0_l, Z.add_0_r in Hz. contradiction. }
  exists x, ((g ^ x) mod p), r, 0. split; [|split].
  - constructor; [assumption | clear - Rx Hx; lia | reflexivity].
  - unfold dsa_sign. cbn [dn_pub dn_x].
    assert (EK : (k <? 2) || (q <=? k) = false) by (clear - Hk; lia). rewrite EK. cbv zeta.
    rewrite powmod_spec by (destruct Pp; clear - Hg Hk; lia). fold r.
    rewrite <- Z.mul_mod_idemp_r by (clear - Hq; lia). rewrite Hz, Z.mul_0_r. reflexivity.
  - unfold dsa_verify. change (0 <=? 0) with true. rewrite orb_true_r. reflexivity.
Qed.
Print Assumptions C21_zero_signature_refuted.

Lemma toy_group : dsa_group 23 11 4.
Proof. constructor; try (apply primeb_ok; vm_compute; reflexivity); [lia | vm_compute; reflexivity]. Qed.
Definition toy_dsa : dsapriv := DsaPrivateKey_Generate (MkDsaNums (MkDsaPubNums 18 4 23 11) 3) 1024.
Example C21_case : dsa_key_ok toy_dsa /\ dsa_group 23 11 4 /\ 1 < 5 < 11 /\ 7 mod 11 <> 0 /\ ((4 ^ 5) mod 23) mod 11 <> 0 /\
  exists sig, DsaPrivateKey_Sign toy_dsa 4 (bs "hello") = Ok sig /\ DsaPublicKey_Verify (ds_pub toy_dsa) (bs "hello") sig = Ok true.
Proof.
  split; [constructor; [constructor; [exact toy_group | cbn; lia | vm_compute; reflexivity] | reflexivity]|].
  split; [exact toy_group|]. split; [lia|]. split; [vm_compute; discriminate|]. split; [vm_compute; discriminate|].
  exists [x30; x06; x02; x01; x02; x02; x01; x01]. split; vm_compute; reflexivity.
Qed.
