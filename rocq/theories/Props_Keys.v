(** * Props_Keys: properties C22, C23, C25 and C60 (keys as JSON text, identifiers, generation,
    comparison), and the part of C19 about keys read back. *)
From Coq Require Import Strings.String.
From Coq Require Import List ZArith NArith Bool Lia ZifyBool ZifyNat ZifyN Permutation.
From Coq.Init Require Import Byte.
From Verif Require Import PyBase PyFacts Base64 Base64Facts Sha1 Util UtilFacts ModArith Primes
  Json JsonFacts KeyInfo SymKeys SymFacts AsymSpec AsymKeys Keys KeysFacts Props_Util Props_Sym Props_Asym.
Import ListNotations.
Local Open Scope Z_scope.
Ltac Zify.zify_post_hook ::= idtac.

(** ** C22 *)
(** Every key that was read from some text, and whose identifier can be computed (which opening
    a key set requires), is printed as text from which exactly the same key is read. *)
Theorem C22_read_keys_roundtrip : forall t s k h, ReadKey t s = Ok k -> key_hash_id k = Ok h ->
  exists s', key_str k = Ok s' /\ ReadKey t s' = Ok k.
Proof.
  intros t s k h H HH. pose proof (ReadKey_wf t s k h H HH) as W. exists (dumps (key_json k)).
  split; [apply key_str_eq; assumption|]. rewrite <- (ReadKey_type t s k H). apply key_rt. assumption.
Qed.
Print Assumptions C22_read_keys_roundtrip.

(** So is every generated key; PyCrypto's numbers are not negative. *)
Theorem C22_generated_keys_roundtrip : forall d t size k, GenKey d t size = Ok k ->
  rsa_nonneg (d_rsa d) -> dsa_nonneg (d_dsa d) ->
  exists s, key_str k = Ok s /\ ReadKey t s = Ok k.
Proof.
  intros d t size k H HR HD. pose proof (GenKey_wf d t size k H (fun _ => HR) (fun _ => HD)) as W.
  exists (dumps (key_json k)). split; [apply key_str_eq; assumption|].
  assert (T : key_type k = t).
  { unfold GenKey in H. destruct (negb _); [discriminate|]. destruct t; try discriminate; try (apply Ok_inj in H as <-; reflexivity). }
  rewrite <- T. apply key_rt. assumption.
Qed.
Print Assumptions C22_generated_keys_roundtrip.

(** The public half of a private key that was read is printed and read back as well. *)
Theorem C22_public_halves_roundtrip : forall t s k h p, ReadKey t s = Ok k -> key_hash_id k = Ok h -> public_key k = Ok p ->
  exists s', key_str p = Ok s' /\ ReadKey (key_type p) s' = Ok p.
Proof.
  intros t s k h p H HH HP. pose proof (ReadKey_wf t s k h H HH) as W.
  assert (Wp : key_wf p).
  { destruct k; try discriminate; cbn [public_key] in HP; apply Ok_inj in HP as <-; apply W. }
  exists (dumps (key_json p)). split; [apply key_str_eq; assumption | apply key_rt; assumption].
Qed.
Print Assumptions C22_public_halves_roundtrip.

(** The order of the members of JSON objects, at any depth, does not matter. *)
Theorem C22_member_order : forall t v w, json_ok v -> jeq v w -> ReadKey t (dumps v) = ReadKey t (dumps w).
Proof. exact ReadKey_jeq. Qed.
Print Assumptions C22_member_order.

Definition demo_draw : draw :=
  MkDraw (fun i => chr (Z.of_nat i * 7 + 3)) demo_rsa_nums (MkDsaNums (MkDsaPubNums 18 4 23 11) 3).
Example C22_case :
  (exists k, GenKey demo_draw AES (Some 192) = Ok k) /\ (exists k, GenKey demo_draw HMAC_SHA1 None = Ok k) /\
  (exists k, GenKey demo_draw DSA_PRIV None = Ok k) /\ (exists k, GenKey demo_draw RSA_PRIV (Some 512) = Ok k) /\
  rsa_nonneg (d_rsa demo_draw) /\ dsa_nonneg (d_dsa demo_draw) /\
  (exists k h, ReadKey HMAC_SHA1 (bs "{""size"":256, ""hmacKeyString"" : ""YWJj""}") = Ok k /\ key_hash_id k = Ok h) /\
  jeq (JObj [(tx "size", JInt 256); (tx "hmacKeyString", JStr (tx "YWJj"))])
      (JObj [(tx "hmacKeyString", JStr (tx "YWJj")); (tx "size", JInt 256)]).
Proof.
  do 4 (split; [eexists; reflexivity|]).
  split; [repeat split; vm_compute; discriminate|]. split; [repeat split; vm_compute; discriminate|].
  split; [eexists; eexists; split; [vm_compute; reflexivity | vm_compute; reflexivity]|].
  apply jeq_obj with (m1 := [(tx "size", JInt 256); (tx "hmacKeyString", JStr (tx "YWJj"))]).
  - constructor; [intros [H|[]]; vm_compute in H; discriminate | repeat constructor; intros []].
  - repeat constructor.
  - apply perm_swap.
Qed.

(** ** C23 *)
Theorem C23_identifier_format : forall k h, key_hash_id k = Ok h ->
  len h = 6 /\ exists id, len id = 4 /\ h = Base64WSEncode id /\ Base64WSDecode h = Ok id /\ key_header k = Ok (x00 :: id).
Proof.
  intros k h H. destruct (key_header_ok k h H) as (id & -> & L & E). split.
  - rewrite len_encode, L. reflexivity.
  - exists id. repeat split; try assumption. apply base64_roundtrip.
Qed.
Print Assumptions C23_identifier_format.

(** The identifier is the first four bytes of a SHA-1 hash of the key material: what the other
    Keyczar implementations compute.  [be4 n] is the 4-byte big-endian form of [n]. *)
Definition be4 (n : Z) : str := [chr (n / 2 ^ 24); chr (n / 2 ^ 16); chr (n / 2 ^ 8); chr n].
(** [t] is the shortest non-empty big-endian form of the number whose bytes are [s]. *)
Definition minimal (s t : str) : Prop :=
  be_val s = be_val t /\ t <> [] /\ forall c t', t <> x00 :: c :: t'.
Definition id_of (material : str) : str := Base64WSEncode (firstn 4 (sha1 material)).

Lemma IntToBytes_be4 n : IntToBytes n = be4 n.
Proof.
  unfold IntToBytes, be4. rewrite !Z.shiftr_div_pow2 by lia. rewrite !chr_mod. reflexivity.
Qed.

Lemma id_of_short m : short_hash (sha1 m) = id_of m.
Proof. unfold short_hash, id_of, KEY_HASH_SIZE. rewrite slice_to_firstn by lia. reflexivity. Qed.

Lemma minimal_trim s t : minimal s t -> TrimBytes s = t.
Proof.
  intros (HV & HN & HZ). unfold TrimBytes. change (chr 0) with x00.
  assert (E : lstrip x00 s = lstrip x00 t).
  { rewrite <- !BigIntToBytes_BytesToLong, !BytesToLong_val, HV. reflexivity. }
  rewrite E. destruct t as [|c t]; [contradiction|]. destruct (byte_eq_dec c x00) as [->|NC].
  - destruct t as [|c t]; [reflexivity | exfalso; apply (HZ c t); reflexivity].
  - rewrite lstrip_noop by assumption. reflexivity.
Qed.

Theorem C23_identifier_formula :
  (forall k kb hb, aes_bytes k = Ok kb -> hmac_bytes (ak_hmac k) = Ok hb ->
     key_hash_id (KAes k) = Ok (id_of (be4 (len kb) ++ kb ++ hb))) /\
  (forall k b, hmac_bytes k = Ok b -> key_hash_id (KHmac k) = Ok (id_of b)) /\
  (forall k n e, minimal (rp_modulus k) n -> minimal (rp_exponent k) e ->
     key_hash_id (KRsaPub k) = Ok (id_of (be4 (len n) ++ n ++ be4 (len e) ++ e))) /\
  (forall k p q g y, minimal (dp_p k) p -> minimal (dp_q k) q -> minimal (dp_g k) g -> minimal (dp_y k) y ->
     key_hash_id (KDsaPub k) =
       Ok (id_of (be4 (len p) ++ p ++ be4 (len q) ++ q ++ be4 (len g) ++ g ++ be4 (len y) ++ y))).
Proof.
  split; [|split; [|split]].
  - intros k kb hb H1 H2. cbn [key_hash_id]. unfold aes_hash_id. rewrite H1, H2. cbn [bind]. unfold Hash.
    rewrite <- IntToBytes_be4. rewrite <- id_of_short. cbn [concat]. rewrite app_nil_r. reflexivity.
  - intros k b H. cbn [key_hash_id]. unfold hmac_hash_id. rewrite H. cbn [bind]. unfold Hash. cbn [concat].
    rewrite app_nil_r. rewrite id_of_short. reflexivity.
  - intros k n e Hn He. apply minimal_trim in Hn as <-. apply minimal_trim in He as <-. cbn [key_hash_id]. unfold rsapub_hash_id, PrefixHash. rewrite id_of_short. f_equal. f_equal.
    cbn [map concat]. rewrite !IntToBytes_be4, app_nil_r, !app_assoc. reflexivity.
  - intros k p q g y Hp Hq Hg Hy. apply minimal_trim in Hp as <-. apply minimal_trim in Hq as <-.
    apply minimal_trim in Hg as <-. apply minimal_trim in Hy as <-. cbn [key_hash_id]. unfold dsapub_hash_id, PrefixHash. rewrite id_of_short. f_equal. f_equal.
    cbn [map concat]. rewrite !IntToBytes_be4, app_nil_r, !app_assoc. reflexivity.
Qed.
Print Assumptions C23_identifier_formula.

(** A private key and its public half have the same identifier and header. *)
Theorem C23_private_and_public_agree : forall k p, public_key k = Ok p ->
  key_hash_id p = key_hash_id k /\ key_header p = key_header k.
Proof. intros k p H. destruct k; try discriminate; apply Ok_inj in H as <-; split; reflexivity. Qed.
Print Assumptions C23_private_and_public_agree.

(** Leading zero bytes of public parameters do not change the identifier. *)
Theorem C23_leading_zeros_ignored :
  (forall i j m e k size k' size',
     key_hash_id (KRsaPub (MkRsaPub (repeat x00 i ++ m) (repeat x00 j ++ e) k size)) =
     key_hash_id (KRsaPub (MkRsaPub m e k' size'))) /\
  (forall a b c d p q g y k size k' size',
     key_hash_id (KDsaPub (MkDsaPub (repeat x00 a ++ p) (repeat x00 b ++ q) (repeat x00 c ++ g) (repeat x00 d ++ y) k size)) =
     key_hash_id (KDsaPub (MkDsaPub p q g y k' size'))).
Proof.
  assert (T : forall n s, TrimBytes (repeat x00 n ++ s) = TrimBytes s).
  { intros n s. pose proof (TrimBytes_rep (Z.of_nat n) s) as R. unfold rep in R. rewrite Nat2Z.id in R. exact R. }
  split; intros; cbn [key_hash_id]; unfold rsapub_hash_id, dsapub_hash_id; cbn [rp_modulus rp_exponent dp_p dp_q dp_g dp_y];
    rewrite !T; reflexivity.
Qed.
Print Assumptions C23_leading_zeros_ignored.

Example C23_case : (exists h, key_hash_id (KAes demo_aes) = Ok h) /\ minimal [x00; x00; x05; x00] [x05; x00] /\ minimal [] [x00].
Proof.
  split; [eexists; vm_compute; reflexivity|].
  split; (split; [vm_compute; reflexivity|]); (split; [discriminate|]); intros c t' H; discriminate.
Qed.

(** ** C25 *)
(** The sizes of each type, as documented. *)
Definition documented_sizes (t : ktype) : list Z :=
  match t with
  | AES => [128; 192; 256] | HMAC_SHA1 => [256] | DSA_PRIV | DSA_PUB => [1024]
  | RSA_PRIV | RSA_PUB => [512; 768; 1024; 2048; 4096]
  end.
Definition recommended_size (t : ktype) : Z :=
  match t with AES => 128 | HMAC_SHA1 => 256 | DSA_PRIV | DSA_PUB => 1024 | RSA_PRIV | RSA_PUB => 2048 end.

Lemma valid_documented t z : IsValidSize t z = true <-> In z (documented_sizes t).
Proof.
  unfold IsValidSize. rewrite existsb_exists. split.
  - intros (y & HI & E). apply Z.eqb_eq in E. subst y. destruct t; cbn in *; intuition.
  - intros HI. exists z. split; [destruct t; cbn in *; intuition | apply Z.eqb_refl].
Qed.

Theorem C25_sizes_and_types : forall d t size,
  (forall z, size = Some z -> ~ In z (documented_sizes t) -> GenKey d t size = Raise KeyczarError) /\
  (t = DSA_PUB \/ t = RSA_PUB -> GenKey d t size = Raise KeyczarError) /\
  (forall z, z = match size with Some z => z | None => recommended_size t end -> In z (documented_sizes t) ->
     t <> DSA_PUB -> t <> RSA_PUB -> exists k, GenKey d t size = Ok k /\ key_type k = t /\ key_size k = z).
Proof.
  intros d t size. split; [|split].
  - intros z -> H. unfold GenKey. rewrite <- valid_documented in H. apply not_true_is_false in H. rewrite H. reflexivity.
  - intros [->| ->]; unfold GenKey; destruct (negb _); reflexivity.
  - intros z Hz H N1 N2. unfold GenKey.
    assert (E : match size with Some s => s | None => default_size t end = z).
    { subst z. destruct size; [reflexivity | destruct t; reflexivity]. }
    rewrite E. apply valid_documented in H. rewrite H. cbn [negb].
    destruct t; try contradiction; eexists; (split; [reflexivity|]); (split; [reflexivity|]);
      cbn [key_size ak_size hk_size HmacKey_Generate HmacKey_new DsaPrivateKey_Generate RsaPrivateKey_Generate rs_size];
      try (unfold set_size; rewrite H; reflexivity).
    unfold DsaPrivateKey_Generate. destruct (dn_pub (d_dsa d)). cbn [ds_size]. unfold set_size; rewrite H; reflexivity.
Qed.
Print Assumptions C25_sizes_and_types.

(** The key material has the requested number of bytes, taken unchanged from the random
    source: AES and HMAC key bytes do not overlap. *)
Theorem C25_material : forall d z,
  (forall k, GenKey d AES (Some z) = Ok k ->
     exists a kb hb, k = KAes a /\ aes_bytes a = Ok kb /\ hmac_bytes (ak_hmac a) = Ok hb /\ len kb = z / 8 /\ len hb = 32 /\
       kb ++ hb = map (d_tape d) (seq 0 (Z.to_nat (z / 8 + 32)))) /\
  (forall k, GenKey d HMAC_SHA1 (Some z) = Ok k ->
     exists a hb, k = KHmac a /\ hmac_bytes a = Ok hb /\ hb = map (d_tape d) (seq 0 32)) /\
  (forall k, GenKey d RSA_PRIV (Some z) = Ok k -> exists a, k = KRsaPriv a /\ rs_key a = d_rsa d /\ rp_key (rs_pub a) = rn_pub (d_rsa d)) /\
  (forall k, GenKey d DSA_PRIV (Some z) = Ok k -> exists a, k = KDsaPriv a /\ ds_key a = d_dsa d /\ dp_key (ds_pub a) = dn_pub (d_dsa d)).
Proof.
  intros d z. split; [|split; [|split]]; intros k H; unfold GenKey in H; destruct (IsValidSize _ z) eqn:V; cbn [negb] in H; try discriminate.
  - apply valid_documented in V. assert (Z8 : z / 8 = 16 \/ z / 8 = 24 \/ z / 8 = 32).
    { cbn in V. destruct V as [<-|[<-|[<-|[]]]]; [left|right;left|right;right]; reflexivity. }
    unfold AesKey_Generate in H. cbn [AesKey_new bind] in H. apply Ok_inj in H as <-.
    eexists. exists (RandBytes (d_tape d) (z / 8)), (RandBytes (advance (Z.to_nat (z / 8)) (d_tape d)) 32).
    split; [reflexivity|]. unfold aes_bytes, hmac_bytes, HmacKey_Generate, HmacKey_new. cbn [ak_string ak_hmac hk_string].
    split; [apply base64_roundtrip_u|]. split; [apply base64_roundtrip_u|].
    split; [apply len_RandBytes; lia|]. split; [apply len_RandBytes; lia|].
    unfold RandBytes. replace (Z.to_nat (z / 8 + 32)) with (Z.to_nat (z / 8) + Z.to_nat 32)%nat by lia.
    rewrite seq_app, map_app. f_equal. cbn [plus].
    generalize (Z.to_nat (z / 8)) (Z.to_nat 32). clear. intros n m. revert n.
    assert (G : forall k n, map (advance n (d_tape d)) (seq k m) = map (d_tape d) (seq (n + k) m)).
    { induction m as [|m IH]; intros k n; [reflexivity|]. cbn [seq map]. rewrite IH. unfold advance at 1.
      replace (n + S k)%nat with (S (n + k)) by lia. reflexivity. }
    intros n. rewrite G. rewrite Nat.add_0_r. reflexivity.
  - apply valid_documented in V. apply Ok_inj in H as <-. eexists. eexists. split; [reflexivity|].
    split; [apply base64_roundtrip_u|]. cbn in V. destruct V as [<-|[]]. reflexivity.
  - apply Ok_inj in H as <-. eexists. repeat split.
  - apply Ok_inj in H as <-. eexists. split; [reflexivity|]. unfold DsaPrivateKey_Generate.
    destruct (d_dsa d) as [[y g p q] x]. split; reflexivity.
Qed.
Print Assumptions C25_material.

Example C25_case : ~ In 160 (documented_sizes AES) /\ In 4096 (documented_sizes RSA_PRIV) /\
  exists k, GenKey demo_draw AES (Some 256) = Ok k.
Proof. split; [cbn; intuition discriminate|]. split; [cbn; tauto|]. eexists. reflexivity. Qed.

(** ** C19, keys read back *)
(** A generated RSA key, printed and read back, is still a valid key pair, so C19 and C20
    apply to it. *)
Theorem C19_reread_keys : forall d size, In size rsa_sizes ->
  let nums := d_rsa d in
  rsa_pair size (rn_n (rn_pub nums)) (rn_e (rn_pub nums)) (rn_d nums) (rn_p nums) (rn_q nums) (rn_u nums) ->
  exists k s k', GenKey d RSA_PRIV (Some size) = Ok (KRsaPriv k) /\ key_str (KRsaPriv k) = Ok s /\
    ReadKey RSA_PRIV s = Ok (KRsaPriv k') /\ rsa_key_ok size k'.
Proof.
  intros d size HS nums HP. exists (RsaPrivateKey_Generate nums size).
  assert (V : IsValidSize RSA_PRIV size = true).
  { apply valid_documented. unfold rsa_sizes in HS. exact HS. }
  assert (G : GenKey d RSA_PRIV (Some size) = Ok (KRsaPriv (RsaPrivateKey_Generate nums size))).
  { unfold GenKey. rewrite V. reflexivity. }
  assert (NN : rsa_nonneg nums).
  { destruct HP as [[Pp _] [Pq _] O1 O2 NE En Bits Sz He Hd _ _ [Hu _]]. unfold rsa_nonneg.
    assert (0 <= rn_n (rn_pub nums)) by (rewrite En; apply Z.mul_nonneg_nonneg; [clear - O1; lia | clear - O2; lia]).
    repeat split; try assumption; [clear - He; lia | clear - Hd; lia | clear - O1; lia | clear - O2; lia]. }
  assert (W : key_wf (KRsaPriv (RsaPrivateKey_Generate nums size))).
  { apply (GenKey_wf d RSA_PRIV (Some size)); [assumption | intros _; assumption | discriminate]. }
  eexists. eexists. split; [assumption|]. split; [apply key_str_eq; assumption|].
  split; [apply (key_rt _ W)|]. apply C19_generated_keys; assumption.
Qed.
Print Assumptions C19_reread_keys.

Example C19_reread_case : In 512 rsa_sizes /\
  rsa_pair 512 (rn_n (rn_pub (d_rsa demo_draw))) (rn_e (rn_pub (d_rsa demo_draw))) (rn_d (d_rsa demo_draw))
    (rn_p (d_rsa demo_draw)) (rn_q (d_rsa demo_draw)) (rn_u (d_rsa demo_draw)).
Proof. split; [left; reflexivity | exact demo_rsa_pair]. Qed.

(** ** C60: comparing keys *)
(** Symmetric keys compare equal exactly when type, size and key string agree. *)
Theorem C60_symmetric_equality : forall a b, key_type a = AES \/ key_type a = HMAC_SHA1 ->
  key_eq a b = true <-> (key_type a = key_type b /\ key_size a = key_size b /\ key_string a = key_string b).
Proof.
  intros a b HT. unfold key_eq. rewrite !andb_true_iff.
  assert (T : ktype_eqb (key_type a) (key_type b) = true <-> key_type a = key_type b).
  { destruct (key_type a), (key_type b); cbn; split; congruence. }
  assert (S : opt_text_eqb (key_string a) (key_string b) = true <-> key_string a = key_string b).
  { destruct (key_string a) as [s|], (key_string b) as [t|]; cbn; try (split; congruence).
    rewrite text_eqb_eq. split; [intros ->; reflexivity | apply Some_inj]. }
  rewrite T, S, Z.eqb_eq. tauto.
Qed.
Print Assumptions C60_symmetric_equality.

(** Refuted: any two asymmetric keys of the same type and size compare equal, whatever their
    numbers, and so do AES keys that differ only in their HMAC key. *)
Theorem C60_equality_ignores_material_refuted :
  (forall a b, key_type a = key_type b -> key_size a = key_size b -> key_string a = None -> key_eq a b = true) /\
  (forall s z h h', key_eq (KAes (MkAes s h z)) (KAes (MkAes s h' z)) = true) /\
  (exists a b ha hb, key_eq a b = true /\ key_hash_id a = Ok ha /\ key_hash_id b = Ok hb /\ ha <> hb).
Proof.
  split; [|split].
  - intros a b HT HS HN. unfold key_eq. rewrite HT, HS, HN, Z.eqb_refl.
    assert (E : key_string b = None) by (destruct a, b; cbn in *; congruence).
    rewrite E. destruct (key_type b); reflexivity.
  - intros s z h h'. unfold key_eq. cbn [key_type key_size key_string ak_size ak_string]. rewrite Z.eqb_refl. cbn.
    rewrite text_eqb_refl. reflexivity.
  - exists (KRsaPub (MkRsaPub [x05] [x03] (MkRsaPubNums 5 3) 512)), (KRsaPub (MkRsaPub [x07] [x03] (MkRsaPubNums 7 3) 512)).
    exists (rsapub_hash_id (MkRsaPub [x05] [x03] (MkRsaPubNums 5 3) 512)), (rsapub_hash_id (MkRsaPub [x07] [x03] (MkRsaPubNums 7 3) 512)).
    split; [reflexivity|]. split; [reflexivity|]. split; [reflexivity|]. vm_compute. discriminate.
Qed.
Print Assumptions C60_equality_ignores_material_refuted.

Example C60_case : key_type (KHmac demo_hmac) = AES \/ key_type (KHmac demo_hmac) = HMAC_SHA1.
Proof. right. reflexivity. Qed.
