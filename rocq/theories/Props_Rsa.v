(** * Props_Rsa: property C77 (what RSA decryption accepts, and how it refuses). *)
From Coq Require Import Strings.String.
From Coq Require Import List ZArith NArith Bool Lia ZifyBool ZifyNat ZifyN.
From Coq.Init Require Import Byte.
From Verif Require Import PyBase PyFacts Base64 Base64Facts Sha1 Util UtilFacts Aes AesFacts Json KeyInfo SymKeys SymFacts AsymKeys AsymSpec AsymFacts ModArith ModFacts Keys KeysFacts
  KeyData Keyczar KeyRing KeyczarFacts Props_Util Props_Keyset Props_Asym Mock Session Props_Session Steps Props_Steps Props_Asym.
Import ListNotations.
Local Open Scope Z_scope.
Ltac Zify.zify_post_hook ::= idtac.

(** The bytes drawn for an encryption can be any. *)
Definition tape_of (s : str) : tape := fun i => nth i s x00.
Lemma RandBytes_tape s n : n = len s -> RandBytes (tape_of s) n = s.
Proof.
  intros ->. unfold RandBytes, tape_of, len. rewrite Nat2Z.id.
  assert (G : forall (l pre : str), map (fun i => nth i (pre ++ l) x00) (seq (List.length pre) (List.length l)) = l).
  { induction l as [|a l IH]; intros pre; [reflexivity|]. cbn [List.length seq map]. f_equal.
    - rewrite app_nth2, Nat.sub_diag by lia. reflexivity.
    - replace (pre ++ a :: l) with ((pre ++ [a]) ++ l) by (rewrite <- app_assoc; reflexivity).
      specialize (IH (pre ++ [a])). rewrite app_length in IH. cbn [List.length] in IH. rewrite Nat.add_1_r in IH. exact IH. }
  apply (G s []).
Qed.

(** A block that is decoded either has all its [k] bytes, or is one the encoder makes. *)
Lemma oaep_decode_inv k s msg : 64 <= k <= 2 ^ 32 -> len s <= k -> oaep_decode k s = Ok msg ->
  len s = k \/ exists seed, len seed = 20 /\ len msg <= k - 42 /\ oaep_encode k msg seed = Ok (x00 :: rep (k - 1 - len s) x00 ++ s).
Proof.
  intros HK HL H. destruct (Z.eq_dec (len s) k) as [E|NE]; [left; exact E|]. right.
  unfold oaep_decode in H. change HLEN with 20 in H. destruct (len s <? 2 * 20 + 2) eqn:E42; [discriminate|]. cbv zeta in H.
  assert (EP : (if 1 <? k - len s then rep (k - len s - 1) x00 ++ s else s) = rep (k - 1 - len s) x00 ++ s).
  { replace (k - len s - 1) with (k - 1 - len s) by lia. destruct (1 <? k - len s) eqn:E1; [reflexivity|]. replace (k - 1 - len s) with 0 by lia. reflexivity. }
  rewrite EP in H. set (p := rep (k - 1 - len s) x00 ++ s) in *.
  assert (LP : len p = k - 1) by (unfold p; rewrite len_app, len_rep by lia; lia).
  rewrite slice_to_firstn, slice_from_skipn in H by lia. set (ms := firstn (Z.to_nat 20) p) in *. set (mdb := skipn (Z.to_nat 20) p) in *.
  assert (LM : len ms = 20) by (unfold ms, len in *; rewrite firstn_length; lia). assert (LD : len mdb = k - 21) by (unfold mdb, len in *; rewrite skipn_length; lia).
  apply bind_Ok in H as (sm & HS & H). pose proof (MGF_len mdb 20 sm ltac:(lia) HS) as LS.
  set (seed := Xor ms sm) in *. assert (LSeed : len seed = 20) by (unfold seed; rewrite len_Xor; lia).
  apply bind_Ok in H as (mask & HM & H). rewrite LD in HM. pose proof (MGF_len seed (k - 21) mask ltac:(lia) HM) as LMa.
  set (db := Xor mdb mask) in *. assert (LDb : len db = k - 21) by (unfold db; rewrite len_Xor; lia).
  destruct (str_eqb (slice_to db 20) (Hash [[]])) eqn:EH; [|discriminate]. cbn [negb] in H. apply str_eqb_eq in EH.
  apply bind_Ok in H as (c & HC & H). destruct (beqb c x01) eqn:EC; [|discriminate]. cbn [negb] in H. apply Ok_inj in H.
  apply beqb_eq in EC as ->.
  destruct (lstrip_decomp x00 (slice_from db 20)) as (j & HJ). set (dm := lstrip x00 (slice_from db 20)) in *.
  destruct dm as [|c dm']; [discriminate HC|]. rewrite index_0_cons in HC. apply Ok_inj in HC as ->. rewrite slice_from_1_cons in H. subst dm'.
  assert (EDB : db = Hash [[]] ++ rep (k - len msg - 42) x00 ++ x01 :: msg).
  { assert (E0 : db = slice_to db 20 ++ slice_from db 20) by (rewrite slice_to_firstn, slice_from_skipn by lia; symmetry; apply firstn_skipn).
    rewrite E0, EH, HJ. f_equal. f_equal. unfold rep. f_equal. apply (f_equal len) in E0. rewrite EH, HJ, !len_app, len_cons, LDb in E0. rewrite len_Hash in E0. unfold len in *. rewrite repeat_length in E0. lia. }
  exists seed. split; [exact LSeed|]. assert (Lmsg : len msg <= k - 42).
  { pose proof (f_equal len EDB) as E0. rewrite !len_app, len_cons, len_Hash, LDb in E0. pose proof (len_nonneg (rep (k - len msg - 42) x00)). lia. }
  split; [exact Lmsg|]. destruct (oaep_encode_ok k msg seed LSeed Lmsg ltac:(lia)) as (ms' & mdb' & mask' & smask' & E1 & E2 & E3 & E4 & E5 & _).
  rewrite HM in E1. apply Ok_inj in E1 as <-. rewrite <- EDB in E2. unfold db in E2. rewrite Xor_cancel in E2 by lia. subst mdb'.
  rewrite HS in E3. apply Ok_inj in E3 as <-. unfold seed in E4. rewrite Xor_cancel in E4 by lia. subst ms'. rewrite E5.
  unfold ms, mdb. rewrite firstn_skipn. reflexivity.
Qed.

(** The number that a ciphertext stands for, behind the header. *)
Definition number_of (ct : str) : Z := be_val (skipn 5 ct).

(** The block behind a ciphertext: the number it decrypts to. *)
Definition opens_to (k : rsapriv) (ct : str) (m : Z) : Prop :=
  0 <= m < rn_n (rn_pub (rs_key k)) /\ rsa_public (rn_pub (rs_key k)) m = Ok (number_of ct).

Lemma number_of_app h x : len h = 5 -> number_of (h ++ x) = be_val x.
Proof. intros H. unfold number_of. rewrite skipn_app. replace (5 - List.length h)%nat with O by (unfold len in H; lia). rewrite skipn_all2 by (unfold len in H; lia). reflexivity. Qed.

Lemma be_long n : 0 <= n -> be_val (long_to_bytes n) = n.
Proof. intros H. unfold long_to_bytes. destruct (n =? 0) eqn:E; [replace n with 0 by lia; reflexivity | apply BigIntToBytes_val; exact H]. Qed.

Lemma Decrypt_number k ct : RsaPrivateKey_Decrypt k ct =
  (let* m := rsa_private (rs_key k) (number_of ct) in oaep_decode (num_bytes (rn_n (rn_pub (rs_key k)))) (long_to_bytes m)).
Proof.
  unfold RsaPrivateKey_Decrypt, rsa_decrypt_str, number_of. change HEADER_SIZE with 5. rewrite slice_from_skipn by lia. change (Z.to_nat 5) with 5%nat.
  rewrite bytes_to_long_eq, BytesToLong_val. destruct (rsa_private _ _); reflexivity.
Qed.


Lemma Encrypt_number k size r msg em : In size rsa_sizes -> rsa_key_ok size k -> oaep_encode (size / 8) msg (RandBytes r 20) = Ok em ->
  exists ct, RsaPublicKey_Encrypt (rs_pub k) r msg = Ok ct /\ opens_to k ct (be_val em).
Proof.
  intros HS HOK HE. pose proof HOK as [HP HB _ _]. pose proof (rsa_bits _ _ _ _ _ _ _ HP) as Hbits. destruct (num_bytes_size size _ HS Hbits) as [NB Hn].
  assert (Hseed : len (RandBytes r 20) = 20) by (apply len_RandBytes; lia). destruct (rsa_sizes_256 size HS) as (_ & _ & HK).
  assert (Hm : len msg <= size / 8 - 42).
  { destruct (Z.le_gt_cases (len msg) (size / 8 - 42)) as [L|L]; [exact L|]. destruct (C12_oaep_domain (size / 8) msg _ Hseed ltac:(lia)) as [_ X]. rewrite (X L) in HE. discriminate. }
  destruct (C12_oaep_domain (size / 8) msg _ Hseed ltac:(lia)) as [X _]. destruct (X Hm) as (body & HE' & HL). rewrite HE' in HE. apply Ok_inj in HE as <-.
  assert (Hmb : 0 <= be_val (x00 :: body) < 256 ^ (size / 8 - 1)).
  { rewrite be_val_cons. change (ord x00) with 0. rewrite <- HL. pose proof (be_val_bound body). lia. }
  assert (Hmn : 0 <= be_val (x00 :: body) < rn_n (rn_pub (rs_key k))) by lia.
  destruct (rsa_decrypts size (rs_key k) _ HP Hmn) as (c & EC & HC & ED).
  destruct (make_header_ok (PrefixHash [TrimBytes (rp_modulus (rs_pub k)); TrimBytes (rp_exponent (rs_pub k))]) (len_PrefixHash _)) as (id & EH & Hid & _).
  exists ((x00 :: id) ++ long_to_bytes c). split.
  - unfold RsaPublicKey_Encrypt. rewrite HB, NB. change HLEN with 20. rewrite HE'. cbn [bind]. unfold rsa_encrypt_str. rewrite bytes_to_long_eq, BytesToLong_val, EC. cbn [bind].
    unfold rsapub_hash_id. rewrite EH. reflexivity.
  - split; [exact Hmn|]. rewrite number_of_app by (rewrite len_cons, Hid; reflexivity). rewrite be_long by lia. exact EC.
Qed.

(** Which ciphertexts are accepted: those whose number Encrypt gives for the plaintext with some
    random bytes, and otherwise only such for which the block has no leading zero byte. *)
Theorem C77_accepts_partial : forall size k ct msg, In size rsa_sizes -> rsa_key_ok size k -> RsaPrivateKey_Decrypt k ct = Ok msg ->
  (exists r ct', RsaPublicKey_Encrypt (rs_pub k) r msg = Ok ct' /\ number_of ct' = number_of ct) \/
  (exists m, opens_to k ct m /\ 256 ^ (size / 8 - 1) <= m).
Proof.
  intros size k ct msg HS HOK H. pose proof HOK as [HP HB _ _]. pose proof (rsa_bits _ _ _ _ _ _ _ HP) as Hbits. destruct (num_bytes_size size _ HS Hbits) as [NB Hn].
  destruct (rsa_sizes_256 size HS) as (HK1 & HK2 & HK). rewrite Decrypt_number, NB in H. apply bind_Ok in H as (m & HM & H).
  assert (HC : 0 <= number_of ct < rn_n (rn_pub (rs_key k))).
  { unfold number_of. pose proof (be_val_bound (skipn 5 ct)). split; [lia|]. unfold rsa_private, number_of in HM. destruct (_ <=? _) eqn:E; [discriminate|]. lia. }
  destruct (rsa_signs size (rs_key k) _ HP HC) as (m' & EM & Hm & ES). rewrite HM in EM. apply Ok_inj in EM as <-.
  assert (OP : opens_to k ct m) by (split; assumption).
  destruct (Z.le_gt_cases (256 ^ (size / 8 - 1)) m) as [L|L]; [right; exists m; split; assumption|]. left.
  assert (LL : len (long_to_bytes m) <= size / 8 - 1).
  { unfold long_to_bytes. destruct (m =? 0); [cbn; lia|]. apply len_bound_BigInt; lia. }
  destruct (oaep_decode_inv (size / 8) (long_to_bytes m) msg ltac:(lia) ltac:(lia) H) as [C|(seed & LS & Lm & HE)]; [lia|].
  exists (tape_of seed). rewrite <- (RandBytes_tape seed 20) in HE by lia. destruct (Encrypt_number k size _ _ _ HS HOK HE) as (ct' & E' & [_ O']).
  exists ct'. split; [exact E'|]. rewrite be_val_cons in O'. change (ord x00) with 0 in O'. rewrite Z.mul_0_l, Z.add_0_l, be_val_rep0, be_long in O' by lia.
  rewrite ES in O'. apply Ok_inj in O'. congruence.
Qed.
Print Assumptions C77_accepts_partial.

Lemma opens_unique size k ct m m' : rsa_key_ok size k -> opens_to k ct m -> opens_to k ct m' -> m = m'.
Proof.
  intros [HP _ _ _] [H1 H2] [H1' H2']. destruct (rsa_decrypts size (rs_key k) m HP H1) as (c & E & _ & D). destruct (rsa_decrypts size (rs_key k) m' HP H1') as (c' & E' & _ & D'). congruence.
Qed.

(** Blocks with other leading bytes are never made by Encrypt ... *)
Theorem C77_encrypt_makes_leading_zeros : forall size k r msg ct, In size rsa_sizes -> rsa_key_ok size k ->
  RsaPublicKey_Encrypt (rs_pub k) r msg = Ok ct -> exists m, opens_to k ct m /\ m < 256 ^ (size / 8 - 1).
Proof.
  intros size k r msg ct HS HOK H. pose proof HOK as [HP HB _ _]. pose proof (rsa_bits _ _ _ _ _ _ _ HP) as Hbits. destruct (num_bytes_size size _ HS Hbits) as [NB Hn].
  destruct (oaep_encode (size / 8) msg (RandBytes r 20)) as [em|e] eqn:HE.
  - destruct (Encrypt_number k size r msg em HS HOK HE) as (ct' & E & O). rewrite H in E. apply Ok_inj in E as <-. exists (be_val em). split; [exact O|].
    assert (Hseed : len (RandBytes r 20) = 20) by (apply len_RandBytes; lia). destruct (rsa_sizes_256 size HS) as (_ & _ & HK).
    destruct (C12_oaep_domain (size / 8) msg _ Hseed ltac:(lia)) as [X Y]. destruct (Z.le_gt_cases (len msg) (size / 8 - 42)) as [L|L]; [|rewrite (Y L) in HE; discriminate].
    destruct (X L) as (body & HE' & HL). rewrite HE' in HE. apply Ok_inj in HE as <-. rewrite be_val_cons. change (ord x00) with 0. rewrite <- HL. pose proof (be_val_bound body). lia.
  - exfalso. unfold RsaPublicKey_Encrypt in H. rewrite HB, NB in H. change HLEN with 20 in H. rewrite HE in H. discriminate.
Qed.
Print Assumptions C77_encrypt_makes_leading_zeros.

(** ** Ciphertexts made up by someone who knows the public key *)

(** For every number below the modulus there is a ciphertext that decrypts to it, of full length
    and with any header. *)
Lemma made_up size k h m : In size rsa_sizes -> rsa_key_ok size k -> len h = 5 -> 0 <= m < rn_n (rn_pub (rs_key k)) ->
  exists ct, len ct = 5 + size / 8 /\ slice_to ct 5 = h /\ opens_to k ct m /\ rsa_private (rs_key k) (number_of ct) = Ok m.
Proof.
  intros HS HOK Hh Hm. pose proof HOK as [HP _ _ _]. pose proof (rsa_bits _ _ _ _ _ _ _ HP) as Hbits. destruct (rsa_sizes_256 size HS) as (HK1 & HK2 & HK).
  destruct (rsa_decrypts size (rs_key k) m HP Hm) as (c & EC & HC & ED).
  assert (LC : len (BigIntToBytes c) <= size / 8) by (apply len_bound_BigInt; lia).
  assert (LB : len (long_to_bytes c) <= size / 8) by (unfold long_to_bytes; destruct (c =? 0); [cbn; lia | exact LC]).
  exists (h ++ rep (size / 8 - len (long_to_bytes c)) x00 ++ long_to_bytes c).
  assert (EN : number_of (h ++ rep (size / 8 - len (long_to_bytes c)) x00 ++ long_to_bytes c) = c).
  { rewrite number_of_app by exact Hh. rewrite be_val_rep0. apply be_long. lia. }
  rewrite !len_app, len_rep by lia. split; [lia|]. split; [|unfold opens_to; rewrite EN; split; [split; assumption | exact ED]].
  rewrite slice_to_firstn by lia. change (Z.to_nat 5) with 5%nat. rewrite firstn_app. unfold len in Hh. replace (5 - List.length h)%nat with O by lia.
  rewrite firstn_O, app_nil_r. apply firstn_all2. lia.
Qed.

(** The block with this data block and seed, without a leading zero byte. *)
Definition any_block (db seed : str) : str :=
  match MGF seed (len db) with
  | Ok mask => match MGF (Xor db mask) 20 with Ok smask => Xor seed smask ++ Xor db mask | Raise _ => [] end
  | Raise _ => []
  end.

(** REFUTED: Decrypt also accepts a block that does not begin with a zero byte (RFC 8017, 7.1.2,
    step 3g, demands "decryption error"), which no call of Encrypt makes. *)
Definition odd_block : str := Eval vm_compute in any_block (Hash [[]] ++ rep 22 x00 ++ x01 :: bs "x") (rep 20 x01).
Theorem C77_leading_byte_refuted : exists k ct msg, rsa_key_ok 512 k /\ RsaPrivateKey_Decrypt k ct = Ok msg /\
  forall r ct', RsaPublicKey_Encrypt (rs_pub k) r msg = Ok ct' -> number_of ct' <> number_of ct.
Proof.
  destruct (made_up 512 demo_rsa (rep 5 x00) (be_val odd_block)) as (ct & _ & _ & O & D);
    [left; reflexivity | exact C19_case | reflexivity | split; [vm_compute; discriminate | vm_compute; reflexivity]|].
  exists demo_rsa, ct, (bs "x"). split; [exact C19_case|]. split; [rewrite Decrypt_number, D; cbn [bind]; vm_compute; reflexivity|]. intros r ct' HE EN.
  destruct (C77_encrypt_makes_leading_zeros 512 demo_rsa r _ ct' (or_introl eq_refl) C19_case HE) as (m & O' & L).
  assert (E : m = be_val odd_block) by (apply (opens_unique 512 demo_rsa ct _ _ C19_case); [unfold opens_to in *; rewrite <- EN; exact O' | exact O]). subst m.
  assert (X : (256 ^ 63 <=? be_val odd_block) = true) by (vm_compute; reflexivity). change (512 / 8 - 1) with 63 in L. lia.
Qed.
Print Assumptions C77_leading_byte_refuted.

(** ** Refusals *)

Lemma oaep_errors k s e : oaep_decode k s = Raise e -> e = KeyczarError \/ e = IndexError.
Proof.
  unfold oaep_decode. destruct (_ <? 2 * HLEN + 2); [intros H; apply Raise_inj in H; left; congruence|]. cbv zeta.
  assert (MG : forall a b e', MGF a b = Raise e' -> e' = KeyczarError) by (intros a b e'; unfold MGF; destruct (_ <? b); [intros H; apply Raise_inj in H; congruence | discriminate]).
  destruct (MGF _ HLEN) as [a|x] eqn:E1; cbn [bind]; [|intros H; apply Raise_inj in H as <-; left; apply (MG _ _ _ E1)].
  destruct (MGF _ (len _)) as [b|x] eqn:E2; cbn [bind]; [|intros H; apply Raise_inj in H as <-; left; apply (MG _ _ _ E2)].
  destruct (negb (str_eqb _ _)); [intros H; apply Raise_inj in H; left; congruence|].
  destruct (lstrip x00 _) as [|c l]; [intros H; apply Raise_inj in H; right; congruence|]. rewrite index_0_cons. cbn [bind].
  destruct (negb _); [intros H; apply Raise_inj in H; left; congruence | discriminate].
Qed.

(** For every key and every ciphertext Decrypt gives a plaintext, or one of three errors:
    ValueError exactly for numbers that are not below the modulus, KeyczarError and IndexError. *)
Theorem C77_errors_partial : forall k ct e, RsaPrivateKey_Decrypt k ct = Raise e ->
  e = ValueError /\ rn_n (rn_pub (rs_key k)) <= number_of ct \/ (e = KeyczarError \/ e = IndexError) /\ number_of ct < rn_n (rn_pub (rs_key k)).
Proof.
  intros k ct e. rewrite Decrypt_number. unfold rsa_private. destruct (_ <=? _) eqn:E; cbn [bind].
  - intros H. apply Raise_inj in H as <-. left. split; [reflexivity | lia].
  - intros H. right. split; [apply (oaep_errors _ _ _ H) | lia].
Qed.
Print Assumptions C77_errors_partial.


Definition demo_rsa_ks : keyset := Eval vm_compute in
  match open_keyset Crypter (StaticKeyReader (KRsaPriv demo_rsa) DECRYPT_AND_ENCRYPT) with Ok ks => ks | Raise _ => hmac_set end.
Lemma demo_rsa_ks_opens : open_keyset Crypter (StaticKeyReader (KRsaPriv demo_rsa) DECRYPT_AND_ENCRYPT) = Ok demo_rsa_ks.
Proof. vm_compute. reflexivity. Qed.
Definition demo_header : str := Eval vm_compute in match RsaPublicKey_Encrypt (rs_pub demo_rsa) (fun _ => x07) [] with Ok c => slice_to c 5 | Raise _ => [] end.
Lemma demo_header_finds : ParseHeader demo_rsa_ks demo_header = Ok (KRsaPriv demo_rsa).
Proof. vm_compute. reflexivity. Qed.
Lemma demo_num_bytes : num_bytes (rn_n (rn_pub (rs_key demo_rsa))) = 64.
Proof. vm_compute. reflexivity. Qed.

Lemma st_after {A} l (t : traced A) : steps (after l t) = l ++ steps t.
Proof. reflexivity. Qed.
Lemma st_bind {A B} (t : traced A) (k : A -> traced B) a : result t = Ok a -> steps (tbind t k) = steps t ++ steps (k a).
Proof. unfold tbind, steps, result. intros ->. reflexivity. Qed.

(** A made-up ciphertext for the set of the demo key: what becomes of it depends on the block. *)
Lemma demo_made_up m : 0 <= m < rn_n (rn_pub (rs_key demo_rsa)) -> exists ct, len ct = 69 /\ slice_to ct 5 = demo_header /\
  Decrypt demo_rsa_ks ct None = oaep_decode 64 (long_to_bytes m) /\
  steps (Decrypt_t demo_rsa_ks ct None) = [InKeyczar 531; InLibrary "decoder" 69; InKeyczar 532; InKeyczar 534] ++ steps (ParseHeader_t demo_rsa_ks demo_header) ++
    [InKeyczar 535; InKeys 837; InKeys 838; InLibrary "decrypt" 64; InKeys 839] ++ steps (oaep_decode_t 64 (long_to_bytes m)).
Proof.
  intros Hm. destruct (made_up 512 demo_rsa demo_header m (or_introl eq_refl) C19_case eq_refl Hm) as (ct & L & H & _ & D). change (5 + 512 / 8) with 69 in L.
  exists ct. split; [exact L|]. split; [exact H|].
  assert (DS : rsa_decrypt_str (rs_key demo_rsa) (slice_from ct 5) = Ok (long_to_bytes m)).
  { unfold rsa_decrypt_str. rewrite bytes_to_long_eq, BytesToLong_val, slice_from_skipn by lia. change (be_val (skipn (Z.to_nat 5) ct)) with (number_of ct). rewrite D. reflexivity. }
  split.
  - unfold Decrypt. cbn [apply_codec bind]. rewrite L. change HEADER_SIZE with 5. rewrite H, demo_header_finds. cbn [Z.ltb Z.compare Pos.compare Pos.compare_cont bind key_Decrypt].
    rewrite Decrypt_number, D, demo_num_bytes. reflexivity.
  - unfold Decrypt_t. rewrite st_after, (st_bind _ _ ct) by reflexivity. rewrite st_after, L. change HEADER_SIZE with 5. rewrite H. cbn [Z.ltb Z.compare Pos.compare Pos.compare_cont].
    rewrite st_after, (st_bind _ _ (KRsaPriv demo_rsa)) by (rewrite result_header; exact demo_header_finds).
    rewrite st_after. cbn [key_Decrypt_t]. unfold RsaPrivateKey_Decrypt_t. change HEADER_SIZE with 5. rewrite st_after, DS, demo_num_bytes.
    rewrite (st_bind _ _ (long_to_bytes m)) by reflexivity. rewrite !st_after.
    assert (L2 : len (slice_from ct 5) = 64) by (rewrite slice_from_skipn by lia; unfold len in *; rewrite skipn_length; lia). rewrite L2.
    cbn [steps tdone fst]. rewrite <- !app_assoc. reflexivity.
Qed.

(** REFUTED: the refusals can be told apart by their class.  If the data block has nothing but
    zero bytes after the right hash, IndexError is raised instead of KeyczarError (keys.py:752). *)
Definition block_a : str := Eval vm_compute in any_block (Hash [[]] ++ rep 22 x00 ++ x02 :: []) (rep 20 x01).
Definition block_b : str := Eval vm_compute in any_block (Hash [[]] ++ rep 23 x00) (rep 20 x01).
Ltac in_range := split; [vm_compute; discriminate | vm_compute; reflexivity].
Theorem C77_IndexError_refuted : exists ks, open_keyset Crypter (StaticKeyReader (KRsaPriv demo_rsa) DECRYPT_AND_ENCRYPT) = Ok ks /\
  exists a b, len a = len b /\ slice_to a 5 = slice_to b 5 /\ Decrypt ks a None = Raise KeyczarError /\ Decrypt ks b None = Raise IndexError.
Proof.
  exists demo_rsa_ks. split; [exact demo_rsa_ks_opens|].
  destruct (demo_made_up (be_val block_a)) as (a & La & Ha & Da & _); [in_range|]. destruct (demo_made_up (be_val block_b)) as (b & Lb & Hb & Db & _); [in_range|].
  exists a, b. split; [congruence|]. split; [congruence|]. rewrite Da, Db. split; vm_compute; reflexivity.
Qed.
Print Assumptions C77_IndexError_refuted.

(** REFUTED: and those of one class by the steps executed: a block that is too short, one whose
    hash is wrong and one without the separating byte are refused in different places (Manger's
    attack, CRYPTO 2001, needs such a difference for the size of the block). *)
Theorem C77_steps_refuted : exists ks, open_keyset Crypter (StaticKeyReader (KRsaPriv demo_rsa) DECRYPT_AND_ENCRYPT) = Ok ks /\
  exists a b c, len a = len b /\ len b = len c /\ slice_to a 5 = slice_to b 5 /\ slice_to b 5 = slice_to c 5 /\
  Decrypt ks a None = Raise KeyczarError /\ Decrypt ks b None = Raise KeyczarError /\ Decrypt ks c None = Raise KeyczarError /\
  NoDup (map (fun x => steps (Decrypt_t ks x None)) [a; b; c]).
Proof.
  exists demo_rsa_ks. split; [exact demo_rsa_ks_opens|].
  destruct (demo_made_up 2) as (a & La & Ha & Da & Sa); [in_range|]. destruct (demo_made_up (be_val (rep 63 x02))) as (b & Lb & Hb & Db & Sb); [in_range|].
  destruct (demo_made_up (be_val block_a)) as (c & Lc & Hc & Dc & Sc); [in_range|].
  exists a, b, c. do 4 (split; [congruence|]). rewrite Da, Db, Dc. do 3 (split; [vm_compute; reflexivity|]). cbn [map]. rewrite Sa, Sb, Sc.
  match goal with |- NoDup ?l => assert (L : map (@List.length step) l = [17; 31; 33]%nat) by (vm_compute; reflexivity) end.
  apply (NoDup_map_inv (@List.length step)). rewrite L. repeat constructor; cbn [In]; intuition discriminate.
Qed.
Print Assumptions C77_steps_refuted.

(** The key of these theorems, a ciphertext that is accepted, and one that is not below the modulus. *)
Example C77_case : In 512 rsa_sizes /\ rsa_key_ok 512 demo_rsa /\ (exists ct, RsaPrivateKey_Decrypt demo_rsa ct = Ok (bs "x")) /\
  RsaPrivateKey_Decrypt demo_rsa (rep 5 x00 ++ rep 64 xff) = Raise ValueError.
Proof.
  split; [left; reflexivity|]. split; [exact C19_case|]. split; [|vm_compute; reflexivity].
  destruct (made_up 512 demo_rsa (rep 5 x00) (be_val odd_block)) as (ct & _ & _ & _ & D); [left; reflexivity | exact C19_case | reflexivity | in_range|].
  exists ct. rewrite Decrypt_number, D. cbn [bind]. vm_compute. reflexivity.
Qed.
