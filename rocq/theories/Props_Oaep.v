(** * Props_Oaep: the outcome of RSA decryption for every ciphertext (C77). *)
From Coq Require Import Strings.String.
From Coq Require Import List ZArith NArith Bool Lia ZifyBool ZifyNat ZifyN.
From Coq.Init Require Import Byte.
From Verif Require Import PyBase PyFacts Sha1 Util UtilFacts KeyInfo AsymKeys AsymSpec AsymFacts ModArith ModFacts Props_Util Props_Asym Props_Rsa.
Import ListNotations.
Local Open Scope Z_scope.
Ltac Zify.zify_post_hook ::= idtac.

(** ** Specification *)

(** The masking of RFC 8017, 7.1.1 (steps d to h): a seed and a data block make a block. *)
Definition masked (seed db block : str) : Prop :=
  exists mask seed_mask, MGF seed (len db) = Ok mask /\ MGF (Xor db mask) 20 = Ok seed_mask /\ block = Xor seed seed_mask ++ Xor db mask.

(** ** Proofs *)

Lemma MGF_total seed n : 0 <= n <= 2 ^ 32 * 20 -> exists m, MGF seed n = Ok m.
Proof. intros H. destruct C10_mgf1 as (A & _). apply A, H. Qed.

(** Every block is that of a seed and a data block, and decoding looks at the data block. *)
Lemma decode_block k s block : 42 <= len s -> k <= 2 ^ 32 -> len s <= k ->
  block = (if 1 <? k - len s then rep (k - len s - 1) x00 ++ s else s) ->
  exists seed db, len seed = 20 /\ len db = len block - 20 /\ masked seed db block /\
    oaep_decode k s = if negb (str_eqb (firstn 20 db) (sha1 [])) then Raise KeyczarError
                      else match lstrip x00 (skipn 20 db) with [] => Raise IndexError | c :: m => if beqb c x01 then Ok m else Raise KeyczarError end.
Proof.
  intros L42 HK HL EB. assert (LB : 42 <= len block <= k).
  { rewrite EB. destruct (Z.ltb_spec 1 (k - len s)); [rewrite len_app, len_rep by lia|]; lia. }
  unfold oaep_decode. change HLEN with 20. destruct (Z.ltb_spec (len s) (2 * 20 + 2)); [lia|]. cbv zeta. rewrite <- EB. clear EB HL L42.
  rewrite !slice_to_firstn, !slice_from_skipn by lia. change (Z.to_nat 20) with 20%nat.
  set (ms := firstn 20 block). set (mdb := skipn 20 block). assert (LM : len ms = 20) by (unfold ms, len in *; rewrite firstn_length; lia). assert (LD : len mdb = len block - 20) by (unfold mdb, len in *; rewrite skipn_length; lia).
  destruct (MGF_total mdb 20 ltac:(lia)) as (sm & ESM). pose proof (MGF_len mdb 20 sm ltac:(lia) ESM) as LSM. rewrite ESM. cbn [bind].
  set (seed := Xor ms sm). assert (LS : len seed = 20) by (unfold seed; rewrite len_Xor; lia).
  destruct (MGF_total seed (len mdb) ltac:(lia)) as (mask & EM). pose proof (MGF_len seed (len mdb) mask ltac:(lia) EM) as LMa. rewrite EM. cbn [bind].
  set (db := Xor mdb mask). assert (LDB : len db = len mdb) by (unfold db; rewrite len_Xor; lia).
  exists seed, db. split; [exact LS|]. split; [lia|]. split.
  - exists mask, sm. rewrite LDB. split; [exact EM|]. assert (E1 : Xor db mask = mdb) by (apply Xor_cancel; lia). assert (E2 : Xor seed sm = ms) by (apply Xor_cancel; lia). rewrite E1, E2. split; [exact ESM|]. unfold ms, mdb. symmetry. apply firstn_skipn.
  - rewrite (slice_to_firstn db), (slice_from_skipn db) by lia. change (Z.to_nat 20) with 20%nat. change (Hash [[]]) with (sha1 []). destruct (str_eqb (firstn 20 db) (sha1 [])); cbn [negb]; [|reflexivity].
    destruct (lstrip x00 (skipn 20 db)) as [|c m]; [reflexivity|]. rewrite index_0_cons. cbn [bind]. rewrite slice_from_1_cons. destruct (beqb c x01); reflexivity.
Qed.

Lemma data_block db : 20 <= len db ->
  (forall o : res str, o = (if negb (str_eqb (firstn 20 db) (sha1 [])) then Raise KeyczarError
       else match lstrip x00 (skipn 20 db) with [] => Raise IndexError | c :: m => if beqb c x01 then Ok m else Raise KeyczarError end) ->
  (forall msg, o = Ok msg <-> exists j, db = sha1 [] ++ repeat x00 j ++ x01 :: msg) /\
  (o = Raise IndexError <-> exists j, db = sha1 [] ++ repeat x00 j) /\
  (forall e, o = Raise e -> e = IndexError \/ e = KeyczarError)).
Proof.
  intros L o ->. assert (L20 : List.length (sha1 []) = 20%nat) by (pose proof (len_Hash [[]]) as X; change (Hash [[]]) with (sha1 []) in X; unfold len in X; lia).
  assert (ST : forall j t, lstrip x00 (repeat x00 j ++ t) = lstrip x00 t) by (intros j t; induction j as [|j IH]; [reflexivity|]; cbn [repeat app lstrip]; change (beqb x00 x00) with true; exact IH).
  assert (SP : forall t, db = sha1 [] ++ t -> firstn 20 db = sha1 [] /\ skipn 20 db = t).
  { intros t ->. rewrite <- L20. rewrite firstn_app, skipn_app, firstn_all, skipn_all, Nat.sub_diag, firstn_O, app_nil_r. split; reflexivity. }
  split; [|split].
  - intros msg. split.
    + destruct (str_eqb (firstn 20 db) (sha1 [])) eqn:E; cbn [negb]; [|discriminate]. apply str_eqb_eq in E. destruct (lstrip_decomp x00 (skipn 20 db)) as (j & HJ). destruct (lstrip x00 (skipn 20 db)) as [|c m]; [discriminate|].
      destruct (beqb c x01) eqn:EC; [|discriminate]. apply beqb_eq in EC as ->. intros H. apply Ok_inj in H as <-. exists j. rewrite <- E, <- HJ, firstn_skipn. reflexivity.
    + intros (j & H). destruct (SP _ H) as [-> ->]. assert (X : str_eqb (sha1 []) (sha1 []) = true) by (apply str_eqb_eq; reflexivity). rewrite X. cbn [negb]. rewrite ST. cbn [lstrip]. change (beqb x01 x00) with false. cbv iota. change (beqb x01 x01) with true. reflexivity.
  - split.
    + destruct (str_eqb (firstn 20 db) (sha1 [])) eqn:E; cbn [negb]; [|discriminate]. apply str_eqb_eq in E. destruct (lstrip_decomp x00 (skipn 20 db)) as (j & HJ). destruct (lstrip x00 (skipn 20 db)) as [|c m]; [|destruct (beqb c x01); discriminate].
      intros _. exists j. rewrite app_nil_r in HJ. rewrite <- E, <- HJ, firstn_skipn. reflexivity.
    + intros (j & H). destruct (SP _ H) as [-> ->]. assert (X : str_eqb (sha1 []) (sha1 []) = true) by (apply str_eqb_eq; reflexivity). rewrite X. cbn [negb]. rewrite <- (app_nil_r (repeat x00 j)), ST. reflexivity.
  - intros e. destruct (negb _); [intros H; apply Raise_inj in H as <-; right; reflexivity|]. destruct (lstrip x00 (skipn 20 db)) as [|c m]; [intros H; apply Raise_inj in H as <-; left; reflexivity|].
    destruct (beqb c x01); [discriminate | intros H; apply Raise_inj in H as <-; right; reflexivity].
Qed.

(** ** C77 *)

(** For every ciphertext: numbers from the modulus on raise ValueError, those that decrypt to a number
    of fewer than 42 bytes KeyczarError.  Otherwise that number, with the zero bytes it lost, but for
    the first one, is the block of a seed and a data block (a number with all bytes of the modulus, which
    RFC 8017 refuses, is taken as such a block too), and the outcome depends on the data block only. *)
Theorem C77_exactly : forall size k ct, In size rsa_sizes -> rsa_key_ok size k ->
  let outcome := RsaPrivateKey_Decrypt k ct in
  (rn_n (rn_pub (rs_key k)) <= number_of ct -> outcome = Raise ValueError) /\
  (number_of ct < rn_n (rn_pub (rs_key k)) -> exists m, opens_to k ct m /\
    (m < 256 ^ 41 -> outcome = Raise KeyczarError) /\
    (256 ^ 41 <= m -> exists block seed db, be_val block = m /\ len block = (if m <? 256 ^ (size / 8 - 1) then size / 8 - 1 else size / 8) /\
      len seed = 20 /\ masked seed db block /\
      (forall msg, outcome = Ok msg <-> exists j, db = sha1 [] ++ repeat x00 j ++ x01 :: msg) /\
      (outcome = Raise IndexError <-> exists j, db = sha1 [] ++ repeat x00 j) /\
      (forall e, outcome = Raise e -> e = IndexError \/ e = KeyczarError))).
Proof.
  intros size k ct HS HOK outcome. pose proof HOK as [HP HB _ _]. pose proof (rsa_bits _ _ _ _ _ _ _ HP) as Hbits. destruct (num_bytes_size size _ HS Hbits) as [NB Hn].
  destruct (rsa_sizes_256 size HS) as (HK1 & HK2 & HK). unfold outcome. rewrite Decrypt_number, NB. split.
  - intros H. unfold rsa_private. destruct (Z.leb_spec (rn_n (rn_pub (rs_key k))) (number_of ct)); [reflexivity | lia].
  - intros H. assert (HC : 0 <= number_of ct < rn_n (rn_pub (rs_key k))) by (unfold number_of in *; pose proof (be_val_bound (skipn 5 ct)); lia).
    destruct (rsa_signs size (rs_key k) _ HP HC) as (m & EM & Hm & ES). exists m. split; [split; assumption|]. rewrite EM. cbn [bind].
    assert (BL : forall j, 0 <= j -> 0 < m -> (len (long_to_bytes m) <= j <-> m < 256 ^ j)).
    { intros j HJ Hm0. unfold long_to_bytes. destruct (Z.eqb_spec m 0); [lia|]. apply len_bound_BigInt; lia. }
    split.
    + intros HM. assert (L : len (long_to_bytes m) <= 41). { destruct (Z.eq_dec m 0) as [->|]; [cbn; lia|]. apply BL; lia. }
      unfold oaep_decode. change HLEN with 20. destruct (Z.ltb_spec (len (long_to_bytes m)) (2 * 20 + 2)); [reflexivity | lia].
    + intros HM. assert (P41 : 0 < 256 ^ 41) by (apply Z.pow_pos_nonneg; lia). assert (Hm0 : 0 < m) by lia.
      assert (L42 : 42 <= len (long_to_bytes m)) by (destruct (Z.le_gt_cases 42 (len (long_to_bytes m))) as [G|G]; [exact G|]; exfalso; assert (X : m < 256 ^ 41) by (apply BL; lia); lia).
      assert (LK : len (long_to_bytes m) <= size / 8) by (apply BL; lia).
      set (block := if 1 <? size / 8 - len (long_to_bytes m) then rep (size / 8 - len (long_to_bytes m) - 1) x00 ++ long_to_bytes m else long_to_bytes m).
      destruct (decode_block (size / 8) (long_to_bytes m) block L42 ltac:(lia) LK eq_refl) as (seed & db & LSd & LDb & HMk & ED).
      assert (LBk : len block = if m <? 256 ^ (size / 8 - 1) then size / 8 - 1 else size / 8).
      { pose proof (BL (size / 8 - 1) ltac:(lia) Hm0) as B1. unfold block. destruct (Z.ltb_spec m (256 ^ (size / 8 - 1))) as [G|G].
        - apply B1 in G. destruct (Z.ltb_spec 1 (size / 8 - len (long_to_bytes m))); [rewrite len_app, len_rep by lia|]; lia.
        - assert (~ len (long_to_bytes m) <= size / 8 - 1) by (intros C; apply B1 in C; lia). destruct (Z.ltb_spec 1 (size / 8 - len (long_to_bytes m))); lia. }
      exists block, seed, db. split; [|split; [exact LBk|split; [exact LSd|split; [exact HMk|]]]].
      * unfold block. destruct (1 <? size / 8 - len (long_to_bytes m)); rewrite ?be_val_rep0; apply be_long; lia.
      * apply data_block; [|exact ED]. rewrite LDb, LBk. destruct (m <? 256 ^ (size / 8 - 1)); lia.
Qed.
Print Assumptions C77_exactly.

(** The key of C19_case, and a ciphertext that opens to a block of 64 bytes. *)
Example C77_exactly_case : rsa_key_ok 512 demo_rsa /\ exists ct, number_of ct < rn_n (rn_pub (rs_key demo_rsa)) /\ RsaPrivateKey_Decrypt demo_rsa ct = Ok (bs "x").
Proof.
  split; [exact C19_case|]. destruct (made_up 512 demo_rsa (rep 5 x00) (be_val odd_block)) as (ct & _ & _ & O & D);
    [left; reflexivity | exact C19_case | reflexivity | split; [vm_compute; discriminate | vm_compute; reflexivity]|].
  exists ct. assert (ED : RsaPrivateKey_Decrypt demo_rsa ct = Ok (bs "x")) by (rewrite Decrypt_number, D; cbn [bind]; vm_compute; reflexivity). split; [|exact ED].
  destruct (Z.lt_ge_cases (number_of ct) (rn_n (rn_pub (rs_key demo_rsa)))) as [G|G]; [exact G|]. rewrite (proj1 (C77_exactly 512 demo_rsa ct (or_introl eq_refl) C19_case) G) in ED. discriminate.
Qed.
