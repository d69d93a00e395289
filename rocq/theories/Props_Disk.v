(** * Props_Disk: properties C42-C46 and C58, and C27, C30 and C31 across reloads (key sets on disk). *)
From Coq Require Import Strings.String.
From Coq Require Import List ZArith NArith Bool Lia ZifyBool ZifyNat ZifyN.
From Coq.Init Require Import Byte.
From Verif Require Import PyBase PyFacts Base64 Base64Facts Sha1 Util UtilFacts Json JsonFacts KeyInfo SymKeys SymFacts AsymKeys
  Keys KeysFacts KeyData Keyczar KeyRing KeyczarFacts ErrFacts Disk Keyczart DiskFacts Props_Sym Props_Keyset Props_Sign.
Import ListNotations.
Local Open Scope Z_scope.
Ltac Zify.zify_post_hook ::= idtac.

(** ** C42: metadata files *)

(** [text_ok]: code points below 0x110000 in which no high surrogate is directly followed by a low one. *)

(** Any metadata object: an empty one to which any versions were added. *)
Theorem C42_metadata_roundtrip : forall name p t e vs, text_ok name ->
  let m := fold_left (fun m v => fst (meta_AddVersion m v)) vs (MkMeta name p t e []) in
  exists s, meta_str m = Ok s /\ meta_Read s = Ok m.
Proof.
  intros name p t e vs HN m.
  assert (G : forall vs m0, meta_wf m0 -> let m := fold_left (fun m v => fst (meta_AddVersion m v)) vs m0 in meta_wf m /\ m_name m = m_name m0).
  { clear. induction vs as [|v vs IH]; intros m0 W m; [split; [exact W | reflexivity]|]. cbn [fold_left] in m.
    destruct (IH (fst (meta_AddVersion m0 v)) (meta_AddVersion_wf m0 v W)) as [A B]. split; [exact A|]. unfold m. rewrite B.
    unfold meta_AddVersion. destruct (assoc Z.eqb (m_versions m0) (v_num v)); reflexivity. }
  destruct (G vs (MkMeta name p t e [])) as [W EN]; [split; constructor|]. fold m in W, EN.
  eexists. split; [apply meta_str_eq|]. apply (meta_rt m); [exact W | rewrite EN; exact HN | apply meta_str_eq].
Qed.
Print Assumptions C42_metadata_roundtrip.

(** Also the metadata of a key set, after any operations on it. *)
Theorem C42_keyset_metadata_roundtrip : forall ks, reached ks -> text_ok (ks_name ks) ->
  exists s, meta_str (ks_meta ks) = Ok s /\ meta_Read s = Ok (ks_meta ks).
Proof.
  intros ks R HN. eexists. split; [apply meta_str_eq|]. apply meta_rt; [apply ks_meta_wf, reached_inv, R | exact HN | apply meta_str_eq].
Qed.
Print Assumptions C42_keyset_metadata_roundtrip.

Example C42_case :
  text_ok [83%N; 252%N; 128512%N; 34%N; 92%N; 10%N] /\
  m_versions (fold_left (fun m v => fst (meta_AddVersion m v))
    [MkVersion 3 ACTIVE true; MkVersion (-1) PRIMARY false; MkVersion 3 INACTIVE false] (MkMeta [] VERIFY DSA_PUB true []))
  = [(3, MkVersion 3 ACTIVE true); (-1, MkVersion (-1) PRIMARY false)].
Proof. split; [|reflexivity]. cbn. unfold high, low. repeat split; try lia; intros H; exfalso; lia. Qed.

(** ** C43: writing and reading back *)

(** A key set some reader gave, after any operations whose random numbers are not negative. *)
Definition made (ks : keyset) : Prop :=
  exists c rd ks0 ops, open_keyset c rd = Ok ks0 /\ Forall draws_ok ops /\ ks = run ks0 ops.

Lemma made_reached ks : made ks -> reached ks.
Proof. intros (c & rd & ks0 & ops & H & _ & ->). exists c, rd, ks0, ops. auto. Qed.
Lemma made_inv ks : made ks -> inv ks.
Proof. intros M. apply reached_inv, made_reached, M. Qed.
Lemma made_wf ks : made ks -> keys_wf ks.
Proof.
  intros (c & rd & ks0 & ops & H & D & ->). apply keys_wf_run; [apply (inv_open c rd), H | apply (keys_wf_open c rd), H | exact D].
Qed.
Lemma made_open c rd ks : open_keyset c rd = Ok ks -> made ks.
Proof. intros H. exists c, rd, ks, []. repeat split; [exact H | constructor]. Qed.
Lemma made_run ks ops : made ks -> Forall draws_ok ops -> made (run ks ops).
Proof.
  intros (c & rd & ks0 & ops0 & H & D & ->) D2. exists c, rd, ks0, (ops0 ++ ops). split; [exact H|].
  split; [apply Forall_app; split; assumption | symmetry; apply run_app].
Qed.
Lemma made_acceptable ks : made ks -> In (ks_purpose ks) (accepts GenericKeyczar).
Proof. intros _. destruct (ks_purpose ks); cbn; tauto. Qed.

(** Two sets are the same: name, purpose, type, version numbers with status and export flag in
    order, and the key of each version; hence the same primary key, and the same identifiers
    find the same keys (if no two of its keys share one). *)
Definition same_keyset (a b : keyset) : Prop :=
  ks_name a = ks_name b /\ ks_purpose a = ks_purpose b /\ ks_type a = ks_type b /\
  m_versions (ks_meta a) = m_versions (ks_meta b) /\
  (forall n, ring_of a n = ring_of b n) /\
  (forall k, primary_key a = Ok k <-> primary_key b = Ok k) /\
  (ids_distinct b -> forall n s k h, ring_of b n = Some (s, k) -> key_hash_id k = Ok h -> GetKey_hash a h = Ok k) /\
  (forall h k, GetKey_hash a h = Ok k -> key_hash_id k = Ok h /\ exists n s, ring_of b n = Some (s, k)).

(** The keys of a set just opened have distinct identifiers if the versions of its ring have. *)
Lemma opened_ids c rd ks : open_keyset c rd = Ok ks ->
  (forall n m s s' k k', ring_of ks n = Some (s, k) -> ring_of ks m = Some (s', k') -> key_hash_id k = key_hash_id k' -> n = m) -> ids_distinct ks.
Proof.
  intros H D. pose proof (inv_open _ _ _ H) as I. apply open_ok in H as (s & m & l & _ & HR & _ & _ & F & _ & _ & _ & _ & EO & EM & EV & _ & _).
  pose proof (Forall2_length' _ _ _ F) as HL. unfold ids_distinct. rewrite EV.
  assert (EL : map (fun p => key_hash_id (snd p)) (combine (seq 0 (length (meta_versions m))) l) = map key_hash_id l).
  { rewrite <- (map_map snd key_hash_id). rewrite map_snd_combine by (rewrite seq_length; exact HL). reflexivity. }
  rewrite EL. rewrite NoDup_nth_error. intros i j Hi E. rewrite map_length in Hi.
  assert (Hj : (j < length l)%nat).
  { rewrite <- (map_length key_hash_id l). apply nth_error_Some. rewrite <- E. apply nth_error_Some. rewrite map_length. exact Hi. }
  rewrite !nth_error_map in E. destruct (nth_error l i) as [k|] eqn:Ei; [|apply nth_error_None in Ei; lia].
  destruct (nth_error l j) as [k'|] eqn:Ej; [|apply nth_error_None in Ej; lia]. cbn [option_map] in E. apply Some_inj in E.
  assert (R : forall i k, nth_error l i = Some k -> (i < length l)%nat -> exists n v, nth_error (m_versions m) i = Some (n, v) /\ exists st, ring_of ks n = Some (st, k)).
  { intros i0 k0 Hk Hlt. destruct (nth_error (m_versions m) i0) as [[n v]|] eqn:EN.
    2:{ apply nth_error_None in EN. unfold meta_versions in HL. rewrite map_length in HL. lia. }
    exists n, v. split; [reflexivity|].
    assert (HA : assoc Z.eqb (ks_mvers ks) n = Some i0).
    { apply (assoc_NoDup Z.eqb_eq); [apply (inv_mkeys ks I)|]. rewrite EM. unfold meta_versions. rewrite map_length.
      assert (G : forall (vs : list (Z * kversion)) o i p, nth_error vs i = Some p -> In (fst p, (o + i)%nat) (combine (map fst vs) (seq o (length vs)))).
      { clear. induction vs as [|q vs IH]; intros o i p H; [destruct i; discriminate|]. destruct i as [|i]; cbn [nth_error map length seq combine] in *.
        - apply Some_inj in H as <-. left. rewrite Nat.add_0_r. reflexivity.
        - right. specialize (IH (S o) i p H). replace (o + S i)%nat with (S o + i)%nat by lia. exact IH. }
      apply (G _ 0%nat i0 (n, v) EN). }
    destruct (ring_known ks n i0 I HA) as (k1 & A1 & A2). rewrite EV, HL in A1. change i0 with (0 + i0)%nat in A1. rewrite assoc_combine_seq, Hk in A1.
    apply Some_inj in A1 as <-. eexists. exact A2. }
  destruct (R i k Ei Hi) as (n & v & N1 & st & R1). destruct (R j k' Ej Hj) as (n' & v' & N2 & st' & R2).
  pose proof (D _ _ _ _ _ _ R1 R2 E) as <-.
  pose proof (proj1 (meta_Read_wf s m HR)) as ND. rewrite NoDup_nth_error in ND. apply ND.
  - rewrite map_length. apply nth_error_Some. congruence.
  - rewrite !nth_error_map, N1, N2. reflexivity.
Qed.

Lemma ring_ids ks : inv ks -> ids_distinct ks ->
  forall n m s s' k k', ring_of ks n = Some (s, k) -> ring_of ks m = Some (s', k') -> key_hash_id k = key_hash_id k' -> n = m.
Proof.
  intros I D n m s s' k k' R1 R2 E. destruct (ring_entry ks n s k I R1) as (o & A1 & A2 & _). destruct (ring_entry ks m s' k' I R2) as (o' & B1 & B2 & _).
  assert (o = o').
  { apply (assoc_In Nat.eqb_eq) in A2. apply (assoc_In Nat.eqb_eq) in B2. apply In_nth_error in A2 as [i Hi]. apply In_nth_error in B2 as [j Hj].
    unfold ids_distinct in D. rewrite NoDup_nth_error in D. assert (i = j).
    { apply D; [rewrite map_length; apply nth_error_Some; congruence|]. rewrite !nth_error_map, Hi, Hj. cbn [option_map snd]. congruence. }
    subst j. congruence. }
  subst o'. pose proof (inv_mvers ks I n o (assoc_In Z.eqb_eq A1)) as [_ N1]. pose proof (inv_mvers ks I m o (assoc_In Z.eqb_eq B1)) as [_ N2]. congruence.
Qed.

Lemma reopen_same ks l enc cr es f g c : made ks -> text_ok (ks_name ks) -> reads_back enc cr ->
  exec (WriteSet ks l enc es) f = (g, Ok tt) -> IsAcceptablePurpose c (ks_purpose ks) = true ->
  exists ks', open_keyset c (disk_reader g l cr) = Ok ks' /\ same_keyset ks' ks /\
    ks_encrypted ks' = match enc with Some _ => true | None => false end.
Proof.
  intros M HN RB H HP. pose proof (made_inv ks M) as I.
  destruct (reopen ks l enc cr es f g c I (made_wf ks M) HN RB H HP) as (ks' & EO & EM & ER). exists ks'. split; [exact EO|].
  pose proof (inv_open _ _ _ EO) as I'. split; [|pose proof (f_equal m_encrypted EM) as E; exact E].
  split; [exact (f_equal m_name EM)|]. split; [exact (f_equal m_purpose EM)|]. split; [exact (f_equal m_type EM)|]. split; [exact (f_equal m_versions EM)|].
  split; [exact ER|]. split; [|split].
  - intros k. rewrite (primary_key_spec ks' k I'), (primary_key_spec ks k I). split; intros (n & Hn); exists n; [rewrite <- ER | rewrite ER]; exact Hn.
  - intros D n s k h HR HH.
    assert (D' : ids_distinct ks').
    { apply (opened_ids _ _ _ EO). intros n1 n2 s1 s2 k1 k2. rewrite !ER. apply (ring_ids ks I D). }
    rewrite <- ER in HR. destruct (ring_entry ks' n s k I' HR) as (o & _ & HK & _). apply (ids_lookup ks' o k h I' D' (assoc_In Nat.eqb_eq HK) HH).
  - intros h k HG. destruct (proj1 (GetKey_hash_spec ks' h I') k HG) as [A (o & HI)]. split; [exact A|].
    destruct (proj1 (opened_ring _ _ _ k EO) (ex_intro _ o HI)) as (n & s & HR). exists n, s. rewrite <- ER. exact HR.
Qed.

Lemma exec_read c l cr f : exec (open_files c l cr) f = (f, open_keyset c (disk_reader f l cr)).
Proof. apply exec_open. Qed.

Lemma acceptable c p : IsAcceptablePurpose c p = true <-> In p (accepts c).
Proof. destruct c, p; cbn; split; intros H; try discriminate; try tauto; repeat (destruct H as [H|H]; try discriminate); try contradiction; reflexivity. Qed.

(** Without an encrypter: writing succeeds, and any class that accepts the purpose reads back the same set. *)
Theorem C43_plain_roundtrip : forall ks l es f c, made ks -> text_ok (ks_name ks) -> has_dir f l = true -> In (ks_purpose ks) (accepts c) ->
  exists g ks', exec (WriteSet ks l None es) f = (g, Ok tt) /\ exec (open_files c l None) g = (g, Ok ks') /\
    same_keyset ks' ks /\ ks_encrypted ks' = false.
Proof.
  intros ks l es f c M HN HD HP. destruct (WriteSet_total ks l es f HD (made_wf ks M)) as (g & H).
  apply acceptable in HP. destruct (reopen_same ks l None None es f g c M HN I H HP) as (ks' & EO & S & EE).
  exists g, ks'. split; [exact H|]. split; [rewrite exec_open, EO; reflexivity|]. split; assumption.
Qed.
Print Assumptions C43_plain_roundtrip.

(** With an encrypter whose ciphertexts the crypter decrypts. *)
Theorem C43_encrypted_roundtrip : forall ks l enc cr es f g c, made ks -> text_ok (ks_name ks) -> In (ks_purpose ks) (accepts c) ->
  (forall e s ct, Encrypt e enc s b64_encoder = Ok ct -> Decrypt cr ct b64_decoder = Ok s) ->
  exec (WriteSet ks l (Some enc) es) f = (g, Ok tt) ->
  exists ks', exec (open_files c l (Some cr)) g = (g, Ok ks') /\ same_keyset ks' ks /\ ks_encrypted ks' = true.
Proof.
  intros ks l enc cr es f g c M HN HP RB H. apply acceptable in HP.
  destruct (reopen_same ks l (Some enc) (Some cr) es f g c M HN RB H HP) as (ks' & EO & S & EE).
  exists ks'. split; [rewrite exec_open, EO; reflexivity|]. split; assumption.
Qed.
Print Assumptions C43_encrypted_roundtrip.

(** AES key sets are such crypters for what they encrypt. *)
Lemma aes_key_roundtrip e k data ct h : key_hash_id (KAes k) = Ok h -> key_Encrypt e (KAes k) data = Ok ct -> key_Decrypt (KAes k) ct = Ok data.
Proof.
  cbn [key_hash_id key_Encrypt key_Decrypt]. intros HH HE. unfold aes_hash_id in HH.
  apply bind_Ok in HH as (kb & Hk & HH). apply bind_Ok in HH as (hb & Hh & _).
  assert (HM : aes_material k kb hb) by (split; assumption).
  assert (HS : aes_size_ok kb \/ ~ aes_size_ok kb) by (unfold aes_size_ok; lia). destruct HS as [HS|HS].
  - destruct (C17_aes_roundtrip (e_lib e) k kb hb (e_tape e) data HM HS) as (c & E1 & E2). rewrite E1 in HE. apply Ok_inj in HE as <-. exact E2.
  - rewrite (C17_bad_key_length_refused _ _ _ _ _ _ HM HS) in HE. discriminate.
Qed.

Lemma key_type_aes k : key_type k = AES -> exists a, k = KAes a.
Proof. destruct k; try discriminate. intros _. eexists. reflexivity. Qed.

(** The header of a ciphertext names its key, which [Decrypt] then uses. *)
Lemma Decrypt_made ks n k id rest : holds ks n k -> key_hash_id k = Ok (Base64WSEncode id) -> len id = 4 ->
  Decrypt ks (x00 :: id ++ rest) None = key_Decrypt k (x00 :: id ++ rest).
Proof.
  intros H HH L. unfold Decrypt. cbn [apply_codec bind].
  assert (E : len (x00 :: id ++ rest) <? HEADER_SIZE = false).
  { rewrite len_cons, len_app. change HEADER_SIZE with 5. pose proof (len_nonneg rest). lia. }
  rewrite E. destruct (cons_head_slice id rest L) as [-> _]. rewrite (header_find ks n k id H HH L). reflexivity.
Qed.

Lemma encrypt_shape e ks data ct : reached ks -> Encrypt e ks data None = Ok ct ->
  exists n k id rest, ring_of ks n = Some (PRIMARY, k) /\ key_hash_id k = Ok (Base64WSEncode id) /\ len id = 4 /\
    key_Encrypt e k data = Ok ct /\ ct = x00 :: id ++ rest.
Proof.
  intros R H. pose proof (reached_inv ks R) as I. unfold Encrypt in H. apply bind_Ok in H as (k & HK & H). apply bind_Ok in H as (c & HC & H).
  cbn [apply_codec] in H. apply Ok_inj in H as <-. apply (primary_key_spec ks k I) in HK as (n & HR).
  destruct (signer_primary ks k (conj R (ex_intro _ n HR))) as (_ & id & HH & L & EH).
  destruct (key_Encrypt_header _ _ _ _ HC) as (h & t & EH' & ->). rewrite EH in EH'. apply Ok_inj in EH' as <-.
  exists n, k, id, t. repeat split; try assumption.
Qed.

Lemma Encrypt_b64 e ks data ct : Encrypt e ks data b64_encoder = Ok ct -> exists raw, Encrypt e ks data None = Ok raw /\ ct = Base64WSEncode raw.
Proof.
  unfold Encrypt. intros H. apply bind_Ok in H as (k & HK & H). apply bind_Ok in H as (c & HC & H). cbn in H. apply Ok_inj in H as <-.
  exists c. rewrite HK. cbn [bind]. rewrite HC. split; reflexivity.
Qed.

Lemma Decrypt_b64 ks raw : Decrypt ks (Base64WSEncode raw) b64_decoder = Decrypt ks raw None.
Proof. unfold Decrypt. cbn [apply_codec b64_decoder]. rewrite base64_roundtrip. reflexivity. Qed.

Theorem C43_aes_sets_decrypt_what_they_encrypt : forall ks e s ct, reached ks -> ids_distinct ks -> ks_type ks = AES ->
  Encrypt e ks s b64_encoder = Ok ct -> Decrypt ks ct b64_decoder = Ok s.
Proof.
  intros ks e s ct R D T H. apply Encrypt_b64 in H as (raw & H & ->). rewrite Decrypt_b64.
  destruct (encrypt_shape e ks s raw R H) as (n & k & id & rest & HR & HH & L & HE & ->).
  rewrite (Decrypt_made ks n k id rest); [|split; [exact R | split; [exact D | exists PRIMARY; exact HR]] | exact HH | exact L].
  pose proof (reached_inv ks R) as I. destruct (ring_entry ks n PRIMARY k I HR) as (o & _ & HK & _).
  pose proof (inv_type ks I o k (assoc_In Nat.eqb_eq HK)) as HT. rewrite T in HT. destruct (key_type_aes k HT) as (a & ->).
  apply (aes_key_roundtrip e a s _ _ HH HE).
Qed.
Print Assumptions C43_aes_sets_decrypt_what_they_encrypt.

(** Such an encrypter never fails, so writing with it succeeds. *)
Theorem C43_writing_with_aes_succeeds : forall ks l enc es f n k kb hb, made ks -> has_dir f l = true -> reached enc ->
  ring_of enc n = Some (PRIMARY, KAes k) -> aes_material k kb hb -> aes_size_ok kb ->
  exists g, exec (WriteSet ks l (Some enc) es) f = (g, Ok tt).
Proof.
  intros ks l enc es f n k kb hb M HD R HR HM HS. pose proof (made_wf ks M) as W. pose proof (reached_inv enc R) as IE.
  assert (HE : forall e s, exists ct, Encrypt e enc s b64_encoder = Ok ct).
  { intros e s. unfold Encrypt. rewrite (proj2 (primary_key_spec enc (KAes k) IE) (ex_intro _ n HR)). cbn [bind key_Encrypt].
    destruct (C17_aes_roundtrip (e_lib e) k kb hb (e_tape e) s HM HS) as (c & -> & _). eexists. reflexivity. }
  unfold WriteSet, WriteMetadata, pure. rewrite exec_bind, meta_str_eq. cbn [pbind].
  match goal with |- context[exec (WriteFile ?s _ _) _] => destruct (WriteFile_ok f s l meta_file HD) as (g1 & E1 & S1) end.
  rewrite E1. assert (HD1 : has_dir g1 l = true) by (rewrite (proj1 S1); exact HD). clear S1 E1. unfold keys_wf in W. revert g1 HD1. generalize 0%nat.
  induction (ks_vkeys ks) as [|[o k'] vk IH]; intros i g1 HD1; cbn [write_keys]; [eexists; reflexivity|].
  rewrite exec_bind, exec_WriteKey. unfold stored. rewrite (key_str_eq k' (Forall_inv W)). cbn [bind].
  destruct (HE (es i) (dumps (key_json k'))) as (ct & ->).
  destruct (WriteFile_ok g1 ct l (key_file (v_num (deref (ks_objs ks) o))) HD1) as (g2 & E2 & S2). rewrite E2.
  apply (IH (Forall_inv_tail W)). rewrite (proj1 S2). exact HD1.
Qed.
Print Assumptions C43_writing_with_aes_succeeds.

(** Concrete sets: testdata/hmac and testdata/aes. *)
Definition aes_meta : str := bs "{""encrypted"": false, ""versions"": [{""status"": ""ACTIVE"", ""versionNumber"": 1, ""exportable"": false}, {""status"": ""PRIMARY"", ""versionNumber"": 2, ""exportable"": false}], ""type"": ""AES"", ""name"": ""Test"", ""purpose"": ""DECRYPT_AND_ENCRYPT""}".
Definition aes_1 : str := bs "{""hmacKey"": {""hmacKeyString"": ""6flZ-mHQWqQJxvLf01sFfC92UGxLDIlUh3SakvfA4d0"", ""size"": 256}, ""aesKeyString"": ""oI8Do9zS2ob61QH_lOivxQ"", ""mode"": ""CBC"", ""size"": 128}".
Definition aes_2 : str := bs "{""hmacKey"": {""hmacKeyString"": ""fLiLNf4O9ZHUpC5eBlqNFnpybmSXx8egUFM8_WC8io8"", ""size"": 256}, ""aesKeyString"": ""1WnnXOmPTDzQ8NSvdsTqew"", ""mode"": ""CBC"", ""size"": 128}".
Definition test_disk : disk :=
  [(bs "/hmac", [(bs "meta", hmac_meta); (bs "1", hmac_1); (bs "2", hmac_2)]);
   (bs "/aes", [(bs "1", aes_1); (bs "2", aes_2); (bs "meta", aes_meta)]);
   (bs "/new", [])].
Definition aes_set : keyset := Eval vm_compute in
  match open_keyset Crypter (file_reader test_disk (bs "/aes")) with Ok ks => ks | Raise _ => hmac_set end.
Lemma aes_set_opens : open_keyset Crypter (file_reader test_disk (bs "/aes")) = Ok aes_set.
Proof. vm_compute. reflexivity. Qed.

Example C43_case : made hmac_set /\ text_ok (ks_name hmac_set) /\ has_dir test_disk (bs "/new") = true /\
  In (ks_purpose hmac_set) (accepts Signer) /\ ids_distinct aes_set /\ ks_type aes_set = AES /\
  exists k kb hb, ring_of aes_set 2 = Some (PRIMARY, KAes k) /\ aes_material k kb hb /\ aes_size_ok kb.
Proof.
  split; [apply (made_open _ _ _ hmac_set_opens)|]. split; [apply (tx_ok "Test")|]. split; [reflexivity|]. split; [left; reflexivity|].
  split; [vm_compute; repeat constructor; cbn; intros H; repeat destruct H as [H|H]; try discriminate H; exact H|].
  split; [reflexivity|]. eexists _, _, _. split; [vm_compute; reflexivity|]. split; [split; vm_compute; reflexivity|]. left. reflexivity.
Qed.

(** ** C44: encrypted key sets *)

(** A text some call of the encrypter's [Encrypt] made. *)
Definition ciphertext_of (enc : keyset) (plain ct : str) : Prop := exists e, Encrypt e enc plain b64_encoder = Ok ct.

(** Whatever the outcome, only files of the set's location change, and all but the metadata then
    hold ciphertext. *)
Theorem C44_only_ciphertext_is_written : forall ks l enc es f g r, made ks -> exec (WriteSet ks l (Some enc) es) f = (g, r) ->
  forall l' n', file g l' n' <> file f l' n' ->
    l' = l /\ (n' = meta_file \/ exists plain ct, ciphertext_of enc plain ct /\ file g l n' = Some ct).
Proof.
  intros ks l enc es f g r M H l' n' D. pose proof (made_inv ks M) as I.
  destruct (WriteSet_spec _ _ _ _ _ _ _ I H) as (_ & _ & _ & S3 & S4 & _).
  assert (EL : l' = l) by (destruct (str_eqb l' l) eqn:E; [apply str_eqb_eq, E | exfalso; apply D, S3; left; intros ->; rewrite str_eqb_refl in E; discriminate]).
  subst l'. split; [reflexivity|]. destruct (str_eqb n' meta_file) eqn:EN; [left; apply str_eqb_eq, EN|]. right.
  assert (NM : n' <> meta_file) by (intros ->; rewrite str_eqb_refl in EN; discriminate).
  assert (HX : (exists p, In p (ks_vkeys ks) /\ n' = key_file (num_of (ks_objs ks) p)) \/ (forall p, In p (ks_vkeys ks) -> n' <> key_file (num_of (ks_objs ks) p))).
  { clear. induction (ks_vkeys ks) as [|q vk IH]; [right; intros p []|]. destruct IH as [(p & Hp & E)|IH]; [left; exists p; split; [right; exact Hp | exact E]|].
    destruct (str_eqb n' (key_file (num_of (ks_objs ks) q))) eqn:E.
    - left. exists q. split; [left; reflexivity | apply str_eqb_eq, E].
    - right. intros p [<-|Hp]; [intros ->; rewrite str_eqb_refl in E; discriminate | apply IH, Hp]. }
  destruct HX as [(p & Hp & ->)|HX]; [|exfalso; apply D, S3; right; split; assumption].
  destruct (S4 p Hp) as [C|(e & ct & ES & EF)]; [contradiction|]. unfold stored in ES. apply bind_Ok in ES as (plain & _ & ES).
  exists plain, ct. split; [exists e; exact ES | exact EF].
Qed.
Print Assumptions C44_only_ciphertext_is_written.

(** If writing succeeds, every version's key file is the encryption of the printed key, the
    metadata says encrypted, and no class opens the set without a crypter. *)
Theorem C44_encrypted_sets : forall ks l enc es f g, made ks -> text_ok (ks_name ks) -> exec (WriteSet ks l (Some enc) es) f = (g, Ok tt) ->
  (forall n s k, ring_of ks n = Some (s, k) -> exists plain ct, key_str k = Ok plain /\ ciphertext_of enc plain ct /\ file g l (key_file n) = Some ct) /\
  (exists s m, file g l meta_file = Some s /\ meta_Read s = Ok m /\ m_encrypted m = true /\ m_versions m = m_versions (ks_meta ks)) /\
  (forall c, exec (open_files c l None) g = (g, Raise KeyczarError)).
Proof.
  intros ks l enc es f g M HN H. pose proof (made_inv ks M) as I. pose proof (WriteSet_on_disk _ _ _ _ _ _ I H) as [S1 S2].
  assert (RT : meta_Read (dumps (meta_json (ks_meta (written ks (Some enc))) (map version_json (meta_versions (ks_meta ks))))) = Ok (ks_meta (written ks (Some enc)))).
  { change (meta_versions (ks_meta ks)) with (meta_versions (ks_meta (written ks (Some enc)))).
    apply meta_rt; [apply ks_meta_wf; destruct I; split; assumption | exact HN | apply meta_str_eq]. }
  split; [|split].
  - intros n s k HR. destruct (ring_entry ks n s k I HR) as (o & A & B & _).
    destruct (S2 n o k (assoc_In Z.eqb_eq A) (assoc_In Nat.eqb_eq B)) as (e & ct & ES & EF).
    unfold stored in ES. apply bind_Ok in ES as (plain & EP & ES). exists plain, ct. split; [exact EP|]. split; [exists e; exact ES | exact EF].
  - eexists _, _. split; [exact S1|]. split; [exact RT|]. split; reflexivity.
  - intros c. rewrite exec_open. unfold open_keyset, disk_reader, file_reader. cbn [rd_meta rd_encrypted]. rewrite S1. cbn [answer bind]. rewrite RT. cbn [bind].
    destruct (negb _); reflexivity.
Qed.
Print Assumptions C44_encrypted_sets.

(** A crypter opens a set only if it decrypts every key file of it. *)
Theorem C44_opened_only_by_decrypting : forall c l cr f ks, exec (open_files c l (Some cr)) f = (f, Ok ks) ->
  forall n s k, ring_of ks n = Some (s, k) ->
    exists ct plain, file f l (key_file n) = Some ct /\ Decrypt cr ct b64_decoder = Ok plain /\ ReadKey (ks_type ks) plain = Ok k.
Proof.
  intros c l cr f ks H n s k HR. rewrite exec_open in H. apply pair_inj in H as [_ H].
  pose proof (open_ok _ _ _ H) as (s0 & m & _ & E1 & E2 & _ & _ & _ & _ & _ & E3 & _).
  rewrite (open_ring _ _ _ _ _ H E1 E2 n) in HR. destruct (assoc Z.eqb (m_versions m) n) as [v|]; [|discriminate].
  cbn [disk_reader EncryptedReader file_reader rd_key] in HR. rewrite E3. destruct (file f l (key_file n)) as [ct|]; cbn [answer bind] in HR; [|discriminate].
  destruct (Decrypt cr ct b64_decoder) as [plain|] eqn:ED; cbn [bind] in HR; [|discriminate].
  destruct (ReadKey (m_type m) plain) as [k'|] eqn:EK; [|discriminate]. apply Some_inj, pair_inj in HR as [_ <-].
  exists ct, plain. split; [reflexivity|]. split; [exact ED | exact EK].
Qed.
Print Assumptions C44_opened_only_by_decrypting.

(** What the metadata file says depends only on name, purpose, type and versions, not on keys. *)
Theorem C44_metadata_has_no_key_material : forall ks1 ks2 l enc es1 es2 f1 f2 g1 g2 r1 r2, made ks1 -> made ks2 ->
  ks_meta ks1 = ks_meta ks2 -> has_dir f1 l = true -> has_dir f2 l = true ->
  exec (WriteSet ks1 l (Some enc) es1) f1 = (g1, r1) -> exec (WriteSet ks2 l (Some enc) es2) f2 = (g2, r2) ->
  file g1 l meta_file = file g2 l meta_file.
Proof.
  intros ks1 ks2 l enc es1 es2 f1 f2 g1 g2 r1 r2 M1 M2 E D1 D2 H1 H2.
  destruct (WriteSet_spec _ _ _ _ _ _ _ (made_inv _ M1) H1) as (_ & A1 & _). destruct (WriteSet_spec _ _ _ _ _ _ _ (made_inv _ M2) H2) as (_ & A2 & _).
  rewrite (A1 D1), (A2 D2), E. f_equal. f_equal. unfold meta_json. cbn [written set_encrypted ks_meta m_name m_purpose m_type m_encrypted].
  pose proof (f_equal m_name E) as N1. pose proof (f_equal m_purpose E) as N2. pose proof (f_equal m_type E) as N3. cbn in N1, N2, N3.
  unfold written, set_encrypted. cbn [ks_name ks_purpose ks_type ks_encrypted]. rewrite N1, N2, N3. reflexivity.
Qed.
Print Assumptions C44_metadata_has_no_key_material.

Definition one_env : nat -> env := fun _ => MkEnv PyCrypto (fun _ => x07) 1.
Example C44_case : exists g, exec (WriteSet hmac_set (bs "/new") (Some aes_set) one_env) test_disk = (g, Ok tt).
Proof.
  destruct C43_case as (A & _ & B & _ & _ & _ & k & kb & hb & C & D & E).
  apply (C43_writing_with_aes_succeeds hmac_set (bs "/new") aes_set one_env test_disk 2 k kb hb A B (made_reached _ (made_open _ _ _ aes_set_opens)) C D E).
Qed.

(** ** C45: exporting public keys *)

(** Which sets can be exported, and as what. *)
Definition exported_as (t : ktype) (p : purpose) : option (ktype * purpose) :=
  match t, p with
  | DSA_PRIV, SIGN_AND_VERIFY => Some (DSA_PUB, VERIFY)
  | RSA_PRIV, SIGN_AND_VERIFY => Some (RSA_PUB, VERIFY)
  | RSA_PRIV, DECRYPT_AND_ENCRYPT => Some (RSA_PUB, ENCRYPT)
  | _, _ => None
  end.

Lemma public_half k t p pt pp : key_wf k -> key_type k = t -> exported_as t p = Some (pt, pp) ->
  exists pub s, public_key k = Ok pub /\ key_wf pub /\ key_type pub = pt /\ key_hash_id pub = key_hash_id k /\ key_str pub = Ok s.
Proof.
  intros W <- E. destruct k; cbn [key_type exported_as] in E; try discriminate.
  - destruct p; try discriminate. apply Some_inj, pair_inj in E as [<- <-]. eexists _, _. split; [reflexivity|]. split; [exact (proj1 W)|]. repeat split.
  - assert (pt = RSA_PUB) by (destruct p; try discriminate; apply Some_inj, pair_inj in E as [<- _]; reflexivity). subst pt.
    eexists _, _. split; [reflexivity|]. split; [exact (proj1 W)|]. repeat split.
Qed.

(** Export succeeds; only the metadata file and the files of the set's versions in the
    destination change; what is there opens as a set of the public halves with the same
    numbers, statuses and identifiers.  (Versions revoked since the set was opened are
    exported too, see C31.) *)
Theorem C45_public_export : forall ks dest f pt pp, made ks -> text_ok (ks_name ks) -> has_dir f dest = true ->
  exported_as (ks_type ks) (ks_purpose ks) = Some (pt, pp) ->
  exists g, exec (PublicKeyExport ks dest) f = (g, Ok tt) /\
    (forall l' n', file g l' n' <> file f l' n' -> l' = dest /\
       (n' = meta_file \/ exists o k, In (o, k) (ks_vkeys ks) /\ n' = key_file (v_num (deref (ks_objs ks) o)))) /\
    forall c, In pp (accepts c) -> exists ks', exec (open_files c dest None) g = (g, Ok ks') /\
      ks_name ks' = ks_name ks /\ ks_purpose ks' = pp /\ ks_type ks' = pt /\ ks_encrypted ks' = false /\
      (forall n s k, ring_of ks n = Some (s, k) ->
         exists pub, public_key k = Ok pub /\ ring_of ks' n = Some (s, pub) /\ key_hash_id pub = key_hash_id k) /\
      (forall n s pub, ring_of ks' n = Some (s, pub) ->
         exists o k, In (o, k) (ks_vkeys ks) /\ deref (ks_objs ks) o = MkVersion n s (v_export (deref (ks_objs ks) o)) /\ public_key k = Ok pub).
Proof.
  intros ks dest f pt pp M HN HD EX. pose proof (made_inv ks M) as I. pose proof (made_wf ks M) as W.
  assert (EPM : public_meta ks = Ok (pp, pt)).
  { unfold public_meta. destruct (ks_type ks), (ks_purpose ks); try discriminate; apply Some_inj, pair_inj in EX as [<- <-]; reflexivity. }
  assert (PH : forall o k, In (o, k) (ks_vkeys ks) -> exists pub s, public_key k = Ok pub /\ key_wf pub /\ key_type pub = pt /\ key_hash_id pub = key_hash_id k /\ key_str pub = Ok s).
  { intros o k HI. apply (public_half k (ks_type ks) (ks_purpose ks) pt pp); [|apply (inv_type ks I o k HI) | exact EX].
    apply (proj1 (Forall_forall _ _) W (o, k) HI). }
  destruct (export_keys_spec dest (ks_objs ks) (ks_vkeys ks) (MkMeta (ks_name ks) pp pt false []) f HD (nums_NoDup ks I)) as (g1 & E1 & A & B & C).
  { apply Forall_forall. intros [o k] HI. destruct (PH o k HI) as (pub & s & P1 & _ & _ & _ & P2). exists pub, s. split; assumption. }
  cbn [m_name m_purpose m_type m_encrypted m_versions app] in E1.
  set (m := MkMeta (ks_name ks) pp pt false (map (fun p => (num_of (ks_objs ks) p, deref (ks_objs ks) (fst p))) (ks_vkeys ks))) in E1.
  assert (HD1 : has_dir g1 dest = true) by (rewrite A; exact HD).
  destruct (WriteFile_ok g1 (dumps (meta_json m (map version_json (meta_versions m)))) dest meta_file HD1) as (g & EG & SG).
  exists g. split; [|split].
  - unfold PublicKeyExport, pure. rewrite EPM. cbn [pbind]. rewrite exec_bind, E1, meta_str_eq. cbn [pbind]. exact EG.
  - intros l' n' D. rewrite (proj2 SG) in D. destruct (str_eqb dest l' && str_eqb meta_file n') eqn:EB.
    + apply andb_true_iff in EB as [E2 E3]. apply str_eqb_eq in E2 as <-. apply str_eqb_eq in E3 as <-. split; [reflexivity | left; reflexivity].
    + assert (HX : (l' = dest /\ exists p, In p (ks_vkeys ks) /\ n' = key_file (num_of (ks_objs ks) p)) \/ (l' <> dest \/ forall p, In p (ks_vkeys ks) -> n' <> key_file (num_of (ks_objs ks) p))).
      { clear. destruct (str_eqb l' dest) eqn:EL; [apply str_eqb_eq in EL as -> | right; left; intros ->; rewrite str_eqb_refl in EL; discriminate].
        assert (G : (exists p, In p (ks_vkeys ks) /\ n' = key_file (num_of (ks_objs ks) p)) \/ (forall p, In p (ks_vkeys ks) -> n' <> key_file (num_of (ks_objs ks) p))).
        { induction (ks_vkeys ks) as [|q vk IH]; [right; intros p []|]. destruct IH as [(p & Hp & E)|IH]; [left; exists p; split; [right; exact Hp | exact E]|].
          destruct (str_eqb n' (key_file (num_of (ks_objs ks) q))) eqn:E.
          - left. exists q. split; [left; reflexivity | apply str_eqb_eq, E].
          - right. intros p [<-|Hp]; [intros ->; rewrite str_eqb_refl in E; discriminate | apply IH, Hp]. }
        destruct G as [G|G]; [left; split; [reflexivity | exact G] | right; right; exact G]. }
      destruct HX as [(-> & [o k] & Hp & ->)|HX]; [|exfalso; apply D, B, HX]. split; [reflexivity|]. right. exists o, k. split; [exact Hp | reflexivity].
  - intros c HP. apply acceptable in HP.
    assert (FK : forall p, In p (ks_vkeys ks) -> exists pub s, public_key (snd p) = Ok pub /\ key_str pub = Ok s /\ file g dest (key_file (num_of (ks_objs ks) p)) = Some s).
    { intros p Hp. destruct (C p Hp) as (pub & s & P1 & P2 & P3). exists pub, s. split; [exact P1|]. split; [exact P2|].
      rewrite (proj2 SG), meta_key_eqb, andb_false_r. exact P3. }
    assert (NK : NoDup (map fst (map (fun p => (num_of (ks_objs ks) p, snd p)) (ks_vkeys ks)))) by (rewrite map_map; apply (nums_NoDup ks I)).
    set (keyof n := match assoc Z.eqb (map (fun p => (num_of (ks_objs ks) p, snd p)) (ks_vkeys ks)) n with
                    | Some k => match public_key k with Ok pub => Some pub | Raise _ => None end | None => None end).
    assert (KO : forall p, In p (ks_vkeys ks) -> exists pub, public_key (snd p) = Ok pub /\ keyof (num_of (ks_objs ks) p) = Some pub).
    { intros [o k] Hp. destruct (PH o k Hp) as (pub & s & P1 & _). exists pub. split; [exact P1|]. unfold keyof.
      rewrite (assoc_NoDup Z.eqb_eq NK (k := num_of (ks_objs ks) (o, k)) (v := k)); [rewrite P1; reflexivity|].
      apply in_map_iff. exists (o, k). split; [reflexivity | exact Hp]. }
    destruct (open_from_disk g dest None m keyof c) as (ks' & O1 & O2 & O3).
    + split; [unfold m; cbn [m_versions]; rewrite map_map; apply (nums_NoDup ks I)|]. unfold m. cbn [m_versions]. apply Forall_map, Forall_forall. intros p _. reflexivity.
    + exact HN.
    + intros i j v w Hi Hj HV HW. unfold m, meta_versions in Hi, Hj. cbn [m_versions] in Hi, Hj. rewrite map_map in Hi, Hj. cbn [snd] in Hi, Hj. rewrite nth_error_map in Hi, Hj.
      destruct (nth_error (ks_vkeys ks) i) as [[o k]|] eqn:Ei; [|discriminate]. destruct (nth_error (ks_vkeys ks) j) as [[o' k']|] eqn:Ej; [|discriminate].
      cbn [option_map fst] in Hi, Hj. apply Some_inj in Hi as <-. apply Some_inj in Hj as <-.
      assert (Io : In o (ks_versions ks)) by (apply (in_map fst _ _ (nth_error_In _ _ Ei))).
      assert (Io' : In o' (ks_versions ks)) by (apply (in_map fst _ _ (nth_error_In _ _ Ej))).
      pose proof (inv_prim1 ks I o Io HV) as P1. pose proof (inv_prim1 ks I o' Io' HW) as P2. rewrite P1 in P2. apply Some_inj in P2 as <-.
      pose proof (inv_vnodup ks I) as ND. unfold ks_versions in ND. rewrite NoDup_nth_error in ND. apply ND.
      * rewrite map_length. apply nth_error_Some. congruence.
      * rewrite !nth_error_map, Ei, Ej. reflexivity.
    + exact HP.
    + discriminate.
    + apply (set_to_this _ _ _ _ _ SG).
    + intros n v Hv. unfold m in Hv. cbn [m_versions] in Hv. apply in_map_iff in Hv as ([o k] & E & Hp). apply pair_inj in E as [<- <-].
      destruct (FK _ Hp) as (pub & s & P1 & P2 & P3). destruct (KO _ Hp) as (pub' & Q1 & Q2). rewrite P1 in Q1. apply Ok_inj in Q1 as <-.
      destruct (PH o k Hp) as (pub2 & s2 & R1 & R2 & R3 & R4 & R5). cbn [snd] in P1. rewrite P1 in R1. apply Ok_inj in R1 as <-. rewrite P2 in R5. apply Ok_inj in R5 as <-.
      destruct (inv_hash1 ks I o k Hp) as (h & _ & HH & _). exists s, pub, h. split; [exact Q2|]. split; [cbn [disk_reader file_reader rd_key]; rewrite P3; reflexivity|].
      split; [|rewrite R4; exact HH]. change (m_type m) with pt. rewrite <- R3. rewrite (key_str_eq pub R2) in P2. apply Ok_inj in P2 as <-. apply key_rt. exact R2.
    + exists ks'. split; [rewrite exec_open, O1; reflexivity|]. split; [exact (f_equal m_name O2)|]. split; [exact (f_equal m_purpose O2)|].
      split; [exact (f_equal m_type O2)|]. split; [exact (f_equal m_encrypted O2)|].
      assert (AV : forall o k, In (o, k) (ks_vkeys ks) -> assoc Z.eqb (m_versions m) (v_num (deref (ks_objs ks) o)) = Some (deref (ks_objs ks) o)).
      { intros o k Hp. apply (assoc_NoDup Z.eqb_eq); [unfold m; cbn [m_versions]; rewrite map_map; apply (nums_NoDup ks I)|].
        unfold m. cbn [m_versions]. apply in_map_iff. exists (o, k). split; [reflexivity | exact Hp]. }
      split.
      * intros n s k HR. destruct (ring_entry ks n s k I HR) as (o & T1 & T2 & T3 & _). pose proof (assoc_In Nat.eqb_eq T2) as Hp.
        pose proof (proj2 (inv_mvers ks I n o (assoc_In Z.eqb_eq T1))) as T4.
        destruct (KO _ Hp) as (pub & Q1 & Q2). unfold num_of in Q2. cbn [fst snd] in Q1, Q2. exists pub. split; [exact Q1|]. split.
        -- rewrite O3, <- T4, (AV o k Hp), Q2, T3. reflexivity.
        -- destruct (PH o k Hp) as (pub2 & s2 & R1 & _ & _ & R4 & _). rewrite Q1 in R1. apply Ok_inj in R1 as <-. exact R4.
      * intros n s pub HR. rewrite O3 in HR. destruct (assoc Z.eqb (m_versions m) n) as [v|] eqn:EA; [|discriminate].
        destruct (keyof n) as [pub'|] eqn:EK; [|discriminate]. apply Some_inj, pair_inj in HR as [<- <-].
        apply (assoc_In Z.eqb_eq) in EA. unfold m in EA. cbn [m_versions] in EA. apply in_map_iff in EA as ([o k] & E & Hp). apply pair_inj in E as [<- <-].
        destruct (KO _ Hp) as (pub2 & Q1 & Q2). rewrite EK in Q2. apply Some_inj in Q2 as <-. exists o, k. split; [exact Hp|]. split; [|exact Q1].
        unfold num_of. cbn [fst]. destruct (deref (ks_objs ks) o). reflexivity.
Qed.
Print Assumptions C45_public_export.

(** The command [pubkey] exports exactly the versions of the set at the location. *)
Theorem C45_pubkey_command : forall l dest f ks pt pp, exec (open_files GenericKeyczar l None) f = (f, Ok ks) -> text_ok (ks_name ks) ->
  has_dir f dest = true -> exported_as (ks_type ks) (ks_purpose ks) = Some (pt, pp) ->
  exists g, exec (PubKeyCmd (Some l) (Some dest)) f = (g, Ok tt) /\
    forall c, In pp (accepts c) -> exists ks', exec (open_files c dest None) g = (g, Ok ks') /\
      forall n, match ring_of ks n with
                | Some (s, k) => exists pub, public_key k = Ok pub /\ ring_of ks' n = Some (s, pub) /\ key_hash_id pub = key_hash_id k
                | None => ring_of ks' n = None
                end.
Proof.
  intros l dest f ks pt pp HO HN HD EX. pose proof HO as HO'. rewrite exec_open in HO'. apply pair_inj in HO' as [_ HO'].
  pose proof (made_open _ _ _ HO') as M. pose proof (made_inv ks M) as I.
  destruct (C45_public_export ks dest f pt pp M HN HD EX) as (g & E & _ & HC). exists g. split.
  - unfold PubKeyCmd, CreateGenericKeyczar. rewrite exec_bind, exec_bind.
    assert (HL : has_dir f l = true).
    { apply open_ok in HO' as (s & m & ls & EM & _). cbn [disk_reader file_reader rd_meta] in EM. destruct (file f l meta_file) eqn:EF; [|discriminate]. apply (has_dir_file _ _ _ _ EF). }
    unfold CreateReader, first_accepting, reader_classes, FileReader_CreateReader. cbn [pbind exec]. rewrite HL. cbn [pbind exec]. rewrite HO. exact E.
  - intros c HP. destruct (HC c HP) as (ks' & O1 & _ & _ & _ & _ & R1 & R2). exists ks'. split; [exact O1|]. intros n.
    destruct (ring_of ks n) as [[s k]|] eqn:ER; [apply (R1 n s k ER)|]. destruct (ring_of ks' n) as [[s pub]|] eqn:ER'; [|reflexivity]. exfalso.
    destruct (R2 n s pub ER') as (o & k & Hp & ED & _).
    destruct (proj1 (opened_ring _ _ _ k HO') (ex_intro _ o Hp)) as (n' & s' & HR').
    destruct (ring_entry ks n' s' k I HR') as (o' & T1 & T2 & _ & T3).
    (* the version object is in the metadata: it was loaded from it *)
    pose proof (open_ok _ _ _ HO') as (s0 & m & ls & _ & ERd & _ & _ & F & _ & _ & _ & _ & EO & EM & EV & _).
    assert (Ho : In o (map snd (ks_mvers ks))).
    { rewrite EM, map_snd_combine by (unfold meta_versions; rewrite !map_length, seq_length; reflexivity).
      rewrite EV in Hp. apply in_combine_l in Hp. exact Hp. }
    apply in_map_iff in Ho as ([n2 o2] & E2 & HI). cbn [snd] in E2. subst o2. pose proof (proj2 (inv_mvers ks I n2 o HI)) as NN.
    assert (EN : n2 = n) by (rewrite <- NN, ED; reflexivity). rewrite EN in HI.
    destruct (ring_known ks n o I (assoc_NoDup Z.eqb_eq (inv_mkeys ks I) HI)) as (k2 & _ & C2). congruence.
Qed.
Print Assumptions C45_pubkey_command.

(** Sets that have no public half are refused before anything is written. *)
Theorem C45_symmetric_sets_refused : forall ks dest f, exported_as (ks_type ks) (ks_purpose ks) = None ->
  exec (PublicKeyExport ks dest) f = (f, Raise KeyczarError).
Proof.
  intros ks dest f H. unfold PublicKeyExport, pure, public_meta. destruct (ks_type ks), (ks_purpose ks); try discriminate; reflexivity.
Qed.
Print Assumptions C45_symmetric_sets_refused.

(** What is written is a function of the public halves: sets that differ in private material only
    have the same effect. *)
Theorem C45_independent_of_private_material : forall ks1 ks2 dest f,
  ks_name ks1 = ks_name ks2 -> ks_type ks1 = ks_type ks2 -> ks_purpose ks1 = ks_purpose ks2 -> ks_objs ks1 = ks_objs ks2 ->
  map (fun p => (fst p, public_key (snd p))) (ks_vkeys ks1) = map (fun p => (fst p, public_key (snd p))) (ks_vkeys ks2) ->
  exec (PublicKeyExport ks1 dest) f = exec (PublicKeyExport ks2 dest) f.
Proof.
  intros ks1 ks2 dest f E1 E2 E3 E4 E5. unfold PublicKeyExport, public_meta. rewrite E1, E2, E3, E4.
  assert (G : forall vk1 vk2 m, map (fun p : nat * key => (fst p, public_key (snd p))) vk1 = map (fun p => (fst p, public_key (snd p))) vk2 ->
              forall f, exec (export_keys dest (ks_objs ks2) vk1 m) f = exec (export_keys dest (ks_objs ks2) vk2 m) f).
  { clear. induction vk1 as [|[o k] vk1 IH]; intros [|[o' k'] vk2] m E f; try discriminate; [reflexivity|].
    cbn [map fst snd] in E. injection E as E1 E2 E3. subst o'. cbn [export_keys]. rewrite E2. unfold pure. destruct (public_key k') as [pub|]; cbn [pbind]; [|reflexivity].
    destruct (key_str pub) as [s|]; cbn [pbind]; [|reflexivity]. rewrite !exec_bind. destruct (exec (WriteFile _ _ _) f) as [f' [u|e]]; [apply (IH _ _ E3) | reflexivity]. }
  destruct (match ks_type ks2 with DSA_PRIV => _ | _ => _ end) as [[p t]|e]; unfold pure; cbn [pbind]; [|reflexivity].
  rewrite !exec_bind, (G _ _ _ E5). reflexivity.
Qed.
Print Assumptions C45_independent_of_private_material.

(** The golden DSA key 1 as a one-version set. *)
Definition dsa_meta : str := bs "{""encrypted"": false, ""versions"": [{""status"": ""PRIMARY"", ""versionNumber"": 1, ""exportable"": false}], ""type"": ""DSA_PRIV"", ""name"": ""Test"", ""purpose"": ""SIGN_AND_VERIFY""}".
Definition dsa_1 : str := bs "{""publicKey"": {""q"": ""AJNngGu_rd8gPsxNvKYlkk2xK-5L"", ""p"": ""AIAAAAAAAAAC36I466c_f1bADUCurTdflKhADFpWOtmRoBhuxNeAouxlL2Udz2fEsTKNv6NG712-bn2JnezPJ00TjjczyCkpZCi8B3a15gtjl2qRWel0rnLnIWrwefPSotBmK9lR13-BEZKfwtPuxkuDwpbIc33EBZb6BMphoBZL"", ""y"": ""AGDL8GKDAkDvz0_yTEzn2CaFmg8-lWsgLL9ktpMMnXHM7Yw1xTQfcHeBplEC9zIdmqRvtF69JY_pMLo8iwDjJ_yPFoP7AwfKLysgl8I22OJ3ty03MzfUrlM_-OvOlwAakNKotcj4zJbhkOFqmbS5MnQZh5iIMAWUa2woqUE3QXHO"", ""g"": ""AA-eUiV59qa6IhTKAMfaq9r0xgC9sHoCUCWZBRe4nvn7f5qEjwJOJmJqKQMIgCYez59hAI7hihgUBqBDj0v-yjcYK-ehsvs8SfUyZRYfN9MpeWZN-Jw72HGmWUL4nwWWqjuRc9DsRoxSLHuuhi6kKSTeCcgRr2DJwpB4RegJ3SI0"", ""size"": 1024}, ""size"": 1024, ""x"": ""AAaRx8WEKkkvPorY0Ys2KpZVO-F5""}".
Definition dsa_disk : disk := [(bs "/dsa", [(bs "meta", dsa_meta); (bs "1", dsa_1)]); (bs "/pub", [])].
Definition dsa_set : keyset := Eval vm_compute in
  match open_keyset GenericKeyczar (file_reader dsa_disk (bs "/dsa")) with Ok ks => ks | Raise _ => hmac_set end.
Example C45_case : exec (open_files GenericKeyczar (bs "/dsa") None) dsa_disk = (dsa_disk, Ok dsa_set) /\ text_ok (ks_name dsa_set) /\
  has_dir dsa_disk (bs "/pub") = true /\ exported_as (ks_type dsa_set) (ks_purpose dsa_set) = Some (DSA_PUB, VERIFY) /\
  exported_as (ks_type hmac_set) (ks_purpose hmac_set) = None /\ exists k, ring_of dsa_set 1 = Some (PRIMARY, k).
Proof.
  split; [vm_compute; reflexivity|]. split; [apply (tx_ok "Test")|]. split; [reflexivity|]. split; [reflexivity|]. split; [reflexivity|].
  eexists. vm_compute. reflexivity.
Qed.

(** ** C46: create *)

(** The key type that the purpose and the asymmetric flag imply. *)
Inductive implied : purpose -> option str -> ktype -> Prop :=
| ImpHmac : implied SIGN_AND_VERIFY None HMAC_SHA1
| ImpRsaSign a : lower a = bs "rsa" -> implied SIGN_AND_VERIFY (Some a) RSA_PRIV
| ImpDsa a : lower a <> bs "rsa" -> implied SIGN_AND_VERIFY (Some a) DSA_PRIV
| ImpAes : implied DECRYPT_AND_ENCRYPT None AES
| ImpRsaCrypt a : implied DECRYPT_AND_ENCRYPT (Some a) RSA_PRIV.

Lemma implied_type p a t : implied p a t -> create_type (Some p) a = Ok (p, t).
Proof.
  destruct 1 as [|a H|a H| |a]; try reflexivity; cbn [create_type].
  - rewrite H, str_eqb_refl. reflexivity.
  - rewrite (str_eqb_neq _ _ H). reflexivity.
Qed.

(** In an existing directory without metadata, [create] writes metadata of an empty set and
    nothing else. *)
Theorem C46_create_fresh : forall f l name p a t, has_dir f l = true -> file f l meta_file = None -> text_ok name -> implied p a t ->
  exists g s, exec (Create (Some l) name (Some p) a) f = (g, Ok tt) /\
    (forall l' n', file g l' n' = if str_eqb l l' && str_eqb meta_file n' then Some s else file f l' n') /\
    exists ks, exec (open_files GenericKeyczar l None) g = (g, Ok ks) /\ ks_name ks = name /\ ks_purpose ks = p /\ ks_type ks = t /\
      ks_encrypted ks = false /\ m_versions (ks_meta ks) = [] /\ forall n, ring_of ks n = None.
Proof.
  intros f l name p a t HD HF HN HI. pose proof (implied_type p a t HI) as ET.
  destruct (WriteFile_ok f (dumps (meta_json (MkMeta name p t false []) [])) l meta_file HD) as (g & EG & SG).
  exists g, (dumps (meta_json (MkMeta name p t false []) [])). split; [|split; [exact (proj2 SG)|]].
  - unfold Create, pure. rewrite ET. cbn [pbind]. rewrite exec_bind. unfold CreateWriter, first_accepting, FileWriter_CreateWriter. cbn [pbind exec]. rewrite HD. cbn [pbind exec].
    unfold WriteMetadata, pure. cbn [exec]. rewrite HF, meta_str_eq. cbn [pbind]. exact EG.
  - destruct (open_from_disk g l None (MkMeta name p t false []) (fun _ => None) GenericKeyczar) as (ks & O1 & O2 & O3).
    + split; constructor.
    + exact HN.
    + intros i j v w H. destruct i; discriminate.
    + reflexivity.
    + discriminate.
    + apply (set_to_this _ _ _ _ _ SG).
    + intros n v [].
    + exists ks. split; [rewrite exec_open, O1; reflexivity|]. split; [exact (f_equal m_name O2)|]. split; [exact (f_equal m_purpose O2)|].
      split; [exact (f_equal m_type O2)|]. split; [exact (f_equal m_encrypted O2)|]. split; [exact (f_equal m_versions O2) | exact O3].
Qed.
Print Assumptions C46_create_fresh.

(** Whatever the arguments and the disk, [create] succeeds or raises KeyczarError without any
    effect, and never changes or removes an existing file; with metadata present, or without a
    directory or a usable purpose, it raises. *)
Theorem C46_create_never_overwrites : forall f loc name p a g r, exec (Create loc name p a) f = (g, r) ->
  (r = Ok tt \/ (r = Raise KeyczarError /\ g = f)) /\
  (forall l n s, file f l n = Some s -> file g l n = Some s) /\
  (r = Ok tt -> exists l q t, loc = Some l /\ has_dir f l = true /\ file f l meta_file = None /\ p = Some q /\ implied q a t).
Proof.
  intros f loc name p a g r H. unfold Create in H. destruct loc as [l|].
  2:{ cbn in H. apply pair_inj in H as [<- <-]. split; [right; split; reflexivity|]. split; [intros; assumption | discriminate]. }
  unfold pure in H. destruct (create_type p a) as [[q t]|e] eqn:ET.
  2:{ cbn [pbind exec] in H. apply pair_inj in H as [<- <-]. assert (e = KeyczarError).
      { destruct p as [[]|], a; cbn [create_type] in ET; try discriminate; try (destruct (str_eqb _ _)); try discriminate; apply Raise_inj in ET; congruence. }
      subst e. split; [right; split; reflexivity|]. split; [intros; assumption | discriminate]. }
  cbn [pbind] in H. rewrite exec_bind in H. unfold CreateWriter, first_accepting, FileWriter_CreateWriter in H. cbn [pbind exec] in H.
  destruct (has_dir f l) eqn:HD; cbn [pbind exec] in H.
  2:{ apply pair_inj in H as [<- <-]. split; [right; split; reflexivity|]. split; [intros; assumption | discriminate]. }
  unfold WriteMetadata, pure in H. cbn [exec] in H. rewrite meta_str_eq in H. cbn [pbind] in H.
  destruct (file f l meta_file) as [old|] eqn:EF.
  - cbn [exec] in H. apply pair_inj in H as [<- <-]. split; [right; split; reflexivity|]. split; [intros; assumption | discriminate].
  - match type of H with exec (WriteFile ?s _ _) _ = _ => destruct (WriteFile_ok f s l meta_file HD) as (g1 & E1 & S1) end. rewrite E1 in H.
    apply pair_inj in H as [<- <-]. split; [left; reflexivity|]. split.
    + intros l' n' s HF. rewrite (proj2 S1). destruct (str_eqb l l' && str_eqb meta_file n') eqn:EB; [|exact HF].
      apply andb_true_iff in EB as [E2 E3]. apply str_eqb_eq in E2 as <-. apply str_eqb_eq in E3 as <-. congruence.
    + intros _. destruct p as [p|]; [|discriminate ET].
      assert (HI : q = p /\ implied p a t).
      { destruct p; try discriminate; cbn [create_type] in ET.
        - destruct a as [a|]; apply Ok_inj, pair_inj in ET as [<- <-]; split; try reflexivity; constructor.
        - destruct a as [a|]; [|apply Ok_inj, pair_inj in ET as [<- <-]; split; [reflexivity | constructor]].
          destruct (str_eqb (lower a) (bs "rsa")) eqn:EL; apply Ok_inj, pair_inj in ET as [<- <-]; (split; [reflexivity|]).
          + apply ImpRsaSign, str_eqb_eq, EL.
          + apply ImpDsa. intros C. rewrite C, str_eqb_refl in EL. discriminate. }
      destruct HI as [-> HI]. exists l, p, t. auto.
Qed.
Print Assumptions C46_create_never_overwrites.

Example C46_case : has_dir test_disk (bs "/new") = true /\ file test_disk (bs "/new") meta_file = None /\
  file test_disk (bs "/aes") meta_file = Some aes_meta /\ implied SIGN_AND_VERIFY (Some (bs "RSA")) RSA_PRIV /\ implied SIGN_AND_VERIFY (Some (bs "dsa")) DSA_PRIV.
Proof. repeat split; [apply ImpRsaSign; reflexivity | apply ImpDsa; discriminate]. Qed.

(** ** C58: the factories *)

Theorem C58_factories : forall f loc,
  exec (CreateReader loc) f = (f, if has_dir f loc then Ok IsFileReader else Raise KeyczarError) /\
  exec (CreateWriter loc) f = (f, if has_dir f loc then Ok IsFileWriter else Raise KeyczarError).
Proof.
  intros f loc. split; unfold CreateReader, CreateWriter, first_accepting, reader_classes, FileReader_CreateReader, FileWriter_CreateWriter, NoReader_CreateReader;
    cbn [pbind exec]; destruct (has_dir f loc); reflexivity.
Qed.
Print Assumptions C58_factories.

(** Hence the classmethod [Read], whatever the class: a missing location is refused with
    KeyczarError, an existing one is read as files. *)
Theorem C58_read_location : forall f c loc,
  exec (read_location c loc) f = if has_dir f loc then exec (open_files c loc None) f else (f, Raise KeyczarError).
Proof.
  intros f c loc. apply exec_read_location.
Qed.
Print Assumptions C58_read_location.

Example C58_case : has_dir test_disk (bs "/hmac") = true /\ has_dir test_disk (bs "/nowhere") = false.
Proof. split; reflexivity. Qed.

(** ** C27 across reloads *)

(** After writing and reading back, a new version still gets a number above those of all
    versions in the set, and these keep their keys.  Missing for C27: numbers of versions
    revoked before the reload, see the next theorem. *)
Theorem C27_after_reload_partial : forall ks l es f g c ks2 ds s size ks3, made ks -> text_ok (ks_name ks) ->
  exec (WriteSet ks l None es) f = (g, Ok tt) -> exec (open_files c l None) g = (g, Ok ks2) ->
  AddVersion ks2 ds s size = (ks3, Ok tt) ->
  exists n k, ring_of ks3 n = Some (s, k) /\ 1 <= n /\ (forall m x, ring_of ks m = Some x -> m < n) /\
    forall m, m <> n -> option_map snd (ring_of ks3 m) = option_map snd (ring_of ks m).
Proof.
  intros ks l es f g c ks2 ds s size ks3 M HN HW HO HA. rewrite exec_open in HO. apply pair_inj in HO as [_ HO].
  assert (HP : IsAcceptablePurpose c (ks_purpose ks) = true).
  { pose proof (open_ok _ _ _ HO) as (s0 & m & _ & E1 & E2 & E3 & _). pose proof (WriteSet_on_disk _ _ _ _ _ _ (made_inv _ M) HW) as [S1 _].
    cbn [disk_reader file_reader rd_meta] in E1. rewrite S1 in E1. cbn [answer] in E1. apply Ok_inj in E1 as <-.
    change (meta_versions (ks_meta ks)) with (meta_versions (ks_meta (written ks None))) in E2.
    rewrite (meta_rt (ks_meta (written ks None))) in E2; [apply Ok_inj in E2 as <-; exact E3 | | exact HN | apply meta_str_eq].
    apply ks_meta_wf. destruct (made_inv _ M); split; assumption. }
  destruct (reopen_same ks l None None es f g c M HN I HW HP) as (ks2' & O1 & (_ & _ & _ & _ & ER & _) & _). rewrite HO in O1. apply Ok_inj in O1 as <-.
  destruct (C27_new_number_is_max_plus_one c _ ks2 [] ds s size ks3 HO HA) as (n & k & A & B & C & _ & D).
  exists n, k. split; [exact A|]. split; [exact B|]. split.
  - intros m x Hx. apply C. exists [], [], x. split; [reflexivity|]. cbn. rewrite ER. exact Hx.
  - intros m Hm. rewrite (D m Hm). cbn. rewrite ER. reflexivity.
Qed.
Print Assumptions C27_after_reload_partial.

(** Revoking the highest version, writing, reading back and adding a key gives the revoked
    number to another key. *)
Definition reload (ks : keyset) : keyset :=
  match exec (do _ <- WriteSet ks (bs "/new") None one_env; open_files GenericKeyczar (bs "/new") None) test_disk with
  | (_, Ok ks) => ks | _ => hmac_set end.
Theorem C27_number_reused_after_reload_refuted : exists ks ks1 g ks2 ks3 k k', made ks /\ ring_of ks 2 = Some (INACTIVE, k) /\
  Revoke ks 2 = (ks1, Ok tt) /\ exec (WriteSet ks1 (bs "/new") None one_env) test_disk = (g, Ok tt) /\
  exec (open_files GenericKeyczar (bs "/new") None) g = (g, Ok ks2) /\
  AddVersion ks2 [zero_draw x2a] PRIMARY None = (ks3, Ok tt) /\ ring_of ks3 2 = Some (PRIMARY, k') /\ k <> k'.
Proof.
  set (ks := run hmac_set [OpDemote 2; OpDemote 2]). set (ks1 := fst (Revoke ks 2)).
  set (g := fst (exec (WriteSet ks1 (bs "/new") None one_env) test_disk)). set (ks2 := reload ks1).
  set (ks3 := fst (AddVersion ks2 [zero_draw x2a] PRIMARY None)).
  exists ks, ks1, g, ks2, ks3. eexists _, _.
  split; [apply made_run; [apply (made_open _ _ _ hmac_set_opens) | repeat constructor]|].
  split; [vm_compute; reflexivity|]. split; [vm_compute; reflexivity|]. split; [vm_compute; reflexivity|].
  split; [vm_compute; reflexivity|]. split; [vm_compute; reflexivity|]. split; [vm_compute; reflexivity|]. vm_compute. discriminate.
Qed.
Print Assumptions C27_number_reused_after_reload_refuted.

(** ** C30: rotation keeps old data readable *)

(** Everything that can happen to a key set while its version [n] is not revoked: operations in
    memory, and being written and read back, possibly encrypted and by another class. *)
Inductive later (n : Z) (ks : keyset) : keyset -> Prop :=
| LaterNow : later n ks ks
| LaterOp ks' o : later n ks ks' -> draws_ok o -> o <> OpRevoke n -> later n ks (fst (step ks' o))
| LaterReload ks' l enc cr es f g c ks2 : later n ks ks' -> reads_back enc cr ->
    exec (WriteSet ks' l enc es) f = (g, Ok tt) -> exec (open_files c l cr) g = (g, Ok ks2) -> later n ks ks2.

Lemma step_keeps ks o n s k : inv ks -> o <> OpRevoke n -> ring_of ks n = Some (s, k) -> exists s', ring_of (fst (step ks o)) n = Some (s', k).
Proof.
  intros I NR HR. destruct o as [ds st size|m|m|m]; cbn [step].
  - rewrite AddVersion_eq. cbn zeta. destruct (negb _); [exists s; exact HR|].
    assert (U : exists s', unprimary (ring_of ks n) = Some (s', k)) by (rewrite HR; destruct s; eexists; reflexivity).
    destruct (gen_unique _ _ _ _) as [[k' h]|e]; cbn [fst].
    + rewrite ring_AddKey by exact I. unfold ring_add. destruct (n =? max_version ks + 1) eqn:E.
      * exfalso. apply Z.eqb_eq in E. destruct (ring_entry ks n s k I HR) as (o & A & _). rewrite E, (fresh_num ks I) in A. discriminate.
      * destruct st; [exact U | exists s; exact HR | exists s; exact HR].
    + rewrite ring_prepare by exact I. destruct st; [exact U | exists s; exact HR | exists s; exact HR].
  - unfold Promote. destruct (GetVersion ks m) as [o|e] eqn:EV; [|exists s; exact HR]. unfold GetVersion in EV.
    destruct (assoc Z.eqb (ks_mvers ks) m) as [o'|] eqn:EA; [|discriminate]. apply Ok_inj in EV as ->.
    destruct (ring_known ks m o I EA) as (k' & EK & ER). destruct (v_status (deref (ks_objs ks) o)) eqn:ES; cbn [fst]; [exists s; exact HR | |].
    + assert (NP : ks_primary ks <> Some o) by (intros C; destruct (inv_prim2 ks I o C) as (_ & C1 & _); congruence).
      rewrite (promote_active_eq ks o NP), ring_set_primary. destruct (drop_same ks) as (D1 & D2 & _).
      rewrite (ring_status (drop_primary ks) m o k' PRIMARY (inv_drop ks I)); [|rewrite D1; exact EA | rewrite D2; exact EK].
      destruct (n =? m) eqn:E; [apply Z.eqb_eq in E as <-; assert (k' = k) by congruence; subst; eexists; reflexivity|].
      rewrite ring_drop by exact I. rewrite HR. destruct s; eexists; reflexivity.
    + rewrite (ring_status ks m o k' ACTIVE I EA EK). destruct (n =? m) eqn:E; [apply Z.eqb_eq in E as <-; assert (k' = k) by congruence; subst; eexists; reflexivity | exists s; exact HR].
  - unfold Demote. destruct (GetVersion ks m) as [o|e] eqn:EV; [|exists s; exact HR]. unfold GetVersion in EV.
    destruct (assoc Z.eqb (ks_mvers ks) m) as [o'|] eqn:EA; [|discriminate]. apply Ok_inj in EV as ->.
    destruct (ring_known ks m o I EA) as (k' & EK & ER). destruct (v_status (deref (ks_objs ks) o)) eqn:ES; cbn [fst]; [| |exists s; exact HR].
    + rewrite ring_set_primary, (ring_status ks m o k' ACTIVE I EA EK). destruct (n =? m) eqn:E; [apply Z.eqb_eq in E as <-; assert (k' = k) by congruence; subst; eexists; reflexivity | exists s; exact HR].
    + rewrite (ring_status ks m o k' INACTIVE I EA EK). destruct (n =? m) eqn:E; [apply Z.eqb_eq in E as <-; assert (k' = k) by congruence; subst; eexists; reflexivity | exists s; exact HR].
  - unfold Revoke. destruct (GetVersion ks m) as [o|e]; [|exists s; exact HR]. destruct (v_status _); cbn [fst]; try (exists s; exact HR).
    rewrite ring_revoke_eq. destruct (n =? m) eqn:E; [apply Z.eqb_eq in E as <-; contradiction (NR eq_refl) | exists s; exact HR].
Qed.

Lemma reload_same ks l enc cr es f g c ks2 : made ks -> text_ok (ks_name ks) -> reads_back enc cr ->
  exec (WriteSet ks l enc es) f = (g, Ok tt) -> exec (open_files c l cr) g = (g, Ok ks2) -> same_keyset ks2 ks /\ made ks2.
Proof.
  intros M HN RB HW HO. rewrite exec_open in HO. apply pair_inj in HO as [_ HO].
  assert (HP : IsAcceptablePurpose c (ks_purpose ks) = true).
  { pose proof (open_ok _ _ _ HO) as (s0 & m & _ & E1 & E2 & E3 & _). pose proof (WriteSet_on_disk _ _ _ _ _ _ (made_inv _ M) HW) as [S1 _].
    assert (E0 : rd_meta (disk_reader g l cr) = answer (file g l meta_file)) by (destruct cr; reflexivity). rewrite E0, S1 in E1. cbn [answer] in E1. apply Ok_inj in E1 as <-.
    change (meta_versions (ks_meta ks)) with (meta_versions (ks_meta (written ks enc))) in E2.
    rewrite (meta_rt (ks_meta (written ks enc))) in E2; [apply Ok_inj in E2 as <-; exact E3 | | exact HN | apply meta_str_eq].
    apply ks_meta_wf. destruct (made_inv _ M); split; assumption. }
  destruct (reopen_same ks l enc cr es f g c M HN RB HW HP) as (ks' & O1 & S & _). rewrite HO in O1. apply Ok_inj in O1 as <-.
  split; [exact S | apply (made_open _ _ _ HO)].
Qed.

Lemma step_run ks o : fst (step ks o) = run ks [o].
Proof. reflexivity. Qed.

Lemma later_keeps n ks ks' s k : made ks -> ids_distinct ks -> text_ok (ks_name ks) -> ring_of ks n = Some (s, k) -> later n ks ks' ->
  made ks' /\ ids_distinct ks' /\ text_ok (ks_name ks') /\ ks_type ks' = ks_type ks /\ exists s', ring_of ks' n = Some (s', k).
Proof.
  intros M D HN HR L. induction L as [|ks' o L (M' & D' & N' & T' & s' & R') DO NR|ks' l enc cr es f g c ks2 L (M' & D' & N' & T' & s' & R') RB HW HO].
  - repeat split; try assumption. exists s. exact HR.
  - pose proof (made_inv ks' M') as I'. split; [rewrite step_run; apply made_run; [exact M' | repeat constructor; exact DO]|].
    split; [apply ids_step; assumption|]. destruct (name_step ks' o I') as (E1 & _ & E2 & _). split; [rewrite E1; exact N'|]. split; [congruence|].
    apply (step_keeps ks' o n s' k I' NR R').
  - destruct (reload_same _ _ _ _ _ _ _ _ _ M' N' RB HW HO) as [(E1 & _ & E3 & _ & ER & _) M2].
    split; [exact M2|]. rewrite exec_open in HO. apply pair_inj in HO as [_ HO]. split; [|split; [rewrite E1; exact N'|]; split; [congruence | exists s'; rewrite ER; exact R']].
    apply (opened_ids _ _ _ HO). intros n1 n2 s1 s2 k1 k2. rewrite !ER. apply (ring_ids ks' (made_inv _ M') D').
Qed.

(** Whatever the set could decrypt when it was encrypted, it can decrypt ever after; and with
    AES keys that is everything. *)
Theorem C30_data_stays_decryptable : forall ks ks' n k e data ct, made ks -> ids_distinct ks -> text_ok (ks_name ks) ->
  ring_of ks n = Some (PRIMARY, k) -> Encrypt e ks data None = Ok ct -> later n ks ks' ->
  Decrypt ks' ct None = Decrypt ks ct None /\ Decrypt ks' ct None = key_Decrypt k ct /\
  (ks_type ks = AES -> Decrypt ks' ct None = Ok data).
Proof.
  intros ks ks' n k e data ct M D HN HR HE L. destruct (later_keeps n ks ks' PRIMARY k M D HN HR L) as (M' & D' & _ & _ & s' & R').
  destruct (encrypt_shape e ks data ct (made_reached _ M) HE) as (n2 & k2 & id & rest & HR2 & HH & HL & HEk & ->).
  destruct (ring_one_primary ks (made_inv _ M) n n2 k k2 HR HR2) as [<- <-].
  assert (E1 : Decrypt ks (x00 :: id ++ rest) None = key_Decrypt k (x00 :: id ++ rest)).
  { apply (Decrypt_made ks n); [split; [apply made_reached, M | split; [exact D | exists PRIMARY; exact HR]] | exact HH | exact HL]. }
  assert (E2 : Decrypt ks' (x00 :: id ++ rest) None = key_Decrypt k (x00 :: id ++ rest)).
  { apply (Decrypt_made ks' n); [split; [apply made_reached, M' | split; [exact D' | exists s'; exact R']] | exact HH | exact HL]. }
  rewrite E1, E2. split; [reflexivity|]. split; [reflexivity|]. intros T.
  destruct (ring_entry ks n PRIMARY k (made_inv _ M) HR) as (o & _ & HK & _).
  pose proof (inv_type ks (made_inv _ M) o k (assoc_In Nat.eqb_eq HK)) as HT. rewrite T in HT. destruct (key_type_aes k HT) as (a & ->).
  apply (aes_key_roundtrip e a data _ _ HH HEk).
Qed.
Print Assumptions C30_data_stays_decryptable.

(** Signatures stay verifiable. *)
Theorem C30_signatures_stay_verifiable : forall ks ks' n k e data sig, made ks -> ids_distinct ks -> text_ok (ks_name ks) ->
  ring_of ks n = Some (PRIMARY, k) -> Sign e ks data None = Ok sig -> later n ks ks' ->
  Verify ks' data sig None = Verify ks data sig None /\
  (signs_soundly e k (data ++ VERSION_BYTE) -> Verify ks' data sig None = Ok true).
Proof.
  intros ks ks' n k e data sig M D HN HR HS L. destruct (later_keeps n ks ks' PRIMARY k M D HN HR L) as (M' & D' & _ & _ & s' & R').
  destruct (signer_primary ks k (conj (made_reached _ M) (ex_intro _ n HR))) as (HP & id & HH & HL & EH).
  unfold Sign, InternalSign in HS. rewrite HP in HS. cbn [bind] in HS. rewrite EH in HS. cbn [bind] in HS. change (PackByteArray None) with (Ok (A := str) []) in HS. cbn [bind app] in HS.
  apply bind_Ok in HS as (raw & HK & HS). cbn [apply_codec] in HS. apply Ok_inj in HS as <-. cbn [app].
  rewrite (Verify_made ks n k id data raw); [|split; [apply made_reached, M | split; [exact D | exists PRIMARY; exact HR]] | exact HH | exact HL].
  rewrite (Verify_made ks' n k id data raw); [|split; [apply made_reached, M' | split; [exact D' | exists s'; exact R']] | exact HH | exact HL].
  split; [reflexivity|]. intros SS. apply (signed_verifies e k _ raw SS HK).
Qed.
Print Assumptions C30_signatures_stay_verifiable.

Lemma aes_distinct : ids_distinct aes_set.
Proof. exact (proj1 (proj2 (proj2 (proj2 (proj2 C43_case))))). Qed.
Example C30_case : made aes_set /\ ids_distinct aes_set /\ text_ok (ks_name aes_set) /\ (exists k, ring_of aes_set 2 = Some (PRIMARY, k)) /\
  (exists ct, Encrypt (one_env 0) aes_set (bs "attack at dawn") None = Ok ct) /\
  later 2 aes_set (run aes_set [OpPromote 1; OpDemote 2; OpAdd [zero_draw x09] PRIMARY None; OpDemote 1; OpRevoke 1]).
Proof.
  split; [apply (made_open _ _ _ aes_set_opens)|]. split; [apply aes_distinct|]. split; [apply (tx_ok "Test")|]. split; [eexists; vm_compute; reflexivity|].
  split.
  - destruct C43_case as (_ & _ & _ & _ & _ & _ & k & kb & hb & HR & HM & HS). unfold Encrypt.
    rewrite (proj2 (primary_key_spec aes_set (KAes k) (inv_open _ _ _ aes_set_opens)) (ex_intro _ 2 HR)). cbn [bind key_Encrypt apply_codec].
    destruct (C17_aes_roundtrip (e_lib (one_env 0)) k kb hb (e_tape (one_env 0)) (bs "attack at dawn") HM HS) as (c & -> & _). eexists. reflexivity.
  - unfold run. cbn [fold_left].
    repeat (apply LaterOp; [| first [exact I | repeat constructor; cbn; lia] | discriminate]). apply LaterNow.
Qed.

(** ** C31: revocation *)

Lemma Revoke_ok ks n k : inv ks -> ring_of ks n = Some (INACTIVE, k) -> Revoke ks n = (set_mvers ks (dict_pop Z.eqb (ks_mvers ks) n), Ok tt).
Proof.
  intros I HR. destruct (ring_entry ks n INACTIVE k I HR) as (o & A & _ & B & _). unfold Revoke, GetVersion. rewrite A, B. reflexivity.
Qed.

(** Once the set has been written and read back, the version is gone: its data is refused, and
    its key is neither written nor exported any more. *)
Theorem C31_gone_after_reload : forall ks n k id l enc cr es f g c ks2, made ks -> ids_distinct ks -> text_ok (ks_name ks) ->
  ring_of ks n = Some (INACTIVE, k) -> key_hash_id k = Ok (Base64WSEncode id) -> len id = 4 -> reads_back enc cr ->
  let ks1 := fst (Revoke ks n) in
  exec (WriteSet ks1 l enc es) f = (g, Ok tt) -> exec (open_files c l cr) g = (g, Ok ks2) ->
  ring_of ks2 n = None /\
  (forall rest, Decrypt ks2 (x00 :: id ++ rest) None = Raise (KeyNotFoundError (Base64WSEncode id))) /\
  (forall data rest, Verify ks2 data (x00 :: id ++ rest) None = Raise (KeyNotFoundError (Base64WSEncode id))) /\
  (forall l' enc' es' f' g' r, exec (WriteSet ks2 l' enc' es') f' = (g', r) -> file g' l' (key_file n) = file f' l' (key_file n)) /\
  (forall d f' g' r, exec (PublicKeyExport ks2 d) f' = (g', r) -> file g' d (key_file n) = file f' d (key_file n)).
Proof.
  intros ks n k id l enc cr es f g c ks2 M D HN HR HH HL RB ks1 HW HO. pose proof (made_inv ks M) as I.
  assert (M1 : made ks1) by (apply (made_run ks [OpRevoke n] M); repeat constructor).
  assert (EQ : ks1 = set_mvers ks (dict_pop Z.eqb (ks_mvers ks) n)) by (unfold ks1; rewrite (Revoke_ok ks n k I HR); reflexivity).
  assert (R1 : forall m, ring_of ks1 m = if m =? n then None else ring_of ks m) by (intros m; rewrite EQ; apply ring_revoke_eq).
  assert (HN1 : text_ok (ks_name ks1)) by (rewrite EQ; exact HN).
  destruct (reload_same _ _ _ _ _ _ _ _ _ M1 HN1 RB HW HO) as [(_ & _ & _ & _ & ER & _ & _ & HS) M2].
  pose proof HO as HO'. rewrite exec_open in HO'. apply pair_inj in HO' as [_ HO'].
  assert (NN : forall k', ~ named ks2 [] id k').
  { intros k' [(before & after & m & s & EB & HM) HK]. symmetry in EB. apply app_eq_nil in EB as [-> _]. cbn [run fold_left] in HM. rewrite ER, R1 in HM. destruct (m =? n) eqn:E; [discriminate|].
    assert (m = n) by (apply (ring_ids ks I D m n s INACTIVE k' k HM HR); congruence). lia. }
  assert (RN : ring_of ks2 n = None) by (rewrite ER, R1, Z.eqb_refl; reflexivity).
  assert (NV : forall p, In p (ks_vkeys ks2) -> key_file n <> key_file (num_of (ks_objs ks2) p)).
  { intros [o k'] Hp C. apply key_file_inj in C. unfold num_of in C. cbn [fst] in C.
    pose proof (open_ok _ _ _ HO') as (s0 & m & ls & _ & ERd & _ & _ & F & _ & _ & _ & _ & EO & EM & EV & _).
    assert (Ho : In o (map snd (ks_mvers ks2))).
    { rewrite EM, map_snd_combine by (unfold meta_versions; rewrite !map_length, seq_length; reflexivity). rewrite EV in Hp. apply in_combine_l in Hp. exact Hp. }
    apply in_map_iff in Ho as ([n2 o2] & E2 & HI). cbn [snd] in E2. subst o2. pose proof (proj2 (inv_mvers ks2 (made_inv _ M2) n2 o HI)) as E3.
    assert (E4 : n2 = n) by congruence. rewrite E4 in HI.
    destruct (ring_known ks2 n o (made_inv _ M2) (assoc_NoDup Z.eqb_eq (inv_mkeys ks2 (made_inv _ M2)) HI)) as (k2 & _ & C2). congruence. }
  split; [exact RN|]. split; [|split; [|split]].
  - intros rest. apply (proj2 (C34_decrypt_dispatch _ _ _ [] HO') x00 id rest HL); [reflexivity | exact NN].
  - intros data rest. apply (proj2 (C34_verify_dispatch _ _ _ [] HO') data x00 id rest HL); [reflexivity | exact NN].
  - intros l' enc' es' f' g' r HW'. destruct (WriteSet_spec _ _ _ _ _ _ _ (made_inv _ M2) HW') as (_ & _ & _ & S3 & _). apply S3. right.
    split; [apply key_file_meta | exact NV].
  - intros d f' g' r HX. unfold PublicKeyExport, pure in HX. destruct (public_meta ks2) as [[p t]|e]; cbn [pbind exec] in HX; [|apply pair_inj in HX as [<- _]; reflexivity].
    rewrite exec_bind in HX.
    assert (G : forall vk m f0 f1 r1, (forall p, In p vk -> key_file n <> key_file (num_of (ks_objs ks2) p)) ->
               exec (export_keys d (ks_objs ks2) vk m) f0 = (f1, r1) -> file f1 d (key_file n) = file f0 d (key_file n)).
    { clear. induction vk as [|[o k] vk IH]; intros m f0 f1 r1 HV H; cbn [export_keys] in H; [cbn [exec] in H; apply pair_inj in H as [<- _]; reflexivity|].
      unfold pure in H. destruct (public_key k) as [pub|]; cbn [pbind exec] in H; [|apply pair_inj in H as [<- _]; reflexivity].
      destruct (key_str pub) as [s|]; cbn [pbind exec] in H; [|apply pair_inj in H as [<- _]; reflexivity]. rewrite exec_bind in H.
      destruct (has_dir f0 d) eqn:HD.
      - destruct (WriteFile_ok f0 s d (key_file (v_num (deref (ks_objs ks2) o))) HD) as (f2 & E2 & S2). rewrite E2 in H.
        rewrite (IH _ _ _ _ (fun p Hp => HV p (or_intror Hp)) H). apply (set_to_other _ _ _ _ _ _ _ S2). right. apply (HV (o, k) (or_introl eq_refl)).
      - rewrite WriteFile_fail in H by exact HD. apply pair_inj in H as [<- _]. reflexivity. }
    destruct (exec (export_keys _ _ _ _) f') as [f1 [m|e]] eqn:EX; pose proof (G _ _ _ _ _ NV EX) as EF.
    + destruct (meta_str m) as [s|]; cbn [pbind exec] in HX; [|apply pair_inj in HX as [<- _]; exact EF]. destruct (has_dir f1 d) eqn:HD.
      * destruct (WriteFile_ok f1 s d meta_file HD) as (f2 & E2 & S2). rewrite E2 in HX. apply pair_inj in HX as [<- _].
        rewrite (set_to_other _ _ _ _ _ _ _ S2); [exact EF | right; apply key_file_meta].
      * rewrite WriteFile_fail in HX by exact HD. apply pair_inj in HX as [<- _]. exact EF.
    + apply pair_inj in HX as [<- _]. exact EF.
Qed.
Print Assumptions C31_gone_after_reload.

(** But in memory revocation only removes the version from the metadata: the object goes on
    decrypting and verifying with the key, writes its file, and exports it. *)
Theorem C31_still_used_in_memory_refuted : forall ks n k, made ks -> ring_of ks n = Some (INACTIVE, k) ->
  exists ks1, Revoke ks n = (ks1, Ok tt) /\ ring_of ks1 n = None /\
    (forall ct dec, Decrypt ks1 ct dec = Decrypt ks ct dec) /\
    (forall data sig dec, Verify ks1 data sig dec = Verify ks data sig dec) /\
    (forall data sig dec, UnversionedVerify ks1 data sig dec = UnversionedVerify ks data sig dec) /\
    (forall l es f, has_dir f l = true -> exists g, exec (WriteSet ks1 l None es) f = (g, Ok tt) /\
       exists s, key_str k = Ok s /\ file g l (key_file n) = Some s) /\
    (forall d f, exec (PublicKeyExport ks1 d) f = exec (PublicKeyExport ks d) f).
Proof.
  intros ks n k M HR. pose proof (made_inv ks M) as I. rewrite (Revoke_ok ks n k I HR). eexists. split; [reflexivity|].
  split; [rewrite ring_revoke_eq, Z.eqb_refl; reflexivity|]. split; [reflexivity|]. split; [reflexivity|]. split; [reflexivity|]. split; [|reflexivity].
  intros l es f HD. set (ks1 := set_mvers ks _). assert (M1 : made ks1).
  { replace ks1 with (run ks [OpRevoke n]); [apply made_run; [exact M | repeat constructor]|]. cbn [run fold_left step]. rewrite (Revoke_ok ks n k I HR). reflexivity. }
  destruct (WriteSet_total ks1 l es f HD (made_wf _ M1)) as (g & HW). exists g. split; [exact HW|].
  destruct (WriteSet_spec _ _ _ _ _ _ _ (made_inv _ M1) HW) as (_ & _ & _ & _ & _ & S5).
  destruct (ring_entry ks n INACTIVE k I HR) as (o & A & B & _ & _). destruct (S5 eq_refl (o, k) (assoc_In Nat.eqb_eq B)) as (e & s & ES & EF).
  unfold stored in ES. apply bind_Ok in ES as (s' & E1 & ES). apply Ok_inj in ES as <-. exists s'. split; [exact E1|].
  unfold num_of in EF. cbn [fst] in EF. change (ks_objs ks1) with (ks_objs ks) in EF. rewrite (proj2 (inv_mvers ks I n o (assoc_In Z.eqb_eq A))) in EF. exact EF.
Qed.
Print Assumptions C31_still_used_in_memory_refuted.

Example C31_case : let ks := run aes_set [OpDemote 1] in made ks /\ ids_distinct ks /\ exists k id, ring_of ks 1 = Some (INACTIVE, k) /\
  key_hash_id k = Ok (Base64WSEncode id) /\ len id = 4.
Proof.
  assert (A : made aes_set) by apply (made_open _ _ _ aes_set_opens).
  split; [apply made_run; [exact A | repeat constructor]|]. split; [apply ids_run; [apply (made_inv _ A) | apply aes_distinct]|].
  assert (exists k, ring_of (run aes_set [OpDemote 1]) 1 = Some (INACTIVE, k)) as (k & HR) by (eexists; vm_compute; reflexivity).
  assert (M1 : made (run aes_set [OpDemote 1])) by (apply made_run; [exact A | repeat constructor]).
  destruct (ring_entry _ 1 INACTIVE k (made_inv _ M1) HR) as (o & _ & HK & _). destruct (inv_hash1 _ (made_inv _ M1) o k (assoc_In Nat.eqb_eq HK)) as (h & _ & HH & _).
  destruct (key_header_ok k h HH) as (id & -> & L & _). exists k, id. auto.
Qed.
