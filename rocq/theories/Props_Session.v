(** * Props_Session: properties C40 and C41 (session encryption). *)
From Coq Require Import Strings.String.
From Coq Require Import List ZArith NArith Bool Lia ZifyBool ZifyNat ZifyN.
From Coq.Init Require Import Byte.
From Verif Require Import PyBase PyFacts Base64 Base64Facts Sha1 Util UtilFacts Json JsonFacts KeyInfo SymKeys SymFacts ModArith Der AsymSpec AsymKeys AsymFacts
  Keys KeysFacts KeyData Keyczar KeyRing KeyczarFacts ErrFacts Session Props_Util Props_Sym Props_Asym Props_Keyset Props_Sign Props_Disk.
Import ListNotations.
Local Open Scope Z_scope.
Ltac Zify.zify_post_hook ::= idtac.


(** ** Preliminaries *)

(** The key set a session makes of its key: one primary version. *)
Definition static_set (k : aeskey) (h : str) : keyset :=
  MkKs (tx "Imported") DECRYPT_AND_ENCRYPT AES false [MkVersion 1 PRIMARY false] [(1, 0%nat)] [(0%nat, KAes k)] [(h, KAes k)] (Some 0%nat).

Lemma static_crypter k h : key_wf (KAes k) -> key_hash_id (KAes k) = Ok h ->
  open_keyset Crypter (StaticKeyReader (KAes k) DECRYPT_AND_ENCRYPT) = Ok (static_set k h).
Proof.
  intros W HH. unfold open_keyset.
  set (rd := StaticKeyReader (KAes k) DECRYPT_AND_ENCRYPT).
  assert (EM : (let* s := rd_meta rd in meta_Read s) = Ok (MkMeta (tx "Imported") DECRYPT_AND_ENCRYPT AES false [(1, MkVersion 1 PRIMARY false)]))
    by (vm_compute; reflexivity).
  destruct (rd_meta rd) as [s|x]; cbn [bind] in EM |- *; [|discriminate]. rewrite EM. cbn [bind m_purpose m_encrypted].
  change (negb (IsAcceptablePurpose Crypter DECRYPT_AND_ENCRYPT)) with false. cbn [andb m_type meta_versions m_versions map snd fst load_keys].
  unfold rd, StaticKeyReader. cbn [rd_key]. rewrite (key_str_eq _ W). cbn [bind].
  change AES with (key_type (KAes k)) at 1. rewrite (key_rt _ W). cbn [bind]. rewrite HH. cbn [bind]. reflexivity.
Qed.

(** A session whose key is a proper AES key. *)
Definition good_session (s : session) : Prop :=
  aes_wf (se_key s) /\ exists kb hb, aes_material (se_key s) kb hb /\ aes_size_ok kb.

Lemma session_crypter_ok s : good_session s ->
  exists c, session_crypter s = Ok c /\ holds c 1 (KAes (se_key s)) /\ ring_of c 1 = Some (PRIMARY, KAes (se_key s)).
Proof.
  intros (W & kb & hb & HM & HS). destruct (aes_header_ok _ kb hb HM) as (id & _ & _ & HH & _).
  pose proof (static_crypter (se_key s) _ W HH) as E. exists (static_set (se_key s) (Base64WSEncode id)). split; [exact E|].
  assert (ER : ring_of (static_set (se_key s) (Base64WSEncode id)) 1 = Some (PRIMARY, KAes (se_key s))) by reflexivity.
  split; [|exact ER]. split; [|split].
  - exists Crypter, (StaticKeyReader (KAes (se_key s)) DECRYPT_AND_ENCRYPT), (static_set (se_key s) (Base64WSEncode id)), []. split; [exact E | reflexivity].
  - unfold ids_distinct. cbn. constructor; [intros [] | constructor].
  - exists PRIMARY. exact ER.
Qed.

(** Encrypting and decrypting with key sets that share an AES key. *)
Lemma aes_sets_agree e ks ks' n n' k kb hb data : reached ks -> ring_of ks n = Some (PRIMARY, KAes k) -> holds ks' n' (KAes k) ->
  aes_material k kb hb -> aes_size_ok kb ->
  exists raw, Encrypt e ks data None = Ok raw /\ Encrypt e ks data b64_encoder = Ok (Base64WSEncode raw) /\
    Decrypt ks' raw None = Ok data /\ Decrypt ks' (Base64WSEncode raw) b64_decoder = Ok data.
Proof.
  intros R HR HV HM HS. pose proof (reached_inv ks R) as I.
  pose proof (proj2 (primary_key_spec ks (KAes k) I) (ex_intro _ n HR)) as EP.
  destruct (C17_aes_roundtrip (e_lib e) k kb hb (e_tape e) data HM HS) as (raw & E1 & E2).
  assert (EE : Encrypt e ks data None = Ok raw) by (unfold Encrypt; rewrite EP; cbn [bind key_Encrypt]; rewrite E1; reflexivity).
  exists raw. split; [exact EE|]. split.
  { unfold Encrypt. rewrite EP. cbn [bind key_Encrypt]. rewrite E1. reflexivity. }
  assert (ED : Decrypt ks' raw None = Ok data).
  { destruct (encrypt_shape e ks data raw R EE) as (m & k2 & id & rest & HR2 & HH & L & _ & ->).
    assert (EP2 : primary_key ks = Ok k2) by (apply (primary_key_spec ks k2 I); exists m; exact HR2).
    rewrite EP in EP2. apply Ok_inj in EP2 as <-. rewrite (Decrypt_made ks' n' _ id rest HV HH L). exact E2. }
  split; [exact ED | rewrite Decrypt_b64; exact ED].
Qed.

Lemma good_roundtrip e s data : good_session s ->
  exists raw, Session_Encrypt e s data None = Ok raw /\ Session_Encrypt e s data b64_encoder = Ok (Base64WSEncode raw) /\
    Session_Decrypt s raw None = Ok data /\ Session_Decrypt s (Base64WSEncode raw) b64_decoder = Ok data.
Proof.
  intros G. destruct (session_crypter_ok s G) as (c & E & HV & HR). destruct G as (_ & kb & hb & HM & HS).
  destruct (aes_sets_agree e c c 1 1 _ kb hb data (proj1 HV) HR HV HM HS) as (raw & E1 & E2 & E3 & E4).
  exists raw. unfold Session_Encrypt, Session_Decrypt. rewrite E. cbn [bind]. split; [exact E1|]. split; [exact E2|]. split; [exact E3 | exact E4].
Qed.

Lemma Session_Decrypt_key k n n' ct c : Session_Decrypt (MkSession k n) ct c = Session_Decrypt (MkSession k n') ct c.
Proof. unfold Session_Decrypt, session_crypter. cbn [se_key]. reflexivity. Qed.

Lemma Session_Decrypt_any s n ct c : Session_Decrypt (MkSession (se_key s) n) ct c = Session_Decrypt s ct c.
Proof. destruct s as [k n']. apply Session_Decrypt_key. Qed.

Definition fresh_key (kb hb : str) : aeskey :=
  MkAes (text_of_str (Base64WSEncode kb)) (MkHmac (text_of_str (Base64WSEncode hb)) 256) 128.

Lemma New_ok r : exists s kb hb n, Session_New r = Ok s /\ len kb = 16 /\ len hb = 32 /\ len n = 16 /\
  kb = RandBytes r 16 /\ hb = RandBytes (advance 16 r) 32 /\ n = RandBytes (advance 48 r) 16 /\
  se_key s = fresh_key kb hb /\ se_nonce s = Some n.
Proof.
  exists (MkSession (fresh_key (RandBytes r 16) (RandBytes (advance 16 r) 32)) (Some (RandBytes (advance 48 r) 16))).
  eexists. eexists. eexists. split; [reflexivity|]. repeat (split; [apply len_RandBytes; lia|]). repeat split.
Qed.

Lemma made_key kb hb : len kb = 16 -> len hb = 32 ->
  aes_wf (fresh_key kb hb) /\ aes_material (fresh_key kb hb) kb hb /\ aes_size_ok kb.
Proof.
  intros L1 L2. split; [|split].
  - split; [apply text_of_str_ok|]. split; [split; [apply text_of_str_ok | reflexivity] | reflexivity].
  - split; apply base64_roundtrip_u.
  - left. exact L1.
Qed.

(** The text of the session's key that is encrypted: 60 bytes. *)
Lemma packed_key_ok s kb hb : len kb = 16 -> len hb = 32 -> aes_material (se_key s) kb hb ->
  exists p, packed_key s = Ok p /\ len p = 60 /\ forall fuel, (2 <= fuel)%nat -> UnpackMultipleByteArrays fuel p = Ok [kb; hb].
Proof.
  intros L1 L2 (HK & HB). unfold packed_key. rewrite HK. cbn [bind]. rewrite HB. cbn [bind].
  assert (HF : Forall (fun a => len a < 2 ^ 31) [kb; hb]) by (repeat constructor; rewrite ?L1, ?L2; reflexivity).
  change [Some kb; Some hb] with (map Some [kb; hb]). rewrite PackMultiple_ok by (reflexivity || exact HF).
  eexists. split; [reflexivity|]. split.
  - cbn [map concat]. rewrite !len_app, len_IntToBytes, !len_packed, L1, L2. reflexivity.
  - intros fuel Hf. apply UnpackMultiple_packed; [apply len_IntToBytes | exact Hf | exact HF].
Qed.

Lemma LoadPackedKey_ok fuel p kb hb : len kb = 16 -> len hb = 32 -> UnpackMultipleByteArrays fuel p = Ok [kb; hb] ->
  LoadPackedKey fuel p = Ok (MkSession (fresh_key kb hb) None).
Proof.
  intros L1 L2 E. unfold LoadPackedKey. rewrite E. cbn [bind]. rewrite L1, L2. reflexivity.
Qed.

Lemma packed_session fuel s p kb hb : len kb = 16 -> len hb = 32 -> se_key s = fresh_key kb hb -> UnpackMultipleByteArrays fuel p = Ok [kb; hb] ->
  LoadPackedKey fuel p = Ok (MkSession (se_key s) None).
Proof. intros L1 L2 EK EU. rewrite (LoadPackedKey_ok fuel p kb hb L1 L2 EU), EK. reflexivity. Qed.

Lemma packed_works s s' e p : good_session s -> s' = MkSession (se_key s) None -> exists raw,
  Session_Encrypt e s p None = Ok raw /\ Session_Decrypt s' raw None = Ok p /\
  Session_Encrypt e s p b64_encoder = Ok (Base64WSEncode raw) /\ Session_Decrypt s' (Base64WSEncode raw) b64_decoder = Ok p.
Proof.
  intros G ->. destruct (good_roundtrip e s p G) as (raw & E1 & E2 & E3 & E4). exists raw.
  split; [exact E1|]. split; [rewrite (Session_Decrypt_any s None raw None); exact E3|]. split; [exact E2|].
  rewrite (Session_Decrypt_any s None (Base64WSEncode raw) b64_decoder). exact E4.
Qed.

Lemma SessionEncrypter_inv r e encrypter s m : SessionEncrypter r e encrypter = Ok (s, m) ->
  exists p, Session_New r = Ok s /\ packed_key s = Ok p /\ Encrypt e encrypter p b64_encoder = Ok m.
Proof.
  unfold SessionEncrypter. intros H. apply bind_Ok in H as (s0 & E0 & H). apply bind_Ok in H as (p & EP & H). apply bind_Ok in H as (m0 & EM & H).
  apply Ok_inj in H. apply pair_inj in H as [<- <-]. exists p. split; [exact E0|]. split; [exact EP | exact EM].
Qed.

Lemma SessionEncrypter_eq r e encrypter s p m : Session_New r = Ok s -> packed_key s = Ok p -> Encrypt e encrypter p b64_encoder = Ok m ->
  SessionEncrypter r e encrypter = Ok (s, m).
Proof. intros E0 EP EM. unfold SessionEncrypter. rewrite E0. cbn [bind]. rewrite EP. cbn [bind]. rewrite EM. reflexivity. Qed.

Lemma SessionDecrypter_eq fuel crypter m p s : Decrypt crypter m b64_decoder = Ok p -> LoadPackedKey fuel p = Ok s -> SessionDecrypter fuel crypter m = Ok s.
Proof. intros ED EL. unfold SessionDecrypter. rewrite ED. exact EL. Qed.

(** ** C40 *)
(** [crypter] turns the material [m] into a session that decrypts everything that the session
    [s] encrypts, with and without the Base64 encoding.  ([fuel] is the number of rounds the
    loop that unpacks may make.) *)
Definition session_works (crypter : keyset) (s : session) (m : str) : Prop :=
  exists s', (forall fuel, (2 <= fuel)%nat -> SessionDecrypter fuel crypter m = Ok s') /\
    forall e p, exists raw,
      Session_Encrypt e s p None = Ok raw /\ Session_Decrypt s' raw None = Ok p /\
      Session_Encrypt e s p b64_encoder = Ok (Base64WSEncode raw) /\ Session_Decrypt s' (Base64WSEncode raw) b64_decoder = Ok p.

(** For every encrypter and crypter such that the crypter reads the material of this session. *)
Theorem C40_session_roundtrip : forall r e encrypter crypter s m,
  SessionEncrypter r e encrypter = Ok (s, m) ->
  (forall x, Encrypt e encrypter x b64_encoder = Ok m -> Decrypt crypter m b64_decoder = Ok x) ->
  session_works crypter s m.
Proof.
  intros r e encrypter crypter s m H HD. destruct (SessionEncrypter_inv _ _ _ _ _ H) as (p & EN & EP & EM).
  destruct (New_ok r) as (s0 & kb & hb & nn & E0 & L1 & L2 & _ & _ & _ & _ & EK & _). rewrite EN in E0. apply Ok_inj in E0. subst s0.
  destruct (made_key kb hb L1 L2) as (W & HM & HS). rewrite <- EK in W, HM.
  destruct (packed_key_ok s kb hb L1 L2 HM) as (p' & EP' & _ & EU). rewrite EP in EP'. apply Ok_inj in EP'. subst p'.
  exists (MkSession (se_key s) None). split.
  - intros fuel Hf. apply (SessionDecrypter_eq fuel crypter m p _ (HD p EM)). exact (packed_session fuel s p kb hb L1 L2 EK (EU fuel Hf)).
  - intros e' q. apply (packed_works s _ e' q); [split; [exact W | exists kb, hb; split; assumption] | reflexivity].
Qed.
Print Assumptions C40_session_roundtrip.

(** The format of the material: the bytes that are encrypted for the receiver. *)
Definition session_bytes (kb hb : str) : str :=
  [x00; x00; x00; x02] ++ [x00; x00; x00; chr (len kb)] ++ kb ++ [x00; x00; x00; chr (len hb)] ++ hb.

Lemma IntToBytes_small n : 0 <= n < 256 -> IntToBytes n = [x00; x00; x00; chr n].
Proof.
  intros H. unfold IntToBytes. rewrite !Z.shiftr_div_pow2 by lia.
  assert (B : forall k, 8 <= k -> n / 2 ^ k = 0).
  { intros k Hk. apply Z.div_small. split; [lia|]. apply (Z.lt_le_trans _ (2 ^ 8)); [exact (proj2 H) | apply Z.pow_le_mono_r; lia]. }
  rewrite !B by lia. rewrite (Z.mod_small n 256) by lia. reflexivity.
Qed.

(** Both sides agree on it for every key, so a session started by another program works as well:
    what is sent has this format, and from it the receiver gets these very keys and their sizes. *)
Theorem C40_material_format : forall r e encrypter s m, SessionEncrypter r e encrypter = Ok (s, m) ->
  exists kb hb, aes_material (se_key s) kb hb /\ len kb = 16 /\ len hb = 32 /\ Encrypt e encrypter (session_bytes kb hb) b64_encoder = Ok m.
Proof.
  intros r e encrypter s m H. destruct (SessionEncrypter_inv _ _ _ _ _ H) as (p & EN & EP & EM).
  destruct (New_ok r) as (s0 & kb & hb & nn & E0 & L1 & L2 & _ & _ & _ & _ & EK & _). rewrite EN in E0. apply Ok_inj in E0. subst s0.
  destruct (made_key kb hb L1 L2) as (W & HM & HS). rewrite <- EK in W, HM.
  exists kb, hb. split; [exact HM|]. split; [exact L1|]. split; [exact L2|].
  replace (session_bytes kb hb) with p; [exact EM|]. revert EP. unfold packed_key. destruct HM as (HK & HB). rewrite HK. cbn [bind]. rewrite HB. cbn [bind].
  assert (HF : Forall (fun a => len a < 2 ^ 31) [kb; hb]) by (repeat constructor; rewrite ?L1, ?L2; reflexivity).
  change [Some kb; Some hb] with (map Some [kb; hb]). rewrite PackMultiple_ok by (reflexivity || exact HF).
  intros HP. apply Ok_inj in HP. rewrite <- HP. change (len [kb; hb]) with 2. cbn [map concat]. unfold session_bytes, packed.
  rewrite !IntToBytes_small by (rewrite ?L1, ?L2; split; reflexivity || (intros X; discriminate X)). rewrite L1, L2, app_nil_r. cbn [app]. rewrite <- ?app_assoc. reflexivity.
Qed.
Print Assumptions C40_material_format.

Theorem C40_material_is_read : forall crypter m kb hb fuel, Decrypt crypter m b64_decoder = Ok (session_bytes kb hb) ->
  aes_size_ok kb -> len hb < 256 -> (2 <= fuel)%nat ->
  exists s, SessionDecrypter fuel crypter m = Ok s /\ aes_material (se_key s) kb hb /\ ak_size (se_key s) = 8 * len kb.
Proof.
  intros crypter m kb hb fuel HD HS HB HF. pose proof (len_nonneg hb) as N.
  assert (LK : 0 <= len kb < 256) by (destruct HS as [->|[->| ->]]; lia).
  assert (EU : UnpackMultipleByteArrays fuel (session_bytes kb hb) = Ok [kb; hb]).
  { replace (session_bytes kb hb) with (IntToBytes 2 ++ concat (map packed [kb; hb])).
    - apply UnpackMultiple_packed; [apply len_IntToBytes | exact HF |].
      repeat constructor; (apply (Z.lt_trans _ 256); [lia | reflexivity]).
    - cbn [map concat]. unfold session_bytes, packed. rewrite !IntToBytes_small by lia. rewrite app_nil_r. cbn [app]. rewrite <- ?app_assoc. reflexivity. }
  unfold SessionDecrypter. rewrite HD. cbn [bind]. unfold LoadPackedKey. rewrite EU. cbn [bind AesKey_new].
  eexists. split; [reflexivity|]. cbn [se_key]. split; [split; apply base64_roundtrip_u|]. cbn [ak_size].
  destruct HS as [->|[->| ->]]; reflexivity.
Qed.
Print Assumptions C40_material_is_read.

(** Session material is not taken for a session unless it is two strings (the count before them is not looked at), and a
    receiver who cannot decrypt it gets the error of Decrypt. *)
Theorem C40_other_material : forall crypter m fuel,
  (forall count arrays, Decrypt crypter m b64_decoder = Ok (count ++ concat (map (fun a => IntToBytes (len a) ++ a) arrays)) ->
     len count = 4 -> Forall (fun a => len a < 2 ^ 31) arrays -> (List.length arrays <= fuel)%nat ->
     List.length arrays <> 2%nat -> SessionDecrypter fuel crypter m = Raise AssertionError) /\
  (forall e, Decrypt crypter m b64_decoder = Raise e -> SessionDecrypter fuel crypter m = Raise e).
Proof.
  intros crypter m fuel. split.
  - intros count arrays HD LC HF HL HN. assert (EU : UnpackMultipleByteArrays fuel (count ++ concat (map (fun a => IntToBytes (len a) ++ a) arrays)) = Ok arrays) by exact (UnpackMultiple_packed count arrays fuel LC HL HF).
    unfold SessionDecrypter. rewrite HD. cbn [bind]. unfold LoadPackedKey. rewrite EU. cbn [bind].
    destruct arrays as [|a [|b [|c r]]]; try reflexivity. exfalso. apply HN. reflexivity.
  - intros e HD. unfold SessionDecrypter. rewrite HD. reflexivity.
Qed.
Print Assumptions C40_other_material.

Example C40_case_material : session_bytes (repeat x01 16) (repeat x02 32) =
  [x00; x00; x00; x02; x00; x00; x00; x10] ++ repeat x01 16 ++ [x00; x00; x00; x20] ++ repeat x02 32 /\ aes_size_ok (repeat x01 24) /\
  UnpackMultipleByteArrays 3 ([x00; x00; x00; x02] ++ concat (map (fun a => IntToBytes (len a) ++ a) [bs "a"; bs "b"; bs "c"])) = Ok [bs "a"; bs "b"; bs "c"].
Proof. split; [reflexivity|]. split; [right; left; reflexivity | reflexivity]. Qed.

(** With AES key sets: it always works. *)
Theorem C40_aes : forall r e encrypter crypter n n' k kb hb, reached encrypter -> ring_of encrypter n = Some (PRIMARY, KAes k) ->
  aes_material k kb hb -> aes_size_ok kb -> holds crypter n' (KAes k) ->
  exists s m, SessionEncrypter r e encrypter = Ok (s, m) /\ session_works crypter s m.
Proof.
  intros r e encrypter crypter n n' k kb hb R HR HM HS HV.
  destruct (New_ok r) as (s0 & kb0 & hb0 & nn & E0 & L1 & L2 & _ & _ & _ & _ & EK & _).
  destruct (made_key kb0 hb0 L1 L2) as (_ & HM0 & _). rewrite <- EK in HM0.
  destruct (packed_key_ok s0 kb0 hb0 L1 L2 HM0) as (p & EP & _ & _).
  destruct (aes_sets_agree e encrypter crypter n n' k kb hb p R HR HV HM HS) as (raw & _ & EE & _ & _).
  assert (ES : SessionEncrypter r e encrypter = Ok (s0, Base64WSEncode raw)).
  { exact (SessionEncrypter_eq r e encrypter s0 p _ E0 EP EE). }
  exists s0, (Base64WSEncode raw). split; [exact ES|]. apply (C40_session_roundtrip r e encrypter crypter s0 _ ES).
  intros x EX. destruct (aes_sets_agree e encrypter crypter n n' k kb hb x R HR HV HM HS) as (raw' & _ & EE' & _ & ED).
  rewrite EE' in EX. apply Ok_inj in EX. rewrite EX in ED. exact ED.
Qed.
Print Assumptions C40_aes.

(** Key sets whose primary key encrypts with the public half of [k]. *)
Definition encrypts_with (ks : keyset) (k : rsapriv) : Prop :=
  signer_of ks (KRsaPriv k) \/ signer_of ks (KRsaPub (rs_pub k)).

Lemma rsa_Encrypt e ks k data c : encrypts_with ks k ->
  Encrypt e ks data c = let* x := RsaPublicKey_Encrypt (rs_pub k) (e_tape e) data in apply_codec c x.
Proof. intros [H|H]; unfold Encrypt; rewrite (proj1 (signer_primary _ _ H)); reflexivity. Qed.

Lemma rsa_sets_agree e ks ks' n' k size data : encrypts_with ks k -> holds ks' n' (KRsaPriv k) -> In size rsa_sizes -> rsa_key_ok size k ->
  len data <= size / 8 - 42 ->
  exists em raw, oaep_encode (size / 8) data (RandBytes (e_tape e) 20) = Ok em /\
    Encrypt e ks data b64_encoder = Ok (Base64WSEncode raw) /\
    ((forall rest, em <> repeat x00 23 ++ rest) -> Decrypt ks' (Base64WSEncode raw) b64_decoder = Ok data).
Proof.
  intros HE HV HS HK HL. destruct (C19_rsa_roundtrip_partial size k (e_tape e) data HS HK HL) as (em & raw & EO & EE & ED).
  exists em, raw. split; [exact EO|]. split; [rewrite (rsa_Encrypt e ks k data _ HE), EE; reflexivity|].
  intros HZ. rewrite Decrypt_b64.
  assert (exists id rest, key_hash_id (KRsaPriv k) = Ok (Base64WSEncode id) /\ len id = 4 /\ raw = x00 :: id ++ rest) as (id & rest & HH & L & ->).
  { assert (EE2 : Encrypt e ks data None = Ok raw) by (rewrite (rsa_Encrypt e ks k data _ HE), EE; reflexivity).
    assert (R : reached ks) by (destruct HE as [[R _]|[R _]]; exact R).
    destruct (encrypt_shape e ks data raw R EE2) as (m & k2 & id & rest & HR2 & HH & L & _ & ->).
    exists id, rest. split; [|split; [exact L | reflexivity]]. rewrite <- HH.
    pose proof (proj2 (primary_key_spec ks k2 (reached_inv ks R)) (ex_intro _ m HR2)) as EP.
    destruct HE as [HE|HE]; rewrite (proj1 (signer_primary _ _ HE)) in EP; apply Ok_inj in EP as <-; reflexivity. }
  rewrite (Decrypt_made ks' n' _ id rest HV HH L). exact (ED HZ).
Qed.

(** With RSA key sets of 1024 bits or more.  Partial: as in C19 the material may fail to decrypt
    if the OAEP block made for it starts with 23 zero bytes. *)
Theorem C40_rsa_partial : forall r e encrypter crypter n' k size, encrypts_with encrypter k -> holds crypter n' (KRsaPriv k) ->
  In size rsa_sizes -> 1024 <= size -> rsa_key_ok size k ->
  exists s m p em, SessionEncrypter r e encrypter = Ok (s, m) /\ packed_key s = Ok p /\
    oaep_encode (size / 8) p (RandBytes (e_tape e) 20) = Ok em /\
    ((forall rest, em <> repeat x00 23 ++ rest) -> session_works crypter s m).
Proof.
  intros r e encrypter crypter n' k size HE HV HS Hsz HK.
  destruct (New_ok r) as (s0 & kb0 & hb0 & nn & E0 & L1 & L2 & _ & _ & _ & _ & EK & _).
  destruct (made_key kb0 hb0 L1 L2) as (_ & HM0 & _). rewrite <- EK in HM0.
  destruct (packed_key_ok s0 kb0 hb0 L1 L2 HM0) as (p & EP & LP & _).
  assert (HL : len p <= size / 8 - 42).
  { rewrite LP. unfold rsa_sizes in HS. cbn [In] in HS. destruct HS as [<- | [<- | [<- | [<- | [<- | []]]]]]; try (exfalso; clear - Hsz; lia); vm_compute; discriminate. }
  destruct (rsa_sets_agree e encrypter crypter n' k size p HE HV HS HK HL) as (em & raw & EO & EE & ED).
  assert (ES : SessionEncrypter r e encrypter = Ok (s0, Base64WSEncode raw)).
  { exact (SessionEncrypter_eq r e encrypter s0 p _ E0 EP EE). }
  exists s0, (Base64WSEncode raw), p, em. split; [exact ES|]. split; [exact EP|]. split; [exact EO|]. intros HZ.
  destruct (made_key kb0 hb0 L1 L2) as (W & _ & HS0). rewrite <- EK in W.
  destruct (packed_key_ok s0 kb0 hb0 L1 L2 HM0) as (p' & EP' & _ & EU). rewrite EP in EP'. apply Ok_inj in EP' as <-.
  exists (MkSession (se_key s0) None). split.
  - intros fuel Hf. apply (SessionDecrypter_eq fuel crypter _ p _ (ED HZ)). exact (packed_session fuel s0 p kb0 hb0 L1 L2 EK (EU fuel Hf)).
  - intros e' q. apply (packed_works s0 _ e' q); [split; [exact W | exists kb0, hb0; split; assumption] | reflexivity].
Qed.
Print Assumptions C40_rsa_partial.

(** REFUTED for the smaller RSA keys that keyczar accepts: no session can be made. *)
Theorem C40_small_rsa_refuted : forall r e encrypter k size, encrypts_with encrypter k -> In size [512; 768] -> rsa_key_ok size k ->
  SessionEncrypter r e encrypter = Raise KeyczarError.
Proof.
  intros r e encrypter k size HE HS HK.
  destruct (New_ok r) as (s0 & kb0 & hb0 & nn & E0 & L1 & L2 & _ & _ & _ & _ & EK & _).
  destruct (made_key kb0 hb0 L1 L2) as (_ & HM0 & _). rewrite <- EK in HM0.
  destruct (packed_key_ok s0 kb0 hb0 L1 L2 HM0) as (p & EP & LP & _).
  unfold SessionEncrypter. rewrite E0. cbn [bind]. rewrite EP. cbn [bind]. rewrite (rsa_Encrypt e encrypter k p _ HE).
  rewrite (C19_long_messages_refused size k (e_tape e) p); [reflexivity | | exact HK |].
  - cbn [In] in HS. unfold rsa_sizes. cbn [In]. tauto.
  - rewrite LP. cbn [In] in HS. destruct HS as [<-|[<-|[]]]; reflexivity.
Qed.
Print Assumptions C40_small_rsa_refuted.

(** A message of another session is refused, naming the identifier of the other key. *)
Theorem C40_other_session : forall e s s' p h h' raw, good_session s -> good_session s' ->
  key_hash_id (KAes (se_key s)) = Ok h -> key_hash_id (KAes (se_key s')) = Ok h' -> h <> h' ->
  Session_Encrypt e s p None = Ok raw -> Session_Decrypt s' raw None = Raise (KeyNotFoundError h).
Proof.
  intros e s s' p h h' raw G G' HH HH' HN H. destruct (session_crypter_ok s G) as (c & E & HV & HR).
  unfold Session_Encrypt in H. rewrite E in H. cbn [bind] in H.
  destruct (encrypt_shape e c p raw (proj1 HV) H) as (m & k2 & id & rest & HR2 & HH2 & L & _ & ->).
  assert (k2 = KAes (se_key s)) as ->.
  { pose proof (reached_inv c (proj1 HV)) as I. pose proof (proj2 (primary_key_spec c _ I) (ex_intro _ _ HR)) as E1.
    pose proof (proj2 (primary_key_spec c _ I) (ex_intro _ _ HR2)) as E2. rewrite E1 in E2. apply Ok_inj in E2. symmetry. exact E2. }
  rewrite HH in HH2. apply Ok_inj in HH2. subst h.
  unfold Session_Decrypt, session_crypter. destruct G' as (W' & _). rewrite (static_crypter (se_key s') h' W' HH'). cbn [bind].
  unfold Decrypt. cbn [apply_codec bind].
  assert (EL : len (x00 :: id ++ rest) <? HEADER_SIZE = false).
  { rewrite len_cons, len_app. change HEADER_SIZE with 5. pose proof (len_nonneg rest). lia. }
  rewrite EL. destruct (cons_head_slice id rest L) as [-> _]. unfold ParseHeader. change (index (x00 :: id) 0) with (Ok x00). cbn [bind].
  change (negb (ord x00 =? VERSION)) with false. cbn iota.
  assert (E1 : slice_from (x00 :: id) 1 = id) by (apply (slice_from_app [x00] id); reflexivity). rewrite E1.
  unfold GetKey_hash, static_set. cbn [ks_hkeys assoc].
  destruct (str_eqb h' (Base64WSEncode id)) eqn:EQ; [|reflexivity]. apply str_eqb_eq in EQ. congruence.
Qed.
Print Assumptions C40_other_session.

(** REFUTED termination: whoever can encrypt for the crypter can make SessionDecrypter run forever. *)
Theorem C40_hostile_material_refuted : forall e encrypter crypter n n' k kb hb, reached encrypter -> ring_of encrypter n = Some (PRIMARY, KAes k) ->
  aes_material k kb hb -> aes_size_ok kb -> holds crypter n' (KAes k) ->
  exists m, Encrypt e encrypter looping_blob b64_encoder = Ok m /\ forall fuel, SessionDecrypter fuel crypter m = Raise Diverge.
Proof.
  intros e encrypter crypter n n' k kb hb R HR HM HS HV.
  destruct (aes_sets_agree e encrypter crypter n n' k kb hb looping_blob R HR HV HM HS) as (raw & _ & EE & _ & ED).
  exists (Base64WSEncode raw). split; [exact EE|]. intros fuel. unfold SessionDecrypter. rewrite ED. cbn [bind]. unfold LoadPackedKey.
  assert (E : UnpackMultipleByteArrays fuel looping_blob = Raise Diverge); [|rewrite E; reflexivity].
  unfold UnpackMultipleByteArrays.
  assert (H : forall acc, unpack_loop fuel looping_blob 4 acc = Raise Diverge).
  { induction fuel as [|f IH]; intros acc; [reflexivity|]. cbn [unpack_loop].
    change (4 <? len looping_blob) with true. cbv iota.
    change (UnpackByteArray looping_blob 4) with (Ok (@nil byte, 4)). cbn [bind]. apply IH. }
  rewrite H. reflexivity.
Qed.
Print Assumptions C40_hostile_material_refuted.

Lemma demo_rsa_set : exists ks, open_keyset Crypter (StaticKeyReader (KRsaPriv demo_rsa) DECRYPT_AND_ENCRYPT) = Ok ks /\
  ring_of ks 1 = Some (PRIMARY, KRsaPriv demo_rsa).
Proof. eexists. split; vm_compute; reflexivity. Qed.

Example C40_case : (exists n k kb hb, ring_of aes_set n = Some (PRIMARY, KAes k) /\ aes_material k kb hb /\ aes_size_ok kb /\ holds aes_set n (KAes k)) /\
  (exists ks, encrypts_with ks demo_rsa /\ rsa_key_ok 512 demo_rsa).
Proof.
  split.
  - exists 2. eexists. eexists. eexists. split; [vm_compute; reflexivity|]. split; [split; vm_compute; reflexivity|]. split; [left; reflexivity|].
    split; [|split].
    + exists Crypter. eexists. exists aes_set, []. split; [exact aes_set_opens | reflexivity].
    + exact aes_distinct.
    + exists PRIMARY. vm_compute. reflexivity.
  - destruct demo_rsa_set as (ks & E & HR). exists ks. split; [|exact C19_case]. left. split.
    + exists Crypter, (StaticKeyReader (KRsaPriv demo_rsa) DECRYPT_AND_ENCRYPT), ks, []. split; [exact E | reflexivity].
    + exists 1. exact HR.
Qed.

(** ** C41 *)
Lemma session_json_ok s n : aes_wf (se_key s) -> se_nonce s = Some n ->
  session_json s = Ok (dumps (jobj [("key"%string, aes_json (se_key s)); ("nonce"%string, jb64 n)])) /\
  forall j, session_json s = Ok j -> LoadJsonSession j = Ok s.
Proof.
  intros W HN. assert (E : session_json s = Ok (dumps (jobj [("key"%string, aes_json (se_key s)); ("nonce"%string, jb64 n)]))).
  { unfold session_json. rewrite (aes_str_eq _ W). cbn [bind]. rewrite (loads_dumps _ (aes_json_ok _ W)). cbn [bind]. rewrite HN. reflexivity. }
  split; [exact E|]. intros j Hj. rewrite E in Hj. apply Ok_inj in Hj as <-. unfold LoadJsonSession. pose proof (aes_json_ok _ W) as HJ.
  rewrite loads_dumps by (jok). cbn [bind].
  match goal with |- context[get ?v "key"] => change (get v "key") with (Ok (aes_json (se_key s))) end. cbn [bind]. rewrite (aes_rt _ W). cbn [bind].
  match goal with |- context[get_b64 ?v "nonce"] => rewrite (get_b64_jb64 v "nonce" n) by reflexivity end. cbn [bind]. rewrite <- HN. destruct s; reflexivity.
Qed.

Lemma New_good r : exists s n, Session_New r = Ok s /\ good_session s /\ se_nonce s = Some n /\ len n = 16.
Proof.
  destruct (New_ok r) as (s & kb & hb & nn & E & L1 & L2 & L3 & _ & _ & _ & EK & EN). exists s, nn. split; [exact E|].
  destruct (made_key kb hb L1 L2) as (W & HM & HS).
  rewrite <- EK in W, HM. split; [split; [exact W | exists kb, hb; split; assumption]|]. split; [exact EN | exact L3].
Qed.

Lemma SignedSessionEncrypter_inv r e encrypter s m : SignedSessionEncrypter r e encrypter = Ok (s, m) ->
  exists p, Session_New r = Ok s /\ session_json s = Ok p /\ Encrypt e encrypter p b64_encoder = Ok m.
Proof.
  unfold SignedSessionEncrypter. intros H. apply bind_Ok in H as (s0 & E0 & H). apply bind_Ok in H as (p & EP & H). apply bind_Ok in H as (m0 & EM & H).
  apply Ok_inj in H. apply pair_inj in H as [<- <-]. exists p. split; [exact E0|]. split; [exact EP | exact EM].
Qed.

Lemma SignedSessionEncrypter_eq r e encrypter s p m : Session_New r = Ok s -> session_json s = Ok p -> Encrypt e encrypter p b64_encoder = Ok m ->
  SignedSessionEncrypter r e encrypter = Ok (s, m).
Proof. intros E0 EP EM. unfold SignedSessionEncrypter. rewrite E0. cbn [bind]. rewrite EP. cbn [bind]. rewrite EM. reflexivity. Qed.

Lemma SignedSession_Encrypt_inv e1 e2 s signer p blob : SignedSession_Encrypt e1 e2 s signer p = Ok blob ->
  exists raw, Session_Encrypt e1 s p None = Ok raw /\ AttachedSign e2 signer raw (se_nonce s) b64_encoder = Ok blob.
Proof.
  unfold SignedSession_Encrypt, Session_Encrypt. intros H. apply bind_Ok in H as (c & EC & H). apply bind_Ok in H as (raw & ER & H).
  exists raw. rewrite EC. split; [exact ER | exact H].
Qed.

Lemma SignedSession_Decrypt_eq s verifier blob ct p : AttachedVerify verifier blob (se_nonce s) b64_decoder = Ok (Some ct) -> ct <> [] ->
  Session_Decrypt s ct None = Ok p -> SignedSession_Decrypt s verifier blob = Ok (Some p).
Proof.
  intros EA HN ED. unfold SignedSession_Decrypt. rewrite EA. cbn [bind]. destruct ct as [|b t]; [contradiction|].
  unfold Session_Decrypt in ED. apply bind_Ok in ED as (c & EC & ED). rewrite EC. cbn [bind]. rewrite ED. reflexivity.
Qed.

Lemma Session_Encrypt_nonempty e s p raw : good_session s -> Session_Encrypt e s p None = Ok raw -> raw <> [].
Proof.
  intros G H. unfold Session_Encrypt in H. apply bind_Ok in H as (c & EC & H).
  destruct (session_crypter_ok s G) as (c' & E' & HV' & _). rewrite EC in E'. apply Ok_inj in E'. subst c'.
  destruct (encrypt_shape e c p raw (proj1 HV') H) as (? & ? & id & rest & _ & _ & _ & _ & ->). discriminate.
Qed.

(** One message of a session, when the signer is sound on what it signs. *)
Theorem C41_message_roundtrip : forall e1 e2 s signer k verifier n' k' p blob, good_session s ->
  signer_of signer k -> holds verifier n' k' -> checks k k' ->
  (forall raw pn, Session_Encrypt e1 s p None = Ok raw -> PackByteArray (se_nonce s) = Ok pn -> signs_soundly e2 k (raw ++ pn ++ VERSION_BYTE)) ->
  SignedSession_Encrypt e1 e2 s signer p = Ok blob -> SignedSession_Decrypt s verifier blob = Ok (Some p).
Proof.
  intros e1 e2 s signer k verifier n' k' p blob G HS HV HC HK HB. destruct (SignedSession_Encrypt_inv _ _ _ _ _ _ HB) as (raw & ER & EA).
  destruct (good_roundtrip e1 s p G) as (raw0 & E1 & _ & E3 & _). rewrite ER in E1. apply Ok_inj in E1. subst raw0.
  apply (SignedSession_Decrypt_eq s verifier blob raw p); [|exact (Session_Encrypt_nonempty e1 s p raw G ER) | exact E3].
  exact (proj2 (C37_attached_roundtrip e2 signer k raw (se_nonce s) verifier n' k' HS (fun p0 Hp => HK raw p0 ER Hp) HV HC) blob EA).
Qed.
Print Assumptions C41_message_roundtrip.

(** Whatever SignedSessionEncrypter makes is read back, if the crypter reads the material and the
    verifier has the key (or the public half) the signer signs with. *)
Theorem C41_signed_session_roundtrip : forall r e encrypter crypter s m,
  SignedSessionEncrypter r e encrypter = Ok (s, m) ->
  (forall x, Encrypt e encrypter x b64_encoder = Ok m -> Decrypt crypter m b64_decoder = Ok x) ->
  SignedSessionDecrypter crypter m = Ok s /\
  forall e1 e2 signer k verifier n' k' p blob, signer_of signer k -> holds verifier n' k' -> checks k k' ->
    (forall msg, signs_soundly e2 k msg) ->
    SignedSession_Encrypt e1 e2 s signer p = Ok blob -> SignedSession_Decrypt s verifier blob = Ok (Some p).
Proof.
  intros r e encrypter crypter s m H HD. destruct (SignedSessionEncrypter_inv _ _ _ _ _ H) as (j & E0 & EJ & EM).
  destruct (New_good r) as (s0 & n & E0' & G & EN & LN). rewrite E0 in E0'. apply Ok_inj in E0'. subst s0. split.
  - unfold SignedSessionDecrypter. rewrite (HD j EM). cbn [bind]. exact (proj2 (session_json_ok s n (proj1 G) EN) j EJ).
  - intros e1 e2 signer k verifier n' k' p blob HS HV HC HK HB.
    apply (C41_message_roundtrip e1 e2 s signer k verifier n' k' p blob G HS HV HC); [intros; apply HK | exact HB].
Qed.
Print Assumptions C41_signed_session_roundtrip.

(** With AES and HMAC key sets everything succeeds, from construction to the plaintext. *)
Theorem C41_aes_hmac : forall r e encrypter crypter n n' k kb hb signer verifier n2 h b,
  reached encrypter -> ring_of encrypter n = Some (PRIMARY, KAes k) -> aes_material k kb hb -> aes_size_ok kb -> holds crypter n' (KAes k) ->
  signer_of signer (KHmac h) -> hmac_bytes h = Ok b -> holds verifier n2 (KHmac h) ->
  exists s m, SignedSessionEncrypter r e encrypter = Ok (s, m) /\ SignedSessionDecrypter crypter m = Ok s /\
    forall e1 e2 p, len p < 2 ^ 31 - 64 ->
      exists blob, SignedSession_Encrypt e1 e2 s signer p = Ok blob /\ SignedSession_Decrypt s verifier blob = Ok (Some p).
Proof.
  intros r e encrypter crypter n n' k kb hb signer verifier n2 h b R HR HM HS HV HSg Hb HVf.
  destruct (New_good r) as (s & nn & E0 & G & EN & LN). destruct (session_json_ok s nn (proj1 G) EN) as (EJ & EL).
  match type of EJ with _ = Ok ?j => destruct (aes_sets_agree e encrypter crypter n n' k kb hb j R HR HV HM HS) as (raw & _ & EE & _ & ED) end.
  assert (ES : SignedSessionEncrypter r e encrypter = Ok (s, Base64WSEncode raw)).
  { exact (SignedSessionEncrypter_eq r e encrypter s _ _ E0 EJ EE). }
  assert (HD : forall x, Encrypt e encrypter x b64_encoder = Ok (Base64WSEncode raw) -> Decrypt crypter (Base64WSEncode raw) b64_decoder = Ok x).
  { intros x EX. destruct (aes_sets_agree e encrypter crypter n n' k kb hb x R HR HV HM HS) as (raw' & _ & EE' & _ & ED').
    rewrite EE' in EX. apply Ok_inj in EX. rewrite EX in ED'. exact ED'. }
  destruct (C41_signed_session_roundtrip r e encrypter crypter s _ ES HD) as (EDc & RT).
  exists s, (Base64WSEncode raw). split; [exact ES|]. split; [exact EDc|]. intros e1 e2 p LP.
  assert (HB : exists blob, SignedSession_Encrypt e1 e2 s signer p = Ok blob).
  { unfold SignedSession_Encrypt. destruct (session_crypter_ok s G) as (c & EC & HVc & HRc). rewrite EC. cbn [bind].
    destruct (proj2 G) as (kb0 & hb0 & HM0 & HS0).
    unfold Encrypt. rewrite (proj2 (primary_key_spec c _ (reached_inv c (proj1 HVc))) (ex_intro _ 1 HRc)). cbn [bind key_Encrypt].
    destruct (C17_aes_wire_format (e_lib e1) (se_key s) kb0 hb0 (e_tape e1) p HM0 HS0) as (hd & body & EW & _ & L1 & L2 & L3 & _). cbv zeta in EW.
    rewrite EW. cbn [bind apply_codec].
    match goal with |- context[AttachedSign _ _ ?d _ _] => assert (LD : len d < 2 ^ 31) end.
    { rewrite !len_app, L1, L2, L3, len_hmac. change (2 ^ 31) with 2147483648 in *. pose proof (len_nonneg p). Z.div_mod_to_equations. lia. }
    destruct (signer_primary _ _ HSg) as (HP & id & _ & _ & HDr).
    match goal with |- context[AttachedSign _ _ ?x _ _] => revert LD; generalize x; clear - HP HDr EN LN Hb; intros d LD end.
    unfold AttachedSign. rewrite HP. cbn [bind]. rewrite HDr. cbn [bind]. rewrite PackByteArray_ok by exact LD. cbn [bind].
    unfold InternalSign. rewrite HP. cbn [bind]. rewrite EN, PackByteArray_ok by (rewrite LN; reflexivity). cbn [bind key_Sign].
    rewrite (HmacKey_Sign_ok h b _ Hb). cbn [bind]. eexists. reflexivity. }
  destruct HB as (blob & HB). exists blob. split; [exact HB|].
  apply (RT e1 e2 signer (KHmac h) verifier n2 (KHmac h) p blob HSg HVf (or_introl eq_refl)); [intros msg; exact Logic.I | exact HB].
Qed.
Print Assumptions C41_aes_hmac.

(** Rejection.  If the attached signature is not accepted the result is that of AttachedVerify,
    None or an error, whatever the session key is: it is not used. *)
Theorem C41_rejection : forall verifier blob nonce,
  (AttachedVerify verifier blob nonce b64_decoder = Ok None -> forall k, SignedSession_Decrypt (MkSession k nonce) verifier blob = Ok None) /\
  (forall x, AttachedVerify verifier blob nonce b64_decoder = Raise x -> forall k, SignedSession_Decrypt (MkSession k nonce) verifier blob = Raise x).
Proof.
  intros verifier blob nonce. split.
  - intros H k. unfold SignedSession_Decrypt. cbn [se_nonce]. rewrite H. reflexivity.
  - intros x H k. unfold SignedSession_Decrypt. cbn [se_nonce]. rewrite H. reflexivity.
Qed.
Print Assumptions C41_rejection.

(** A plaintext is returned only for a ciphertext whose attached signature is accepted with the
    nonce of the session and which the session key decrypts. *)
Theorem C41_accepts_only : forall s verifier blob p, SignedSession_Decrypt s verifier blob = Ok (Some p) ->
  exists ct, AttachedVerify verifier blob (se_nonce s) b64_decoder = Ok (Some ct) /\ Session_Decrypt s ct None = Ok p.
Proof.
  intros s verifier blob p H. unfold SignedSession_Decrypt in H. apply bind_Ok in H as (v & EV & H). destruct v as [[|b t]|]; try discriminate.
  exists (b :: t). split; [exact EV|]. unfold Session_Decrypt. apply bind_Ok in H as (c & EC & H). apply bind_Ok in H as (q & EQ & H).
  apply Ok_inj, Some_inj in H as ->. rewrite EC. exact EQ.
Qed.
Print Assumptions C41_accepts_only.

(** Altered messages: whoever replaces the ciphertext in a message, keeping header and signature, gets
    None or an error, or has a collision of the texts signed (as in C38). *)
Theorem C41_altered_ciphertext : forall e1 e2 s signer k k' verifier n' p blob head raw sig d' n p',
  good_session s -> se_nonce s = Some n -> signer_of signer k -> binding k -> holds verifier n' k' -> checks k k' ->
  Session_Encrypt e1 s p None = Ok raw ->
  SignedSession_Encrypt e1 e2 s signer p = Ok blob -> Base64WSDecode blob = Ok (head ++ IntToBytes (len raw) ++ raw ++ sig) -> len head = 5 ->
  len d' < 2 ^ 31 -> SignedSession_Decrypt s verifier (Base64WSEncode (head ++ IntToBytes (len d') ++ d' ++ sig)) = Ok (Some p') ->
  (d' = raw /\ p' = p) \/ collision e2 k (signed_text raw (Some n)) (signed_text d' (Some n)).
Proof.
  intros e1 e2 s signer k k' verifier n' p blob head raw sig d' n p' G EN HS HBI HV HC ER HB HD LH LD' HA.
  destruct (good_roundtrip e1 s p G) as (raw0 & E1 & _ & E3 & _). rewrite ER in E1. apply Ok_inj in E1 as <-.
  unfold SignedSession_Encrypt in HB. unfold Session_Encrypt in ER. apply bind_Ok in HB as (c & EC & HB). rewrite EC in ER. cbn [bind] in ER. rewrite ER in HB. cbn [bind] in HB.
  assert (exists x, AttachedSign e2 signer raw (se_nonce s) None = Ok x /\ blob = Base64WSEncode x) as (x & EX & ->).
  { clear HS. unfold AttachedSign in *. destruct (primary_key signer) as [pk|]; cbn [bind] in *; [|discriminate]. destruct (key_header pk) as [hh|]; cbn [bind] in *; [|discriminate].
    destruct (PackByteArray (Some raw)) as [dd|]; cbn [bind] in *; [|discriminate]. destruct (InternalSign e2 signer raw (se_nonce s)) as [ss|]; cbn [bind apply_codec b64_encoder] in *; [|discriminate].
    apply Ok_inj in HB as <-. eexists. split; reflexivity. }
  rewrite base64_roundtrip in HD. apply Ok_inj in HD. rewrite EN in EX.
  destruct (C41_accepts_only _ _ _ _ HA) as (ct & EV & ED).
  assert (EV' : AttachedVerify verifier (head ++ IntToBytes (len d') ++ d' ++ sig) (Some n) None = Ok (Some ct)).
  { rewrite EN in EV. unfold AttachedVerify in *. cbn [b64_decoder apply_codec] in EV. rewrite base64_roundtrip in EV. exact EV. }
  assert (ct = d') as ->.
  { unfold AttachedVerify in EV'. cbn [apply_codec bind] in EV'. change HEADER_SIZE with 5 in EV'. rewrite <- LH in EV'. replace (head ++ IntToBytes (len d') ++ d' ++ sig) with (head ++ (IntToBytes (len d') ++ d') ++ sig) in EV' by (rewrite <- !app_assoc; reflexivity). rewrite UnpackByteArray_at in EV' by exact LD'. cbn [bind] in EV'.
    apply bind_Ok in EV' as (v & _ & EV'). apply Ok_inj in EV'. destruct v; [|discriminate]. apply Some_inj in EV'. congruence. }
  destruct (C38_equal_length_nonces_partial e2 signer k raw n x verifier n' k' d' n head sig HS HBI HV HC EX HD LH LD' eq_refl EV') as [[-> _]|C]; [|right; exact C].
  left. split; [reflexivity|]. rewrite E3 in ED. apply Ok_inj in ED. symmetry. exact ED.
Qed.
Print Assumptions C41_altered_ciphertext.

(** Messages of another session: accepted only with such a collision. *)
Theorem C41_other_session : forall e1 e2 s s' signer k k' verifier n' p blob p',
  signer_of signer k -> binding k -> holds verifier n' k' -> checks k k' -> se_nonce s' <> se_nonce s ->
  SignedSession_Encrypt e1 e2 s signer p = Ok blob -> SignedSession_Decrypt s' verifier blob = Ok (Some p') ->
  exists raw, Session_Encrypt e1 s p None = Ok raw /\ collision e2 k (signed_text raw (se_nonce s)) (signed_text raw (se_nonce s')).
Proof.
  intros e1 e2 s s' signer k k' verifier n' p blob p' HS HBI HV HC HN HB HA.
  unfold SignedSession_Encrypt in HB. apply bind_Ok in HB as (c & EC & HB). apply bind_Ok in HB as (raw & ER & HB).
  assert (exists x, AttachedSign e2 signer raw (se_nonce s) None = Ok x /\ blob = Base64WSEncode x) as (x & EX & ->).
  { clear HS. unfold AttachedSign in *. destruct (primary_key signer) as [pk|]; cbn [bind] in *; [|discriminate]. destruct (key_header pk) as [hh|]; cbn [bind] in *; [|discriminate].
    destruct (PackByteArray (Some raw)) as [dd|]; cbn [bind] in *; [|discriminate]. destruct (InternalSign e2 signer raw (se_nonce s)) as [ss|]; cbn [bind apply_codec b64_encoder] in *; [|discriminate].
    apply Ok_inj in HB as <-. eexists. split; reflexivity. }
  destruct (C41_accepts_only _ _ _ _ HA) as (ct & EV & ED).
  assert (EV' : AttachedVerify verifier x (se_nonce s') None = Ok (Some ct)).
  { unfold AttachedVerify in *. cbn [b64_decoder apply_codec] in EV. rewrite base64_roundtrip in EV. exact EV. }
  exists raw. split; [unfold Session_Encrypt; rewrite EC; exact ER|].
  exact (proj2 (C37_nonce_binding e2 signer k raw (se_nonce s) x verifier n' k' (se_nonce s') ct HS HBI EX HV HC EV' HN)).
Qed.
Print Assumptions C41_other_session.

(** REFUTED: a message that is too short does not give None; the error of the struct module
    escapes. *)
Theorem C41_short_message_refuted : forall s verifier raw, len raw < 9 ->
  SignedSession_Decrypt s verifier (Base64WSEncode raw) = Raise StructError.
Proof.
  intros s verifier raw L. destruct s as [k n]. apply (proj2 (C41_rejection verifier (Base64WSEncode raw) n)).
  pose proof (C39_short_blob_refuted verifier raw n L) as H. unfold AttachedVerify in *. cbn [b64_decoder apply_codec] in *. rewrite base64_roundtrip. exact H.
Qed.
Print Assumptions C41_short_message_refuted.

(** The text of a session is 204 bytes long. *)
Lemma dump_b64 s : dump_string (text_of_str (Base64WSEncode s)) = [""""%byte] ++ Base64WSEncode s ++ [""""%byte].
Proof.
  unfold dump_string, text_of_str. rewrite map_map. f_equal. f_equal. pose proof (proj1 C02_base64_canonical s) as H.
  induction H as [|c l Hc _ IH]; [reflexivity|]. cbn [map concat]. rewrite IH. change (c :: l) with ([c] ++ l). f_equal.
  revert Hc. clear. assert (E : forallb (fun c => str_eqb (escape_char (Byte.to_N c)) [c]) url_alphabet = true) by (vm_compute; reflexivity).
  rewrite forallb_forall in E. intros Hc. apply str_eqb_eq, (E c Hc).
Qed.

Lemma len_session_json r s j : Session_New r = Ok s -> session_json s = Ok j -> len j = 204.
Proof.
  intros HN HJ. destruct (New_ok r) as (s0 & kb & hb & n & E0 & L1 & L2 & L3 & _ & _ & _ & EK & EN). rewrite HN in E0. apply Ok_inj in E0 as <-.
  destruct (made_key kb hb L1 L2) as (W & _ & _). rewrite <- EK in W.
  rewrite (proj1 (session_json_ok s n W EN)) in HJ. apply Ok_inj in HJ as <-. rewrite EK.
  unfold fresh_key, aes_json, hmac_json, jb64, jobj. cbn [map fst snd dumps ak_size ak_string ak_hmac hk_size hk_string mode_name]. rewrite !dump_b64, !len_app, !len_encode, L1, L2, L3.
  vm_compute. reflexivity.
Qed.

(** With RSA key sets: 2048 bits are needed.  Partial for the same reason as C40_rsa_partial. *)
Theorem C41_rsa_partial : forall r e encrypter crypter n' k size, encrypts_with encrypter k -> holds crypter n' (KRsaPriv k) ->
  In size rsa_sizes -> 2048 <= size -> rsa_key_ok size k ->
  exists s m j em, SignedSessionEncrypter r e encrypter = Ok (s, m) /\ session_json s = Ok j /\
    oaep_encode (size / 8) j (RandBytes (e_tape e) 20) = Ok em /\
    ((forall rest, em <> repeat x00 23 ++ rest) -> SignedSessionDecrypter crypter m = Ok s).
Proof.
  intros r e encrypter crypter n' k size HE HV HS Hsz HK.
  destruct (New_good r) as (s & nn & E0 & G & EN & LN). destruct (session_json_ok s nn (proj1 G) EN) as (EJ & EL).
  match type of EJ with _ = Ok ?x => set (j := x) in * end.
  assert (HL : len j <= size / 8 - 42).
  { rewrite (len_session_json r s j E0 EJ). unfold rsa_sizes in HS. cbn [In] in HS. destruct HS as [<- | [<- | [<- | [<- | [<- | []]]]]]; try (exfalso; clear - Hsz; lia); vm_compute; discriminate. }
  destruct (rsa_sets_agree e encrypter crypter n' k size j HE HV HS HK HL) as (em & raw & EO & EE & ED).
  exists s, (Base64WSEncode raw), j, em. split; [|split; [exact EJ|split; [exact EO|]]].
  - exact (SignedSessionEncrypter_eq r e encrypter s _ _ E0 EJ EE).
  - intros HZ. unfold SignedSessionDecrypter. rewrite (ED HZ). cbn [bind]. apply EL. exact EJ.
Qed.
Print Assumptions C41_rsa_partial.

(** REFUTED for smaller RSA keys: no signed session can be made. *)
Theorem C41_small_rsa_refuted : forall r e encrypter k size, encrypts_with encrypter k -> In size [512; 768; 1024] -> rsa_key_ok size k ->
  SignedSessionEncrypter r e encrypter = Raise KeyczarError.
Proof.
  intros r e encrypter k size HE HS HK.
  destruct (New_good r) as (s & nn & E0 & G & EN & LN). destruct (session_json_ok s nn (proj1 G) EN) as (EJ & EL).
  match type of EJ with _ = Ok ?x => set (j := x) in * end.
  unfold SignedSessionEncrypter. rewrite E0. cbn [bind]. rewrite EJ. cbn [bind]. rewrite (rsa_Encrypt e encrypter k j _ HE).
  rewrite (C19_long_messages_refused size k (e_tape e) j); [reflexivity | | exact HK |].
  - cbn [In] in HS. unfold rsa_sizes. cbn [In]. tauto.
  - rewrite (len_session_json r s j E0 EJ). cbn [In] in HS. destruct HS as [<-|[<-|[<-|[]]]]; reflexivity.
Qed.
Print Assumptions C41_small_rsa_refuted.

Example C41_case : exists n k kb hb h b, ring_of aes_set n = Some (PRIMARY, KAes k) /\ aes_material k kb hb /\ aes_size_ok kb /\ holds aes_set n (KAes k) /\
  signer_of hmac_set (KHmac h) /\ hmac_bytes h = Ok b /\ exists n2, holds hmac_set n2 (KHmac h).
Proof.
  destruct C40_case as ((n & k & kb & hb & A & B & C & D) & _). exists n, k, kb, hb.
  assert (HO : exists c rd, open_keyset c rd = Ok hmac_set) by (eexists; eexists; exact hmac_set_opens). destruct HO as (c & rd & HO).
  eexists. eexists. split; [exact A|]. split; [exact B|]. split; [exact C|]. split; [exact D|]. split; [|split].
  - split; [exists c, rd, hmac_set, []; split; [exact HO | reflexivity]|]. exists 2. vm_compute. reflexivity.
  - vm_compute. reflexivity.
  - exists 2. split; [exists c, rd, hmac_set, []; split; [exact HO | reflexivity]|]. split; [|exists PRIMARY; vm_compute; reflexivity].
    unfold ids_distinct. vm_compute. repeat constructor; intros H; cbn in H; intuition discriminate.
Qed.
