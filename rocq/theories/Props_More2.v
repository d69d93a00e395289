(** * Props_More2: further theorems on claims C41, C54, C64 and C68. *)
From Coq Require Import Strings.String.
From Coq Require Import List ZArith NArith Bool Lia ZifyBool ZifyNat ZifyN.
From Coq.Init Require Import Byte.
From Verif Require Import PyBase PyFacts Base64 Base64Facts Util UtilFacts UtilFacts2 Json JsonFacts KeyInfo SymKeys SymFacts Der DerFacts AsymKeys AsymSpec AsymFacts
  ModArith ModFacts Keys KeysFacts KeyData Keyczar KeyRing KeyczarFacts Props_Keyset Streams StreamFacts Mock Session Props_Sym Props_Session Props_Stream JsonSpec JsonSpecFacts Props_Asym Demo1024 Props_More.
Import ListNotations.
Local Open Scope Z_scope.
Ltac Zify.zify_post_hook ::= idtac.

(** ** C41: the format of the material of a signed session *)

(** The text that is encrypted for the receiver: a JSON object with the session key, in the format
    of a key file, and the nonce of 16 bytes. *)
Definition b64_text (s : str) : json := JStr (text_of_str (Base64WSEncode s)).
Definition signed_material (kb hb nonce : str) : json :=
  JObj [(tx "key", JObj [(tx "mode", JStr (tx "CBC")); (tx "size", JInt 128); (tx "aesKeyString", b64_text kb);
                         (tx "hmacKey", JObj [(tx "size", JInt 256); (tx "hmacKeyString", b64_text hb)])]);
        (tx "nonce", b64_text nonce)].

Theorem C41_material_format : forall r e encrypter s m, SignedSessionEncrypter r e encrypter = Ok (s, m) ->
  exists kb hb nonce j, aes_material (se_key s) kb hb /\ se_nonce s = Some nonce /\ len kb = 16 /\ len hb = 32 /\ len nonce = 16 /\
    json_text j (signed_material kb hb nonce) /\ Encrypt e encrypter j b64_encoder = Ok m.
Proof.
  intros r e encrypter s m H. destruct (SignedSessionEncrypter_inv _ _ _ _ _ H) as (j & E0 & EJ & EM).
  destruct (New_ok r) as (s0 & kb & hb & n & E & L1 & L2 & L3 & _ & _ & _ & EK & EN). rewrite E0 in E. apply Ok_inj in E. subst s0.
  destruct (made_key kb hb L1 L2) as (W & HM & HS). rewrite <- EK in W, HM. exists kb, hb, n, j.
  split; [exact HM|]. split; [exact EN|]. split; [exact L1|]. split; [exact L2|]. split; [exact L3|]. split; [|exact EM].
  destruct (session_json_ok s n W EN) as [EQ _]. rewrite EQ in EJ. apply Ok_inj in EJ as <-. apply loads_grammar. pose proof (aes_json_ok _ W) as HJ. rewrite loads_dumps by jok.
  rewrite EK. reflexivity.
Qed.
Print Assumptions C41_material_format.

(** ** C54: flushing before the end, and closing *)

Definition put_before (o : str) (w : b64writer) : b64writer := MkBw (bw_buffer w) (o ++ bw_out w).
Lemma write_before o w d : bw_write (put_before o w) d = put_before o (bw_write w d).
Proof. unfold bw_write, put_before. cbn [bw_buffer bw_out]. destruct (encoder_encode (bw_buffer w) d) as [t b]. cbn [bw_buffer bw_out]. rewrite app_assoc. reflexivity. Qed.
Lemma writes_before o ds : forall w, bw_writes ds (put_before o w) = put_before o (bw_writes ds w).
Proof. unfold bw_writes. induction ds as [|d ds IH]; intros w; cbn [fold_left]; [reflexivity|]. rewrite write_before. apply IH. Qed.
Lemma flush_before o w : bw_flush (put_before o w) = put_before o (bw_flush w).
Proof. unfold bw_flush, put_before. cbn [bw_buffer bw_out]. destruct (encoder_flush (bw_buffer w)) as [t b]. cbn [bw_buffer bw_out]. destruct t; [reflexivity|]. rewrite app_assoc. reflexivity. Qed.
Lemma empty_buffer w : bw_buffer w = [] -> w = put_before (bw_out w) bw_new.
Proof. destruct w as [b o]. cbn. intros ->. unfold put_before. cbn. rewrite app_nil_r. reflexivity. Qed.

(** Writes in groups, with a flush behind each group: the texts of the groups follow each other,
    each encoded by itself. *)
Definition flushed_groups (groups : list (list str)) : b64writer := fold_left (fun w ds => bw_flush (bw_writes ds w)) groups bw_new.
Theorem C54_flush_between : forall groups,
  bw_out (flushed_groups groups) = concat (map (fun ds => Base64WSEncode (concat ds)) groups).
Proof.
  assert (G : forall groups w, bw_buffer w = [] -> bw_out (fold_left (fun w ds => bw_flush (bw_writes ds w)) groups w) = bw_out w ++ concat (map (fun ds => Base64WSEncode (concat ds)) groups)).
  { induction groups as [|ds groups IH]; intros w HW; cbn [fold_left map concat]; [rewrite app_nil_r; reflexivity|].
    rewrite (empty_buffer w HW) at 1. rewrite writes_before, flush_before. pose proof (bw_writes_holds ds bw_new [] bw_new_holds) as H. cbn [app] in H. destruct (bw_flush_out _ _ H) as [E1 E2].
    rewrite IH by exact E2. cbn [put_before bw_out]. rewrite E1, app_assoc. reflexivity. }
  intros groups. apply (G groups bw_new eq_refl).
Qed.
Print Assumptions C54_flush_between.

(** close writes what is missing, and raises AttributeError all the same. *)
Theorem C54_close : forall ds, snd (bw_close (bw_writes ds bw_new)) = Raise AttributeError /\
  bw_out (fst (bw_close (bw_writes ds bw_new))) = Base64WSEncode (concat ds).
Proof. intros ds. split; [reflexivity|]. exact (C54_writes_then_flush ds 0). Qed.
Print Assumptions C54_close.

(** ** C64: a key file with another size or another mode *)

Definition changed (name : string) (v : json) (ms : list (text * json)) : list (text * json) := without name ms ++ [(tx name, v)].
Lemma last_app ms k v k' : last_member (ms ++ [(tx k, v)]) (tx k') = if text_eqb (tx k) (tx k') then Some v else last_member ms (tx k').
Proof.
  induction ms as [|[a b] ms IH]; cbn [app last_member]; [destruct (text_eqb (tx k) (tx k')); reflexivity|]. rewrite IH. destruct (text_eqb (tx k) (tx k')); reflexivity.
Qed.
Lemma get_changed ms name v : get (JObj (changed name v ms)) name = Ok v.
Proof. cbn [get]. unfold changed. rewrite last_app. replace (text_eqb (tx name) (tx name)) with true by (symmetry; apply text_eqb_eq; reflexivity). reflexivity. Qed.
Lemma get_unchanged ms name v k : name <> k -> get (JObj (changed name v ms)) k = get (JObj ms) k.
Proof.
  intros N. cbn [get]. unfold changed. rewrite last_app. destruct (text_eqb (tx name) (tx k)) eqn:E; [apply text_eqb_eq, tx_inj in E; contradiction|]. rewrite last_without_other by exact N. reflexivity.
Qed.
Lemma str_unchanged ms name v k : name <> k -> get_str (JObj (changed name v ms)) k = get_str (JObj ms) k.
Proof. intros N. unfold get_str. rewrite get_unchanged by exact N. reflexivity. Qed.
Lemma int_unchanged ms name v k : name <> k -> get_int (JObj (changed name v ms)) k = get_int (JObj ms) k.
Proof. intros N. unfold get_int. rewrite get_unchanged by exact N. reflexivity. Qed.
Lemma b64_unchanged ms name v k : name <> k -> get_b64 (JObj (changed name v ms)) k = get_b64 (JObj ms) k.
Proof. intros N. unfold get_b64. rewrite str_unchanged by exact N. reflexivity. Qed.
Lemma int_changed ms name z : get_int (JObj (changed name (JInt z) ms)) name = Ok z.
Proof. unfold get_int. rewrite get_changed. reflexivity. Qed.
Lemma str_changed ms name t : get_str (JObj (changed name (JStr t) ms)) name = Ok t.
Proof. unfold get_str. rewrite get_changed. reflexivity. Qed.

(** The same key with another size in its label. *)
Definition labelled (z : Z) (k : key) : key :=
  match k with
  | KAes k => KAes (MkAes (ak_string k) (ak_hmac k) z)
  | KHmac k => KHmac (MkHmac (hk_string k) z)
  | KDsaPriv k => KDsaPriv (MkDsaPriv (ds_x k) (ds_pub k) (ds_key k) z)
  | KDsaPub k => KDsaPub (MkDsaPub (dp_p k) (dp_q k) (dp_g k) (dp_y k) (dp_key k) z)
  | KRsaPriv k => KRsaPriv (MkRsaPriv (rs_d k) (rs_primeP k) (rs_primeQ k) (rs_expP k) (rs_expQ k) (rs_crt k) (rs_pub k) (rs_key k) z)
  | KRsaPub k => KRsaPub (MkRsaPub (rp_modulus k) (rp_exponent k) (rp_key k) z)
  end.
(** The sizes of each type, the default first (keyinfo.py:58-63). *)
Definition known_sizes (t : ktype) : list Z :=
  match t with
  | AES => [128; 192; 256]
  | HMAC_SHA1 => [256]
  | DSA_PRIV | DSA_PUB => [1024]
  | RSA_PRIV | RSA_PUB => [2048; 4096; 1024; 768; 512]
  end.

Lemma set_size_spec t z : (In z (known_sizes t) -> set_size t z = z) /\ (~ In z (known_sizes t) -> set_size t z = hd 0 (known_sizes t)).
Proof.
  unfold set_size, IsValidSize. replace (sizes t) with (known_sizes t) by (destruct t; reflexivity). replace (default_size t) with (hd 0 (known_sizes t)) by (destruct t; reflexivity).
  destruct (existsb (Z.eqb z) (known_sizes t)) eqn:E; split; intros H; try reflexivity.
  - exfalso. apply H. apply existsb_exists in E as (w & HW & E). apply Z.eqb_eq in E. subst w. exact HW.
  - exfalso. assert (C : existsb (Z.eqb z) (known_sizes t) = true) by (apply existsb_exists; exists z; split; [exact H | apply Z.eqb_refl]). rewrite E in C. discriminate C.
Qed.

(** A key file that can be read, with another number as the size: it is read as the same key,
    labelled with this number, or with the default of its type if the number is no size of it. *)
Theorem C64_other_size : forall t s s' ms k z, json_text s (JObj ms) -> ReadKey t s = Ok k -> json_text s' (JObj (changed "size" (JInt z) ms)) ->
  exists z', ReadKey t s' = Ok (labelled z' k) /\ (In z (known_sizes t) -> z' = z) /\ (~ In z (known_sizes t) -> z' = hd 0 (known_sizes t)).
Proof.
  intros t s s' ms k z HL HR HL'. apply loads_grammar in HL, HL'. exists (set_size t z). split; [|apply set_size_spec]. unfold ReadKey in HR. apply keyczar_Ok in HR.
  destruct t; apply bind_Ok in HR as (k' & HR & HK); apply Ok_inj in HK as <-; unfold ReadKey;
    unfold AesKey_Read, HmacKey_Read, DsaPrivateKey_Read, RsaPrivateKey_Read in *; try unfold DsaPublicKey_Read in HR |- *; try unfold RsaPublicKey_Read in HR |- *; rewrite HL' ; rewrite HL in HR; cbn [bind] in HR |- *;
    rewrite ?get_unchanged, ?str_unchanged, ?b64_unchanged, ?int_changed, ?(int_unchanged _ _ _ "mode") by discriminate;
    repeat (apply bind_Ok in HR as (? & ? & HR)); repeat match goal with H : ?a = Ok _ |- context [?a] => rewrite H; cbn [bind] end;
    try (apply Ok_inj in HR as <-; reflexivity).
  match goal with H : AesKey_new _ _ _ ?m = Ok _ |- _ => destruct m; try discriminate H; apply Ok_inj in H as <-; reflexivity end.
Qed.
Print Assumptions C64_other_size.

(** The label changes nothing of what a key does, *)
Theorem C64_size_is_a_label : forall z k, key_type (labelled z k) = key_type k /\ key_size (labelled z k) = z /\ key_hash_id (labelled z k) = key_hash_id k /\
  (forall e x, key_Encrypt e (labelled z k) x = key_Encrypt e k x) /\ (forall x, key_Decrypt (labelled z k) x = key_Decrypt k x) /\
  (key_type k <> RSA_PRIV -> forall e x, key_Sign e (labelled z k) x = key_Sign e k x) /\
  (key_type k <> RSA_PUB -> forall x y, key_Verify (labelled z k) x y = key_Verify k x y).
Proof.
  intros z k. destruct k as [r|r|r|r|r|r]; destruct r; repeat (split; [intros; reflexivity|]); try (split; [intros; reflexivity|]); try (intros; reflexivity).
  - split; [intros C; destruct (C eq_refl) | intros; reflexivity].
  - intros C. destruct (C eq_refl).
Qed.
Print Assumptions C64_size_is_a_label.

(** except for the signatures of RSA keys: what an RSA public key accepts under one label, it
    refuses under every other one.  So a key file with a wrong size, or with one that is replaced
    by the default, is read without an error, and the key finds all good signatures bad. *)
Theorem C64_rsa_size_matters : forall k z z' msg sig, In z (known_sizes RSA_PUB) -> In z' (known_sizes RSA_PUB) ->
  key_Verify (labelled z (KRsaPub k)) msg sig = Ok true -> key_Verify (labelled z' (KRsaPub k)) msg sig = Ok true -> z = z'.
Proof.
  intros k z z' msg sig HZ HZ' H H'. cbn [labelled key_Verify] in H, H'. unfold RsaPublicKey_Verify in H, H'. cbn [rp_key rp_size] in H, H'. apply Ok_inj in H, H'. unfold rsa_verify in H, H'.
  destruct (rsa_public (rp_key k) (BytesToLong sig)) as [m|]; [|discriminate H]. apply Z.eqb_eq in H, H'. subst m. rewrite !bytes_to_long_eq, !BytesToLong_val in H'.
  assert (B : forall w, In w (known_sizes RSA_PUB) -> 38 <= w / 8 /\ w = 8 * (w / 8)) by (cbn [known_sizes In]; intros w HW; repeat destruct HW as [<-|HW]; try destruct HW; (split; [vm_compute; discriminate | reflexivity])).
  assert (E : MakeEmsaMessage msg z = MakeEmsaMessage msg z') by (apply be_val_unique; [exact H' | discriminate | discriminate]).
  destruct (B z HZ) as [B1 B2], (B z' HZ') as [B3 B4]. apply (f_equal len) in E. rewrite !len_Emsa in E by assumption. lia.
Qed.
Print Assumptions C64_rsa_size_matters.

(** A key file that can be read, with another mode: the other modes keyczar has names for are
    refused with AssertionError, any other name with KeyczarError. *)
Theorem C64_other_mode : forall s s' ms k mode, json_text s (JObj ms) -> ReadKey AES s = Ok k -> json_text s' (JObj (changed "mode" (JStr mode) ms)) ->
  (mode = tx "CBC" -> ReadKey AES s' = Ok k) /\
  (In mode [tx "CTR"; tx "ECB"; tx "DET_CBC"] -> ReadKey AES s' = Raise AssertionError) /\
  (~ In mode [tx "CBC"; tx "CTR"; tx "ECB"; tx "DET_CBC"] -> ReadKey AES s' = Raise KeyczarError).
Proof.
  intros s s' ms k mode HL HR HL'. apply loads_grammar in HL, HL'. unfold ReadKey in HR. apply keyczar_Ok in HR. apply bind_Ok in HR as (k' & HR & HK); apply Ok_inj in HK as <-.
  unfold ReadKey, AesKey_Read in *. rewrite HL'. rewrite HL in HR. cbn [bind] in HR |- *. rewrite ?get_unchanged, ?str_unchanged, ?int_unchanged, ?str_changed by discriminate.
  repeat (apply bind_Ok in HR as (? & ? & HR)); repeat match goal with H : ?a = Ok _ |- context [?a] => rewrite H; cbn [bind] end.
  match goal with H : AesKey_new _ _ _ ?m = Ok _ |- _ => destruct m; try discriminate H; apply Ok_inj in H as <- end. split; [intros ->; reflexivity|]. split.
  - cbn [In]. intros [<-|[<-|[<-|[]]]]; reflexivity.
  - intros HN. destruct (proj2 (proj2 (proj2 C64_names)) mode) as [_ M].
    assert (E : GetMode mode = Raise KeyczarError) by (apply M; intros n a HI ->; apply HN; cbn in HI |- *; repeat (destruct HI as [HI|HI]; [apply pair_inj in HI as [<- _]; tauto|]); destruct HI).
    rewrite E. reflexivity.
Qed.
Print Assumptions C64_other_mode.

(** ** C68: the status of a version the mock does not have *)
Theorem C68_status : forall m n, (forall s, mock_GetStatus m n = Ok s <-> exists v, assoc Z.eqb (m_versions (mk_kmd m)) n = Some v /\ v_status v = s) /\
  (mock_GetStatus m n = Raise KeyczarError <-> assoc Z.eqb (m_versions (mk_kmd m)) n = None).
Proof.
  intros m n. unfold mock_GetStatus. destruct (assoc Z.eqb (m_versions (mk_kmd m)) n) as [v|]; split.
  - intros s. split; [intros H; apply Ok_inj in H; exists v; split; [reflexivity | exact H] | intros (v' & H & <-); apply Some_inj in H as <-; reflexivity].
  - split; discriminate.
  - intros s. split; [discriminate | intros (v' & H & _); discriminate].
  - split; reflexivity.
Qed.
Print Assumptions C68_status.

(** ** Cases *)

(** Flushed after one byte, the text is none of the whole. *)
Example C54_groups_case : bw_out (flushed_groups [[bs "A"]; [bs "B"; bs "C"]]) = bs "QQQkM" /\ Base64WSEncode (bs "ABC") = bs "QUJD" /\
  Base64WSDecode (bs "QQQkM") = Raise Base64DecodingError.
Proof. repeat split; vm_compute; reflexivity. Qed.
Example C54_close_case : bw_close (bw_writes [bs "A"; bs "B"] bw_new) = (MkBw [] (bs "QUI"), Raise AttributeError).
Proof. vm_compute. reflexivity. Qed.

Definition small_key : str := bs "{""mode"": ""CBC"", ""size"": 128, ""aesKeyString"": ""AAAAAAAAAAAAAAAAAAAAAA"", ""hmacKey"": {""size"": 256, ""hmacKeyString"": ""AAAA""}}".
Definition odd_key : str := bs "{""mode"": ""CBC"", ""aesKeyString"": ""AAAAAAAAAAAAAAAAAAAAAA"", ""hmacKey"": {""size"": 256, ""hmacKeyString"": ""AAAA""}, ""size"": 64}".
Definition ctr_key : str := bs "{""size"": 128, ""aesKeyString"": ""AAAAAAAAAAAAAAAAAAAAAA"", ""hmacKey"": {""size"": 256, ""hmacKeyString"": ""AAAA""}, ""mode"": ""CTR""}".
Example C64_other_case : exists ms k, json_text small_key (JObj ms) /\ ReadKey AES small_key = Ok k /\ json_text odd_key (JObj (changed "size" (JInt 64) ms)) /\ ReadKey AES odd_key = Ok (labelled 128 k) /\
  json_text ctr_key (JObj (changed "mode" (JStr (tx "CTR")) ms)) /\ ReadKey AES ctr_key = Raise AssertionError.
Proof.
  destruct (loads small_key) as [v|] eqn:EL; [|vm_compute in EL; discriminate EL]. destruct (ReadKey AES small_key) as [k|] eqn:EK; [|vm_compute in EK; discriminate EK].
  assert (exists ms, v = JObj ms) as (ms & ->) by (vm_compute in EL; apply Ok_inj in EL as <-; eexists; reflexivity).
  assert (J : json_text small_key (JObj ms)) by (apply loads_grammar; exact EL).
  assert (J1 : json_text odd_key (JObj (changed "size" (JInt 64) ms))) by (apply loads_grammar; vm_compute in EL; apply Ok_inj in EL; injection EL as <-; vm_compute; reflexivity).
  assert (J2 : json_text ctr_key (JObj (changed "mode" (JStr (tx "CTR")) ms))) by (apply loads_grammar; vm_compute in EL; apply Ok_inj in EL; injection EL as <-; vm_compute; reflexivity).
  exists ms, k. split; [exact J|]. split; [reflexivity|]. split; [exact J1|]. split; [|split; [exact J2|]].
  - destruct (C64_other_size AES _ _ _ _ _ J EK J1) as (z' & E & _ & HD). rewrite HD in E by (cbn; intros [C|[C|[C|[]]]]; discriminate C). exact E.
  - apply (proj1 (proj2 (C64_other_mode _ _ _ _ _ J EK J2))). left. reflexivity.
Qed.

(** A 1024-bit key whose file states another size. *)
Example C64_rsa_size_case : forall msg, exists sig, RsaPrivateKey_Sign rsa1024 msg = Ok sig /\ key_Verify (KRsaPub (rs_pub rsa1024)) msg sig = Ok true /\
  key_Verify (labelled 2048 (KRsaPub (rs_pub rsa1024))) msg sig = Ok false.
Proof.
  intros msg. destruct (C20_rsa_sign_verify 1024 rsa1024 msg ltac:(cbn; tauto) rsa1024_ok) as (sig & HS & _ & HV). exists sig. split; [exact HS|]. split; [cbn [key_Verify]; rewrite HV; reflexivity|].
  destruct (key_Verify (labelled 2048 (KRsaPub (rs_pub rsa1024))) msg sig) as [b|] eqn:E; [|discriminate E]. destruct b; [|reflexivity]. exfalso.
  assert (EL : labelled 1024 (KRsaPub (rs_pub rsa1024)) = KRsaPub (rs_pub rsa1024)) by reflexivity.
  assert (C : 1024 = 2048) by (apply (C64_rsa_size_matters (rs_pub rsa1024) 1024 2048 msg sig); [cbn; tauto | cbn; tauto | rewrite EL; cbn [key_Verify]; rewrite HV; reflexivity | exact E]). discriminate C.
Qed.
